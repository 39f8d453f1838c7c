From Verif Require Import Base CksumModel CksumSpec CksumProof.

Lemma st16_net be x : 0 <= x <= 65535 -> st16 be (cpu_to_be_16 be x) = net16 x.
Proof.
  intros H. unfold st16, cpu_to_be_16, net16, swap16. destruct be; [reflexivity|].
  f_equal; [lia|]. f_equal. lia.
Qed.

Lemma swap16_cong r : cong (swap16 r) (256 * r).
Proof. unfold swap16. exists (- (r / 256)). lia. Qed.

Lemma swap16_range r : 0 <= r <= 65535 -> 0 <= swap16 r <= 65535.
Proof. unfold swap16. lia. Qed.

Lemma swap16_zero r : 0 <= r <= 65535 -> (swap16 r = 0 <-> r = 0).
Proof. unfold swap16. lia. Qed.

Lemma wsum_swap' be l : cong (256 * wsum (wt0 be) (wt1 be) l) (wsum (wt1 be) (wt0 be) l).
Proof.
  enough (H : cong (256 * wsum 256 1 l) (wsum 1 256 l) /\ cong (256 * wsum 1 256 l) (wsum 256 1 l))
    by (destruct be; cbn [wt0 wt1]; tauto).
  induction l as [|x t IH]; cbn [wsum]; [split; apply cong_refl|].
  destruct IH as [[k1 H1] [k2 H2]]. split.
  - exists (x + k2). lia.
  - exists k1. lia.
Qed.

Lemma GoodSum_rfc be data c : bytes_ok data -> GoodSum be data c ->
  c = cpu_to_be_16 be (rfc1071 data) /\ st16 be c = net16 (rfc1071 data).
Proof.
  intros Hb (s & -> & Hs & Hc & Hz).
  destruct (rfc_sum_char data Hb) as (R1 & R2 & R3).
  assert (E : 65535 - s = cpu_to_be_16 be (rfc1071 data)).
  { unfold rfc1071. destruct be; cbn [cpu_to_be_16].
    - assert (s = rfc1071_sum data); [|lia].
      apply ones_unique; auto.
      + eapply cong_trans; [exact Hc|]. apply cong_sym. exact R2.
      + cbn [wt0 wt1] in Hz. lia.
    - assert (Es : s = swap16 (rfc1071_sum data)).
      { apply ones_unique; auto.
        - now apply swap16_range.
        - eapply cong_trans; [exact Hc|]. cbn [wt0 wt1].
          eapply cong_trans; [apply cong_sym, wsum_swap|].
          eapply cong_trans; [apply cong_mul, cong_sym, R2|].
          apply cong_sym, swap16_cong.
        - rewrite swap16_zero by lia. rewrite R3. rewrite Hz. cbn [wt0 wt1].
          rewrite !wsum_zero_iff by (try lia; assumption). reflexivity. }
      rewrite Es. unfold swap16. lia. }
  split; [exact E|]. rewrite E. apply st16_net. unfold rfc1071. lia.
Qed.

Lemma GoodSum_exists_swap be data c : bytes_ok data -> GoodSum be data c ->
  0 <= c <= 65535.
Proof. intros _ (s & -> & Hs & _). lia. Qed.

(* ---------- IP header ---------- *)
Lemma iph_good be al hdr rest hl :
  bytes_ok hdr -> 5 <= hl <= 15 -> Z.of_nat (length hdr) = 4 * hl ->
  exists c, ofp_cksum_iph be al (hdr ++ rest) hl = Ret c /\ GoodSum be hdr c.
Proof.
  intros Hb Hhl Hlen. unfold ofp_cksum_iph.
  destruct (Z.land al 2 =? 0) eqn:E; cbn [negb].
  - rewrite obind_ret.
    destruct (split_at 16 hdr ltac:(lia)) as (a & b & -> & Ha).
    apply bytes_ok_app in Hb. destruct Hb as [Hba Hbb]. rewrite app_length in Hlen.
    destruct (add_dwords_ok be 4 [] a (b ++ rest) 0 0) as (s1 & E1 & A1); auto.
    { constructor. } { apply Acc_nil. } { unfold D32; lia. }
    cbn [app length] in E1. rewrite <- app_assoc. rewrite E1, obind_ret.
    assert (En : (if (1 <=? hl - 4) && (hl - 4 <=? 11) then Z.to_nat (hl - 4) else 0%nat) = Z.to_nat (hl - 4)).
    { destruct ((1 <=? hl - 4) && (hl - 4 <=? 11)) eqn:X; [reflexivity|lia]. }
    rewrite En.
    destruct (add_dwords_ok be (Z.to_nat (hl - 4)) a b rest s1 (0 + Z.of_nat 4 * D32)) as (s2 & E2 & A2); auto.
    { lia. } { rewrite Ha; reflexivity. } { unfold D32; lia. }
    rewrite E2, !obind_ret.
    eexists. split; [reflexivity|]. eapply Acc_good; [exact A2|]. unfold D32, FOLDMAX. lia.
  - destruct (split_at 2 hdr ltac:(lia)) as (w & hdr1 & -> & Hw).
    destruct w as [|x [|y [|? ?]]]; try discriminate.
    apply bytes_ok_app in Hb. destruct Hb as [Hbw Hb]. rewrite app_length in Hlen. cbn [length] in Hlen.
    inversion Hbw as [|? ? Hx Hbw1]; subst. inversion Hbw1 as [|? ? Hy _]; subst.
    assert (E16 := ld16_app be [] x y (hdr1 ++ rest)). cbn [app length] in E16.
    change (([x; y] ++ hdr1) ++ rest) with (x :: y :: hdr1 ++ rest). rewrite E16, !obind_ret.
    assert (HA := Acc_word be [] x y 0 0 eq_refl (Forall_nil _) Hx Hy (Acc_nil be)).
    assert (Eu : u64 (0 + (wt0 be * x + wt1 be * y)) = 0 + (wt0 be * x + wt1 be * y))
        by (unfold u64; apply Z.mod_small; destruct HA as (HA & _); lia).
    rewrite Eu. cbn [app] in HA. clear Eu E16.
    set (s0 := 0 + (wt0 be * x + wt1 be * y)) in *. clearbody s0.
    destruct (split_at 16 hdr1 ltac:(lia)) as (a & b & -> & Ha).
    apply bytes_ok_app in Hb. destruct Hb as [Hba Hbb]. rewrite app_length in Hlen.
    destruct (add_dwords_ok be 4 [x; y] a (b ++ rest) s0 (0 + 65535)) as (s1 & E1 & A1); auto.
    { unfold D32; lia. }
    change (x :: y :: (a ++ b) ++ rest) with ([x; y] ++ (a ++ b) ++ rest). rewrite <- app_assoc.
    cbn [length] in E1. rewrite E1, obind_ret.
    assert (En : (if (1 <=? hl - 1 - 4) && (hl - 1 - 4 <=? 11) then Z.to_nat (hl - 1 - 4) else 0%nat) = Z.to_nat (hl - 5)).
    { destruct ((1 <=? hl - 1 - 4) && (hl - 1 - 4 <=? 11)) eqn:X; f_equal; lia. }
    rewrite En.
    destruct (split_at (4 * Z.to_nat (hl - 5)) b ltac:(lia)) as (b1 & b2 & -> & Hb1).
    apply bytes_ok_app in Hbb. destruct Hbb as [Hbb1 Hbb2]. rewrite app_length in Hlen.
    assert (Hev : Nat.even (length ([x; y] ++ a)) = true) by (apply even_app4; [reflexivity|rewrite Ha; reflexivity]).
    assert (Hbxa : bytes_ok ([x; y] ++ a)) by (apply bytes_ok_app; split; assumption).
    destruct (add_dwords_ok be (Z.to_nat (hl - 5)) ([x; y] ++ a) b1 (b2 ++ rest) s1 (0 + 65535 + Z.of_nat 4 * D32)) as (s2 & E2 & A2); auto.
    { unfold D32; lia. }
    replace ([x; y] ++ a ++ (b1 ++ b2) ++ rest) with (([x; y] ++ a) ++ b1 ++ b2 ++ rest)
      by (rewrite <- !app_assoc; reflexivity).
    rewrite E2, obind_ret.
    assert (Hb2 : length b2 = 2%nat) by lia.
    destruct b2 as [|z [|t [|? ?]]]; try discriminate.
    inversion Hbb2 as [|? ? Hz Hbb3]; subst. inversion Hbb3 as [|? ? Ht _]; subst.
    set (M := (([x; y] ++ a) ++ b1)) in *.
    replace (([x; y] ++ a) ++ b1 ++ [z; t] ++ rest) with (M ++ z :: t :: rest)
      by (unfold M; rewrite <- !app_assoc; reflexivity).
    rewrite ld16_app, !obind_ret.
    assert (HMe : Nat.even (length M) = true).
    { unfold M. apply even_app4; [exact Hev|]. rewrite Hb1, Nat.even_mul. reflexivity. }
    assert (HMb : bytes_ok M) by (apply bytes_ok_app; split; assumption).
    assert (HA3 := Acc_word be M z t s2 _ HMe HMb Hz Ht A2).
    assert (Eu : u64 (s2 + (wt0 be * z + wt1 be * t)) = s2 + (wt0 be * z + wt1 be * t)).
    { unfold u64. apply Z.mod_small. destruct HA3 as (HA3 & _). unfold D32 in HA3. lia. }
    rewrite Eu. eexists. split; [reflexivity|].
    replace ([x; y] ++ a ++ b1 ++ [z; t]) with (M ++ [z; t]) by (unfold M; rewrite <- !app_assoc; reflexivity).
    eapply Acc_good; [exact HA3|]. unfold D32, FOLDMAX. lia.
Qed.

(* ---------- segments ---------- *)
Lemma swap_expr : forall t, 0 <= t <= 65535 ->
  Z.lor (Z.shiftl (Z.land t 255) 8) (Z.shiftr (Z.land t 65280) 8) = swap16 t.
Proof.
  assert (H : forallb (fun h => forallb (fun l => let t := 256 * Z.of_nat h + Z.of_nat l in
     Z.lor (Z.shiftl (Z.land t 255) 8) (Z.shiftr (Z.land t 65280) 8) =? swap16 t)
     (seq 0 256)) (seq 0 256) = true) by (vm_compute; reflexivity).
  intros t Ht. rewrite forallb_forall in H. specialize (H (Z.to_nat (t / 256)) ltac:(apply in_seq; lia)).
  rewrite forallb_forall in H. specialize (H (Z.to_nat (t mod 256)) ltac:(apply in_seq; lia)).
  cbv zeta in H. rewrite !Z2Nat.id in H by lia.
  replace (256 * (t / 256) + t mod 256) with t in H by lia. apply Z.eqb_eq, H.
Qed.

Definition nonempty_segs (p : pkt) : Prop := Forall (fun s => seg_data s <> []) p.
Definition pkt_ok (p : pkt) : Prop := Forall (fun s => bytes_ok (seg_data s)) p.
Definition pkt_bytes (p : pkt) : list Z := flat (map seg_data p).

(* running sum: int accumulator for the bytes l summed so far *)
Definition SAcc (be : bool) (l : list Z) (sum B : Z) : Prop :=
  0 <= sum <= B /\ cong sum (wsum (wt0 be) (wt1 be) l) /\
  (sum = 0 <-> wsum (wt0 be) (wt1 be) l = 0).

Lemma seg_step be arm l al d rest sum n :
  bytes_ok l -> bytes_ok d -> Z.of_nat (length d) <= MAXLEN ->
  SAcc be l sum (n * 65535) -> 0 <= n <= 32767 ->
  exists c tmp, ofp_cksum_buffer be arm al (d ++ rest) (Z.of_nat (length d)) = Ret c /\
   tmp = (if Z.of_nat (length l) mod 2 =? 1
                   then Z.lor (Z.shiftl (Z.land (u16 (Z.lnot c)) 255) 8) (Z.shiftr (Z.land (u16 (Z.lnot c)) 65280) 8)
                   else u16 (Z.lnot c)) /\
   int_add sum tmp = Ret (sum + tmp) /\ SAcc be (l ++ d) (sum + tmp) ((n + 1) * 65535).
Proof.
  intros Hl Hd HL (A1 & A2 & A3) Hn.
  destruct (cksum_buffer_good be arm al d rest Hd HL) as (c & Ec & s & -> & Hs & Hc & Hz).
  exists (65535 - s). eexists. split; [exact Ec|]. split; [reflexivity|].
  assert (El : u16 (Z.lnot (65535 - s)) = s) by (unfold u16, Z.lnot; lia).
  rewrite El. destruct (wt_pos be) as [P0 P1].
  assert (N1 := wsum_nonneg (wt0 be) (wt1 be) l ltac:(lia) ltac:(lia) Hl).
  assert (Ev : Z.of_nat (length l) mod 2 = if Nat.even (length l) then 0 else 1).
  { rewrite Zmod_even. destruct (Nat.even (length l)) eqn:X.
    - apply Nat.even_spec in X. destruct X as [k X].
      assert (Z.even (Z.of_nat (length l)) = true) as ->; [apply Z.even_spec; exists (Z.of_nat k); lia|reflexivity].
    - assert (Nat.odd (length l) = true) by (rewrite <- Nat.negb_even, X; reflexivity).
      apply Nat.odd_spec in H. destruct H as [k X'].
      assert (Z.even (Z.of_nat (length l)) = false) as ->; [|reflexivity].
      rewrite <- Z.negb_odd. assert (Z.odd (Z.of_nat (length l)) = true) as ->; [|reflexivity].
      apply Z.odd_spec. exists (Z.of_nat k). lia. }
  rewrite Ev. destruct (Nat.even (length l)) eqn:X.
  - change (0 =? 1) with false. cbv iota.
    assert (N2 := wsum_nonneg (wt0 be) (wt1 be) d ltac:(lia) ltac:(lia) Hd).
    split.
    + unfold int_add, INT_MIN, INT_MAX. cbv zeta.
      destruct ((-2147483648 <=? sum + s) && (sum + s <=? 2147483647)) eqn:Y; [reflexivity|lia].
    + unfold SAcc. rewrite wsum_app by exact X.
      split; [lia|]. split; [apply cong_add; assumption|lia].
  - change (1 =? 1) with true. cbv iota. rewrite swap_expr by lia.
    assert (R := swap16_range s Hs). assert (Zs := swap16_zero s Hs).
    assert (N2 := wsum_nonneg (wt1 be) (wt0 be) d ltac:(lia) ltac:(lia) Hd).
    assert (Zd : wsum (wt1 be) (wt0 be) d = 0 <-> wsum (wt0 be) (wt1 be) d = 0)
      by (rewrite !wsum_zero_iff by (lia || assumption); reflexivity).
    split.
    + unfold int_add, INT_MIN, INT_MAX. cbv zeta.
      destruct ((-2147483648 <=? sum + swap16 s) && (sum + swap16 s <=? 2147483647)) eqn:Y; [reflexivity|lia].
    + unfold SAcc. rewrite wsum_app_odd by exact X.
      split; [lia|]. split; [|lia]. apply cong_add; [exact A2|].
      eapply cong_trans; [apply swap16_cong|]. eapply cong_trans; [apply cong_mul, Hc|].
      apply wsum_swap'.
Qed.

Lemma REDUCE_char be l sum B : SAcc be l sum B -> B <= INT_MAX ->
  GoodSum be l (u16 (Z.lnot (REDUCE sum))).
Proof.
  intros (A1 & A2 & A3) HB. unfold INT_MAX in HB. unfold REDUCE.
  assert (Eu : u32 sum = sum) by (unfold u32; apply Z.mod_small; lia).
  rewrite Eu. set (s := sum mod 65536 + sum / 65536).
  assert (Hs : 0 <= s <= 131070) by (unfold s; lia).
  assert (Cs : cong s sum) by (exists (- (sum / 65536)); unfold s; lia).
  assert (Zs : s = 0 <-> sum = 0) by (unfold s; lia).
  clearbody s. destruct (s >? 65535) eqn:E.
  - exists (s - 65535). split; [apply u16_lnot; lia|]. split; [lia|]. split; [|lia].
    eapply cong_trans; [|exact A2]. eapply cong_trans; [|exact Cs]. exists (-1); lia.
  - exists s. split; [apply u16_lnot; lia|]. split; [lia|]. split; [|lia].
    eapply cong_trans; [exact Cs|exact A2].
Qed.

Lemma len_flat_pos p : nonempty_segs p -> Z.of_nat (length p) <= Z.of_nat (length (pkt_bytes p)).
Proof.
  induction 1 as [|s p Hs Hp IH]; cbn; [lia|].
  unfold pkt_bytes, flat in *. cbn. rewrite app_length.
  destruct (seg_data s); [contradiction|cbn [length]; lia].
Qed.

(* segments p, all consumed completely, the total being exactly len *)
Lemma segs_whole be arm : forall p q fuel l sum n len,
  p <> [] -> nonempty_segs p -> pkt_ok p -> bytes_ok l ->
  len = Z.of_nat (length l) + Z.of_nat (length (pkt_bytes p)) ->
  len <= MAXLEN ->
  (length p <= fuel)%nat ->
  SAcc be l sum (n * 65535) -> 0 <= n -> n + Z.of_nat (length p) <= 32768 ->
  exists sum', cksum_segs be arm fuel (p ++ q) 0 len (Z.of_nat (length l)) sum = Ret sum' /\
    SAcc be (l ++ pkt_bytes p) sum' ((n + Z.of_nat (length p)) * 65535).
Proof.
  induction p as [|s p IH]; intros q fuel l sum n len Hne Hns Hok Hl Hlen Hmax Hf HA Hn Hn2; [contradiction|].
  destruct fuel as [|fuel]; [cbn in Hf; lia|].
  inversion Hns as [|? ? Hs Hns']; subst. inversion Hok as [|? ? Hsb Hok']; subst.
  unfold pkt_bytes, flat in *. cbn [map concat] in *. rewrite app_length in *.
  cbn [cksum_segs app].
  assert (Hd : (0 < length (seg_data s))%nat) by (destruct (seg_data s); [contradiction|cbn; lia]).
  destruct (0 >=? Z.of_nat (length (seg_data s))) eqn:E; [lia|]. clear E.
  rewrite Z.sub_0_r, Z.add_0_r. change (skipn (Z.to_nat 0) (seg_data s)) with (seg_data s).
  set (len := Z.of_nat (length l) + Z.of_nat (length (seg_data s) + length (concat (map seg_data p)))) in *.
  destruct (Z.of_nat (length (seg_data s)) >? len) eqn:E; [lia|]. clear E.
  assert (HL : Z.of_nat (length (seg_data s)) <= MAXLEN) by (unfold len in *; lia).
  assert (HN : 0 <= n <= 32767) by (cbn [length] in Hn2; lia).
  destruct (seg_step be arm l (seg_addr s) (seg_data s) [] sum n Hl Hsb HL HA HN) as (c & tmp & E1 & -> & E2 & A').
  rewrite app_nil_r in E1. rewrite E1, obind_ret. cbv zeta. rewrite E2, obind_ret.
  assert (Eu : u32 (Z.of_nat (length l) + Z.of_nat (length (seg_data s))) = Z.of_nat (length (l ++ seg_data s))).
  { rewrite app_length. unfold u32, MAXLEN in *. rewrite Z.mod_small; lia. }
  rewrite Eu. cbn [length] in *.
  destruct p as [|s' p'].
  - destruct (Z.of_nat (length (l ++ seg_data s)) =? len) eqn:E.
    + eexists. split; [reflexivity|]. cbn [map concat]. rewrite app_nil_r.
      destruct A' as (A'1 & A'2). split; [cbn [length]; lia|exact A'2].
    + rewrite app_length in E. unfold len in E. cbn in E. lia.
  - destruct (Z.of_nat (length (l ++ seg_data s)) =? len) eqn:E.
    + exfalso. assert (HP := len_flat_pos _ Hns'). unfold pkt_bytes, flat in HP. unfold len in E.
      rewrite app_length in E. cbn [length] in HP. lia.
    + match type of E2 with int_add sum ?t = _ => set (tmp := t) in * end.
      destruct (IH q fuel (l ++ seg_data s) (sum + tmp) (n + 1) len) as (s'' & R1 & R2); auto; try lia.
      * discriminate.
      * apply bytes_ok_app; split; assumption.
      * unfold len. rewrite app_length. lia.
      * exists s''. split; [exact R1|]. rewrite <- app_assoc in R2.
        destruct R2 as (R21 & R22). split; [cbn [length] in *; lia|exact R22].
Qed.

Lemma SAcc_nil be : SAcc be [] 0 (0 * 65535).
Proof. unfold SAcc. cbn. repeat split; try lia. apply cong_refl. Qed.

Lemma cksum_packet_ok be arm s0 p1 q off len fuel :
  nonempty_segs p1 -> pkt_ok (s0 :: p1) ->
  0 <= off < Z.of_nat (length (seg_data s0)) -> 0 <= len <= MAXLEN ->
  (off + len <= Z.of_nat (length (seg_data s0)) \/
   (p1 <> [] /\ off + len = Z.of_nat (length (pkt_bytes (s0 :: p1))))) ->
  Z.of_nat (length p1) < 32768 -> (length p1 < fuel)%nat ->
  exists c, ofp_cksum be arm fuel ((s0 :: p1) ++ q) off len = Ret c /\
    GoodSum be (firstn (Z.to_nat len) (skipn (Z.to_nat off) (pkt_bytes ((s0 :: p1) ++ q)))) c.
Proof.
  intros Hns Hok Hoff Hlen Hcase Hsegs Hf. unfold ofp_cksum.
  destruct fuel as [|fuel]; [lia|]. cbn [app cksum_segs].
  inversion Hok as [|? ? Hsb Hok']; subst.
  destruct (off >=? Z.of_nat (length (seg_data s0))) eqn:E; [lia|]. clear E.
  set (o := Z.to_nat off).
  assert (Hsk : bytes_ok (skipn o (seg_data s0))).
  { rewrite <- (firstn_skipn o (seg_data s0)) in Hsb.
    apply bytes_ok_app in Hsb. tauto. }
  assert (Hskl : Z.of_nat (length (skipn o (seg_data s0))) = Z.of_nat (length (seg_data s0)) - off).
  { rewrite skipn_length. unfold o. lia. }
  assert (Hall : skipn o (pkt_bytes (s0 :: p1 ++ q)) = skipn o (seg_data s0) ++ pkt_bytes (p1 ++ q)).
  { unfold pkt_bytes, flat. cbn [map concat]. rewrite skipn_app.
    replace (o - length (seg_data s0))%nat with 0%nat by (unfold o; lia). reflexivity. }
  rewrite Hall.
  destruct (Z_le_gt_dec (off + len) (Z.of_nat (length (seg_data s0)))) as [Hin|Hout].
  - (* within the first segment *)
    assert (Ecl : (if Z.of_nat (length (seg_data s0)) - off >? len then len
                  else Z.of_nat (length (seg_data s0)) - off) = len).
    { destruct (Z.of_nat (length (seg_data s0)) - off >? len) eqn:E; lia. }
    rewrite Ecl.
    set (d := firstn (Z.to_nat len) (skipn o (seg_data s0))).
    set (rest := skipn (Z.to_nat len) (skipn o (seg_data s0))).
    assert (Ed : skipn o (seg_data s0) = d ++ rest) by (unfold d, rest; symmetry; apply firstn_skipn).
    assert (Hdl : Z.of_nat (length d) = len) by (unfold d; rewrite firstn_length; lia).
    assert (Hdb : bytes_ok d) by (rewrite Ed in Hsk; apply bytes_ok_app in Hsk; tauto).
    destruct (seg_step be arm [] (seg_addr s0 + off) d rest 0 0) as (c & tmp & E1 & -> & E2 & A');
      auto; try lia; [constructor|apply SAcc_nil|].
    rewrite Hdl in E1. rewrite Ed, E1, obind_ret. cbv zeta.
    change (Z.of_nat (length (@nil Z)) mod 2 =? 1) with false in *. change (0 mod 2 =? 1) with false.
    cbv iota in *. rewrite E2, obind_ret.
    assert (Eu : u32 (0 + len) = len) by (unfold u32, MAXLEN in *; rewrite Z.mod_small; lia).
    rewrite Eu, Z.eqb_refl, obind_ret. eexists. split; [reflexivity|].
    rewrite <- app_assoc. rewrite firstn_app. rewrite firstn_all2 by lia.
    replace (Z.to_nat len - length d)%nat with 0%nat by lia. cbn [firstn]. rewrite app_nil_r.
    eapply REDUCE_char; [exact A'|unfold INT_MAX; lia].
  - destruct Hcase as [Hc|[Hne Hc]]; [lia|].
    assert (Ecl : (if Z.of_nat (length (seg_data s0)) - off >? len then len
                  else Z.of_nat (length (seg_data s0)) - off) = Z.of_nat (length (skipn o (seg_data s0)))).
    { destruct (Z.of_nat (length (seg_data s0)) - off >? len) eqn:E; lia. }
    rewrite Ecl.
    destruct (seg_step be arm [] (seg_addr s0 + off) (skipn o (seg_data s0)) [] 0 0) as (c & tmp & E1 & -> & E2 & A');
      auto; try lia; [constructor|apply SAcc_nil|].
    rewrite app_nil_r in E1. fold o. rewrite E1, obind_ret. cbv zeta.
    change (Z.of_nat (length (@nil Z)) mod 2 =? 1) with false in *. change (0 mod 2 =? 1) with false.
    cbv iota in *. rewrite E2, obind_ret.
    assert (Eu : u32 (0 + Z.of_nat (length (skipn o (seg_data s0)))) = Z.of_nat (length (skipn o (seg_data s0)))).
    { unfold u32, MAXLEN in *. rewrite Z.mod_small; lia. }
    rewrite Eu.
    destruct (Z.of_nat (length (skipn o (seg_data s0))) =? len) eqn:E; [lia|]. clear E.
    unfold pkt_bytes, flat in Hc. cbn [map concat] in Hc. rewrite app_length in Hc.
    destruct (segs_whole be arm p1 q fuel (skipn o (seg_data s0)) (0 + u16 (Z.lnot c)) 1 len)
      as (s' & R1 & R2); auto; try lia.
    { unfold pkt_bytes, flat. lia. }
    rewrite R1, obind_ret. eexists. split; [reflexivity|].
    assert (Epb : pkt_bytes (p1 ++ q) = pkt_bytes p1 ++ pkt_bytes q).
    { unfold pkt_bytes, flat. rewrite map_app, concat_app. reflexivity. }
    rewrite Epb, app_assoc, firstn_app.
    assert (Hl2 : (length (skipn o (seg_data s0) ++ pkt_bytes p1) = Z.to_nat len)%nat).
    { rewrite app_length. unfold pkt_bytes, flat. lia. }
    rewrite firstn_all2 by lia.
    replace (Z.to_nat len - length (skipn o (seg_data s0) ++ pkt_bytes p1))%nat with 0%nat by lia.
    cbn [firstn]. rewrite app_nil_r.
    eapply REDUCE_char; [exact R2|unfold INT_MAX; lia].
Qed.
