(* Verification of stored checksums, pseudo header, and the counterexamples. *)
From Verif Require Import Base CksumModel CksumSpec CksumProof CksumProof2.

Lemma net16_bytes x : 0 <= x <= 65535 -> bytes_ok (net16 x).
Proof. intros H. unfold net16. bok; unfold is_byte; lia. Qed.

Lemma wsum_net16 x l : 0 <= x <= 65535 -> wsum 256 1 (net16 x ++ l) = x + wsum 256 1 l.
Proof. intros H. unfold net16. cbn [app wsum]. lia. Qed.

Lemma rfc_verify pre post :
  bytes_ok pre -> bytes_ok post -> Nat.even (length pre) = true ->
  rfc1071 (pre ++ net16 (rfc1071 (pre ++ [0; 0] ++ post)) ++ post) = 0.
Proof.
  intros Hp Hq He. set (d0 := pre ++ [0; 0] ++ post).
  assert (Hd0 : bytes_ok d0).
  { unfold d0. rewrite !bytes_ok_app. repeat split; auto. bok; unfold is_byte; lia. }
  destruct (rfc_sum_char d0 Hd0) as (R1 & R2 & R3).
  set (c := rfc1071 d0). assert (Hc : 0 <= c <= 65535) by (unfold c, rfc1071; lia).
  set (d1 := pre ++ net16 c ++ post).
  assert (Hd1 : bytes_ok d1).
  { unfold d1. rewrite !bytes_ok_app. repeat split; auto. now apply net16_bytes. }
  destruct (rfc_sum_char d1 Hd1) as (S1 & S2 & S3).
  assert (E0 : wsum 256 1 d0 = wsum 256 1 pre + wsum 256 1 post).
  { unfold d0. rewrite wsum_app by exact He. cbn [app wsum]. lia. }
  assert (E1 : wsum 256 1 d1 = wsum 256 1 pre + c + wsum 256 1 post).
  { unfold d1. rewrite wsum_app by exact He. rewrite wsum_net16 by exact Hc. lia. }
  assert (P1 := wsum_nonneg 256 1 pre ltac:(lia) ltac:(lia) Hp).
  assert (P2 := wsum_nonneg 256 1 post ltac:(lia) ltac:(lia) Hq).
  unfold rfc1071. assert (Ec : c = 65535 - rfc1071_sum d0) by reflexivity.
  destruct R2 as [k R2]. destruct S2 as [j S2].
  assert (rfc1071_sum d1 = 65535 * (1 + j - k)) by lia.
  assert (rfc1071_sum d1 <> 0) by lia. lia.
Qed.

Lemma rfc_detect pre post x y x' y' :
  bytes_ok (pre ++ [x; y] ++ post) -> bytes_ok (pre ++ [x'; y'] ++ post) ->
  Nat.even (length pre) = true ->
  rfc1071 (pre ++ [x; y] ++ post) = 0 ->
  (256 * x + y) mod 65535 <> (256 * x' + y') mod 65535 ->
  rfc1071 (pre ++ [x'; y'] ++ post) <> 0.
Proof.
  intros H1 H2 He H0 Hne H0'.
  destruct (rfc_sum_char _ H1) as (R1 & [k R2] & R3).
  destruct (rfc_sum_char _ H2) as (S1 & [j S2] & S3).
  rewrite wsum_app in R2 by exact He. rewrite wsum_app in S2 by exact He.
  unfold rfc1071 in H0, H0'. cbn [app wsum] in R2, S2, H0, H0'. apply Hne.
  assert (Hk : 256 * x + y = (256 * x' + y') + 65535 * (j - k)) by lia.
  rewrite Hk, (Z.mul_comm 65535 (j - k)), Z.mod_add by lia. reflexivity.
Qed.

(* packet-level form of GoodSum *)
Lemma cksum_packet_rfc be arm s0 p1 q off len fuel :
  nonempty_segs p1 -> pkt_ok (s0 :: p1) -> pkt_ok q ->
  0 <= off < Z.of_nat (length (seg_data s0)) -> 0 <= len <= MAXLEN ->
  (off + len <= Z.of_nat (length (seg_data s0)) \/
   (p1 <> [] /\ off + len = Z.of_nat (length (pkt_bytes (s0 :: p1))))) ->
  Z.of_nat (length p1) < 32768 -> (length p1 < fuel)%nat ->
  exists c, ofp_cksum be arm fuel ((s0 :: p1) ++ q) off len = Ret c /\
    GoodSum be (firstn (Z.to_nat len) (skipn (Z.to_nat off) (pkt_bytes ((s0 :: p1) ++ q)))) c /\
    st16 be c = net16 (rfc1071 (firstn (Z.to_nat len) (skipn (Z.to_nat off) (pkt_bytes ((s0 :: p1) ++ q))))).
Proof.
  intros Hns Hok Hq Hoff Hlen Hcase Hsegs Hf.
  destruct (cksum_packet_ok be arm s0 p1 q off len fuel) as (c & E & G); auto.
  exists c. split; [exact E|]. split; [exact G|]. apply GoodSum_rfc; [|exact G].
  assert (A : bytes_ok (pkt_bytes ((s0 :: p1) ++ q))).
  { unfold pkt_bytes, flat. apply Forall_concat. apply Forall_map. apply Forall_app. split; assumption. }
  unfold bytes_ok in *. apply Forall_forall. intros z Hz.
  rewrite Forall_forall in A. apply A.
  rewrite <- (firstn_skipn (Z.to_nat off) (pkt_bytes _)). apply in_or_app. right.
  rewrite <- (firstn_skipn (Z.to_nat len) (skipn _ _)). apply in_or_app. left. exact Hz.
Qed.

(* pseudo header *)
Lemma add_words_ok be n : forall l c sum B,
  length c = (2 * n)%nat -> Nat.even (length l) = true -> bytes_ok l -> bytes_ok c ->
  Acc be l sum B -> B + Z.of_nat n * 65535 <= INT_MAX ->
  exists s, add_words be (l ++ c) n (length l) sum = Ret s /\
            Acc be (l ++ c) s (B + Z.of_nat n * 65535).
Proof.
  induction n as [|n IH]; intros l c sum B Hl He Hbl Hbc HA HB.
  - destruct c; [|discriminate]. exists sum. split; [reflexivity|]. rewrite app_nil_r.
    eapply Acc_mono; [exact HA|lia].
  - destruct c as [|x [|y c]]; try (cbn in Hl; lia).
    inversion Hbc as [|? ? Hx Hbc1]; subst. inversion Hbc1 as [|? ? Hy Hbc2]; subst.
    assert (HW := Acc_word be l x y sum B He Hbl Hx Hy HA).
    cbn [add_words]. rewrite ld16_app, obind_ret.
    assert (Ei : int_add sum (wt0 be * x + wt1 be * y) = Ret (sum + (wt0 be * x + wt1 be * y))).
    { unfold int_add. cbv zeta. destruct HW as ((W1 & W2) & _).
      destruct ((INT_MIN <=? sum + (wt0 be * x + wt1 be * y)) && (sum + (wt0 be * x + wt1 be * y) <=? INT_MAX)) eqn:Y;
        [reflexivity|unfold INT_MIN, INT_MAX in *; lia]. }
    rewrite Ei, obind_ret.
    edestruct (IH (l ++ [x; y]) c) as (s & E1 & A1); [| | | |exact HW| |].
    + cbn in Hl. lia.
    + apply even_app4; [exact He|reflexivity].
    + apply bytes_ok_app. split; [exact Hbl|bok].
    + exact Hbc2.
    + lia.
    + rewrite <- app_assoc in E1, A1. rewrite app_length in E1. cbn [length] in E1.
      exists s. split; [exact E1|]. eapply Acc_mono; [exact A1|lia].
Qed.

Lemma ipovly_props be h L :
  bytes_ok h -> (20 <= length h)%nat -> L = ip_len_of h - 4 * ip_hl_of h -> 0 <= L ->
  length (ipovly be h) = 20%nat /\ bytes_ok (ipovly be h) /\
  forall pl, bytes_ok pl -> Z.of_nat (length pl) = L ->
  bytes_ok (pseudo4 (ip_src_of h) (ip_dst_of h) (ip_p_of h) pl) /\
  forall a b, wsum a b (ipovly be h ++ pl) = wsum a b (pseudo4 (ip_src_of h) (ip_dst_of h) (ip_p_of h) pl).
Proof.
  intros Hb Hl EL HL0.
  destruct h as [|h0 [|h1 [|h2 [|h3 [|h4 [|h5 [|h6 [|h7 [|h8 [|h9 [|h10 [|h11 [|h12 [|h13 [|h14
    [|h15 [|h16 [|h17 [|h18 [|h19 h]]]]]]]]]]]]]]]]]]]]; try (cbn in Hl; lia).
  assert (HF : forall i, (i < 20)%nat -> is_byte (nth i (h0 :: h1 :: h2 :: h3 :: h4 :: h5 :: h6 :: h7 :: h8 :: h9 :: h10
     :: h11 :: h12 :: h13 :: h14 :: h15 :: h16 :: h17 :: h18 :: h19 :: h) 0)).
  { intros i Hi. eapply Forall_forall; [exact Hb|]. apply nth_In. cbn [length]. lia. }
  assert (B2 := HF 2%nat ltac:(lia)). assert (B3 := HF 3%nat ltac:(lia)). assert (B9 := HF 9%nat ltac:(lia)).
  assert (B0 := HF 0%nat ltac:(lia)).
  assert (B12 := HF 12%nat ltac:(lia)). assert (B13 := HF 13%nat ltac:(lia)). assert (B14 := HF 14%nat ltac:(lia)).
  assert (B15 := HF 15%nat ltac:(lia)). assert (B16 := HF 16%nat ltac:(lia)). assert (B17 := HF 17%nat ltac:(lia)).
  assert (B18 := HF 18%nat ltac:(lia)). assert (B19 := HF 19%nat ltac:(lia)).
  cbn [nth] in B0, B2, B3, B9, B12, B13, B14, B15, B16, B17, B18, B19. clear HF.
  unfold ipovly, ip_src_of, ip_dst_of, ip_p_of in *. cbn [nth skipn firstn] in *.
  rewrite <- EL.
  assert (HL1 : 0 <= L <= 65535).
  { unfold ip_len_of, ip_hl_of in EL. cbn [nth] in EL. unfold is_byte in *. lia. }
  assert (Eu : u16 L = L) by (unfold u16; lia). rewrite Eu.
  rewrite st16_net by exact HL1.
  split; [reflexivity|]. split.
  - unfold net16. cbn [repeat app]. bok; unfold is_byte in *; lia.
  - intros pl Hpl Hpll. split.
    + unfold pseudo4. rewrite Hpll. unfold net16. cbn [app]. bok; unfold is_byte in *; lia.
    + intros a b. unfold pseudo4. rewrite Hpll. unfold net16. cbn [repeat app wsum]. ring.
Qed.

Lemma in4_cksum_rfc be arm fuel s0 p1 q l3 :
  let h := skipn (Z.to_nat l3) (seg_data s0) in
  let off := 4 * ip_hl_of h in
  let len := ip_len_of h - off in
  let payload := firstn (Z.to_nat len) (skipn (Z.to_nat (l3 + off)) (pkt_bytes ((s0 :: p1) ++ q))) in
  nonempty_segs p1 -> pkt_ok (s0 :: p1) -> pkt_ok q ->
  (20 <= length h)%nat -> 0 <= len ->
  0 <= l3 -> l3 + off < Z.of_nat (length (seg_data s0)) -> Z.of_nat (length (seg_data s0)) < 4294967296 ->
  (l3 + off + len <= Z.of_nat (length (seg_data s0)) \/
   (p1 <> [] /\ l3 + off + len = Z.of_nat (length (pkt_bytes (s0 :: p1))))) ->
  Z.of_nat (length p1) < 32000 -> (length p1 < fuel)%nat ->
  exists c, ofp_in4_cksum be arm fuel ((s0 :: p1) ++ q) l3 = Ret c /\
   st16 be c = net16 (rfc1071 (pseudo4 (ip_src_of h) (ip_dst_of h) (ip_p_of h) payload)).
Proof.
  intros h off len payload Hns Hok Hq Hh Hlen Hl3 Hoff Hs32 Hcase Hsegs Hf.
  assert (Hhb : bytes_ok h).
  { inversion Hok as [|? ? Hsb _]; subst. rewrite <- (firstn_skipn (Z.to_nat l3) (seg_data s0)) in Hsb.
    apply bytes_ok_app in Hsb. tauto. }
  assert (Hoff0 : 0 <= off) by (unfold off, ip_hl_of; lia).
  assert (Hlen16 : len <= 65535).
  { unfold len, ip_len_of, off. assert (forall i, (i < 20)%nat -> is_byte (nth i h 0)).
    { intros i Hi. eapply Forall_forall; [exact Hhb|]. apply nth_In. lia. }
    assert (B2 := H 2%nat ltac:(lia)). assert (B3 := H 3%nat ltac:(lia)). unfold is_byte in *.
    unfold off in Hoff0. lia. }
  destruct (cksum_packet_rfc be arm s0 p1 q (l3 + off) len fuel) as (c & Ec & Gc & _); auto; try lia.
  { unfold MAXLEN; lia. }
  destruct (ipovly_props be h len Hhb Hh eq_refl Hlen) as (P1 & P2 & P3).
  unfold ofp_in4_cksum. cbn [app]. fold h.
  destruct (length h <? 20)%nat eqn:E; [lia|]. clear E. fold off.
  destruct (add_words_ok be 10 [] (ipovly be h) 0 0) as (s & Es & As); auto.
  { constructor. } { apply Acc_nil. } { unfold INT_MAX; lia. }
  cbn [app length] in Es, As. rewrite Es, obind_ret.
  assert (E1 : u32 (l3 + off) = l3 + off) by (unfold u32; apply Z.mod_small; lia).
  assert (E2 : u32 (ip_len_of h - off) = len) by (unfold u32, len; apply Z.mod_small; fold len; lia).
  rewrite E1, E2. cbn [app] in Ec. rewrite Ec, obind_ret.
  destruct Gc as (t & -> & Ht & Tc & Tz).
  assert (El : u16 (Z.lnot (65535 - t)) = t) by (unfold u16, Z.lnot; lia). rewrite El.
  fold payload in Tc, Tz.
  assert (Hpb : bytes_ok payload).
  { assert (A : bytes_ok (pkt_bytes ((s0 :: p1) ++ q))).
    { unfold pkt_bytes, flat. apply Forall_concat. apply Forall_map. apply Forall_app. split; assumption. }
    unfold bytes_ok in *. apply Forall_forall. intros z Hz. rewrite Forall_forall in A. apply A.
    rewrite <- (firstn_skipn (Z.to_nat (l3 + off)) (pkt_bytes _)). apply in_or_app. right.
    rewrite <- (firstn_skipn (Z.to_nat len) (skipn _ _)). apply in_or_app. left. exact Hz. }
  assert (Hpl : Z.of_nat (length payload) = len).
  { unfold payload. rewrite firstn_length, skipn_length.
    assert (X : Z.of_nat (length (pkt_bytes ((s0 :: p1) ++ q))) >= l3 + off + len); [|lia].
    unfold pkt_bytes, flat in *. rewrite map_app, concat_app, app_length. cbn [map concat] in *.
    rewrite app_length in *. destruct Hcase as [?|[? ?]]; lia. }
  destruct (P3 payload Hpb Hpl) as (P4 & P5).
  assert (Ha : Acc be (ipovly be h ++ payload) (s + t) (0 + Z.of_nat 10 * 65535 + 65535)).
  { eapply Acc_step; eauto. }
  assert (Ei : int_add s t = Ret (s + t)).
  { destruct Ha as ((A1 & A2) & _). unfold int_add. cbv zeta.
    destruct ((INT_MIN <=? s + t) && (s + t <=? INT_MAX)) eqn:Y; [reflexivity|unfold INT_MIN, INT_MAX in *; lia]. }
  rewrite Ei, obind_ret. eexists. split; [reflexivity|].
  assert (Eland : Z.land (Z.lnot (REDUCE (s + t))) 65535 = u16 (Z.lnot (REDUCE (s + t)))).
  { change 65535 with (Z.ones 16). rewrite Z.land_ones by lia. reflexivity. }
  rewrite Eland. apply GoodSum_rfc; [exact P4|].
  assert (G : GoodSum be (ipovly be h ++ payload) (u16 (Z.lnot (REDUCE (s + t))))).
  { eapply REDUCE_char; [exact Ha|unfold INT_MAX; lia]. }
  destruct G as (r & G1 & G2 & G3 & G4). exists r. rewrite P5 in G3, G4. tauto.
Qed.

(* ---- counterexamples ---- *)
Definition mkseg (l : list Z) : seg := {| seg_addr := 0; seg_data := l |}.

Lemma cksum_off_cex :
  exists c, ofp_cksum false false 100 [mkseg [1; 2]; mkseg [3; 4; 5; 6]] 2 4 = Ret c /\
    st16 false c <> net16 (rfc1071 (firstn 4 (skipn 2 (flat [[1; 2]; [3; 4; 5; 6]])))).
Proof. eexists. split; [vm_compute; reflexivity|]. vm_compute. discriminate. Qed.

Lemma cksum_tail_cex :
  exists c, ofp_cksum false false 100 [mkseg [1; 2]; mkseg [3; 4; 5; 6]] 0 4 = Ret c /\
    st16 false c <> net16 (rfc1071 (firstn 4 (skipn 0 (flat [[1; 2]; [3; 4; 5; 6]])))).
Proof. eexists. split; [vm_compute; reflexivity|]. vm_compute. discriminate. Qed.

Lemma cksum_empty_seg_diverges be arm s p len off : seg_data s = [] -> 0 <= off ->
  forall fuel, ofp_cksum be arm fuel (s :: p) off len = Diverge.
Proof.
  intros Hs Ho fuel. unfold ofp_cksum.
  assert (H : forall d su, cksum_segs be arm fuel (s :: p) off len d su = Diverge).
  { induction fuel as [|f IH]; intros d su; [reflexivity|]. cbn [cksum_segs]. rewrite Hs.
    change (Z.of_nat (length [])) with 0. destruct (off >=? 0) eqn:E; [|lia].
    rewrite Z.sub_0_r. apply IH. }
  rewrite H. reflexivity.
Qed.

Lemma buffer_rfc be arm al data :
  bytes_ok data -> Z.of_nat (length data) <= MAXLEN ->
  ofp_cksum_buffer be arm al data (Z.of_nat (length data)) = Ret (cpu_to_be_16 be (rfc1071 data)).
Proof.
  intros Hb Hl. destruct (cksum_buffer_good be arm al data [] Hb Hl) as (c & E & G).
  rewrite app_nil_r in E. rewrite E. f_equal. apply GoodSum_rfc; assumption.
Qed.

Lemma rfc1071_range data : bytes_ok data -> 0 <= rfc1071 data <= 65535.
Proof. intros H. destruct (rfc_sum_char data H) as (A & _). unfold rfc1071. lia. Qed.

Lemma cpu_to_be_zero be x : 0 <= x <= 65535 -> (cpu_to_be_16 be x = 0 <-> x = 0).
Proof. intros H. destruct be; cbn [cpu_to_be_16]; [lia|apply swap16_zero; exact H]. Qed.

Lemma cksum_stored_verifies_lemma be arm al al' pre post c :
  bytes_ok pre -> bytes_ok post -> Nat.even (length pre) = true ->
  Z.of_nat (length (pre ++ [0; 0] ++ post)) <= 262144 ->
  ofp_cksum_buffer be arm al (pre ++ [0; 0] ++ post) (Z.of_nat (length (pre ++ [0; 0] ++ post))) = Ret c ->
  ofp_cksum_buffer be arm al' (pre ++ st16 be c ++ post) (Z.of_nat (length (pre ++ st16 be c ++ post))) = Ret 0.
Proof.
  intros Hp Hq He Hl E.
  assert (Hd0 : bytes_ok (pre ++ [0; 0] ++ post)).
  { rewrite !bytes_ok_app. repeat split; auto. bok; unfold is_byte; lia. }
  rewrite buffer_rfc in E by assumption.
  assert (Ec : c = cpu_to_be_16 be (rfc1071 (pre ++ [0; 0] ++ post))) by congruence.
  clear E. subst c.
  assert (R := rfc1071_range _ Hd0). rewrite st16_net by exact R.
  rewrite buffer_rfc.
  - rewrite rfc_verify by assumption. destruct be; reflexivity.
  - rewrite !bytes_ok_app. repeat split; auto. now apply net16_bytes.
  - rewrite !app_length in *. cbn [net16 length] in *. unfold MAXLEN. lia.
Qed.

Lemma cksum_detects_lemma be arm al al' pre x y x' y' post :
  bytes_ok (pre ++ [x; y] ++ post) -> bytes_ok (pre ++ [x'; y'] ++ post) ->
  Nat.even (length pre) = true ->
  Z.of_nat (length (pre ++ [x; y] ++ post)) <= 262144 ->
  (256 * x + y) mod 65535 <> (256 * x' + y') mod 65535 ->
  ofp_cksum_buffer be arm al (pre ++ [x; y] ++ post) (Z.of_nat (length (pre ++ [x; y] ++ post))) = Ret 0 ->
  ofp_cksum_buffer be arm al' (pre ++ [x'; y'] ++ post) (Z.of_nat (length (pre ++ [x'; y'] ++ post))) <> Ret 0.
Proof.
  intros H1 H2 He Hl Hne E.
  rewrite buffer_rfc in E by assumption.
  assert (Ec : cpu_to_be_16 be (rfc1071 (pre ++ [x; y] ++ post)) = 0) by congruence. clear E. rename Ec into E.
  apply cpu_to_be_zero in E; [|now apply rfc1071_range].
  rewrite buffer_rfc; [|assumption|rewrite !app_length in *; cbn [length] in *; unfold MAXLEN; lia].
  intros E'.
  assert (Ec : cpu_to_be_16 be (rfc1071 (pre ++ [x'; y'] ++ post)) = 0) by congruence. clear E'. rename Ec into E'.
  apply cpu_to_be_zero in E'; [|now apply rfc1071_range].
  exact (rfc_detect pre post x y x' y' H1 H2 He E Hne E').
Qed.

Lemma in4_stored_verifies_lemma src dst proto pre post :
  bytes_ok src -> bytes_ok dst -> is_byte proto -> bytes_ok pre -> bytes_ok post ->
  length src = 4%nat -> length dst = 4%nat -> Nat.even (length pre) = true ->
  Z.of_nat (length (pre ++ [0; 0] ++ post)) <= 65535 ->
  rfc1071 (pseudo4 src dst proto
    (pre ++ net16 (rfc1071 (pseudo4 src dst proto (pre ++ [0; 0] ++ post))) ++ post)) = 0.
Proof.
  intros Hs Hd Hpr Hp Hq Ls Ld He Hl.
  set (L := Z.of_nat (length (pre ++ [0; 0] ++ post))).
  set (H := src ++ dst ++ [0; proto] ++ net16 L).
  assert (E0 : pseudo4 src dst proto (pre ++ [0; 0] ++ post) = (H ++ pre) ++ [0; 0] ++ post).
  { unfold pseudo4, H. fold L. rewrite <- !app_assoc. reflexivity. }
  assert (E1 : forall c, pseudo4 src dst proto (pre ++ net16 c ++ post) = (H ++ pre) ++ net16 c ++ post).
  { intros c. unfold pseudo4, H. replace (Z.of_nat (length (pre ++ net16 c ++ post))) with L.
    - rewrite <- !app_assoc. reflexivity.
    - unfold L. rewrite !app_length. reflexivity. }
  rewrite E1, E0. apply rfc_verify.
  - apply bytes_ok_app. split; [|exact Hp]. unfold H. rewrite !bytes_ok_app. repeat split; auto.
    + bok; unfold is_byte in *; lia.
    + apply net16_bytes. unfold L in *. lia.
  - exact Hq.
  - unfold H. rewrite !app_length, Ls, Ld. cbn [length net16]. rewrite !Nat.even_add, He. reflexivity.
Qed.
