(* C106, C107, C108. *)
From Verif Require Import Base CksumModel CksumSpec CksumProof CksumProof2 CksumProof3.
From Verif Require Import NdModel NdSpec.
Ltac Zify.zify_post_hook ::= idtac.

Lemma obind_Ret {A B} (a : A) (f : A -> outcome B) : obind (Ret a) f = f a.
Proof. reflexivity. Qed.

Lemma rfc_same_wsum a b : bytes_ok a -> bytes_ok b -> wsum 256 1 a = wsum 256 1 b ->
  rfc1071 a = rfc1071 b.
Proof.
  intros Ha Hb E. unfold rfc1071. f_equal.
  destruct (rfc_sum_char a Ha) as (A1 & (k & A2) & A3).
  destruct (rfc_sum_char b Hb) as (B1 & (j & B2) & B3). rewrite E in *.
  apply ones_unique; try assumption.
  - exists (k - j). lia.
  - tauto.
Qed.

Lemma GoodSum_same_wsum be a b c : bytes_ok b ->
  (forall x y, wsum x y a = wsum x y b) -> GoodSum be a c -> st16 be c = net16 (rfc1071 b).
Proof.
  intros Hb E (s & E1 & E2 & E3 & E4). apply GoodSum_rfc; [exact Hb|].
  exists s. rewrite E in *. auto.
Qed.

Lemma bytes_n_len16 a : bytes_n 16 a -> exists a0 a1 a2 a3 t, a = a0 :: a1 :: a2 :: a3 :: t /\ length t = 12%nat.
Proof.
  intros [L _]. destruct a as [|a0 [|a1 [|a2 [|a3 t]]]]; cbn in L; try lia.
  exists a0, a1, a2, a3, t. split; [reflexivity|lia].
Qed.

Lemma land_c0 x : 0 <= x < 256 -> (Z.land x 0xc0 =? 0x80) = true -> 0x80 <= x < 0xc0.
Proof.
  intros Hx H.
  assert (A : forallb (fun x => implb (Z.land x 0xc0 =? 0x80) ((0x80 <=? x) && (x <? 0xc0)))
     (map Z.of_nat (seq 0 256)) = true) by (vm_compute; reflexivity).
  rewrite forallb_forall in A.
  assert (In x (map Z.of_nat (seq 0 256))).
  { apply in_map_iff. exists (Z.to_nat x). split; [lia|]. apply in_seq. lia. }
  specialize (A x H0). rewrite H in A. cbn [implb] in A. lia.
Qed.

Lemma land_0f x : 0 <= x < 256 -> Z.land x 0x0f = x mod 16.
Proof. intros _. change 0x0f with (Z.ones 4). apply Z.land_ones. lia. Qed.

Lemma getscope_free be a : bytes_n 16 a -> scope_free a -> in6_getscope be a = Ret 0.
Proof.
  intros Ha Hs. destruct (bytes_n_len16 a Ha) as (a0 & a1 & a2 & a3 & t & E & Ht).
  destruct Ha as [_ Hb]. subst a. unfold scope_free in Hs. cbn [nth] in Hs.
  unfold in6_getscope, is_mc_linklocal, is_mc_intfacelocal, is_multicast, is_linklocal.
  cbn [nth].
  assert (B0 : is_byte a0) by (inversion Hb; assumption).
  assert (B1 : is_byte a1) by (inversion Hb as [|? ? ? Hb1]; inversion Hb1; assumption).
  unfold is_byte in *.
  destruct ((a0 =? 0xfe) && (Z.land a1 0xc0 =? 0x80)
    || (a0 =? 0xff) && (Z.land a1 0x0f =? 2) || (a0 =? 0xff) && (Z.land a1 0x0f =? 1)) eqn:C;
    [|reflexivity].
  assert (H : a2 = 0 /\ a3 = 0).
  { apply Hs. rewrite !orb_true_iff, !andb_true_iff in C.
    destruct C as [[[C1 C2]|[C1 C2]]|[C1 C2]].
    - left. split; [lia|]. apply land_c0; [lia|assumption].
    - right. rewrite land_0f in C2 by lia. lia.
    - right. rewrite land_0f in C2 by lia. lia. }
  destruct H as [-> ->]. unfold ld16. cbn [nth_error]. destruct be; reflexivity.
Qed.

Lemma be32_net x : 0 <= x < 4294967296 -> be32_bytes x = net32 x.
Proof.
  intros H. unfold be32_bytes, net32, net16. cbn [app].
  assert (E1 : x / 16777216 mod 256 = x / 65536 / 256).
  { rewrite Z.div_div by lia. change (65536 * 256) with 16777216. apply Z.mod_small.
    split; [apply Z.div_pos; lia|apply Z.div_lt_upper_bound; lia]. }
  assert (Em : x mod 65536 = x mod 256 + 256 * (x / 256 mod 256)).
  { change 65536 with (256 * 256). apply Z.rem_mul_r; lia. }
  assert (E2 : x mod 65536 / 256 = x / 256 mod 256).
  { rewrite Em, (Z.mul_comm 256), Z.div_add by lia.
    rewrite (Z.div_small (x mod 256)) by (apply Z.mod_pos_bound; lia). lia. }
  assert (E3 : x mod 65536 mod 256 = x mod 256).
  { rewrite Em, (Z.mul_comm 256), Z.mod_add by lia. apply Z.mod_mod. lia. }
  rewrite E1, E2, E3. reflexivity.
Qed.

Lemma net32_bytes x : 0 <= x < 4294967296 -> bytes_ok (net32 x).
Proof.
  intros H. unfold net32. apply bytes_ok_app. split; apply net16_bytes.
  - assert (x / 65536 < 65536) by (apply Z.div_lt_upper_bound; lia).
    assert (0 <= x / 65536) by (apply Z.div_pos; lia). lia.
  - pose proof (Z.mod_pos_bound x 65536). lia.
Qed.

Lemma add_words_one be n c sum B l :
  length c = (2 * n)%nat -> Nat.even (length l) = true -> bytes_ok l -> bytes_ok c ->
  Acc be l sum B -> B + Z.of_nat n * 65535 <= INT_MAX ->
  exists s, add_words be c n 0 sum = Ret s /\ Acc be (l ++ c) s (B + Z.of_nat n * 65535).
Proof.
  intros Hc He Hl Hcb HA HB.
  destruct (add_words_ok be n l c sum B Hc He Hl Hcb HA HB) as (s & E & A).
  exists s. split; [|exact A].
  assert (G : forall n i sum, add_words be (l ++ c) n (length l + i) sum = add_words be c n i sum).
  { clear. induction n as [|n IH]; intros i sum; [reflexivity|]. cbn [add_words].
    assert (Q : ld16 be (l ++ c) (length l + i) = ld16 be c i).
    { unfold ld16. rewrite nth_error_app2 by lia. rewrite nth_error_app2 by lia.
      replace (length l + i - length l)%nat with i by lia.
      replace (S (length l + i) - length l)%nat with (S i) by lia. reflexivity. }
    rewrite Q. destruct (ld16 be c i); cbn [obind]; try reflexivity.
    destruct (int_add sum a); cbn [obind]; try reflexivity.
    replace (length l + i + 2)%nat with (length l + (i + 2))%nat by lia. apply IH. }
  rewrite <- (G n 0%nat). rewrite Nat.add_0_r. exact E.
Qed.

Lemma in6_sum_ok be src dst len nxt :
  bytes_n 16 src -> bytes_n 16 dst -> scope_free src -> scope_free dst ->
  0 <= len < 4294967296 -> is_byte nxt ->
  exists s, in6_cksum_sum be src dst len nxt 0 = Ret s /\
    Acc be ((net32 len ++ [0; 0; 0; nxt]) ++ src ++ dst) s (20 * 65535).
Proof.
  intros Hs Hd Fs Fd Hl Hn. unfold in6_cksum_sum. rewrite be32_net by exact Hl.
  set (ph := net32 len ++ [0; 0; 0; nxt]).
  assert (Bp : bytes_ok ph).
  { unfold ph. apply bytes_ok_app. split; [now apply net32_bytes|]. bok; unfold is_byte in *; lia. }
  assert (Lp : length ph = 8%nat) by reflexivity.
  destruct (add_words_one be 4 ph 0 0 [] ltac:(rewrite Lp; reflexivity) eq_refl (Forall_nil _) Bp
    (Acc_nil be) ltac:(unfold INT_MAX; lia)) as (s1 & E1 & A1).
  rewrite E1, obind_Ret, (getscope_free be src Hs Fs), obind_Ret. cbn [app] in A1.
  destruct Hs as [Ls Bs]. destruct Hd as [Ld Bd].
  destruct (add_words_one be 8 src s1 _ ph ltac:(rewrite Ls; reflexivity) ltac:(rewrite Lp; reflexivity)
    Bp Bs A1 ltac:(unfold INT_MAX; lia)) as (s2 & E2 & A2).
  rewrite E2, obind_Ret. cbv zeta. change (negb (0 =? 0)) with false. cbv iota.
  rewrite (getscope_free be dst (conj Ld Bd) Fd), obind_Ret.
  destruct (add_words_one be 8 dst s2 _ (ph ++ src) ltac:(rewrite Ld; reflexivity)
    ltac:(rewrite app_length, Lp, Ls; reflexivity) ltac:(apply bytes_ok_app; auto) Bd A2
    ltac:(unfold INT_MAX; lia)) as (s3 & E3 & A3).
  rewrite E3, obind_Ret. change (negb (0 =? 0)) with false. cbv iota.
  exists s3. split; [reflexivity|]. rewrite <- app_assoc in A3. eapply Acc_mono; [exact A3|lia].
Qed.

Lemma wsum_perm4 x y (p a b c : list Z) :
  Nat.even (length p) = true -> Nat.even (length a) = true -> Nat.even (length b) = true ->
  wsum x y ((p ++ a ++ b) ++ c) = wsum x y (a ++ b ++ p ++ c).
Proof.
  intros Hp Ha Hb. rewrite <- !app_assoc.
  rewrite (wsum_app x y p) by exact Hp. rewrite (wsum_app x y a) by exact Ha.
  rewrite (wsum_app x y b c) by exact Hb.
  rewrite (wsum_app x y a) by exact Ha. rewrite (wsum_app x y b) by exact Hb.
  rewrite (wsum_app x y p) by exact Hp. ring.
Qed.

Lemma slice_ok m i n : (i + n <= length m)%nat -> slice m i n = Ret (firstn n (skipn i m)).
Proof. intros H. unfold slice. now destruct (i + n <=? length m)%nat eqn:E; [|lia]. Qed.

(* C106.  The checksum computed over a range of the packet is the one of RFC 2460: the
   internet checksum of the pseudo header and the upper-layer bytes.  [h] are the bytes from
   the IPv6 header on.  Same restriction on segmentation as C15, and on the addresses. *)
Theorem in6_cksum_rfc2460_partial : forall be arm fuel s0 p1 q l3 nxt off len,
  let h := skipn (Z.to_nat l3) (seg_data s0) in
  let src := firstn 16 (skipn 8 h) in
  let dst := firstn 16 (skipn 24 h) in
  let payload := firstn (Z.to_nat len) (skipn (Z.to_nat (l3 + off)) (flat (map seg_data ((s0 :: p1) ++ q)))) in
  Forall (fun s => seg_data s <> []) p1 ->
  Forall (fun s => bytes_ok (seg_data s)) (s0 :: p1) -> Forall (fun s => bytes_ok (seg_data s)) q ->
  (40 <= length h)%nat -> is_byte nxt -> scope_free src -> scope_free dst ->
  0 <= len <= 262144 -> 0 <= l3 -> 0 <= off ->
  l3 + off < Z.of_nat (length (seg_data s0)) -> Z.of_nat (length (seg_data s0)) < 4294967296 ->
  (l3 + off + len <= Z.of_nat (length (seg_data s0)) \/
   (p1 <> [] /\ l3 + off + len = Z.of_nat (length (flat (map seg_data (s0 :: p1)))))) ->
  Z.of_nat (length p1) < 32000 -> (length p1 < fuel)%nat ->
  exists c, ofp_in6_cksum be arm fuel ((s0 :: p1) ++ q) l3 nxt off len = Ret c /\
    st16 be c = net16 (rfc1071 (pseudo6 src dst nxt payload)).
Proof.
  intros be arm fuel s0 p1 q l3 nxt off len h src dst payload Hns Hok Hq Hh Hn Fs Fd Hlen Hl3 Hoff
    Hin Hs32 Hcase Hsegs Hf.
  assert (Hhb : bytes_ok h).
  { inversion Hok as [|? ? Hsb _]; subst. rewrite <- (firstn_skipn (Z.to_nat l3) (seg_data s0)) in Hsb.
    apply bytes_ok_app in Hsb. tauto. }
  assert (Sub : forall i n, bytes_ok (firstn n (skipn i h))).
  { intros i n. pose proof Hhb as X. rewrite <- (firstn_skipn i h) in X. apply bytes_ok_app in X.
    destruct X as [_ X]. rewrite <- (firstn_skipn n (skipn i h)) in X. apply bytes_ok_app in X. tauto. }
  assert (Hsrc : bytes_n 16 src).
  { split; [unfold src; rewrite firstn_length, skipn_length; lia|apply Sub]. }
  assert (Hdst : bytes_n 16 dst).
  { split; [unfold dst; rewrite firstn_length, skipn_length; lia|apply Sub]. }
  destruct (cksum_packet_rfc be arm s0 p1 q (l3 + off) len fuel Hns Hok Hq
    ltac:(lia) Hlen Hcase ltac:(lia) Hf) as (c & Ec & Gc & _).
  destruct (in6_sum_ok be src dst len nxt Hsrc Hdst Fs Fd ltac:(lia) Hn) as (s & Es & As).
  unfold ofp_in6_cksum. cbn [app]. cbv zeta. fold h.
  rewrite (slice_ok h 8 16) by lia. rewrite obind_Ret. fold src.
  rewrite (slice_ok h 24 16) by lia. rewrite obind_Ret. fold dst.
  rewrite Es, obind_Ret.
  assert (E1 : u32 (l3 + off) = l3 + off) by (unfold u32; apply Z.mod_small; lia).
  rewrite E1. cbn [app] in Ec. rewrite Ec, obind_Ret.
  destruct Gc as (t & -> & Ht & Tc & Tz).
  assert (El : u16 (Z.lnot (65535 - t)) = t).
  { rewrite u16_lnot by lia. lia. }
  rewrite El. change (flat (map seg_data ((s0 :: p1) ++ q))) with (pkt_bytes ((s0 :: p1) ++ q)) in payload.
  fold payload in Tc, Tz.
  assert (Hpb : bytes_ok payload).
  { assert (A : bytes_ok (pkt_bytes ((s0 :: p1) ++ q))).
    { unfold pkt_bytes, flat. apply Forall_concat. apply Forall_map. apply Forall_app. split; assumption. }
    unfold bytes_ok in *. apply Forall_forall. intros z Hz. rewrite Forall_forall in A. apply A.
    rewrite <- (firstn_skipn (Z.to_nat (l3 + off)) (pkt_bytes _)). apply in_or_app. right.
    rewrite <- (firstn_skipn (Z.to_nat len) (skipn _ _)). apply in_or_app. left. exact Hz. }
  assert (Hpl : Z.of_nat (length payload) = len).
  { unfold payload. rewrite firstn_length, skipn_length.
    assert (X : Z.of_nat (length (pkt_bytes ((s0 :: p1) ++ q))) >= l3 + off + len); [|lia].
    unfold pkt_bytes, flat in *. rewrite map_app, concat_app, app_length. cbn [map concat] in *.
    rewrite app_length in *. destruct Hcase as [?|[? ?]]; lia. }
  set (ph := net32 len ++ [0; 0; 0; nxt]) in *.
  assert (Bp : bytes_ok ph).
  { unfold ph. apply bytes_ok_app. split; [apply net32_bytes; lia|]. bok; unfold is_byte in *; lia. }
  assert (Lp : length ph = 8%nat) by reflexivity.
  destruct Hsrc as [Ls Bs]. destruct Hdst as [Ld Bd].
  assert (Ev : Nat.even (length (ph ++ src ++ dst)) = true)
    by (rewrite !app_length, Lp, Ls, Ld; reflexivity).
  assert (Bv : bytes_ok (ph ++ src ++ dst)) by (rewrite !bytes_ok_app; auto).
  assert (Ha : Acc be ((ph ++ src ++ dst) ++ payload) (s + t) (20 * 65535 + 65535)).
  { eapply Acc_step; eauto. }
  assert (Ei : int_add s t = Ret (s + t)).
  { destruct Ha as ((A1 & A2) & _). unfold int_add. cbv zeta.
    destruct ((INT_MIN <=? s + t) && (s + t <=? INT_MAX)) eqn:Y; [reflexivity|unfold INT_MIN, INT_MAX in *; lia]. }
  rewrite Ei, obind_Ret. eexists. split; [reflexivity|].
  assert (Eland : Z.land (Z.lnot (REDUCE (s + t))) 65535 = u16 (Z.lnot (REDUCE (s + t)))).
  { change 65535 with (Z.ones 16). rewrite Z.land_ones by lia. reflexivity. }
  rewrite Eland.
  assert (Epl : pseudo6 src dst nxt payload = src ++ dst ++ ph ++ payload).
  { unfold pseudo6, ph. rewrite Hpl. rewrite <- !app_assoc. reflexivity. }
  rewrite Epl. eapply GoodSum_same_wsum.
  - rewrite !bytes_ok_app. auto.
  - intros x y.
    apply (wsum_perm4 x y ph src dst payload); [rewrite Lp|rewrite Ls|rewrite Ld]; reflexivity.
  - eapply REDUCE_char; [exact Ha|unfold INT_MAX; lia].
Qed.
Print Assumptions in6_cksum_rfc2460_partial.

(* a datagram of 9 bytes from 2001:db8::1 to ff02::1 *)
Definition ex_ip6 (src : list Z) : list Z :=
  [0x60; 0; 0; 0; 0; 9; 17; 64] ++ src ++ all_nodes ++ [0; 53; 0x30; 0x39; 0; 9; 0; 0; 65].
Definition ex_src : list Z := [0x20; 1; 0x0d; 0xb8; 0; 0; 0; 0; 0; 0; 0; 0; 0; 0; 0; 1].
Example in6_cksum_ex :
  scope_free ex_src /\ scope_free all_nodes /\
  exists c, ofp_in6_cksum false false 5 [mkseg (ex_ip6 ex_src)] 0 17 40 9 = Ret c /\
    st16 false c = net16 (rfc1071 (pseudo6 ex_src all_nodes 17 [0; 53; 0x30; 0x39; 0; 9; 0; 0; 65])).
Proof.
  splits.
  - unfold scope_free, ex_src. cbn. lia.
  - unfold scope_free, all_nodes. cbn. lia.
  - eexists. split; vm_compute; reflexivity.
Qed.

(* C106 is false without the restriction on the addresses: of a link-local address (or a
   multicast address of link or interface scope) the second word is left out of the sum, so a
   correct packet from such an address does not verify: ff32::/16 addresses (RFC 3306, prefix
   length in the second word) are the ones in real use. *)
Theorem in6_cksum_second_word_refuted :
  let src := [0xfe; 0x80; 0; 7; 0; 0; 0; 0; 0; 0; 0; 0; 0; 0; 0; 1] in
  let udp := [0; 53; 0x30; 0x39; 0; 9] ++ net16 (rfc1071 (pseudo6 src all_nodes 17 [0; 53; 0x30; 0x39; 0; 9; 0; 0; 65])) ++ [65] in
  rfc1071 (pseudo6 src all_nodes 17 udp) = 0 /\
  exists c, ofp_in6_cksum false false 5
    [mkseg ([0x60; 0; 0; 0; 0; 9; 17; 64] ++ src ++ all_nodes ++ udp)] 0 17 40 9 = Ret c /\ c <> 0.
Proof. cbv zeta. split; [vm_compute; reflexivity|]. eexists. split; [vm_compute; reflexivity|discriminate]. Qed.
Print Assumptions in6_cksum_second_word_refuted.

(* ---- C107: the messages sent ---- *)
Lemma field_at f i b pre post : f = pre ++ b ++ post -> length pre = i -> field f i b.
Proof.
  intros -> <-. unfold field. rewrite skipn_app, skipn_all, Nat.sub_diag. cbn [app skipn].
  rewrite firstn_app, firstn_all, Nat.sub_diag. cbn [firstn]. apply app_nil_r.
Qed.

Definition nd_data (src dst : list Z) (type : Z) (target : list Z) (opt : Z) (mac : list Z) : list Z :=
  net16 32 ++ [0; 58] ++ src ++ dst ++ nd_icmp type [0; 0] target opt mac.

Lemma nd_icmp_ok type ck target opt mac : is_byte type -> is_byte opt -> bytes_ok ck ->
  bytes_n 16 target -> bytes_n 6 mac -> bytes_ok (nd_icmp type ck target opt mac).
Proof.
  intros Ht Ho Hc [_ Bt] [_ Bm]. unfold nd_icmp. rewrite !bytes_ok_app.
  repeat match goal with |- _ /\ _ => split end; auto; bok; unfold is_byte in *; lia.
Qed.

Lemma nd_icmp_len type ck target opt mac : length ck = 2%nat ->
  bytes_n 16 target -> bytes_n 6 mac -> length (nd_icmp type ck target opt mac) = 32%nat.
Proof.
  intros Lc [Lt _] [Lm _]. unfold nd_icmp. rewrite !app_length, Lc, Lt, Lm. reflexivity.
Qed.

Lemma nd_packet_ok be arm al l2 src dst type target opt mac :
  bytes_n 16 src -> bytes_n 16 dst -> bytes_n 16 target -> bytes_n 6 mac ->
  is_byte type -> is_byte opt ->
  exists ck, nd_packet be arm al l2 src dst type target opt mac =
    Ret (l2 ++ ([0x60; 0; 0; 0] ++ net16 32 ++ [58; 255] ++ src ++ dst) ++ nd_icmp type ck target opt mac) /\
    length ck = 2%nat /\ bytes_ok ck /\
    rfc1071 (pseudo6 src dst 58 (nd_icmp type ck target opt mac)) = 0.
Proof.
  intros Hs Hd Ht Hm Hty Hop.
  assert (Z2 : bytes_ok [0; 0]) by (bok; unfold is_byte; lia).
  assert (Bi := nd_icmp_ok type [0; 0] target opt mac Hty Hop Z2 Ht Hm).
  assert (Li := nd_icmp_len type [0; 0] target opt mac eq_refl Ht Hm).
  set (data := nd_data src dst type target opt mac).
  assert (Bd : bytes_ok data).
  { unfold data, nd_data. rewrite !bytes_ok_app.
    repeat match goal with |- _ /\ _ => split end; auto; try apply Hs; try apply Hd.
    - apply net16_bytes. lia.
    - bok; unfold is_byte; lia. }
  assert (Ld : length data = 68%nat).
  { unfold data, nd_data. rewrite !app_length, Li. destruct Hs as [-> _]. destruct Hd as [-> _].
    reflexivity. }
  destruct (cksum_buffer_good be arm al data [] Bd ltac:(rewrite Ld; unfold MAXLEN; lia)) as (c & Ec & Gc).
  rewrite app_nil_r, Ld in Ec. change (Z.of_nat 68) with 68 in Ec.
  assert (Rc := GoodSum_rfc be data c Bd Gc). apply proj2 in Rc.
  assert (St : st16 be (cpu_to_be_16 be 32) = net16 32) by (apply st16_net; lia).
  exists (net16 (rfc1071 data)). unfold nd_packet, nd_ip6. cbv zeta. rewrite St.
  assert (Esk : skipn 4 (([96; 0; 0; 0] ++ net16 32 ++ [0; 58] ++ src ++ dst) ++ nd_icmp type [0; 0] target opt mac) = data).
  { unfold data, nd_data. change (skipn 4 (([96; 0; 0; 0] ++ net16 32 ++ [0; 58] ++ src ++ dst) ++ nd_icmp type [0; 0] target opt mac))
    with ((net16 32 ++ [0; 58] ++ src ++ dst) ++ nd_icmp type [0; 0] target opt mac).
    rewrite <- !app_assoc. reflexivity. }
  rewrite Esk.
  rewrite Ec, obind_Ret, Rc. split; [reflexivity|].
  assert (Rr := rfc1071_range data Bd).
  assert (Bck : bytes_ok (net16 (rfc1071 data))) by (apply net16_bytes; exact Rr).
  split; [reflexivity|]. split; [exact Bck|].
  set (ph := net32 32 ++ [0; 0; 0; 58]).
  set (pre := src ++ dst ++ ph ++ [type; 0]).
  set (post := [0; 0; 0; 0] ++ target ++ [opt; 1] ++ mac).
  assert (Ep : forall ck, length ck = 2%nat ->
    pseudo6 src dst 58 (nd_icmp type ck target opt mac) = pre ++ ck ++ post).
  { intros ck Lck. unfold pseudo6. rewrite (nd_icmp_len type ck target opt mac Lck Ht Hm).
    unfold pre, post, ph, nd_icmp. change (Z.of_nat 32) with 32. rewrite <- !app_assoc. reflexivity. }
  rewrite Ep by reflexivity.
  assert (Bp : bytes_ok (src ++ dst ++ ph)).
  { rewrite !bytes_ok_app. split; [apply Hs|]. split; [apply Hd|]. unfold ph. apply bytes_ok_app.
    split; [apply net32_bytes; lia|]. bok; unfold is_byte; lia. }
  assert (E : rfc1071 data = rfc1071 (pre ++ [0; 0] ++ post)).
  { rewrite <- Ep by reflexivity. apply rfc_same_wsum; [exact Bd| |].
    - rewrite Ep by reflexivity. unfold pre, post. rewrite !bytes_ok_app in *.
      unfold nd_icmp in Bi. rewrite !bytes_ok_app in Bi. tauto.
    - unfold pseudo6. rewrite Li. change (Z.of_nat 32) with 32. unfold data, nd_data.
      destruct Hs as [Ls _]. destruct Hd as [Ld' _].
      rewrite (wsum_app 256 1 (net16 32)) by reflexivity. rewrite (wsum_app 256 1 [0; 58]) by reflexivity.
      rewrite !(wsum_app 256 1 src) by (rewrite Ls; reflexivity).
      rewrite !(wsum_app 256 1 dst) by (rewrite Ld'; reflexivity).
      rewrite (wsum_app 256 1 (net32 32)) by reflexivity.
      rewrite (wsum_app 256 1 [0; 0; 0; 58]) by reflexivity.
      change (wsum 256 1 (net16 32)) with 32. change (wsum 256 1 [0; 58]) with 58.
      change (wsum 256 1 (net32 32)) with 32. change (wsum 256 1 [0; 0; 0; 58]) with 58. ring. }
  rewrite E. apply rfc_verify.
  - unfold pre. rewrite !bytes_ok_app in *. unfold nd_icmp in Bi. rewrite !bytes_ok_app in Bi. tauto.
  - unfold post. unfold nd_icmp in Bi. rewrite !bytes_ok_app in *. tauto.
  - unfold pre. rewrite !app_length. destruct Hs as [-> _]. destruct Hd as [-> _]. reflexivity.
Qed.

Lemma l2_ok be d dhost : 0 <= d_vlan d < 4096 ->
  nd_l2 be d dhost = l2_header (d_vlan d) dhost (d_mac d).
Proof.
  intros Hv. unfold nd_l2, l2_header.
  assert (Eu : u16 (d_vlan d) = d_vlan d) by (unfold u16; apply Z.mod_small; lia).
  rewrite Eu, (st16_net be 0x86dd), (st16_net be 0x8100), (st16_net be (d_vlan d)) by lia.
  destruct (d_vlan d =? 0); cbn [negb]; reflexivity.
Qed.

Lemma frame_ok l2 src dst type ck target opt mac f :
  bytes_n 16 src -> bytes_n 16 dst -> bytes_n 16 target -> bytes_n 6 mac -> length ck = 2%nat ->
  rfc1071 (pseudo6 src dst 58 (nd_icmp type ck target opt mac)) = 0 ->
  f = l2 ++ ([0x60; 0; 0; 0] ++ net16 32 ++ [58; 255] ++ src ++ dst) ++ nd_icmp type ck target opt mac ->
  icmp6_frame l2 f src dst /\ nd_message (length l2) f type target opt mac.
Proof.
  intros Hs Hd Ht Hm Hc Hck E.
  assert (Li := nd_icmp_len type ck target opt mac Hc Ht Hm).
  destruct Hs as [Ls _]. destruct Hd as [Ld _]. destruct Ht as [Lt _]. destruct Hm as [Lm _].
  set (ip := [0x60; 0; 0; 0] ++ net16 32 ++ [58; 255] ++ src ++ dst) in *.
  assert (Lip : length ip = 40%nat) by (unfold ip; rewrite !app_length, Ls, Ld; reflexivity).
  split; split.
  - apply (field_at f 0 l2 [] (ip ++ nd_icmp type ck target opt mac)); [exact E|reflexivity].
  - rewrite E, !app_length, Lip, Li. lia.
  - apply (field_at f _ _ l2 (net16 32 ++ [58; 255] ++ src ++ dst ++ nd_icmp type ck target opt mac)); [|reflexivity].
    rewrite E. unfold ip. rewrite <- !app_assoc. reflexivity.
  - apply (field_at f _ _ (l2 ++ [0x60; 0; 0; 0]) ([58; 255] ++ src ++ dst ++ nd_icmp type ck target opt mac)).
    + rewrite E. unfold ip. rewrite <- !app_assoc. reflexivity.
    + rewrite app_length. reflexivity.
  - apply (field_at f _ _ (l2 ++ [0x60; 0; 0; 0] ++ net16 32) (src ++ dst ++ nd_icmp type ck target opt mac)).
    + rewrite E. unfold ip. rewrite <- !app_assoc. reflexivity.
    + rewrite !app_length. reflexivity.
  - apply (field_at f _ _ (l2 ++ [0x60; 0; 0; 0] ++ net16 32 ++ [58; 255]) (dst ++ nd_icmp type ck target opt mac)).
    + rewrite E. unfold ip. rewrite <- !app_assoc. reflexivity.
    + rewrite !app_length. reflexivity.
  - apply (field_at f _ _ (l2 ++ [0x60; 0; 0; 0] ++ net16 32 ++ [58; 255] ++ src) (nd_icmp type ck target opt mac)).
    + rewrite E. unfold ip. rewrite <- !app_assoc. reflexivity.
    + rewrite !app_length, Ls. reflexivity.
  - assert (Es : skipn (length l2 + 40) f = nd_icmp type ck target opt mac).
    { rewrite E, app_assoc. replace (length l2 + 40)%nat with (length (l2 ++ ip)) by (rewrite app_length, Lip; lia).
      rewrite skipn_app, skipn_all, Nat.sub_diag. reflexivity. }
    rewrite Es. exact Hck.
  - apply (field_at f _ _ (l2 ++ ip) (ck ++ [0; 0; 0; 0] ++ target ++ [opt; 1] ++ mac)).
    + rewrite E. unfold nd_icmp. rewrite <- !app_assoc. reflexivity.
    + rewrite app_length, Lip. lia.
  - apply (field_at f _ _ (l2 ++ ip ++ [type; 0] ++ ck ++ [0; 0; 0; 0]) ([opt; 1] ++ mac)).
    + rewrite E. unfold nd_icmp. rewrite <- !app_assoc. reflexivity.
    + rewrite !app_length, Lip, Hc. cbn [length]. lia.
  - apply (field_at f _ _ (l2 ++ ip ++ [type; 0] ++ ck ++ [0; 0; 0; 0] ++ target) mac).
    + rewrite E. unfold nd_icmp. rewrite <- !app_assoc. reflexivity.
    + rewrite !app_length, Lip, Hc, Lt. cbn [length]. lia.
  - apply (field_at f _ _ (l2 ++ ip ++ [type; 0] ++ ck ++ [0; 0; 0; 0] ++ target ++ [opt; 1]) []).
    + rewrite E. unfold nd_icmp. rewrite app_nil_r, <- !app_assoc. reflexivity.
    + rewrite !app_length, Lip, Hc, Lt. cbn [length]. lia.
Qed.

Lemma is_set_any a : length a = 16%nat -> (ip6_is_set a = false <-> a = ip6_any).
Proof.
  intros L. split; intros H.
  - assert (F : Forall (fun x => x = 0) a).
    { apply Forall_forall. intros x Hx. unfold ip6_is_set in H.
      destruct (x =? 0) eqn:E; [lia|]. exfalso.
      assert (T : existsb (fun b => negb (b =? 0)) a = true).
      { apply existsb_exists. exists x. rewrite E. auto. }
      congruence. }
    assert (G : forall l : list Z, Forall (fun x => x = 0) l -> l = repeat 0 (length l)).
    { clear. induction l as [|x l IH]; intros F; [reflexivity|]. inversion F as [|? ? Hx Fl]; subst.
      cbn [length repeat]. f_equal. auto. }
    rewrite (G a F), L. reflexivity.
  - subst. reflexivity.
Qed.

Definition dev_ok (d : dev) : Prop :=
  0 <= d_vlan d < 4096 /\ bytes_n 6 (d_mac d) /\ bytes_n 16 (d_ip6 d).

Lemma solicited_ok a : bytes_n 16 a -> bytes_n 16 (solicited_node a).
Proof.
  intros [L B]. unfold solicited_node. split.
  - rewrite app_length, skipn_length, L. reflexivity.
  - apply bytes_ok_app. split; [bok; unfold is_byte; lia|].
    rewrite <- (firstn_skipn 13 a) in B. apply bytes_ok_app in B. tauto.
Qed.

(* Every solicitation is a broadcast frame of the interface, a well-formed ICMPv6 message to
   the given address or to the target's solicited-node group, and asks for the target giving
   the interface's own MAC. *)
Theorem ns_output_wellformed : forall be arm al d daddr target,
  dev_ok d -> bytes_n 16 daddr -> bytes_n 16 target ->
  let l2 := l2_header (d_vlan d) (repeat 0xff 6) (d_mac d) in
  exists f, ofp_nd6_ns_output be arm al d daddr target = Ret f /\
    nd_message (length l2) f 135 target 1 (d_mac d) /\
    (daddr <> ip6_any -> icmp6_frame l2 f (d_ip6 d) daddr) /\
    (daddr = ip6_any -> icmp6_frame l2 f (d_ip6 d) (solicited_node target)).
Proof.
  intros be arm al d daddr target (Hv & Hm & Hi) Hd Ht l2.
  assert (S := is_set_any daddr (proj1 Hd)).
  unfold ofp_nd6_ns_output. rewrite (l2_ok be d _ Hv). fold l2. cbv zeta.
  fold (solicited_node target).
  set (dst := if ip6_is_set daddr then daddr else solicited_node target).
  assert (Hdst : bytes_n 16 dst).
  { unfold dst. destruct (ip6_is_set daddr); [exact Hd|now apply solicited_ok]. }
  destruct (nd_packet_ok be arm al l2 (d_ip6 d) dst 135 target 1 (d_mac d) Hi Hdst Ht Hm
     ltac:(unfold is_byte; lia) ltac:(unfold is_byte; lia)) as (ck & E & Lc & _ & R).
  eexists. split; [exact E|].
  destruct (frame_ok l2 (d_ip6 d) dst 135 ck target 1 (d_mac d) _ Hi Hdst Ht Hm Lc R eq_refl) as [F M].
  split; [exact M|]. split; intros Hn.
  - assert (Y : dst = daddr).
    { unfold dst. destruct (ip6_is_set daddr) eqn:X; [reflexivity|]. exfalso. apply Hn. apply S. reflexivity. }
    rewrite Y in F at 2. exact F.
  - assert (Y : dst = solicited_node target) by (unfold dst; rewrite (proj2 S Hn); reflexivity).
    rewrite Y in F at 2. exact F.
Qed.
Print Assumptions ns_output_wellformed.

(* Every advertisement goes to the given MAC and to the asking address, or to the all-nodes
   group if that is unspecified, and gives the interface's own MAC for the target. *)
Theorem na_output_wellformed : forall be arm al d daddr target lladdr,
  dev_ok d -> bytes_n 16 daddr -> bytes_n 16 target -> bytes_n 6 lladdr ->
  let l2 := l2_header (d_vlan d) lladdr (d_mac d) in
  exists f, ofp_nd6_na_output be arm al d daddr target lladdr = Ret f /\
    nd_message (length l2) f 136 target 2 (d_mac d) /\
    (daddr <> ip6_any -> icmp6_frame l2 f (d_ip6 d) daddr) /\
    (daddr = ip6_any -> icmp6_frame l2 f (d_ip6 d) all_nodes).
Proof.
  intros be arm al d daddr target lladdr (Hv & Hm & Hi) Hd Ht Hll l2.
  assert (S := is_set_any daddr (proj1 Hd)).
  unfold ofp_nd6_na_output. rewrite (l2_ok be d _ Hv). fold l2. cbv zeta.
  change [255; 2; 0; 0; 0; 0; 0; 0; 0; 0; 0; 0; 0; 0; 0; 1] with all_nodes.
  set (dst := if negb (ip6_is_set daddr) then all_nodes else daddr).
  assert (Hdst : bytes_n 16 dst).
  { unfold dst. destruct (negb (ip6_is_set daddr)); [|exact Hd].
    split; [reflexivity|unfold all_nodes; bok; unfold is_byte; lia]. }
  destruct (nd_packet_ok be arm al l2 (d_ip6 d) dst 136 target 2 (d_mac d) Hi Hdst Ht Hm
     ltac:(unfold is_byte; lia) ltac:(unfold is_byte; lia)) as (ck & E & Lc & _ & R).
  eexists. split; [exact E|].
  destruct (frame_ok l2 (d_ip6 d) dst 136 ck target 2 (d_mac d) _ Hi Hdst Ht Hm Lc R eq_refl) as [F M].
  split; [exact M|]. split; intros Hn.
  - assert (Y : dst = daddr).
    { unfold dst. destruct (ip6_is_set daddr) eqn:X; [reflexivity|]. exfalso. apply Hn. apply S. reflexivity. }
    rewrite Y in F at 2. exact F.
  - assert (Y : dst = all_nodes) by (unfold dst; rewrite (proj2 S Hn); reflexivity).
    rewrite Y in F at 2. exact F.
Qed.
Print Assumptions na_output_wellformed.

(* What RFC 4861 7.2.4 also asks of an answer to a solicitation is missing: the Solicited flag
   (0x40 of the byte after the checksum) is never set, so no neighbour reaches REACHABLE. *)
Theorem na_solicited_flag_refuted : forall be arm al d daddr target lladdr f,
  dev_ok d -> bytes_n 16 daddr -> bytes_n 16 target -> bytes_n 6 lladdr ->
  ofp_nd6_na_output be arm al d daddr target lladdr = Ret f ->
  field f (length (l2_header (d_vlan d) lladdr (d_mac d)) + 44) [0].
Proof.
  intros be arm al d daddr target lladdr f (Hv & Hm & Hi) Hd Ht Hll E.
  unfold ofp_nd6_na_output in E. rewrite (l2_ok be d _ Hv) in E. cbv zeta in E.
  set (l2 := l2_header (d_vlan d) lladdr (d_mac d)) in *.
  change [255; 2; 0; 0; 0; 0; 0; 0; 0; 0; 0; 0; 0; 0; 0; 1] with all_nodes in E.
  set (dst := if negb (ip6_is_set daddr) then all_nodes else daddr) in *.
  assert (Hdst : bytes_n 16 dst).
  { unfold dst. destruct (negb (ip6_is_set daddr)); [|exact Hd].
    split; [reflexivity|unfold all_nodes; bok; unfold is_byte; lia]. }
  destruct (nd_packet_ok be arm al l2 (d_ip6 d) dst 136 target 2 (d_mac d) Hi Hdst Ht Hm
     ltac:(unfold is_byte; lia) ltac:(unfold is_byte; lia)) as (ck & E' & Lc & _ & R).
  rewrite E' in E. assert (Ef : f = l2 ++ ([0x60; 0; 0; 0] ++ net16 32 ++ [58; 255] ++ d_ip6 d ++ dst)
    ++ nd_icmp 136 ck target 2 (d_mac d)) by congruence. clear E E'.
  apply (field_at f _ _ (l2 ++ ([0x60; 0; 0; 0] ++ net16 32 ++ [58; 255] ++ d_ip6 d ++ dst) ++ [136; 0] ++ ck)
    ([0; 0; 0] ++ target ++ [2; 1] ++ d_mac d)).
  - rewrite Ef. unfold nd_icmp. rewrite <- !app_assoc. reflexivity.
  - rewrite !app_length, Lc. destruct Hi as [-> _]. destruct Hdst as [-> _]. cbn [length net16]. lia.
Qed.
Print Assumptions na_solicited_flag_refuted.

Definition the_ip (src dst : list Z) : list Z := [0x60; 0; 0; 0] ++ net16 32 ++ [58; 255] ++ src ++ dst.

Lemma firstn_len_app n (a b : list Z) : length a = n -> firstn n (a ++ b) = a.
Proof. intros <-. rewrite firstn_app, firstn_all, Nat.sub_diag. apply app_nil_r. Qed.
Lemma skipn_len_app n (a b : list Z) : length a = n -> skipn n (a ++ b) = b.
Proof. intros <-. rewrite skipn_app, skipn_all, Nat.sub_diag. reflexivity. Qed.

Lemma slice_at m i n b pre post : m = pre ++ b ++ post -> length pre = i -> length b = n ->
  slice m i n = Ret b.
Proof.
  intros -> <- <-. rewrite slice_ok by (rewrite !app_length; lia). f_equal.
  rewrite skipn_app, skipn_all, Nat.sub_diag. cbn [app skipn].
  rewrite firstn_app, firstn_all, Nat.sub_diag. cbn [firstn]. apply app_nil_r.
Qed.

Lemma ld8_at m i b pre post : m = pre ++ b :: post -> length pre = i -> ld8 m i = Ret b.
Proof. intros -> <-. apply ld8_app. Qed.

Lemma st16_zero be c : st16 be c = net16 0 -> c = 0.
Proof.
  intros H. change (net16 0) with [0; 0] in H. pose proof (Z.div_mod c 256 ltac:(lia)).
  destruct be; unfold st16 in H; assert (c / 256 = 0 /\ c mod 256 = 0) by (split; congruence); lia.
Qed.

Lemma l2_header_ok v dh sh : 0 <= v < 4096 -> bytes_n 6 dh -> bytes_n 6 sh ->
  exists x, l2_header v dh sh = dh ++ sh ++ x /\ bytes_ok (l2_header v dh sh) /\
    (14 <= length (l2_header v dh sh) <= 18)%nat.
Proof.
  intros Hv [Ld Bd] [Ls Bs]. unfold l2_header. eexists. split; [reflexivity|]. split.
  - rewrite !bytes_ok_app. repeat match goal with |- _ /\ _ => split end; auto.
    + destruct (v =? 0); [constructor|]. apply bytes_ok_app. split; [bok; unfold is_byte; lia|apply net16_bytes; lia].
    + bok; unfold is_byte; lia.
  - rewrite !app_length, Ld, Ls. destruct (v =? 0); cbn [length app net16]; lia.
Qed.

Lemma received_cksum be arm fuel a0 l2 src dst icmp :
  bytes_ok l2 -> (14 <= length l2 <= 18)%nat ->
  bytes_n 16 src -> bytes_n 16 dst -> scope_free src -> scope_free dst ->
  length icmp = 32%nat -> bytes_ok icmp -> rfc1071 (pseudo6 src dst 58 icmp) = 0 -> (0 < fuel)%nat ->
  ofp_in6_cksum be arm fuel [{| seg_addr := a0; seg_data := l2 ++ the_ip src dst ++ icmp |}]
    (Z.of_nat (length l2)) 58 40 32 = Ret 0.
Proof.
  intros Bl Ll Hs Hd Fs Fd Li Bi R Hf.
  set (m := l2 ++ the_ip src dst ++ icmp). set (s0 := {| seg_addr := a0; seg_data := m |}).
  assert (Lip : length (the_ip src dst) = 40%nat).
  { unfold the_ip. rewrite !app_length. destruct Hs as [-> _]. destruct Hd as [-> _]. reflexivity. }
  assert (Lm : length m = (length l2 + 72)%nat) by (unfold m; rewrite !app_length, Lip, Li; lia).
  assert (Bm : bytes_ok m).
  { unfold m, the_ip. rewrite !bytes_ok_app. destruct Hs as [_ Bs]. destruct Hd as [_ Bd].
    repeat match goal with |- _ /\ _ => split end; auto;
      try (apply net16_bytes; lia); bok; unfold is_byte; lia. }
  assert (Es : skipn (length l2) m = the_ip src dst ++ icmp).
  { unfold m. rewrite skipn_app, skipn_all, Nat.sub_diag. reflexivity. }
  assert (Esrc : firstn 16 (skipn 8 (the_ip src dst ++ icmp)) = src).
  { change (firstn 16 (skipn 8 (the_ip src dst ++ icmp))) with (firstn 16 ((src ++ dst) ++ icmp)).
    rewrite <- app_assoc. apply firstn_len_app, Hs. }
  assert (Edst : firstn 16 (skipn 24 (the_ip src dst ++ icmp)) = dst).
  { change (firstn 16 (skipn 24 (the_ip src dst ++ icmp))) with (firstn 16 (skipn 16 ((src ++ dst) ++ icmp))).
    rewrite <- app_assoc. rewrite (skipn_len_app 16 src) by apply Hs. apply firstn_len_app, Hd. }
  destruct (in6_cksum_rfc2460_partial be arm fuel s0 [] [] (Z.of_nat (length l2)) 58 40 32) as (c & E & S).
  - constructor.
  - constructor; [exact Bm|constructor].
  - constructor.
  - rewrite Nat2Z.id. change (seg_data s0) with m. rewrite skipn_length. lia.
  - unfold is_byte. lia.
  - rewrite Nat2Z.id. change (seg_data s0) with m. rewrite Es, Esrc. exact Fs.
  - rewrite Nat2Z.id. change (seg_data s0) with m. rewrite Es, Edst. exact Fd.
  - lia.
  - lia.
  - lia.
  - change (seg_data s0) with m. lia.
  - change (seg_data s0) with m. lia.
  - left. change (seg_data s0) with m. lia.
  - cbn [length]. lia.
  - cbn [length]. lia.
  - cbn [app] in E. rewrite E. f_equal.
    apply (st16_zero be). rewrite S. f_equal. rewrite Nat2Z.id. change (seg_data s0) with m.
    rewrite Es, Esrc, Edst. cbn [app map flat concat]. unfold flat. cbn [map concat].
    change (seg_data s0) with m. rewrite app_nil_r.
    assert (Ei : skipn (Z.to_nat (Z.of_nat (length l2) + 40)) m = icmp).
    { unfold m. rewrite app_assoc. apply skipn_len_app. rewrite app_length, Lip. lia. }
    rewrite Ei. change (Z.to_nat 32) with 32%nat. rewrite <- Li, firstn_all. exact R.
Qed.

(* reading the fields of a received message *)
Lemma received_fields l2 dh sh x src dst type ck target opt mac tail :
  l2 = dh ++ sh ++ x -> bytes_n 6 dh -> bytes_n 6 sh ->
  bytes_n 16 src -> bytes_n 16 dst -> length ck = 2%nat -> bytes_n 16 target -> bytes_n 6 mac ->
  let mem := (l2 ++ the_ip src dst ++ nd_icmp type ck target opt mac) ++ tail in
  let l3 := length l2 in let ic := (l3 + 40)%nat in
  slice mem 6 6 = Ret sh /\ slice mem (l3 + 8) 16 = Ret src /\
  ld8 mem ic = Ret type /\ ld8 mem (ic + 1) = Ret 0 /\ slice mem (ic + 8) 16 = Ret target /\
  ld8 mem (ic + 24) = Ret opt /\ slice mem (ic + 26) 6 = Ret mac.
Proof.
  intros El2 [Ldh _] [Lsh _] [Ls _] [Ld _] Lc [Lt _] [Lm _] mem l3 ic.
  assert (Lip : length (the_ip src dst) = 40%nat).
  { unfold the_ip. rewrite !app_length, Ls, Ld. reflexivity. }
  assert (Lic : length (l2 ++ the_ip src dst) = ic) by (rewrite app_length, Lip; reflexivity).
  splits.
  - apply (slice_at mem _ _ sh dh (x ++ (the_ip src dst ++ nd_icmp type ck target opt mac) ++ tail)); auto.
    unfold mem. rewrite El2 at 1. rewrite <- !app_assoc. reflexivity.
  - apply (slice_at mem _ _ src (l2 ++ [0x60; 0; 0; 0] ++ net16 32 ++ [58; 255])
      (dst ++ nd_icmp type ck target opt mac ++ tail)); auto.
    unfold mem, the_ip. rewrite <- !app_assoc. reflexivity. rewrite !app_length. reflexivity.
  - apply (ld8_at mem _ type (l2 ++ the_ip src dst) ([0] ++ ck ++ [0; 0; 0; 0] ++ target ++ [opt; 1] ++ mac ++ tail)); auto.
    unfold mem, nd_icmp. rewrite <- !app_assoc. reflexivity.
  - apply (ld8_at mem _ 0 (l2 ++ the_ip src dst ++ [type]) (ck ++ [0; 0; 0; 0] ++ target ++ [opt; 1] ++ mac ++ tail)); auto.
    + unfold mem, nd_icmp. rewrite <- !app_assoc. reflexivity.
    + rewrite app_assoc, app_length, Lic. reflexivity.
  - apply (slice_at mem _ _ target (l2 ++ the_ip src dst ++ [type; 0] ++ ck ++ [0; 0; 0; 0]) ([opt; 1] ++ mac ++ tail)); auto.
    + unfold mem, nd_icmp. rewrite <- !app_assoc. reflexivity.
    + rewrite app_assoc, app_length, Lic, !app_length, Lc. reflexivity.
  - apply (ld8_at mem _ opt (l2 ++ the_ip src dst ++ [type; 0] ++ ck ++ [0; 0; 0; 0] ++ target) ([1] ++ mac ++ tail)); auto.
    + unfold mem, nd_icmp. rewrite <- !app_assoc. reflexivity.
    + rewrite app_assoc, app_length, Lic, !app_length, Lc, Lt. reflexivity.
  - apply (slice_at mem _ _ mac (l2 ++ the_ip src dst ++ [type; 0] ++ ck ++ [0; 0; 0; 0] ++ target ++ [opt; 1]) tail); auto.
    + unfold mem, nd_icmp. rewrite <- !app_assoc. reflexivity.
    + rewrite app_assoc, app_length, Lic, !app_length, Lc, Lt. reflexivity.
Qed.

Lemma input_ns be arm fuel a0 al d l2 dh sh x src dst ck target mac tail :
  l2 = dh ++ sh ++ x -> bytes_n 6 dh -> bytes_n 6 sh -> bytes_ok l2 -> (14 <= length l2 <= 18)%nat ->
  bytes_n 16 src -> bytes_n 16 dst -> scope_free src -> scope_free dst ->
  length ck = 2%nat -> bytes_ok ck -> bytes_n 16 target -> bytes_n 6 mac -> (0 < fuel)%nat ->
  rfc1071 (pseudo6 src dst 58 (nd_icmp 135 ck target 1 mac)) = 0 ->
  ofp_icmp6_input be arm fuel a0 al d (l2 ++ the_ip src dst ++ nd_icmp 135 ck target 1 mac) tail
     (length l2) 40 =
  obind (ofp_nd6_na_output be arm al d src target mac) (fun f =>
  Ret (NdProcessed, (if ip6_is_set src && negb (is_linklocal src)
                     then [AddRoute6 src; AddMac6 src sh] else []) ++ [Sent f])).
Proof.
  intros El2 Hdh Hsh Bl Ll Hs Hd Fs Fd Lc Bc Ht Hm Hf R.
  assert (Li := nd_icmp_len 135 ck target 1 mac Lc Ht Hm).
  assert (Bi := nd_icmp_ok 135 ck target 1 mac ltac:(unfold is_byte; lia) ltac:(unfold is_byte; lia) Bc Ht Hm).
  assert (C := received_cksum be arm fuel a0 l2 src dst _ Bl Ll Hs Hd Fs Fd Li Bi R Hf).
  destruct (received_fields l2 dh sh x src dst 135 ck target 1 mac tail El2 Hdh Hsh Hs Hd Lc Ht Hm)
    as (F1 & F2 & F3 & F4 & F5 & F6 & F7).
  set (m := l2 ++ the_ip src dst ++ nd_icmp 135 ck target 1 mac) in *.
  assert (Lm : length m = (length l2 + 72)%nat).
  { unfold m, the_ip. rewrite !app_length, Li. destruct Hs as [-> _]. destruct Hd as [-> _].
    cbn [length net16]. lia. }
  unfold ofp_icmp6_input. cbv zeta.
  assert (T1 : (Z.of_nat (length m) <? Z.of_nat 40 + 8) = false) by lia. rewrite T1.
  assert (T2 : u32 (Z.of_nat (length m) - Z.of_nat (length l2) - Z.of_nat 40) = 32).
  { rewrite Lm. unfold u32. rewrite Z.mod_small; lia. }
  rewrite T2. change (32 <? 8) with false. cbv iota. change (Z.of_nat 40) with 40. rewrite C, obind_Ret.
  change (negb (0 =? 0)) with false. cbv iota. rewrite F3, obind_Ret, F4, obind_Ret.
  change (135 =? 135) with true. change (negb (0 =? 0)) with false. change (32 <? 24) with false.
  change (32 <? 32) with false. cbv iota.
  unfold ofp_nd6_ns_input. rewrite F6, obind_Ret, F2, obind_Ret, F1, obind_Ret, obind_Ret, obind_Ret.
  change (1 =? 1) with true. cbn [andb]. rewrite F5, F7. cbn [obind].
  destruct (ofp_nd6_na_output be arm al d src target mac); reflexivity.
Qed.

Lemma input_na be arm fuel a0 al d l2 dh sh x src dst ck target mac tail :
  l2 = dh ++ sh ++ x -> bytes_n 6 dh -> bytes_n 6 sh -> bytes_ok l2 -> (14 <= length l2 <= 18)%nat ->
  bytes_n 16 src -> bytes_n 16 dst -> scope_free src -> scope_free dst ->
  length ck = 2%nat -> bytes_ok ck -> bytes_n 16 target -> bytes_n 6 mac -> (0 < fuel)%nat ->
  rfc1071 (pseudo6 src dst 58 (nd_icmp 136 ck target 2 mac)) = 0 ->
  ofp_icmp6_input be arm fuel a0 al d (l2 ++ the_ip src dst ++ nd_icmp 136 ck target 2 mac) tail
     (length l2) 40 = Ret (NdContinue, [AddRoute6 target; AddMac6 target sh]).
Proof.
  intros El2 Hdh Hsh Bl Ll Hs Hd Fs Fd Lc Bc Ht Hm Hf R.
  assert (Li := nd_icmp_len 136 ck target 2 mac Lc Ht Hm).
  assert (Bi := nd_icmp_ok 136 ck target 2 mac ltac:(unfold is_byte; lia) ltac:(unfold is_byte; lia) Bc Ht Hm).
  assert (C := received_cksum be arm fuel a0 l2 src dst _ Bl Ll Hs Hd Fs Fd Li Bi R Hf).
  destruct (received_fields l2 dh sh x src dst 136 ck target 2 mac tail El2 Hdh Hsh Hs Hd Lc Ht Hm)
    as (F1 & F2 & F3 & F4 & F5 & F6 & F7).
  set (m := l2 ++ the_ip src dst ++ nd_icmp 136 ck target 2 mac) in *.
  assert (Lm : length m = (length l2 + 72)%nat).
  { unfold m, the_ip. rewrite !app_length, Li. destruct Hs as [-> _]. destruct Hd as [-> _].
    cbn [length net16]. lia. }
  unfold ofp_icmp6_input. cbv zeta.
  assert (T1 : (Z.of_nat (length m) <? Z.of_nat 40 + 8) = false) by lia. rewrite T1.
  assert (T2 : u32 (Z.of_nat (length m) - Z.of_nat (length l2) - Z.of_nat 40) = 32).
  { rewrite Lm. unfold u32. rewrite Z.mod_small; lia. }
  rewrite T2. change (32 <? 8) with false. cbv iota. change (Z.of_nat 40) with 40. rewrite C, obind_Ret.
  change (negb (0 =? 0)) with false. cbv iota. rewrite F3, obind_Ret, F4, obind_Ret.
  change (136 =? 135) with false. change (136 =? 136) with true. change (negb (0 =? 0)) with false.
  change (32 <? 24) with false. cbv iota.
  unfold ofp_nd6_na_input. rewrite F6, obind_Ret. change (2 =? 2) with true. cbv iota.
  rewrite F5, obind_Ret, F1. reflexivity.
Qed.

Lemma linklocal_spec a : is_linklocal a = true -> nth 0 a 0 = 0xfe /\ Z.land (nth 1 a 0) 0xc0 = 0x80.
Proof. unfold is_linklocal. rewrite andb_true_iff. lia. Qed.

(* C108: address resolution between two hosts A and B (of any byte order): the solicitation A
   sends for B's address makes B learn A's MAC (unless A used a link-local address) and answer,
   and the answer makes A learn B's MAC.  [tail] is whatever lies in the buffers behind the
   frames. *)
Theorem nd_exchange_resolves : forall beA armA beB armB fuelA fuelB aA aB aA' aB' A B tailA tailB,
  dev_ok A -> dev_ok B -> scope_free (d_ip6 A) -> scope_free (d_ip6 B) ->
  d_ip6 A <> ip6_any -> (0 < fuelA)%nat -> (0 < fuelB)%nat ->
  let l3 d := if d_vlan d =? 0 then 14%nat else 18%nat in
  exists ns na learnt,
    ofp_nd6_ns_output beA armA aA A ip6_any (d_ip6 B) = Ret ns /\
    ofp_icmp6_input beB armB fuelB aB aB' B ns tailB (l3 A) 40 = Ret (NdProcessed, learnt ++ [Sent na]) /\
    ofp_icmp6_input beA armA fuelA aA aA' A na tailA (l3 B) 40 =
      Ret (NdContinue, [AddRoute6 (d_ip6 B); AddMac6 (d_ip6 B) (d_mac B)]) /\
    (~ (nth 0 (d_ip6 A) 0 = 0xfe /\ Z.land (nth 1 (d_ip6 A) 0) 0xc0 = 0x80) ->
     learnt = [AddRoute6 (d_ip6 A); AddMac6 (d_ip6 A) (d_mac A)]).
Proof.
  intros beA armA beB armB fuelA fuelB aA aB aA' aB' A B tailA tailB
    (VA & MA & IA) (VB & MB & IB) SA SB NA FA FB l3.
  assert (L3 : forall d dh, bytes_n 6 dh -> bytes_n 6 (d_mac d) ->
    l3 d = length (l2_header (d_vlan d) dh (d_mac d))).
  { intros d dh [L1 _] [L2 _]. unfold l3, l2_header. rewrite !app_length, L1, L2.
    destruct (d_vlan d =? 0); reflexivity. }
  assert (Bff : bytes_n 6 (repeat 0xff 6)) by (split; [reflexivity|cbn [repeat]; bok; unfold is_byte; lia]).
  assert (Hso := solicited_ok (d_ip6 B) IB).
  assert (Fso : scope_free (solicited_node (d_ip6 B))) by (unfold scope_free, solicited_node; cbn [nth app]; lia).
  set (l2a := l2_header (d_vlan A) (repeat 0xff 6) (d_mac A)).
  set (l2b := l2_header (d_vlan B) (d_mac A) (d_mac B)).
  destruct (nd_packet_ok beA armA aA l2a (d_ip6 A) (solicited_node (d_ip6 B)) 135 (d_ip6 B) 1 (d_mac A)
    IA Hso IB MA ltac:(unfold is_byte; lia) ltac:(unfold is_byte; lia)) as (ck & E1 & Lc & Bc & R1).
  destruct (nd_packet_ok beB armB aB' l2b (d_ip6 B) (d_ip6 A) 136 (d_ip6 B) 2 (d_mac B)
    IB IA IB MB ltac:(unfold is_byte; lia) ltac:(unfold is_byte; lia)) as (ck' & E2 & Lc' & Bc' & R2).
  destruct (l2_header_ok (d_vlan A) (repeat 0xff 6) (d_mac A) VA Bff MA) as (x & X1 & X2 & X3).
  destruct (l2_header_ok (d_vlan B) (d_mac A) (d_mac B) VB MA MB) as (y & Y1 & Y2 & Y3).
  fold l2a in X1, X2, X3. fold l2b in Y1, Y2, Y3.
  assert (Eset : ip6_is_set (d_ip6 A) = true).
  { destruct (ip6_is_set (d_ip6 A)) eqn:E; [reflexivity|]. exfalso. apply NA.
    apply is_set_any; [apply IA|exact E]. }
  fold (the_ip (d_ip6 A) (solicited_node (d_ip6 B))) in E1. fold (the_ip (d_ip6 B) (d_ip6 A)) in E2.
  eexists. exists (l2b ++ the_ip (d_ip6 B) (d_ip6 A) ++ nd_icmp 136 ck' (d_ip6 B) 2 (d_mac B)).
  exists (if ip6_is_set (d_ip6 A) && negb (is_linklocal (d_ip6 A))
          then [AddRoute6 (d_ip6 A); AddMac6 (d_ip6 A) (d_mac A)] else []).
  split; [|split; [|split]].
  - unfold ofp_nd6_ns_output. cbv zeta. change (ip6_is_set ip6_any) with false. cbv iota.
    fold (solicited_node (d_ip6 B)). rewrite (l2_ok beA A _ VA). fold l2a. exact E1.
  - rewrite (L3 A (repeat 0xff 6) Bff MA). fold l2a.
    rewrite (input_ns beB armB fuelB aB aB' B l2a _ _ x _ _ ck (d_ip6 B) (d_mac A) tailB X1 Bff MA X2 X3
      IA Hso SA Fso Lc Bc IB MA FB R1).
    unfold ofp_nd6_na_output. cbv zeta. rewrite Eset. cbn [negb]. rewrite (l2_ok beB B _ VB). fold l2b.
    rewrite E2. reflexivity.
  - rewrite (L3 B (d_mac A) MA MB). fold l2b.
    apply (input_na beA armA fuelA aA aA' A l2b _ _ y _ _ ck' (d_ip6 B) (d_mac B) tailA Y1 MA MB Y2 Y3
      IB IA SB SA Lc' Bc' IB MB FA R2).
  - intros Hn. rewrite Eset. destruct (is_linklocal (d_ip6 A)) eqn:E; [|reflexivity].
    exfalso. apply Hn. now apply linklocal_spec.
Qed.
Print Assumptions nd_exchange_resolves.

Definition exA : dev := {| d_vlan := 0; d_mac := [2; 0; 0; 0; 0; 1]; d_ip6 := ex_src |}.
Definition exB : dev := {| d_vlan := 5; d_mac := [2; 0; 0; 0; 0; 2];
  d_ip6 := [0x20; 1; 0x0d; 0xb8; 0; 0; 0; 0; 0; 0; 0; 0; 0; 0; 0; 2] |}.
Example nd_exchange_ex :
  dev_ok exA /\ dev_ok exB /\ scope_free (d_ip6 exA) /\ scope_free (d_ip6 exB) /\ d_ip6 exA <> ip6_any.
Proof.
  unfold dev_ok, bytes_n, scope_free. splits; try reflexivity; try (cbn; lia); try discriminate;
    try (cbn [d_mac d_ip6 exA exB ex_src]; unfold ex_src; bok; unfold is_byte; lia).
Qed.

(* C109: nothing is learnt from a message, and nothing is answered, unless it is a solicitation
   or advertisement of code 0, of at least 24 bytes and with a correct checksum.  The message
   is everything in the packet from the ICMPv6 header on. *)
Theorem nd_input_only_verified : forall be arm fuel a0 al d m tail l3 off r e,
  bytes_ok m -> Z.of_nat (length m) <= 262144 -> (l3 + off <= length m)%nat -> (40 <= off)%nat ->
  let src := firstn 16 (skipn (l3 + 8) m) in
  let dst := firstn 16 (skipn (l3 + 24) m) in
  let msg := skipn (l3 + off) m in
  scope_free src -> scope_free dst -> (0 < fuel)%nat ->
  ofp_icmp6_input be arm fuel a0 al d m tail l3 off = Ret (r, e) -> e <> [] ->
  (24 <= length msg)%nat /\ (nth 0 msg 0 = 135 \/ nth 0 msg 0 = 136) /\ nth 1 msg 0 = 0 /\
  rfc1071 (pseudo6 src dst 58 msg) = 0.
Proof.
  intros be arm fuel a0 al d m tail l3 off r e Bm Lm Ho H40 src dst msg Fs Fd Hf E He.
  unfold ofp_icmp6_input in E. cbv zeta in E.
  destruct (Z.of_nat (length m) <? Z.of_nat off + 8) eqn:T0; [exfalso; apply He; injection E; intros; congruence|].
  assert (Lmsg : length msg = (length m - (l3 + off))%nat) by (unfold msg; apply skipn_length).
  assert (Eu : u32 (Z.of_nat (length m) - Z.of_nat l3 - Z.of_nat off) = Z.of_nat (length msg)).
  { rewrite Lmsg. unfold u32. rewrite Z.mod_small; lia. }
  rewrite Eu in E.
  destruct (Z.of_nat (length msg) <? 8) eqn:T1; [exfalso; apply He; injection E; intros; congruence|].
  destruct (in6_cksum_rfc2460_partial be arm fuel {| seg_addr := a0; seg_data := m |} [] []
     (Z.of_nat l3) 58 (Z.of_nat off) (Z.of_nat (length msg))) as (c & Ec & Sc).
  { constructor. } { constructor; [exact Bm|constructor]. } { constructor. }
  { cbn [seg_data]. rewrite Nat2Z.id, skipn_length. lia. } { unfold is_byte; lia. }
  { cbn [seg_data]. rewrite Nat2Z.id. unfold src in Fs. clear - Fs.
    assert (Q : skipn 8 (skipn l3 m) = skipn (l3 + 8) m).
    { revert l3 Fs. intros l3 _. revert l3. induction m as [|x m IH]; intros [|l3]; try reflexivity. apply IH. }
    rewrite Q. exact Fs. }
  { cbn [seg_data]. rewrite Nat2Z.id. unfold dst in Fd. clear - Fd.
    assert (Q : skipn 24 (skipn l3 m) = skipn (l3 + 24) m).
    { revert l3 Fd. intros l3 _. revert l3. induction m as [|x m IH]; intros [|l3]; try reflexivity. apply IH. }
    rewrite Q. exact Fd. }
  { lia. } { lia. } { lia. } { cbn [seg_data]. lia. } { cbn [seg_data]. lia. }
  { left. cbn [seg_data]. lia. } { cbn [length]. lia. } { cbn [length]. lia. }
  cbn [app] in Ec. rewrite Ec in E. rewrite obind_Ret in E.
  destruct (negb (c =? 0)) eqn:T2; [exfalso; apply He; injection E; intros; congruence|].
  assert (c = 0) by lia. subst c.
  assert (R : rfc1071 (pseudo6 src dst 58 msg) = 0).
  { assert (P : rfc1071 (pseudo6 (firstn 16 (skipn 8 (skipn (Z.to_nat (Z.of_nat l3)) m)))
       (firstn 16 (skipn 24 (skipn (Z.to_nat (Z.of_nat l3)) m))) 58
       (firstn (Z.to_nat (Z.of_nat (length msg))) (skipn (Z.to_nat (Z.of_nat l3 + Z.of_nat off))
          (flat (map seg_data (([{| seg_addr := a0; seg_data := m |}]) ++ [])))))) = 0).
    { match type of Sc with _ = net16 ?w => assert (W : w = 0); [|exact W]; generalize dependent w end.
      intros w Sc. assert (Z1 : st16 be 0 = [0; 0]) by (destruct be; reflexivity).
      rewrite Z1 in Sc. unfold net16 in Sc.
      assert (W : 0 = w / 256 /\ 0 = w mod 256) by (split; congruence).
      pose proof (Z.div_mod w 256 ltac:(lia)). lia. }
    rewrite Nat2Z.id in P. rewrite Nat2Z.id in P.
    replace (Z.to_nat (Z.of_nat l3 + Z.of_nat off)) with (l3 + off)%nat in P by lia.
    unfold flat in P. cbn [map app concat seg_data] in P. rewrite app_nil_r in P. fold msg in P.
    rewrite firstn_all in P.
    assert (Q : forall k i (l : list Z), skipn k (skipn i l) = skipn (i + k) l).
    { clear. intros k i l. revert i. induction l as [|x l IH]; intros [|i]; try reflexivity.
      - rewrite skipn_nil. now rewrite !skipn_nil.
      - apply IH. }
    rewrite !Q in P. exact P. }
  assert (Rd : forall k, (k < length msg)%nat -> ld8 (m ++ tail) (l3 + off + k) = Ret (nth k msg 0)).
  { intros k Hk. unfold ld8. rewrite nth_error_app1 by lia.
    rewrite (nth_error_nth' m 0) by lia. f_equal. unfold msg.
    rewrite <- (firstn_skipn (l3 + off) m) at 1. rewrite app_nth2; rewrite firstn_length_le by lia; [|lia].
    f_equal. lia. }
  replace (l3 + off)%nat with (l3 + off + 0)%nat in E at 1 by lia.
  rewrite (Rd 0%nat) in E by lia. rewrite obind_Ret in E.
  rewrite (Rd 1%nat) in E by lia. rewrite obind_Ret in E.
  destruct (nth 0 msg 0 =? 135) eqn:T3.
  - destruct (negb (nth 1 msg 0 =? 0)) eqn:T4; [exfalso; apply He; injection E; intros; congruence|].
    destruct (Z.of_nat (length msg) <? 24) eqn:T5; [exfalso; apply He; injection E; intros; congruence|].
    splits; try lia; exact R.
  - destruct (nth 0 msg 0 =? 136) eqn:T6; [|exfalso; apply He; injection E; intros; congruence].
    destruct (negb (nth 1 msg 0 =? 0)) eqn:T4; [exfalso; apply He; injection E; intros; congruence|].
    destruct (Z.of_nat (length msg) <? 24) eqn:T5; [exfalso; apply He; injection E; intros; congruence|].
    splits; try lia; exact R.
Qed.
Print Assumptions nd_input_only_verified.

(* a frame carrying a message, with the given hop limit *)
Definition nd_frame (l2 : list Z) (hlim : Z) (src dst msg : list Z) : list Z :=
  l2 ++ ([0x60; 0; 0; 0] ++ net16 (Z.of_nat (length msg)) ++ [58; hlim] ++ src ++ dst) ++ msg.
Definition with_cksum (src dst pre post : list Z) : list Z :=
  pre ++ net16 (rfc1071 (pseudo6 src dst 58 (pre ++ [0; 0] ++ post))) ++ post.

(* C109 is false for the rest of RFC 4861 7.1: a message with hop limit 64, one that crossed a
   router, is learnt from all the same, *)
Theorem nd_hop_limit_refuted :
  let l2 := l2_header 0 (d_mac exB) (d_mac exA) in
  let na := with_cksum (d_ip6 exA) (d_ip6 exB) [136; 0] ([0; 0; 0; 0] ++ d_ip6 exA ++ [2; 1] ++ d_mac exA) in
  ofp_icmp6_input false false 5 0 0 exB (nd_frame l2 64 (d_ip6 exA) (d_ip6 exB) na) [] 14 40
  = Ret (NdContinue, [AddRoute6 (d_ip6 exA); AddMac6 (d_ip6 exA) (d_mac exA)]).
Proof. vm_compute. reflexivity. Qed.
Print Assumptions nd_hop_limit_refuted.

(* a solicitation without the option (duplicate address detection, RFC 4862 5.4.2, never
   carries it) is answered or not depending on a byte BEHIND the packet: reading it with
   nothing behind is undefined, with a 1 there is an answer, with a 0 there is none, so a
   duplicate of B's own address is not noticed. *)
Theorem nd_dad_reads_past_packet_refuted :
  let l2 := l2_header 0 (repeat 0xff 6) (d_mac exA) in
  let dst := solicited_node (d_ip6 exB) in
  let ns := with_cksum ip6_any dst [135; 0] ([0; 0; 0; 0] ++ d_ip6 exB) in
  let m := nd_frame l2 255 ip6_any dst ns in
  ofp_icmp6_input false false 5 0 0 exB m [] 14 40 = UB /\
  ofp_icmp6_input false false 5 0 0 exB m (repeat 0 8) 14 40 = Ret (NdDrop, []) /\
  exists f, ofp_icmp6_input false false 5 0 0 exB m (1 :: repeat 0 7) 14 40 = Ret (NdProcessed, [Sent f]).
Proof.
  cbv zeta. splits; try (vm_compute; reflexivity). eexists. vm_compute. reflexivity.
Qed.
Print Assumptions nd_dad_reads_past_packet_refuted.

(* B answers a solicitation for ANY address with its own MAC, its own or not. *)
Theorem ns_for_foreign_target_answered_refuted : forall be arm fuel a0 aA al A B target tail,
  dev_ok A -> dev_ok B -> scope_free (d_ip6 A) -> d_ip6 A <> ip6_any -> (0 < fuel)%nat ->
  bytes_n 16 target -> d_vlan A = 0 ->
  exists ns learnt na,
    ofp_nd6_ns_output be arm aA A ip6_any target = Ret ns /\
    ofp_icmp6_input be arm fuel a0 al B ns tail 14 40 = Ret (NdProcessed, learnt ++ [Sent na]) /\
    nd_message (length (l2_header (d_vlan B) (d_mac A) (d_mac B))) na 136 target 2 (d_mac B).
Proof.
  intros be arm fuel a0 aA al A B target tail (VA & MA & IA) HB SA NA Hf Ht V0.
  assert (Bff : bytes_n 6 (repeat 0xff 6)) by (split; [reflexivity|cbn [repeat]; bok; unfold is_byte; lia]).
  assert (Hso := solicited_ok target Ht).
  assert (Fso : scope_free (solicited_node target)) by (unfold scope_free, solicited_node; cbn [nth app]; lia).
  set (l2a := l2_header (d_vlan A) (repeat 0xff 6) (d_mac A)).
  destruct (nd_packet_ok be arm aA l2a (d_ip6 A) (solicited_node target) 135 target 1 (d_mac A)
    IA Hso Ht MA ltac:(unfold is_byte; lia) ltac:(unfold is_byte; lia)) as (ck & E1 & Lc & Bc & R1).
  destruct (l2_header_ok (d_vlan A) (repeat 0xff 6) (d_mac A) VA Bff MA) as (x & X1 & X2 & X3).
  fold l2a in X1, X2, X3. fold (the_ip (d_ip6 A) (solicited_node target)) in E1.
  destruct (na_output_wellformed be arm al B (d_ip6 A) target (d_mac A) HB IA Ht MA) as (f & Ef & Mf & _).
  assert (L14 : length l2a = 14%nat).
  { unfold l2a, l2_header. rewrite V0. rewrite !app_length. destruct MA as [-> _]. reflexivity. }
  eexists. exists (if ip6_is_set (d_ip6 A) && negb (is_linklocal (d_ip6 A))
          then [AddRoute6 (d_ip6 A); AddMac6 (d_ip6 A) (d_mac A)] else []). exists f.
  split; [|split].
  - unfold ofp_nd6_ns_output. cbv zeta. change (ip6_is_set ip6_any) with false. cbv iota.
    fold (solicited_node target). rewrite (l2_ok be A _ VA). fold l2a. exact E1.
  - pose proof (input_ns be arm fuel a0 al B l2a _ _ x _ _ ck target (d_mac A) tail X1 Bff MA X2 X3
      IA Hso SA Fso Lc Bc Ht MA Hf R1) as P.
    rewrite L14 in P. rewrite P, Ef. reflexivity.
  - exact Mf.
Qed.
Print Assumptions ns_for_foreign_target_answered_refuted.

(* The MAC stored for an advertised address is the Ethernet source of the frame, never the one
   in the option (RFC 4861 7.2.5 stores the option): an advertisement [mac] relayed with
   Ethernet source [sh] (proxy, bridge) gives [sh]. *)
Theorem na_option_mac_ignored_refuted : forall be arm fuel a0 al d dh sh src dst target mac tail,
  bytes_n 6 dh -> bytes_n 6 sh -> bytes_n 16 src -> bytes_n 16 dst -> scope_free src -> scope_free dst ->
  bytes_n 16 target -> bytes_n 6 mac -> (0 < fuel)%nat -> sh <> mac ->
  exists f, icmp6_frame (l2_header 0 dh sh) f src dst /\ nd_message 14 f 136 target 2 mac /\
    ofp_icmp6_input be arm fuel a0 al d f tail 14 40 = Ret (NdContinue, [AddRoute6 target; AddMac6 target sh]).
Proof.
  intros be arm fuel a0 al d dh sh src dst target mac tail Hdh Hsh Hs Hd Fs Fd Ht Hm Hf _.
  set (l2 := l2_header 0 dh sh).
  destruct (nd_packet_ok be arm al l2 src dst 136 target 2 mac Hs Hd Ht Hm ltac:(unfold is_byte; lia)
    ltac:(unfold is_byte; lia)) as (ck & E1 & Lc & Bc & R1).
  destruct (l2_header_ok 0 dh sh ltac:(lia) Hdh Hsh) as (x & X1 & X2 & X3). fold l2 in X1, X2, X3.
  assert (L14 : length l2 = 14%nat).
  { unfold l2, l2_header. rewrite !app_length. destruct Hdh as [-> _]. destruct Hsh as [-> _]. reflexivity. }
  destruct (frame_ok l2 src dst 136 ck target 2 mac _ Hs Hd Ht Hm Lc R1 eq_refl) as [F M].
  eexists. split; [exact F|]. rewrite L14 in M. split; [exact M|].
  pose proof (input_na be arm fuel a0 al d l2 dh sh x src dst ck target mac tail X1 Hdh Hsh X2 X3
    Hs Hd Fs Fd Lc Bc Ht Hm Hf R1) as P.
  rewrite L14 in P. exact P.
Qed.
Print Assumptions na_option_mac_ignored_refuted.

(* A packet leaving through a gateway: the solicitation asks for the packet's destination, not
   for the gateway, and an on-link host route to the destination is added. *)
Theorem nd_resolve_gateway_refuted : forall be arm al d gw dst,
  dev_ok d -> bytes_n 16 gw -> bytes_n 16 dst -> gw <> ip6_any -> gw <> dst ->
  exists f, nd_resolve be arm al d gw (repeat 0 6) dst = Ret (Some [AddRoute6 dst; Sent f]) /\
    nd_message (length (l2_header (d_vlan d) (repeat 0xff 6) (d_mac d))) f 135 dst 1 (d_mac d) /\
    icmp6_frame (l2_header (d_vlan d) (repeat 0xff 6) (d_mac d)) f (d_ip6 d) gw.
Proof.
  intros be arm al d gw dst Hd Hg Ht Hn _.
  destruct (ns_output_wellformed be arm al d gw dst Hd Hg Ht) as (f & E & M & F & _).
  exists f. unfold nd_resolve. cbn [repeat firstn existsb Z.eqb negb orb]. rewrite E. cbn [obind].
  split; [reflexivity|]. split; [exact M|exact (F Hn)].
Qed.
Print Assumptions nd_resolve_gateway_refuted.

(* an on-link destination (no gateway) is asked for at its solicited-node group *)
Theorem nd_resolve_onlink : forall be arm al d dst mac,
  dev_ok d -> bytes_n 16 dst -> length mac = 6%nat ->
  (mac = repeat 0 6 ->
   exists f, nd_resolve be arm al d ip6_any mac dst = Ret (Some [AddRoute6 dst; Sent f]) /\
    nd_message (length (l2_header (d_vlan d) (repeat 0xff 6) (d_mac d))) f 135 dst 1 (d_mac d) /\
    icmp6_frame (l2_header (d_vlan d) (repeat 0xff 6) (d_mac d)) f (d_ip6 d) (solicited_node dst)) /\
  (mac <> repeat 0 6 -> nd_resolve be arm al d ip6_any mac dst = Ret None).
Proof.
  intros be arm al d dst mac Hd Ht Lm.
  assert (Hany : bytes_n 16 ip6_any) by (split; [reflexivity|unfold ip6_any; cbn [repeat]; bok; unfold is_byte; lia]).
  destruct (ns_output_wellformed be arm al d ip6_any dst Hd Hany Ht) as (f & E & M & _ & F).
  split.
  - intros ->. exists f. unfold nd_resolve. cbn [repeat firstn existsb Z.eqb negb orb]. rewrite E. cbn [obind].
    split; [reflexivity|]. split; [exact M|exact (F eq_refl)].
  - intros Hn. unfold nd_resolve.
    destruct mac as [|m0 [|m1 [|m2 [|m3 [|m4 [|m5 [|? ?]]]]]]]; try discriminate.
    cbn [firstn existsb].
    destruct (m0 =? 0) eqn:A0, (m1 =? 0) eqn:A1, (m2 =? 0) eqn:A2, (m3 =? 0) eqn:A3, (m4 =? 0) eqn:A4, (m5 =? 0) eqn:A5;
      cbn [negb orb]; try reflexivity.
    exfalso. apply Hn. cbn [repeat]. repeat f_equal; lia.
Qed.
Print Assumptions nd_resolve_onlink.
