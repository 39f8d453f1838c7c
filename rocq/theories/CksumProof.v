From Verif Require Import Base CksumModel CksumSpec.

Ltac splits := repeat match goal with |- _ /\ _ => split end.
Ltac bok := repeat (first [assumption | apply Forall_nil | apply Forall_cons]).

Definition cong (a b : Z) : Prop := exists k, a = b + 65535 * k.
Lemma cong_refl a : cong a a. Proof. exists 0; lia. Qed.
Lemma cong_sym a b : cong a b -> cong b a. Proof. intros [k H]; exists (-k); lia. Qed.
Lemma cong_trans a b c : cong a b -> cong b c -> cong a c.
Proof. intros [k H] [j J]; exists (k + j); lia. Qed.
Lemma cong_add a b c d : cong a b -> cong c d -> cong (a + c) (b + d).
Proof. intros [k H] [j J]; exists (k + j); lia. Qed.
Lemma cong_mul c a b : cong a b -> cong (c * a) (c * b).
Proof. intros [k H]; exists (c * k); subst; ring. Qed.

Lemma ones_unique r s :
  0 <= r <= 65535 -> 0 <= s <= 65535 -> cong r s -> (r = 0 <-> s = 0) -> r = s.
Proof. intros Hr Hs [k H] Hz. assert (k = 0 \/ k = 1 \/ k = -1) by lia. lia. Qed.

(* alternating weighted byte sum *)
Fixpoint wsum (a b : Z) (l : list Z) : Z :=
  match l with [] => 0 | x :: t => a * x + wsum b a t end.

Lemma wsum_app a b l1 l2 : Nat.even (length l1) = true ->
  wsum a b (l1 ++ l2) = wsum a b l1 + wsum a b l2.
Proof.
  revert a b. induction l1 as [l1 IH] using (well_founded_ind
    (Wf_nat.well_founded_ltof _ (@length Z))); intros a b He.
  destruct l1 as [|x [|y t]]; [reflexivity|discriminate|].
  cbn [app wsum]. rewrite IH; [lia| unfold Wf_nat.ltof; cbn; lia | exact He].
Qed.

Lemma wsum_app_odd a b l1 l2 : Nat.even (length l1) = false ->
  wsum a b (l1 ++ l2) = wsum a b l1 + wsum b a l2.
Proof.
  intros He. destruct l1 as [|x t]; [discriminate|].
  cbn [app wsum]. rewrite wsum_app; [lia|].
  cbn [length] in He. rewrite Nat.even_succ in He. rewrite <- Nat.negb_odd, He. reflexivity.
Qed.

Lemma wsum_nonneg a b l : 0 <= a -> 0 <= b -> bytes_ok l -> 0 <= wsum a b l.
Proof.
  revert a b; induction l as [|x t IH]; intros a b Ha Hb Hl; cbn; [lia|].
  inversion Hl as [|? ? Hx Ht]; subst. specialize (IH b a Hb Ha Ht).
  unfold is_byte in Hx. nia.
Qed.

Lemma wsum_zero_iff a b l : 0 < a -> 0 < b -> bytes_ok l ->
  (wsum a b l = 0 <-> Forall (fun x => x = 0) l).
Proof.
  revert a b; induction l as [|x t IH]; intros a b Ha Hb Hl; cbn.
  - split; auto.
  - inversion Hl as [|? ? Hx Ht]; subst. unfold is_byte in Hx.
    assert (Hn := wsum_nonneg b a t (Z.lt_le_incl _ _ Hb) (Z.lt_le_incl _ _ Ha) Ht).
    specialize (IH b a Hb Ha Ht). split.
    + intros H. assert (x = 0) by nia. constructor; [assumption|]. apply IH. nia.
    + intros H. inversion H; subst. apply IH in H3. nia.
Qed.

Lemma wsum_swap l : cong (256 * wsum 256 1 l) (wsum 1 256 l).
Proof.
  enough (cong (256 * wsum 256 1 l) (wsum 1 256 l) /\ cong (256 * wsum 1 256 l) (wsum 256 1 l))
    by tauto.
  induction l as [|x t IH]; cbn [wsum]; [split; apply cong_refl|].
  destruct IH as [[k1 H1] [k2 H2]]. split.
  - exists (x + k2). lia.
  - exists k1. lia.
Qed.

Lemma bytes_ok_app l1 l2 : bytes_ok (l1 ++ l2) <-> bytes_ok l1 /\ bytes_ok l2.
Proof. apply Forall_app. Qed.

(* ---------- RFC side ---------- *)
Lemma ones_fold ws : forall acc, 0 <= acc <= 65535 -> Forall (fun w => 0 <= w <= 65535) ws ->
  let r := fold_left ones_add ws acc in
  0 <= r <= 65535 /\ cong r (acc + fold_right Z.add 0 ws) /\
  (r = 0 <-> acc + fold_right Z.add 0 ws = 0).
Proof.
  induction ws as [|w ws IH]; intros acc Ha Hw; cbn.
  - repeat split; try lia. rewrite Z.add_0_r. apply cong_refl.
  - inversion Hw as [|? ? Hw1 Hw2]; subst.
    assert (Hs : 0 <= ones_add acc w <= 65535 /\ cong (ones_add acc w) (acc + w) /\
                 (ones_add acc w = 0 <-> acc + w = 0)).
    { unfold ones_add. destruct (acc + w >? 65535) eqn:E.
      - repeat split; try lia. exists (-1); lia.
      - repeat split; try lia. apply cong_refl. }
    destruct Hs as (Hs1 & Hs2 & Hs3). specialize (IH (ones_add acc w) Hs1 Hw2).
    cbn in IH. destruct IH as (I1 & I2 & I3). split; [exact I1|].
    assert (Hr : 0 <= fold_right Z.add 0 ws).
    { clear - Hw2. induction Hw2; cbn; lia. }
    split.
    + eapply cong_trans; [exact I2|]. rewrite Z.add_assoc. apply cong_add; [exact Hs2|apply cong_refl].
    + rewrite I3. lia.
Qed.

Lemma be_words_sum l : bytes_ok l ->
  Forall (fun w => 0 <= w <= 65535) (be_words l) /\
  fold_right Z.add 0 (be_words l) = wsum 256 1 l.
Proof.
  induction l as [l IH] using (well_founded_ind
    (Wf_nat.well_founded_ltof _ (@length Z))); intros Hb.
  destruct l as [|x [|y t]].
  - split; [constructor|reflexivity].
  - inversion Hb as [|? ? Hx Hb']; subst. unfold is_byte in Hx. split; [repeat constructor; lia|]. cbn [be_words fold_right wsum]. lia.
  - inversion Hb as [|? ? Hx Hb']; subst. inversion Hb' as [|? ? Hy Ht]; subst.
    unfold is_byte in *.
    destruct (IH t) as [I1 I2]; [unfold Wf_nat.ltof; cbn; lia|exact Ht|].
    split; cbn [be_words].
    + constructor; [lia|exact I1].
    + cbn [fold_right wsum]. rewrite I2. lia.
Qed.

Lemma rfc_sum_char l : bytes_ok l ->
  0 <= rfc1071_sum l <= 65535 /\ cong (rfc1071_sum l) (wsum 256 1 l) /\
  (rfc1071_sum l = 0 <-> wsum 256 1 l = 0).
Proof.
  intros Hb. destruct (be_words_sum l Hb) as [H1 H2].
  assert (H := ones_fold (be_words l) 0 ltac:(lia) H1). cbn in H. rewrite H2 in H.
  exact H.
Qed.

(* ---------- fold ---------- *)
Definition FOLDMAX : Z := 281479271677950.   (* 2^48 + 2^32 - 2 *)

Lemma fold_char s : 0 <= s <= FOLDMAX ->
  0 <= ofp_cksum_fold s <= 65535 /\ cong (ofp_cksum_fold s) s /\
  (ofp_cksum_fold s = 0 <-> s = 0).
Proof.
  intros Hs. unfold ofp_cksum_fold, FOLDMAX in *.
  cbv zeta.
  assert (L32 : forall x, Z.land x 4294967295 = x mod 4294967296)
    by (intros x; change 4294967295 with (Z.ones 32); rewrite Z.land_ones by lia; reflexivity).
  assert (L16 : forall x, Z.land x 65535 = x mod 65536)
    by (intros x; change 65535 with (Z.ones 16); rewrite Z.land_ones by lia; reflexivity).
  rewrite !L32, !L16. clear L32 L16. rewrite !Z.shiftr_div_pow2 by lia.
  change (2 ^ 32) with 4294967296. change (2 ^ 16) with 65536.
  assert (H1 : 0 <= s / 4294967296 <= 65537) by lia.
  set (hi := s / 4294967296) in *. set (lo := s mod 4294967296).
  assert (Hlo : 0 <= lo < 4294967296) by (unfold lo; lia).
  assert (Hsplit : s = 4294967296 * hi + lo) by (unfold hi, lo; lia).
  assert (Hx : hi <= 65535 \/ (hi = 65536 /\ lo <= 4294967294)) by lia.
  clearbody hi lo.
  assert (E1 : u64 (hi + lo) = hi + lo) by (unfold u64; apply Z.mod_small; lia).
  rewrite E1. set (S1 := hi + lo) in *.
  assert (HS1 : 0 <= S1 <= 4294967296 + 65534) by (unfold S1; lia).
  assert (C1 : exists k, S1 = s + 65535 * k) by (exists (- 65537 * hi); unfold S1; lia).
  assert (Z1 : S1 = 0 <-> s = 0) by (unfold S1; lia).
  clearbody S1. clear Hsplit Hx Hlo H1 E1 hi lo.
  set (h2 := S1 / 65536). set (l2 := S1 mod 65536).
  assert (Hl2 : 0 <= l2 < 65536) by (unfold l2; lia).
  assert (Hs2 : S1 = 65536 * h2 + l2) by (unfold h2, l2; lia).
  clearbody h2 l2.
  assert (E2 : u64 (h2 + l2) = h2 + l2) by (unfold u64; apply Z.mod_small; lia).
  rewrite E2. clear E2. set (S2 := h2 + l2) in *.
  assert (HS2 : 0 <= S2 <= 131070) by (unfold S2; lia).
  destruct C1 as [k1 C1].
  assert (C2 : exists k, S2 = s + 65535 * k) by (exists (k1 - h2); unfold S2; lia).
  assert (Z2 : S2 = 0 <-> s = 0) by (unfold S2; lia).
  clearbody S2. destruct C2 as [k2 C2].
  assert (HD : S2 / 65536 = 0 \/ S2 / 65536 = 1) by lia.
  unfold u16.
  destruct HD as [HD|HD]; rewrite HD.
  - rewrite Z.mod_small by lia. split; [lia|]. split; [exists k2; lia|lia].
  - replace ((S2 + 1) mod 65536) with (S2 - 65535) by lia.
    split; [lia|]. split; [exists (k2 - 1); lia|lia].
Qed.

Lemma u16_lnot r : 0 <= r <= 65535 -> u16 (Z.lnot r) = 65535 - r.
Proof. intros H. unfold u16, Z.lnot. lia. Qed.

(* ---------- code side ---------- *)
Definition wt0 (be : bool) : Z := if be then 256 else 1.
Definition wt1 (be : bool) : Z := if be then 1 else 256.

Lemma ld8_app l x r : ld8 (l ++ x :: r) (length l) = Ret x.
Proof. unfold ld8. now rewrite nth_error_app2, Nat.sub_diag by lia. Qed.

Lemma nth_error_app_S (l : list Z) x y r : nth_error (l ++ x :: y :: r) (S (length l)) = Some y.
Proof.
  rewrite nth_error_app2 by lia. replace (S (length l) - length l)%nat with 1%nat by lia. reflexivity.
Qed.
Lemma nth_error_app_0 (l : list Z) x r : nth_error (l ++ x :: r) (length l) = Some x.
Proof. now rewrite nth_error_app2, Nat.sub_diag by lia. Qed.

Lemma ld16_app be l x y r :
  ld16 be (l ++ x :: y :: r) (length l) = Ret (wt0 be * x + wt1 be * y).
Proof.
  unfold ld16. rewrite nth_error_app_0, nth_error_app_S. destruct be; cbn [wt0 wt1]; f_equal; lia.
Qed.

Definition dw (be : bool) (c : list Z) : Z :=
  match c with
  | [x; y; z; w] => if be then (x*256+y)*65536 + (z*256+w) else (x+y*256) + (z+w*256)*65536
  | _ => 0
  end.

Lemma ld32_app be l x y z w r :
  ld32 be (l ++ x :: y :: z :: w :: r) (length l) = Ret (dw be [x;y;z;w]).
Proof.
  unfold ld32. rewrite ld16_app. cbn [obind].
  replace (l ++ x :: y :: z :: w :: r) with ((l ++ [x;y]) ++ z :: w :: r)
    by (rewrite <- app_assoc; reflexivity).
  replace (S (S (length l))) with (length (l ++ [x;y])) by (rewrite app_length; cbn; lia).
  rewrite ld16_app. cbn [obind]. unfold dw. destruct be; cbn [wt0 wt1]; f_equal; lia.
Qed.

Lemma dw_char be x y z w : is_byte x -> is_byte y -> is_byte z -> is_byte w ->
  0 <= dw be [x;y;z;w] <= 4294967295 /\
  cong (dw be [x;y;z;w]) (wsum (wt0 be) (wt1 be) [x;y;z;w]) /\
  (dw be [x;y;z;w] = 0 <-> wsum (wt0 be) (wt1 be) [x;y;z;w] = 0).
Proof.
  unfold is_byte. intros. destruct be; cbn [dw wsum wt0 wt1].
  - split; [lia|]. split; [|lia]. exists (x*256+y). lia.
  - split; [lia|]. split; [|lia]. exists (z+w*256). lia.
Qed.

(* accumulator invariant: l has been consumed, sum accounts for it, sum <= B *)
Definition Acc (be : bool) (l : list Z) (sum B : Z) : Prop :=
  0 <= sum <= B /\ cong sum (wsum (wt0 be) (wt1 be) l) /\
  (sum = 0 <-> wsum (wt0 be) (wt1 be) l = 0).

Lemma wt_pos be : 0 < wt0 be /\ 0 < wt1 be.
Proof. destruct be; unfold wt0, wt1; lia. Qed.

Lemma Acc_nil be : Acc be [] 0 0.
Proof. repeat split; cbn; try lia. apply cong_refl. Qed.

Lemma Acc_step be l c sum B d D :
  Nat.even (length l) = true -> bytes_ok l -> bytes_ok c ->
  Acc be l sum B -> 0 <= d <= D -> cong d (wsum (wt0 be) (wt1 be) c) ->
  (d = 0 <-> wsum (wt0 be) (wt1 be) c = 0) ->
  Acc be (l ++ c) (sum + d) (B + D).
Proof.
  intros He Hl Hc (A1 & A2 & A3) Hd C1 C2. unfold Acc. rewrite wsum_app by exact He.
  destruct (wt_pos be) as [P0 P1].
  assert (N1 := wsum_nonneg (wt0 be) (wt1 be) l ltac:(lia) ltac:(lia) Hl).
  assert (N2 := wsum_nonneg (wt0 be) (wt1 be) c ltac:(lia) ltac:(lia) Hc).
  split; [lia|]. split; [apply cong_add; assumption|]. lia.
Qed.

Lemma Acc_mono be l sum B B' : Acc be l sum B -> B <= B' -> Acc be l sum B'.
Proof. intros (A & A') H. split; [lia|exact A']. Qed.

Lemma Acc_word be l x y sum B :
  Nat.even (length l) = true -> bytes_ok l -> is_byte x -> is_byte y ->
  Acc be l sum B ->
  Acc be (l ++ [x;y]) (sum + (wt0 be * x + wt1 be * y)) (B + 65535).
Proof.
  intros He Hl Hx Hy HA. unfold is_byte in *.
  eapply Acc_step; eauto.
  - repeat constructor; lia.
  - destruct be; unfold wt0, wt1; lia.
  - cbn [wsum]. exists 0. lia.
  - cbn [wsum]. lia.
Qed.

Lemma even_app4 (l : list Z) c : Nat.even (length l) = true -> Nat.even (length c) = true ->
  Nat.even (length (l ++ c)) = true.
Proof. intros H1 H2. rewrite app_length, Nat.even_add, H1, H2. reflexivity. Qed.

Definition D32 : Z := 4294967295.

Lemma firstn_skipn4 (c : list Z) : (4 <= length c)%nat ->
  exists x y z w t, c = x :: y :: z :: w :: t.
Proof.
  destruct c as [|x [|y [|z [|w t]]]]; cbn; intros; try lia. now exists x, y, z, w, t.
Qed.

Lemma add_dwords_ok be n : forall l c r sum B,
  length c = (4 * n)%nat -> Nat.even (length l) = true ->
  bytes_ok l -> bytes_ok c ->
  Acc be l sum B -> B + Z.of_nat n * D32 < 18446744073709551616 ->
  exists sum', add_dwords be (l ++ c ++ r) n (length l) sum = Ret (length (l ++ c), sum') /\
    Acc be (l ++ c) sum' (B + Z.of_nat n * D32).
Proof.
  induction n as [|n IH]; intros l c r sum B Hc He Hl Hcb HA HB.
  - destruct c; [|cbn in Hc; lia]. exists sum. cbn [add_dwords app].
    rewrite app_nil_r. split; [reflexivity|]. eapply Acc_mono; [exact HA|lia].
  - destruct (firstn_skipn4 c ltac:(lia)) as (x & y & z & w & t & ->).
    cbn [length] in Hc.
    inversion Hcb as [|? ? Hx Hcb1]; subst. inversion Hcb1 as [|? ? Hy Hcb2]; subst.
    inversion Hcb2 as [|? ? Hz Hcb3]; subst. inversion Hcb3 as [|? ? Hw Ht]; subst.
    cbn [add_dwords]. change ((x :: y :: z :: w :: t) ++ r) with (x :: y :: z :: w :: (t ++ r)).
    rewrite ld32_app. cbn [obind].
    destruct (dw_char be x y z w Hx Hy Hz Hw) as (Dr & Dc & Dz).
    assert (H4 : bytes_ok [x;y;z;w]) by (bok).
    assert (HA' : Acc be (l ++ [x;y;z;w]) (sum + dw be [x;y;z;w]) (B + D32)).
    { eapply Acc_step; eauto. }
    assert (Eu : u64 (sum + dw be [x;y;z;w]) = sum + dw be [x;y;z;w]).
    { unfold u64. apply Z.mod_small. destruct HA as (HA1 & _). unfold D32 in *. lia. }
    rewrite Eu.
    replace (l ++ x :: y :: z :: w :: t ++ r) with ((l ++ [x;y;z;w]) ++ t ++ r)
      by (rewrite <- app_assoc; reflexivity).
    replace (length l + 4)%nat with (length (l ++ [x;y;z;w])) by (rewrite app_length; cbn; lia).
    destruct (IH (l ++ [x;y;z;w]) t r (sum + dw be [x;y;z;w]) (B + D32)) as (s' & E & A').
    + lia.
    + apply even_app4; [exact He|reflexivity].
    + apply bytes_ok_app; split; assumption.
    + exact Ht.
    + exact HA'.
    + unfold D32 in *. lia.
    + exists s'. rewrite E. replace (l ++ x :: y :: z :: w :: t) with ((l ++ [x;y;z;w]) ++ t)
        by (rewrite <- app_assoc; reflexivity).
      split; [reflexivity|]. eapply Acc_mono; [exact A'|unfold D32; lia].
Qed.

Lemma split_at (n : nat) (l : list Z) : (n <= length l)%nat ->
  exists a b, l = a ++ b /\ length a = n.
Proof.
  intros H. exists (firstn n l), (skipn n l). rewrite firstn_skipn. split; [reflexivity|].
  apply firstn_length_le; exact H.
Qed.

Lemma loop32_ok be fuel : forall l c r sum B nleft,
  nleft = Z.of_nat (length c) -> (fuel = Z.to_nat (nleft / 32)) ->
  Nat.even (length l) = true -> bytes_ok l -> bytes_ok c ->
  Acc be l sum B -> B + (nleft / 32) * 8 * D32 < 18446744073709551616 ->
  exists c1 c2 sum', c = c1 ++ c2 /\ Nat.even (length c1) = true /\ (length c2 < 32)%nat /\
    Z.of_nat (length c1) = nleft / 32 * 32 /\
    cksum_loop32 be (l ++ c ++ r) fuel (length l) nleft sum =
      Ret (length (l ++ c1), Z.of_nat (length c2), sum') /\
    Acc be (l ++ c1) sum' (B + (nleft / 32) * 8 * D32).
Proof.
  induction fuel as [|fuel IH]; intros l c r sum B nleft Hn Hf He Hl Hc HA HB.
  - exists [], c, sum. cbn [cksum_loop32 app].
    destruct (nleft >=? 32) eqn:E; [lia|].
    splits; auto; try lia.
    + cbn. lia.
    + rewrite app_nil_r. rewrite Hn. reflexivity.
    + rewrite app_nil_r. eapply Acc_mono; [exact HA|unfold D32; lia].
  - assert (H32 : 32 <= nleft) by lia. cbn [cksum_loop32].
    destruct (nleft >=? 32) eqn:E; [|lia].
    destruct (split_at 32 c ltac:(lia)) as (a & b & -> & Ha).
    apply bytes_ok_app in Hc. destruct Hc as [Hca Hcb]. rewrite app_length in Hn.
    assert (Hdiv : nleft / 32 = (nleft - 32) / 32 + 1).
    { replace nleft with ((nleft - 32) + 1 * 32) at 1 by lia. rewrite Z.div_add by lia. reflexivity. }
    rewrite Hdiv in *.
    rewrite <- app_assoc.
    destruct (add_dwords_ok be 8 l a (b ++ r) sum B) as (s' & E1 & A1); auto; try lia.
    { unfold D32 in *. lia. }
    rewrite E1. cbn [obind].
    destruct (IH (l ++ a) b r s' (B + Z.of_nat 8 * D32) (nleft - 32))
      as (c1 & c2 & s'' & -> & Q1 & Q2 & Q2' & Q3 & Q4); auto; try lia.
    { apply even_app4; [exact He|rewrite Ha; reflexivity]. }
    { apply bytes_ok_app; split; assumption. }
    exists (a ++ c1), c2, s''. rewrite !app_assoc. rewrite <- !app_assoc in *.
    splits; auto.
    + apply even_app4; [rewrite Ha; reflexivity|exact Q1].
    + rewrite app_length. lia.
    + eapply Acc_mono; [exact Q4|lia].
Qed.

Lemma obind_ret {A B} (a : A) (f : A -> outcome B) : obind (Ret a) f = f a.
Proof. reflexivity. Qed.

Definition MAXLEN : Z := 262144.

(* main lemma: the folded sum of the whole buffer *)
Definition GoodSum (be : bool) (data : list Z) (c : Z) : Prop :=
  exists s, c = 65535 - s /\ 0 <= s <= 65535 /\
    cong s (wsum (wt0 be) (wt1 be) data) /\ (s = 0 <-> wsum (wt0 be) (wt1 be) data = 0).

Lemma Acc_good be l s B : Acc be l s B -> B <= FOLDMAX ->
  GoodSum be l (u16 (Z.lnot (ofp_cksum_fold s))).
Proof.
  intros (A1 & A2 & A3) HB. assert (F := fold_char s ltac:(lia)). destruct F as (F1 & F2 & F3).
  exists (ofp_cksum_fold s). split; [apply u16_lnot; lia|]. split; [lia|].
  split; [eapply cong_trans; eassumption|]. tauto.
Qed.

Lemma cksum_buffer_good be arm al data rest :
  bytes_ok data -> Z.of_nat (length data) <= MAXLEN ->
  exists c, ofp_cksum_buffer be arm al (data ++ rest) (Z.of_nat (length data)) = Ret c /\
            GoodSum be data c.
Proof.
  intros Hb HL. unfold MAXLEN in HL. unfold ofp_cksum_buffer.
  (* first optional halfword *)
  assert (S1 : exists l1 r1 i1 n1 s1, data = l1 ++ r1 /\
     (if negb (Z.land al 2 =? 0) && (Z.of_nat (length data) >=? 2)
      then obind (ld16 be (data ++ rest) 0) (fun w => Ret (2%nat, Z.of_nat (length data) - 2, u64 (0 + w)))
      else Ret (0%nat, Z.of_nat (length data), 0)) = Ret (i1, n1, s1) /\
     i1 = length l1 /\ n1 = Z.of_nat (length r1) /\ Nat.even (length l1) = true /\
     (length l1 <= 2)%nat /\ Acc be l1 s1 65535).
  { destruct (negb (Z.land al 2 =? 0) && (Z.of_nat (length data) >=? 2)) eqn:E.
    - destruct data as [|x [|y t]]; [cbn in E; rewrite andb_false_r in E; discriminate|cbn in E; rewrite andb_false_r in E; discriminate|].
      exists [x;y], t, 2%nat, (Z.of_nat (length (x::y::t)) - 2), (u64 (0 + (wt0 be * x + wt1 be * y))).
      assert (E16 := ld16_app be [] x y (t ++ rest)). cbn [app length] in E16.
      cbn [app]. rewrite E16. cbn [obind].
      inversion Hb as [|? ? Hx Hb1]; subst. inversion Hb1 as [|? ? Hy Ht]; subst.
      splits; auto; try (cbn [length]; lia).
      assert (HA := Acc_word be [] x y 0 0 eq_refl (Forall_nil _) Hx Hy (Acc_nil be)).
      assert (Eu : u64 (0 + (wt0 be * x + wt1 be * y)) = 0 + (wt0 be * x + wt1 be * y))
        by (unfold u64; apply Z.mod_small; destruct HA as (HA & _); lia).
      rewrite Eu. exact HA.
    - exists [], data, 0%nat, (Z.of_nat (length data)), 0. splits; auto.
      eapply Acc_mono; [apply Acc_nil|lia]. }
  destruct S1 as (l1 & r1 & i1 & n1 & s1 & -> & E1 & -> & -> & Ev1 & L1 & A1).
  rewrite E1. cbn [obind]. clear E1.
  apply bytes_ok_app in Hb. destruct Hb as [Hl1 Hr1]. rewrite app_length in HL.
  (* optional ARM dword *)
  assert (S2 : exists l2 r2 i2 n2 s2, r1 = l2 ++ r2 /\
     (if arm && negb (Z.land (al + Z.of_nat (length l1)) 4 =? 0) && (Z.of_nat (length r1) >=? 4)
      then obind (ld32 be ((l1 ++ r1) ++ rest) (length l1)) (fun d => Ret ((length l1 + 4)%nat, Z.of_nat (length r1) - 4, u64 (s1 + d)))
      else Ret (length l1, Z.of_nat (length r1), s1)) = Ret (i2, n2, s2) /\
     i2 = length (l1 ++ l2) /\ n2 = Z.of_nat (length r2) /\ Nat.even (length l2) = true /\
     (length l2 = 0 \/ length l2 = 4)%nat /\ Acc be (l1 ++ l2) s2 (65535 + (Z.of_nat (length l2) / 4) * D32)).
  { destruct (arm && negb (Z.land (al + Z.of_nat (length l1)) 4 =? 0) && (Z.of_nat (length r1) >=? 4)) eqn:E.
    - assert (H4 : (4 <= length r1)%nat) by lia.
      destruct (firstn_skipn4 r1 H4) as (x & y & z & w & t & ->).
      assert (Hx4 : bytes_ok [x;y;z;w] /\ bytes_ok t).
      { change (x :: y :: z :: w :: t) with ([x;y;z;w] ++ t) in Hr1. now apply bytes_ok_app in Hr1. }
      destruct Hx4 as [Hx4 Ht].
      inversion Hx4 as [|? ? Hx Hcb1]; subst. inversion Hcb1 as [|? ? Hy Hcb2]; subst.
      inversion Hcb2 as [|? ? Hz Hcb3]; subst. inversion Hcb3 as [|? ? Hw _]; subst.
      destruct (dw_char be x y z w Hx Hy Hz Hw) as (Dr & Dc & Dz).
      assert (HA : Acc be (l1 ++ [x;y;z;w]) (s1 + dw be [x;y;z;w]) (65535 + D32))
        by (eapply Acc_step; eauto).
      exists [x;y;z;w], t, (length l1 + 4)%nat, (Z.of_nat (length (x::y::z::w::t)) - 4), (u64 (s1 + dw be [x;y;z;w])).
      rewrite <- app_assoc. change ((x :: y :: z :: w :: t) ++ rest) with (x :: y :: z :: w :: (t ++ rest)).
      rewrite ld32_app. cbn [obind].
      assert (Eu : u64 (s1 + dw be [x;y;z;w]) = s1 + dw be [x;y;z;w]).
      { unfold u64. apply Z.mod_small. destruct HA as (HA & _). unfold D32 in HA. lia. }
      rewrite Eu. splits; auto; try (cbn [length]; lia); try (rewrite app_length; reflexivity).
    - exists [], r1, (length l1), (Z.of_nat (length r1)), s1. rewrite app_nil_r.
      splits; auto. }
  destruct S2 as (l2 & r2 & i2 & n2 & s2 & -> & E2 & -> & -> & Ev2 & L2 & A2).
  rewrite E2. cbn [obind]. clear E2.
  apply bytes_ok_app in Hr1. destruct Hr1 as [Hl2 Hr2]. rewrite app_length in HL.
  (* the 32-byte loop *)
  replace ((l1 ++ l2 ++ r2) ++ rest) with ((l1 ++ l2) ++ r2 ++ rest) by (rewrite <- !app_assoc; reflexivity).
  assert (Hl12 : bytes_ok (l1 ++ l2)) by (apply bytes_ok_app; split; assumption).
  destruct (loop32_ok be (Z.to_nat (Z.of_nat (length r2) / 32)) (l1 ++ l2) r2 rest s2
     (65535 + (Z.of_nat (length l2) / 4) * D32) (Z.of_nat (length r2)))
    as (c1 & c2 & s3 & -> & Q1 & Q2 & Q2' & Q3 & Q4); auto.
  { apply even_app4; assumption. }
  { unfold D32. lia. }
  rewrite Q3. cbn [obind]. clear Q3.
  apply bytes_ok_app in Hr2. destruct Hr2 as [Hc1 Hc2].
  rewrite (app_length c1 c2) in *.
  (* switch (nleft >> 2) *)
  rewrite Z.shiftr_div_pow2 by lia. change (2 ^ 2) with 4.
  set (k := Z.of_nat (length c2) / 4).
  assert (Hk : 0 <= k <= 7) by (unfold k; lia).
  assert (En : (if (1 <=? k) && (k <=? 7) then Z.to_nat k else 0%nat) = Z.to_nat k).
  { destruct ((1 <=? k) && (k <=? 7)) eqn:E; [reflexivity|lia]. }
  rewrite En.
  destruct (split_at (4 * Z.to_nat k) c2 ltac:(unfold k; lia)) as (d1 & d2 & -> & Hd1).
  apply bytes_ok_app in Hc2. destruct Hc2 as [Hd1b Hd2b].
  set (L := (l1 ++ l2) ++ c1) in *.
  assert (HLb : bytes_ok L) by (apply bytes_ok_app; split; assumption).
  assert (HLe : Nat.even (length L) = true) by (apply even_app4; [apply even_app4; assumption|exact Q1]).
  replace ((l1 ++ l2) ++ (c1 ++ d1 ++ d2) ++ rest) with (L ++ d1 ++ (d2 ++ rest))
    by (unfold L; rewrite <- !app_assoc; reflexivity).
  destruct (add_dwords_ok be (Z.to_nat k) L d1 (d2 ++ rest) s3
     (65535 + (Z.of_nat (length l2) / 4) * D32 + (Z.of_nat (length c1 + length (d1 ++ d2)) / 32) * 8 * D32))
     as (s4 & E4 & A4); auto.
  { unfold D32. lia. }
  rewrite E4. cbn [obind]. clear E4.
  assert (Hlen2 : Z.land (Z.of_nat (length (d1 ++ d2))) 3 = Z.of_nat (length d2)).
  { change 3 with (Z.ones 2). rewrite Z.land_ones by lia. change (2 ^ 2) with 4.
    unfold k in *. rewrite app_length in *. lia. }
  rewrite Hlen2.
  assert (Hd2l : (length d2 <= 3)%nat) by (unfold k in *; rewrite app_length in *; lia).
  assert (HB4 : 65535 + (Z.of_nat (length l2) / 4) * D32 + (Z.of_nat (length c1 + length (d1 ++ d2)) / 32) * 8 * D32
                + Z.of_nat (Z.to_nat k) * D32 + 131070 <= FOLDMAX).
  { assert (Hq : Z.of_nat (length l2) / 4 + (Z.of_nat (length c1 + length (d1 ++ d2)) / 32) * 8 + k <= 65536).
    { rewrite app_length in *. unfold k in *. lia. }
    unfold FOLDMAX, D32. rewrite Z2Nat.id by lia. nia. }
  set (B4 := 65535 + (Z.of_nat (length l2) / 4) * D32 + (Z.of_nat (length c1 + length (d1 ++ d2)) / 32) * 8 * D32
                + Z.of_nat (Z.to_nat k) * D32) in *.
  assert (HM : (L ++ d1) ++ d2 = l1 ++ l2 ++ c1 ++ d1 ++ d2)
    by (unfold L; rewrite <- !app_assoc; reflexivity).
  rewrite <- HM. set (M := L ++ d1) in *.
  replace (L ++ d1 ++ d2 ++ rest) with (M ++ d2 ++ rest) by (unfold M; rewrite <- app_assoc; reflexivity).
  assert (HMb : bytes_ok M) by (apply bytes_ok_app; split; assumption).
  assert (HMe : Nat.even (length M) = true).
  { apply even_app4; [exact HLe|]. rewrite Hd1. rewrite Nat.even_mul. reflexivity. }
  clearbody M B4.
  unfold FOLDMAX in HB4.
  destruct d2 as [|x [|y [|z [|? ?]]]]; [ | | |  | cbn in Hd2l; lia].
  - (* 0 left *)
    cbn [length Z.of_nat]. cbn. eexists. split; [reflexivity|]. rewrite app_nil_r.
    eapply Acc_good; [exact A4|unfold FOLDMAX; lia].
  - (* 1 left *)
    change (Z.of_nat (length [x])) with 1. cbn [Z.gtb Z.compare Pos.compare Pos.compare_cont obind Z.eqb Pos.eqb app].
    rewrite ld8_app. cbn [obind]. eexists. split; [reflexivity|].
    inversion Hd2b as [|? ? Hx _]; subst. unfold is_byte in Hx.
    assert (Ew : cpu_to_be_16 be (u16 (x * 256)) = wt0 be * x).
    { destruct be; unfold cpu_to_be_16, u16, swap16, wt0; [rewrite Z.mod_small by lia; lia|].
      rewrite Z.mod_small with (a := x * 256) by lia. rewrite Z.mod_mul by lia.
      rewrite Z.div_mul by lia. lia. }
    rewrite Ew.
    assert (HA : Acc be (M ++ [x]) (s4 + wt0 be * x) (B4 + 65535)).
    { eapply Acc_step; eauto.
      - destruct be; unfold wt0, wt1; lia.
      - cbn [wsum]. exists 0. lia.
      - cbn [wsum]. lia. }
    assert (Eu : u64 (s4 + wt0 be * x) = s4 + wt0 be * x).
    { unfold u64. apply Z.mod_small. destruct HA as (HA & _). lia. }
    rewrite Eu. eapply Acc_good; [exact HA|unfold FOLDMAX; lia].
  - (* 2 left *)
    change (Z.of_nat (length [x; y])) with 2. cbn [Z.gtb Z.compare Pos.compare Pos.compare_cont app].
    rewrite ld16_app. cbn [obind]. change (2 - 2 =? 1) with false. cbn [obind].
    inversion Hd2b as [|? ? Hx Hd2c]; subst. inversion Hd2c as [|? ? Hy _]; subst.
    assert (HA := Acc_word be M x y s4 B4 HMe HMb Hx Hy A4).
    assert (Eu : u64 (s4 + (wt0 be * x + wt1 be * y)) = s4 + (wt0 be * x + wt1 be * y)).
    { unfold u64. apply Z.mod_small. destruct HA as (HA & _). lia. }
    rewrite Eu. eexists. split; [reflexivity|].
    eapply Acc_good; [exact HA|unfold FOLDMAX; lia].
  - (* 3 left *)
    change (Z.of_nat (length [x; y; z])) with 3. cbn [Z.gtb Z.compare Pos.compare Pos.compare_cont app].
    rewrite ld16_app. cbn [obind]. change (3 - 2 =? 1) with true. cbv iota.
    inversion Hd2b as [|? ? Hx Hd2c]; subst. inversion Hd2c as [|? ? Hy Hd2d]; subst.
    inversion Hd2d as [|? ? Hz _]; subst.
    assert (HA := Acc_word be M x y s4 B4 HMe HMb Hx Hy A4).
    assert (Eu : u64 (s4 + (wt0 be * x + wt1 be * y)) = s4 + (wt0 be * x + wt1 be * y)).
    { unfold u64. apply Z.mod_small. destruct HA as (HA & _). lia. }
    rewrite Eu. set (s5 := s4 + (wt0 be * x + wt1 be * y)) in *.
    replace (M ++ x :: y :: z :: rest) with ((M ++ [x; y]) ++ z :: rest)
      by (rewrite <- app_assoc; reflexivity).
    replace (length M + 2)%nat with (length (M ++ [x; y])) by (rewrite app_length; reflexivity).
    rewrite ld8_app. cbn [obind]. eexists. split; [reflexivity|].
    unfold is_byte in Hz.
    assert (Ew : cpu_to_be_16 be (u16 (z * 256)) = wt0 be * z).
    { destruct be; unfold cpu_to_be_16, u16, swap16, wt0; [rewrite Z.mod_small by lia; lia|].
      rewrite Z.mod_small with (a := z * 256) by lia. rewrite Z.mod_mul by lia.
      rewrite Z.div_mul by lia. lia. }
    rewrite Ew.
    assert (HMxy : bytes_ok (M ++ [x;y])) by (apply bytes_ok_app; split; [assumption|bok]).
    assert (HA' : Acc be ((M ++ [x; y]) ++ [z]) (s5 + wt0 be * z) (B4 + 65535 + 65535)).
    { eapply Acc_step; eauto.
      - apply even_app4; [exact HMe|reflexivity].
      - destruct be; unfold wt0, wt1; lia.
      - cbn [wsum]. exists 0. lia.
      - cbn [wsum]. lia. }
    assert (Eu' : u64 (s5 + wt0 be * z) = s5 + wt0 be * z).
    { unfold u64. apply Z.mod_small. destruct HA' as (HA' & _). lia. }
    rewrite Eu'. replace (M ++ [x; y; z]) with ((M ++ [x; y]) ++ [z]) by (rewrite <- app_assoc; reflexivity).
    eapply Acc_good; [exact HA'|unfold FOLDMAX; lia].
Qed.
