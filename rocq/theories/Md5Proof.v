(* MD5Transform is the compression function of RFC 1321 *)
From Verif Require Import Base Md5Model Md5Spec.
Ltac Zify.zify_post_hook ::= idtac.

Definition w32 (x : Z) : Prop := 0 <= x < 4294967296.

Lemma u32_pow : forall x, u32 x = x mod 2 ^ 32.
Proof. reflexivity. Qed.

Lemma w32_u32 : forall x, w32 (u32 x).
Proof. intros x. unfold w32, u32. apply Z.mod_pos_bound. lia. Qed.

Lemma above : forall x n, w32 x -> 32 <= n -> Z.testbit x n = false.
Proof.
  intros x n H Hn. unfold w32 in H.
  destruct (Z.eq_dec x 0) as [->|N]; [apply Z.bits_0|].
  apply Z.bits_above_log2; [lia|].
  assert (Z.log2 x < 32); [|lia]. apply Z.log2_lt_pow2; [lia|]. change (2 ^ 32) with 4294967296. lia.
Qed.

Lemma below : forall x, 0 <= x -> (forall n, 32 <= n -> Z.testbit x n = false) -> w32 x.
Proof.
  intros x H K. split; [exact H|].
  destruct (Z.eq_dec x 0) as [->|N]; [lia|].
  change 4294967296 with (2 ^ 32). apply Z.log2_lt_pow2; [lia|].
  destruct (Z_lt_ge_dec (Z.log2 x) 32); [assumption|].
  pose proof (K (Z.log2 x) ltac:(lia)) as E. rewrite Z.bit_log2 in E by lia. discriminate.
Qed.

Lemma not_bits : forall x, w32 x -> u32 (Z.lnot x) = not32 x.
Proof.
  intros x H. unfold not32, u32, w32 in *. unfold Z.lnot, Z.pred.
  rewrite <- (Z.mod_add _ 1) by lia. rewrite Z.mod_small; lia.
Qed.

Lemma lnot_bit : forall x n, 0 <= n -> Z.testbit (u32 (Z.lnot x)) n = (n <? 32) && negb (Z.testbit x n).
Proof.
  intros x n Hn. rewrite u32_pow. destruct (n <? 32) eqn:E.
  - rewrite Z.mod_pow2_bits_low by lia. rewrite Z.lnot_spec by lia. reflexivity.
  - rewrite Z.mod_pow2_bits_high by lia. reflexivity.
Qed.

Lemma fF_sel : forall x y z, w32 x -> w32 y -> w32 z -> fF x y z = sel x y z.
Proof.
  intros x y z X Y W. unfold fF, sel. f_equal. apply Z.bits_inj'. intros n Hn.
  rewrite Z.land_spec, Z.ldiff_spec, lnot_bit by lia.
  destruct (n <? 32) eqn:E; cbn [andb].
  - apply andb_comm.
  - rewrite (above z n) by (auto; lia). reflexivity.
Qed.

Lemma fG_sel : forall x y z, w32 x -> w32 y -> w32 z -> fG x y z = sel z x y.
Proof.
  intros x y z X Y W. unfold fG, sel. rewrite (Z.land_comm x z). f_equal. apply Z.bits_inj'. intros n Hn.
  rewrite Z.land_spec, Z.ldiff_spec, lnot_bit by lia.
  destruct (n <? 32) eqn:E; cbn [andb]; [reflexivity|].
  rewrite (above y n) by (auto; lia). reflexivity.
Qed.

Lemma fH_lxor : forall x y z, fH x y z = Z.lxor x (Z.lxor y z).
Proof. intros. unfold fH. apply Z.lxor_assoc. Qed.

Lemma rot_ok : forall x s, w32 x -> 0 < s < 32 -> rotate_left x s = rotl x s.
Proof.
  intros x s X S. unfold rotate_left, rotl. rewrite Z.shiftl_mul_pow2, Z.shiftr_div_pow2 by lia.
  change 4294967296 with (2 ^ 32). rewrite u32_pow.
  assert (P : 0 < 2 ^ s) by (apply Z.pow_pos_nonneg; lia).
  assert (E : 2 ^ 32 = 2 ^ (32 - s) * 2 ^ s) by (rewrite <- Z.pow_add_r by lia; f_equal; lia).
  set (hi := x * 2 ^ s mod 2 ^ 32). set (lo := x / 2 ^ (32 - s)).
  assert (HH : hi = (x mod 2 ^ (32 - s)) * 2 ^ s).
  { unfold hi. rewrite E. apply Zmult_mod_distr_r. }
  assert (LL : 0 <= lo < 2 ^ s).
  { unfold lo. unfold w32 in X. change 4294967296 with (2 ^ 32) in X.
    split; [apply Z.div_pos; lia|]. apply Z.div_lt_upper_bound; [lia|]. rewrite <- E. lia. }
  assert (D : Z.land hi lo = 0).
  { apply Z.bits_inj'. intros n Hn. rewrite Z.land_spec, Z.bits_0.
    destruct (Z_lt_ge_dec n s) as [L|L].
    - rewrite HH, <- Z.shiftl_mul_pow2 by lia. rewrite Z.shiftl_spec_low by lia. reflexivity.
    - rewrite andb_comm. destruct (Z.eq_dec lo 0) as [->|N]; [rewrite Z.bits_0; reflexivity|].
      rewrite Z.bits_above_log2; [reflexivity|lia|].
      assert (Z.log2 lo < s); [|lia]. apply Z.log2_lt_pow2; lia. }
  rewrite <- Z.lxor_lor by exact D. symmetry. apply Z.add_nocarry_lxor. exact D.
Qed.

Definition aux_m (m : macro) (b c d : Z) : Z :=
  match m with FF => sel b c d | GG => sel d b c | HH => Z.lxor b (Z.lxor c d) | II => Z.lxor c (Z.lor b (not32 d)) end.

Lemma mfun_ok : forall m b c d, w32 b -> w32 c -> w32 d -> mfun m b c d = aux_m m b c d.
Proof.
  intros [] b c d B C D; cbn [mfun aux_m].
  - apply fF_sel; auto.
  - apply fG_sel; auto.
  - apply fH_lxor.
  - unfold fI. rewrite not_bits by auto. reflexivity.
Qed.

Lemma mstep_ok : forall m a b c d x s ac, w32 b -> w32 c -> w32 d -> 0 < s < 32 ->
  mstep m a b c d x s ac
  = (b + rotl ((a + aux_m m b c d + x + ac) mod 4294967296) s) mod 4294967296.
Proof.
  intros m a b c d x s ac B C D S. unfold mstep. rewrite mfun_ok by auto.
  rewrite rot_ok by (auto using w32_u32). unfold u32 at 1. rewrite (Z.add_comm _ b). do 3 f_equal.
  unfold u32. rewrite Zplus_mod_idemp_r. f_equal. lia.
Qed.

(* the registers of the loop formulation after i steps, from the variables *)
Definition view (i : nat) (r : regs) : quad :=
  match (i mod 4)%nat with
  | 0%nat => (ra r, rb r, rc r, rd r)
  | 1%nat => (rd r, ra r, rb r, rc r)
  | 2%nat => (rc r, rd r, ra r, rb r)
  | _ => (rb r, rc r, rd r, ra r)
  end.

Definition macro_of (i : nat) : macro :=
  match (i / 16)%nat with 0%nat => FF | 1%nat => GG | 2%nat => HH | _ => II end.
Definition order_of (i : nat) : order :=
  match (i mod 4)%nat with 0%nat => ABCD | 1%nat => DABC | 2%nat => CDAB | _ => BCDA end.

(* the table of calls, step by step, is the rule of the specification *)
Lemma calls_ok : calls
  = map (fun i => (macro_of i, order_of i, Z.of_nat (word_index i), amount i, T (Z.of_nat i + 1))) (seq 0 64).
Proof. vm_compute. reflexivity. Qed.

Lemma amount_ok : forall i, (i < 64)%nat -> 0 < amount i < 32.
Proof.
  assert (K : forallb (fun i => (0 <? amount i) && (amount i <? 32)) (seq 0 64) = true) by (vm_compute; reflexivity).
  rewrite forallb_forall in K. intros i H. specialize (K i). rewrite in_seq in K. specialize (K ltac:(lia)). lia.
Qed.

Lemma aux_of : forall i b c d, aux_m (macro_of i) b c d = aux i b c d.
Proof.
  intros. unfold macro_of, aux. destruct (i / 16)%nat as [|[|[|]]]; reflexivity.
Qed.

Lemma word_x : forall block k, xword block (Z.of_nat k) = word block k.
Proof.
  intros. unfold xword, word, le4.
  replace (Z.to_nat (4 * Z.of_nat k)) with (4 * k)%nat by lia.
  assert (N : forall j, nth j (skipn (4 * k) block) 0 = nth (4 * k + j) block 0).
  { intros j. revert block. induction (4 * k)%nat as [|n IH]; intros block; [reflexivity|].
    destruct block; cbn [skipn Nat.add nth]; [destruct j; reflexivity|apply IH]. }
  rewrite !N. replace (4 * k + 0)%nat with (4 * k)%nat by lia. reflexivity.
Qed.

Definition rok (r : regs) : Prop := w32 (ra r) /\ w32 (rb r) /\ w32 (rc r) /\ w32 (rd r).

Lemma mod4 : forall i, exists j, (i mod 4 = 0 /\ S i mod 4 = 1 \/ i mod 4 = 1 /\ S i mod 4 = 2
  \/ i mod 4 = 2 /\ S i mod 4 = 3 \/ i mod 4 = 3 /\ S i mod 4 = 0)%nat /\ j = i.
Proof.
  intros i. exists i. split; [|reflexivity].
  pose proof (Nat.div_mod_eq i 4). pose proof (Nat.mod_upper_bound i 4 ltac:(lia)).
  pose proof (Nat.div_mod_eq (S i) 4). pose proof (Nat.mod_upper_bound (S i) 4 ltac:(lia)). lia.
Qed.

Lemma call_ok : forall i block r, (i < 64)%nat -> rok r ->
  let r' := call (macro_of i) (order_of i) (xword block (Z.of_nat (word_index i))) (amount i) (T (Z.of_nat i + 1)) r in
  rok r' /\ view (S i) r' = one_step (word block) (view i r) i.
Proof.
  intros i block r H (A & B & C & D). cbv zeta. rewrite word_x. pose proof (amount_ok i H) as S.
  unfold order_of, view, one_step.
  destruct (mod4 i) as (_ & [[E F]|[[E F]|[[E F]|[E F]]]] & _); rewrite E, F; cbn [call ra rb rc rd].
  all: rewrite mstep_ok, aux_of by assumption.
  all: split; [|reflexivity].
  all: unfold rok; cbn [ra rb rc rd]; repeat split; try assumption; try (apply Z.mod_pos_bound; lia).
  all: try apply A; try apply B; try apply C; try apply D.
Qed.

Lemma calls_run : forall block n k r, (k + n <= 64)%nat -> rok r ->
  let r' := fold_left (fun r '(m, o, k, s, ac) => call m o (xword block k) s ac r)
      (map (fun i => (macro_of i, order_of i, Z.of_nat (word_index i), amount i, T (Z.of_nat i + 1))) (seq k n)) r in
  rok r' /\ view (k + n) r' = fold_left (one_step (word block)) (seq k n) (view k r).
Proof.
  intros block n. induction n as [|n IH]; intros k r H R; cbn [seq map fold_left].
  - replace (k + 0)%nat with k by lia. split; [exact R|reflexivity].
  - destruct (call_ok k block r ltac:(lia) R) as [R' V]. rewrite <- V.
    replace (k + S n)%nat with (S k + n)%nat by lia. apply IH; [lia|exact R'].
Qed.

Definition quad_of (r : regs) : quad := (ra r, rb r, rc r, rd r).

Lemma transform_ok : forall s block, rok s ->
  quad_of (transform s block) = compress (quad_of s) block /\ rok (transform s block).
Proof.
  intros s block R. unfold transform. rewrite calls_ok.
  destruct (calls_run block 64 0 s ltac:(lia) R) as [R' V].
  set (r := fold_left _ _ s) in *. clearbody r.
  change (view (0 + 64) r) with (quad_of r) in V. change (view 0 s) with (quad_of s) in V.
  unfold compress. unfold quad_of at 2. rewrite <- V. unfold quad_of.
  split; [reflexivity|]. unfold rok. cbn [ra rb rc rd]. repeat split; apply w32_u32.
Qed.
