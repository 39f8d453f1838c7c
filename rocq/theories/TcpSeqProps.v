(* C27. Positions in the unbounded byte stream are integers x, y; the wire carries
   x mod 2^32.  The theorems relate the macros on wire values to the order of the
   positions. *)
From Verif Require Import Base TcpSeqModel.

Definition wire (x : Z) : Z := x mod 2 ^ 32.

Lemma s32_sub_wire x y :
  - 2 ^ 31 <= x - y < 2 ^ 31 -> s32 (u32 (wire x - wire y)) = x - y.
Proof.
  intros H. unfold s32, u32, wire.
  change (2 ^ 32) with 4294967296 in *. change (2 ^ 31) with 2147483648 in *.
  rewrite Z.mod_mod by lia. rewrite <- Zminus_mod.
  destruct (Z_lt_ge_dec (x - y) 0) as [Hn|Hn].
  - replace ((x - y) mod 4294967296) with (x - y + 4294967296).
    + destruct (Z.ltb_spec (x - y + 4294967296) 2147483648); lia.
    + symmetry. rewrite <- (Z.mod_add _ 1) by lia. apply Z.mod_small. lia.
  - rewrite Z.mod_small by lia. destruct (Z.ltb_spec (x - y) 2147483648); lia.
Qed.

(* The four comparisons agree with the order of the unwrapped positions. *)
Theorem seq_compare_correct : forall x y : Z,
  Z.abs (x - y) < 2 ^ 31 ->
  SEQ_LT (wire x) (wire y) = (x <? y) /\
  SEQ_LEQ (wire x) (wire y) = (x <=? y) /\
  SEQ_GT (wire x) (wire y) = (x >? y) /\
  SEQ_GEQ (wire x) (wire y) = (x >=? y) /\
  SEQ_MIN (wire x) (wire y) = wire (Z.min x y) /\
  SEQ_MAX (wire x) (wire y) = wire (Z.max x y).
Proof.
  intros x y H.
  assert (E : s32 (u32 (wire x - wire y)) = x - y) by (apply s32_sub_wire; lia).
  unfold SEQ_MIN, SEQ_MAX, SEQ_LT, SEQ_LEQ, SEQ_GT, SEQ_GEQ. rewrite E.
  repeat split; try lia.
  - destruct (x - y <? 0) eqn:L; f_equal; lia.
  - destruct (x - y >? 0) eqn:L; f_equal; lia.
Qed.
Print Assumptions seq_compare_correct.

Theorem tstmp_compare_correct : forall x y : Z,
  Z.abs (x - y) < 2 ^ 31 ->
  TSTMP_LT (wire x) (wire y) = (x <? y) /\
  TSTMP_GT (wire x) (wire y) = (x >? y) /\
  TSTMP_GEQ (wire x) (wire y) = (x >=? y).
Proof.
  intros x y H.
  assert (E : s32 (u32 (wire x - wire y)) = x - y) by (apply s32_sub_wire; lia).
  unfold TSTMP_LT, TSTMP_GT, TSTMP_GEQ. rewrite E. lia.
Qed.
Print Assumptions tstmp_compare_correct.

(* On arbitrary 32-bit values: invariance under a common offset, and trichotomy
   everywhere except at distance exactly 2^31, where both directions are "less". *)
Theorem seq_translation_invariant : forall a b k : Z,
  SEQ_LT (u32 (a + k)) (u32 (b + k)) = SEQ_LT a b /\
  SEQ_GT (u32 (a + k)) (u32 (b + k)) = SEQ_GT a b.
Proof.
  intros a b k. unfold SEQ_LT, SEQ_GT.
  assert (E : u32 (u32 (a + k) - u32 (b + k)) = u32 (a - b)).
  { unfold u32. rewrite <- Zminus_mod. f_equal. lia. }
  now rewrite E.
Qed.
Print Assumptions seq_translation_invariant.

Theorem seq_trichotomy : forall a b : Z,
  0 <= a < 2 ^ 32 -> 0 <= b < 2 ^ 32 -> Z.abs (a - b) <> 2 ^ 31 ->
  (SEQ_LT a b = true /\ SEQ_GT a b = false /\ a <> b) \/
  (SEQ_LT a b = false /\ SEQ_GT a b = false /\ a = b) \/
  (SEQ_LT a b = false /\ SEQ_GT a b = true /\ a <> b).
Proof.
  intros a b Ha Hb Hd. unfold SEQ_LT, SEQ_GT, s32, u32.
  change (2 ^ 32) with 4294967296 in *. change (2 ^ 31) with 2147483648 in *.
  rewrite Z.mod_mod by lia.
  destruct (Z_lt_ge_dec (a - b) 0) as [Hn|Hn].
  - replace ((a - b) mod 4294967296) with (a - b + 4294967296)
      by (symmetry; rewrite <- (Z.mod_add _ 1) by lia; apply Z.mod_small; lia).
    destruct (Z.ltb_spec (a - b + 4294967296) 2147483648); lia.
  - rewrite Z.mod_small by lia. destruct (Z.ltb_spec (a - b) 2147483648); lia.
Qed.
Print Assumptions seq_trichotomy.

(* The excluded distance really is ambiguous, so the hypothesis cannot be dropped. *)
Theorem seq_half_window_ambiguous : forall a : Z,
  0 <= a < 2 ^ 31 ->
  SEQ_LT a (a + 2 ^ 31) = true /\ SEQ_LT (a + 2 ^ 31) a = true.
Proof.
  intros a Ha. unfold SEQ_LT, s32, u32.
  change (2 ^ 31) with 2147483648 in *.
  replace (a - (a + 2147483648)) with (-2147483648) by lia.
  replace (a + 2147483648 - a) with 2147483648 by lia.
  split; reflexivity.
Qed.
Print Assumptions seq_half_window_ambiguous.

(* Non-vacuity: across the wrap, position 2^32+5 against 2^32-3. *)
Example seq_compare_wrap :
  Z.abs ((2 ^ 32 - 3) - (2 ^ 32 + 5)) < 2 ^ 31 /\
  SEQ_LT (wire (2 ^ 32 - 3)) (wire (2 ^ 32 + 5)) = true /\
  wire (2 ^ 32 + 5) = 5 /\ wire (2 ^ 32 - 3) = 4294967293.
Proof. vm_compute. repeat split; reflexivity. Qed.
