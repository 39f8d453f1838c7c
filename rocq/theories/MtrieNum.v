(* Arithmetic of the MTRIE index computations. *)
From Verif Require Import Base RadixSpec MtrieModel.

Definition hi (low : Z) : Z := if low =? 0 then 16 else low + 8.
Definition wd (low : Z) : Z := hi low - low.
Definition lowok (low : Z) : Prop := low = 0 \/ low = 16 \/ low = 24.

Lemma hi_cases low : lowok low -> (low = 0 /\ hi low = 16 /\ wd low = 16) \/ (low = 16 /\ hi low = 24 /\ wd low = 8)
  \/ (low = 24 /\ hi low = 32 /\ wd low = 8).
Proof. intros [->|[->| ->]]; vm_compute; tauto. Qed.

Lemma pow_split a b : 0 <= a -> 0 <= b -> 2 ^ (a + b) = 2 ^ a * 2 ^ b.
Proof. intros. apply Z.pow_add_r; lia. Qed.
Lemma pow_pos a : 0 <= a -> 0 < 2 ^ a.
Proof. intros. apply Z.pow_pos_nonneg; lia. Qed.

Lemma u32_range x : 0 <= u32 x < 2 ^ 32.
Proof. unfold u32. change (2 ^ 32) with 4294967296. lia. Qed.

Lemma to_network_prefix_eq a m : 0 <= a < 2 ^ 32 -> 1 <= m <= 32 ->
  to_network_prefix a m = a / 2 ^ (32 - m) * 2 ^ (32 - m).
Proof.
  intros Ha Hm. unfold to_network_prefix, u32.
  rewrite <- Z.shiftr_div_pow2, <- Z.shiftl_mul_pow2 by lia.
  change 4294967295 with (Z.ones 32). change 4294967296 with (2 ^ 32).
  apply Z.bits_inj'. intros i Hi.
  rewrite Z.land_spec, <- Z.land_ones, Z.land_spec, !Z.shiftl_spec by lia.
  destruct (Z.ltb_spec i 32) as [H32|H32].
  - rewrite (Z.ones_spec_low 32 i) by lia. rewrite andb_true_r.
    destruct (Z.leb_spec (32 - m) i).
    + rewrite Z.ones_spec_low by lia. rewrite Z.shiftr_spec by lia. rewrite andb_true_r. f_equal. lia.
    + rewrite !(Z.testbit_neg_r _ (i - (32 - m))) by lia. apply andb_false_r.
  - rewrite (Z.ones_spec_high 32 i) by lia. rewrite !andb_false_r.
    rewrite Z.shiftr_spec by lia. symmetry.
    replace (i - (32 - m) + (32 - m)) with i by lia.
    destruct (Z.eq_dec a 0) as [->|]; [apply Z.bits_0|].
    apply Z.bits_above_log2; [lia|]. apply Z.log2_lt_pow2; [lia|].
    eapply Z.lt_le_trans; [apply Ha|]. apply Z.pow_le_mono_r; lia.
Qed.

Lemma shr32_eq x n : 0 <= n < 32 -> shr32 x n = x / 2 ^ n.
Proof. intros. unfold shr32. rewrite Z.mod_small by lia. apply Z.shiftr_div_pow2. lia. Qed.
Lemma shl32_eq x n : 0 <= n < 32 -> shl32 x n = (x * 2 ^ n) mod 2 ^ 32.
Proof.
  intros. unfold shl32, u32. rewrite (Z.mod_small n) by lia. rewrite Z.shiftl_mul_pow2 by lia. reflexivity.
Qed.

Lemma helper_eq x m low : lowok low -> low < m <= hi low ->
  ip_range_helper x m low (hi low) = (x mod 2 ^ (m - low)) * 2 ^ (hi low - m).
Proof.
  intros Hl Hm. unfold ip_range_helper.
  pose proof (hi_cases low Hl) as Hc. unfold wd in Hc.
  rewrite shl32_eq by lia. rewrite shr32_eq by lia.
  set (k := 32 - m + low) in *.
  assert (H1 : 2 ^ 32 = 2 ^ (m - low) * 2 ^ k).
  { rewrite <- Z.pow_add_r by lia. f_equal. unfold k. lia. }
  rewrite H1. rewrite Z.mul_mod_distr_r by (pose proof (pow_pos (m - low)); pose proof (pow_pos k); lia).
  assert (H2 : 2 ^ k = 2 ^ (hi low - m) * 2 ^ (low + 32 - hi low)).
  { rewrite <- Z.pow_add_r by lia. f_equal. unfold k. lia. }
  rewrite H2. rewrite Z.mul_assoc. apply Z.div_mul. pose proof (pow_pos (low + 32 - hi low)). lia.
Qed.

Lemma begin_eq P m low : lowok low -> low < m <= hi low -> 0 <= P < 2 ^ m ->
  ip_range_begin (P * 2 ^ (32 - m)) m low (hi low) = (P mod 2 ^ (m - low)) * 2 ^ (hi low - m).
Proof.
  intros Hl Hm HP. pose proof (hi_cases low Hl) as Hc.
  unfold ip_range_begin, shift_lsb. rewrite helper_eq by assumption.
  rewrite shr32_eq by lia. rewrite Z.div_mul; [reflexivity|]. pose proof (pow_pos (32 - m)). lia.
Qed.

Lemma end_eq P m low : lowok low -> low < m <= hi low -> 0 <= P < 2 ^ m ->
  ip_range_end (P * 2 ^ (32 - m)) m low (hi low) =
  (P mod 2 ^ (m - low)) * 2 ^ (hi low - m) + 2 ^ (hi low - m).
Proof.
  intros Hl Hm HP. pose proof (hi_cases low Hl) as Hc.
  unfold ip_range_end, shift_lsb. cbv zeta. rewrite helper_eq by assumption.
  rewrite shr32_eq by lia. rewrite Z.div_mul by (pose proof (pow_pos (32 - m)); lia).
  assert (Hu : u32 (P + 1) mod 2 ^ (m - low) = (P + 1) mod 2 ^ (m - low)).
  { unfold u32. change 4294967296 with (2 ^ 32).
    assert (E : 2 ^ 32 = 2 ^ (m - low) * 2 ^ (32 - m + low)).
    { rewrite <- Z.pow_add_r by lia. f_equal. lia. }
    rewrite E. rewrite Z.rem_mul_r by (pose proof (pow_pos (m - low)); pose proof (pow_pos (32 - m + low)); lia).
    rewrite Z.mul_comm, Z.mod_add by (pose proof (pow_pos (m - low)); lia).
    apply Z.mod_mod. pose proof (pow_pos (m - low)); lia. }
  rewrite Hu. clear Hu.
  set (M := 2 ^ (m - low)) in *. set (W := 2 ^ (hi low - m)) in *.
  assert (HM : 0 < M) by (apply pow_pos; lia). assert (HW : 0 < W) by (apply pow_pos; lia).
  rewrite Z.shiftl_mul_pow2 by lia. rewrite Z.mul_1_l.
  assert (E : 2 ^ (hi low - low) = M * W) by (unfold M, W; rewrite <- Z.pow_add_r by lia; f_equal; lia).
  rewrite E.
  pose proof (Z.mod_pos_bound P M HM) as Hb.
  pose proof (Z.div_mod P M ltac:(lia)) as Hd.
  destruct (Z.eq_dec (P mod M + 1) M) as [He|He].
  - assert (H0 : (P + 1) mod M = 0).
    { replace (P + 1) with ((P / M + 1) * M) by nia. apply Z.mod_mul. lia. }
    rewrite H0. rewrite Z.mul_0_l, Z.eqb_refl. nia.
  - assert (H0 : (P + 1) mod M = P mod M + 1).
    { symmetry. apply (Z.mod_unique_pos _ _ (P / M)); lia. }
    rewrite H0. destruct (Z.eqb_spec ((P mod M + 1) * W) 0); nia.
Qed.

Lemma find_node_eq a low : lowok low -> 0 <= a < 2 ^ 32 ->
  find_node a low (hi low) = (a / 2 ^ (32 - hi low)) mod 2 ^ wd low.
Proof.
  intros Hl Ha. unfold find_node. change (2 ^ 32) with 4294967296 in Ha.
  destruct (hi_cases low Hl) as [(-> & -> & ->)|[(-> & -> & ->)|(-> & -> & ->)]];
  rewrite shl32_eq by lia; rewrite shr32_eq by lia.
  - change (2 ^ 0) with 1. change (0 + 32 - 16) with 16. change (32 - 16) with 16. change (2 ^ 16) with 65536.
    change (2 ^ 32) with 4294967296. lia.
  - change (2 ^ 16) with 65536. change (2 ^ 32) with 4294967296.
    change (2 ^ (16 + 32 - 24)) with 16777216. change (2 ^ (32 - 24)) with 256. change (2 ^ 8) with 256. lia.
  - change (2 ^ 24) with 16777216. change (2 ^ 32) with 4294967296.
    change (2 ^ (24 + 32 - 32)) with 16777216. change (2 ^ (32 - 32)) with 1. change (2 ^ 8) with 256. lia.
Qed.

(* index range of a route within its table *)
Lemma range_cover low m P q : lowok low -> low < m <= hi low -> 0 <= q -> 0 <= P ->
  q / 2 ^ wd low = P / 2 ^ (m - low) ->
  let b := (P mod 2 ^ (m - low)) * 2 ^ (hi low - m) in
  (b <= q mod 2 ^ wd low < b + 2 ^ (hi low - m)) <-> q / 2 ^ (hi low - m) = P.
Proof.
  intros Hl Hm Hq HP Hb b. pose proof (hi_cases low Hl) as Hc.
  unfold b; clear b.
  set (M := 2 ^ (m - low)) in *. set (W := 2 ^ (hi low - m)) in *.
  assert (HM : 0 < M) by (apply pow_pos; lia). assert (HW : 0 < W) by (apply pow_pos; lia).
  assert (E : 2 ^ wd low = M * W).
  { unfold M, W. rewrite <- Z.pow_add_r by lia. f_equal. unfold wd. lia. }
  rewrite E in *.
  assert (HMW : 0 < M * W) by nia.
  pose proof (Z.div_mod q (M * W) ltac:(lia)) as Hd.
  pose proof (Z.mod_pos_bound q (M * W) HMW) as Hbd.
  pose proof (Z.div_mod P M ltac:(lia)) as HdP.
  pose proof (Z.mod_pos_bound P M HM) as HbP.
  set (ix := q mod (M * W)) in *. set (r := P mod M) in *.
  rewrite Hb in Hd. set (c := P / M) in *.
  split.
  - intros Hr. symmetry. apply (Z.div_unique_pos q W P (ix - r * W)); [lia|]. nia.
  - intros Hr. pose proof (Z.div_mod q W ltac:(lia)) as Hd2.
    pose proof (Z.mod_pos_bound q W HW) as Hb2. rewrite Hr in Hd2. nia.
Qed.

Lemma div_div_pow a x y : 0 <= x -> 0 <= y -> a / 2 ^ x / 2 ^ y = a / 2 ^ (x + y).
Proof.
  intros. pose proof (pow_pos x). pose proof (pow_pos y).
  rewrite Z.div_div by lia. rewrite Z.pow_add_r by lia. reflexivity.
Qed.

Lemma div_range a x y : 0 <= y <= x -> 0 <= a < 2 ^ x -> 0 <= a / 2 ^ y < 2 ^ (x - y).
Proof.
  intros Hy Ha. pose proof (pow_pos y ltac:(lia)). split; [apply Z.div_pos; lia|].
  apply Z.div_lt_upper_bound; [lia|]. rewrite <- Z.pow_add_r by lia. replace (y + (x - y)) with x by lia. lia.
Qed.

Lemma parent_range low q : lowok low -> 0 <= q < 2 ^ hi low -> 0 <= q / 2 ^ wd low < 2 ^ low.
Proof.
  intros Hl Hq. pose proof (hi_cases low Hl) as Hc.
  assert (H1 : 0 <= wd low <= hi low) by lia.
  pose proof (div_range q (hi low) (wd low) H1 Hq) as H. assert (E : hi low - wd low = low) by lia.
  rewrite E in H. exact H.
Qed.
Lemma parent_range' low m P : 0 <= low <= m -> 0 <= P < 2 ^ m -> 0 <= P / 2 ^ (m - low) < 2 ^ low.
Proof.
  intros Hl Hq. assert (H1 : 0 <= m - low <= m) by lia.
  pose proof (div_range P m (m - low) H1 Hq) as H. assert (E : m - (m - low) = low) by lia.
  rewrite E in H. exact H.
Qed.

Lemma wd_pos low : lowok low -> 0 < 2 ^ wd low.
Proof. intros H. apply pow_pos. pose proof (hi_cases low H). lia. Qed.
Lemma hi_pos low : lowok low -> 16 <= hi low.
Proof. intros H. pose proof (hi_cases low H). lia. Qed.

Lemma pm_range P m : 1 <= m <= 32 -> 0 <= P < 2 ^ m -> 0 <= P * 2 ^ (32 - m) < 2 ^ 32.
Proof.
  intros Hm HP. assert (E : 2 ^ 32 = 2 ^ m * 2 ^ (32 - m)) by (rewrite <- Z.pow_add_r by lia; f_equal; lia).
  pose proof (pow_pos (32 - m) ltac:(lia)). rewrite E. nia.
Qed.
