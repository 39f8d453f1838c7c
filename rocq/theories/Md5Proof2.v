(* init, update and final compute the digest of the concatenated input *)
From Verif Require Import Base Md5Model Md5Spec Md5Proof.
Ltac Zify.zify_post_hook ::= idtac.

Definition two64 : Z := 18446744073709551616.

Record fed (c : ctx) (m : list Z) : Prop := {
  fd_reg : rok (state c);
  fd_chain : quad_of (state c) = chain m (length m / 64);
  fd_len : length (buffer c) = 64%nat;
  fd_buf : firstn (length m mod 64) (buffer c) = skipn (64 * (length m / 64)) m;
  fd_w : w32 (count0 c) /\ w32 (count1 c);
  fd_count : count0 c + 4294967296 * count1 c = 8 * zl m mod two64 }.

Lemma chain_S : forall m n, chain m (S n) = compress (chain m n) (block_of m n).
Proof. intros. unfold chain. rewrite seq_S, fold_left_app. reflexivity. Qed.

Lemma block_app : forall m x n, (64 * n + 64 <= length m)%nat -> block_of (m ++ x) n = block_of m n.
Proof.
  intros. unfold block_of. rewrite skipn_app, firstn_app.
  rewrite skipn_length. replace (64 - (length m - 64 * n))%nat with 0%nat by lia. rewrite firstn_O, app_nil_r. reflexivity.
Qed.

Lemma chain_app : forall m x n, (64 * n <= length m)%nat -> chain (m ++ x) n = chain m n.
Proof.
  intros m x n. induction n as [|n IH]; intros H; [reflexivity|].
  rewrite !chain_S, IH by lia. rewrite block_app by lia. reflexivity.
Qed.

Lemma block_in : forall m x q, (length m <= 64 * q)%nat ->
  block_of (m ++ x) q = firstn 64 (skipn (64 * q - length m) x).
Proof.
  intros. unfold block_of. rewrite skipn_app. rewrite (skipn_all2 m) by lia. reflexivity.
Qed.

Lemma index_ok : forall c m, fed c m -> Z.land (Z.shiftr (count0 c) 3) 63 = Z.of_nat (length m mod 64).
Proof.
  intros c m F. destruct F as [_ _ _ _ [W0 W1] E]. unfold w32, zl in *.
  change 63 with (Z.ones 6). rewrite Z.land_ones, Z.shiftr_div_pow2 by lia.
  change (2 ^ 3) with 8. change (2 ^ 6) with 64. unfold two64 in E.
  rewrite Nat2Z.inj_mod. change (Z.of_nat 64) with 64.
  set (n := Z.of_nat (length m)) in *. assert (0 <= n) by lia. clearbody n.
  set (a := count0 c) in *. set (b := count1 c) in *. clearbody a b.
  Z.div_mod_to_equations. lia.
Qed.

Lemma rd_ok : forall x off len, 0 <= off -> off + len <= zl x ->
  rd_in x off len = Ret (firstn (Z.to_nat len) (skipn (Z.to_nat off) x)).
Proof. intros. unfold rd_in. replace (_ && _) with true by lia. reflexivity. Qed.

Lemma loop_ok : forall m x fuel s i q, zl x <= 4294967232 ->
  Z.of_nat (length m) + i = 64 * Z.of_nat q -> 0 <= i <= zl x -> rok s -> quad_of s = chain (m ++ x) q ->
  (zl x - i) / 64 < Z.of_nat fuel ->
  exists s' i' q', upd_loop fuel s x (zl x) i = Ret (s', i') /\
    Z.of_nat (length m) + i' = 64 * Z.of_nat q' /\ i <= i' <= zl x /\ zl x < i' + 64 /\ rok s' /\ quad_of s' = chain (m ++ x) q'.
Proof.
  intros m x fuel. induction fuel as [|fuel IH]; intros s i q Hx Hq Hi R C Hf.
  - assert (0 <= (zl x - i) / 64) by (apply Z.div_pos; lia). lia.
  - cbn [upd_loop].
    assert (U : u32 (i + 63) = i + 63) by (apply Z.mod_small; lia). rewrite U.
    destruct (i + 63 <? zl x) eqn:E.
    + rewrite rd_ok by lia. cbn [obind].
      set (b := firstn (Z.to_nat 64) (skipn (Z.to_nat i) x)).
      assert (B : b = block_of (m ++ x) q).
      { rewrite block_in by lia. unfold b. f_equal. f_equal. lia. }
      destruct (transform_ok s b R) as [Q R']. rewrite B, C, <- chain_S in Q.
      assert (U2 : u32 (i + 64) = i + 64) by (apply Z.mod_small; lia). rewrite U2.
      destruct (IH (transform s b) (i + 64) (S q)) as (s' & i' & q' & A1 & A2 & A3 & A4 & A5 & A6); try assumption; try lia.
      { rewrite B. exact Q. }
      exists s', i', q'. repeat split; try assumption; try lia; apply A5.
    + exists s, i, q. repeat split; try assumption; try lia; try apply R.
Qed.

Lemma mod64 : forall B r, 0 <= r < 4294967296 ->
  (4294967296 * B + r) mod 18446744073709551616 = r + 4294967296 * (B mod 4294967296).
Proof.
  intros B r H. change 18446744073709551616 with (4294967296 * 4294967296).
  rewrite Z.rem_mul_r by lia. rewrite (Z.mul_comm 4294967296 B).
  rewrite Z_div_plus_full_l, (Z.add_comm _ r), Z.mod_add by lia.
  rewrite (Z.div_small r), (Z.mod_small r) by lia. rewrite Z.add_0_r. reflexivity.
Qed.

Lemma count_add : forall c m x, w32 (count0 c) -> w32 (count1 c) ->
  count0 c + 4294967296 * count1 c = 8 * zl m mod two64 -> zl x < 4294967296 ->
  let add := u32 (Z.shiftl (zl x) 3) in
  let n0 := u32 (count0 c + add) in
  let n1 := if n0 <? add then u32 (count1 c + 1) else count1 c in
  let n1 := u32 (n1 + Z.shiftr (zl x) 29) in
  w32 n0 /\ w32 n1 /\ n0 + 4294967296 * n1 = 8 * zl (m ++ x) mod two64.
Proof.
  intros c m x W0 W1 E L. cbv zeta. split; [apply w32_u32|]. split; [apply w32_u32|].
  unfold zl in *. rewrite app_length, Nat2Z.inj_add.
  set (n := Z.of_nat (length m)) in *. set (l := Z.of_nat (length x)) in *.
  assert (0 <= n) by lia. assert (0 <= l) by lia. clearbody n l.
  rewrite Z.shiftl_mul_pow2, Z.shiftr_div_pow2 by lia. change (2 ^ 3) with 8. change (2 ^ 29) with 536870912.
  set (a := count0 c) in *. set (b := count1 c) in *. clearbody a b.
  unfold w32 in *.
  replace (8 * (n + l) mod two64) with ((a + 4294967296 * b + 8 * l) mod two64).
  2: { rewrite E. rewrite Zplus_mod_idemp_l. f_equal. lia. }
  clear E n H.
  set (h := l / 536870912). set (lo := l mod 536870912).
  assert (El : l = 536870912 * h + lo) by (apply Z.div_mod; lia).
  assert (Lo : 0 <= lo < 536870912) by (apply Z.mod_pos_bound; lia).
  assert (Hh : 0 <= h < 8).
  { split; [apply Z.div_pos; lia|apply Z.div_lt_upper_bound; lia]. }
  clearbody h lo. subst l.
  assert (A : u32 ((536870912 * h + lo) * 8) = 8 * lo).
  { unfold u32. replace ((536870912 * h + lo) * 8) with (8 * lo + h * 4294967296) by lia.
    rewrite Z.mod_add by lia. apply Z.mod_small. lia. }
  rewrite A. unfold two64.
  destruct (Z_lt_ge_dec (a + 8 * lo) 4294967296) as [L1|L1].
  - assert (N0 : u32 (a + 8 * lo) = a + 8 * lo) by (apply Z.mod_small; lia). rewrite N0.
    replace (a + 8 * lo <? 8 * lo) with false by lia.
    unfold u32.
    replace (a + 4294967296 * b + 8 * (536870912 * h + lo)) with (4294967296 * (b + h) + (a + 8 * lo)) by lia.
    symmetry. apply mod64. lia.
  - assert (N0 : u32 (a + 8 * lo) = a + 8 * lo - 4294967296).
    { unfold u32. rewrite <- (Z.mod_add _ (-1)) by lia. apply Z.mod_small. lia. }
    rewrite N0. replace (a + 8 * lo - 4294967296 <? 8 * lo) with true by lia.
    unfold u32. rewrite Zplus_mod_idemp_l.
    replace (a + 4294967296 * b + 8 * (536870912 * h + lo)) with (4294967296 * (b + 1 + h) + (a + 8 * lo - 4294967296)) by lia.
    symmetry. apply mod64. lia.
Qed.

Lemma wr_ok : forall b off d, length b = 64%nat -> 0 <= off -> off + zl d <= 64 ->
  exists b', wr_buf b off d = Ret b' /\ length b' = 64%nat /\
    firstn (Z.to_nat off + length d) b' = firstn (Z.to_nat off) b ++ d.
Proof.
  intros b off d L O H. unfold wr_buf. replace (_ && _) with true by lia. unfold zl in *.
  eexists. split; [reflexivity|]. split.
  - rewrite !app_length, firstn_length, skipn_length. lia.
  - rewrite app_assoc. rewrite firstn_app.
    rewrite firstn_all2 by (rewrite app_length, firstn_length; lia).
    rewrite app_length, firstn_length. replace (_ - _)%nat with 0%nat by lia. rewrite firstn_O, app_nil_r. reflexivity.
Qed.

Lemma divmod64 : forall n q r, (r < 64 -> n = 64 * q + r -> n / 64 = q /\ n mod 64 = r)%nat.
Proof.
  intros n q r R E. split; [symmetry; apply (Nat.div_unique n 64 q r); lia|symmetry; apply (Nat.mod_unique n 64 q r); lia].
Qed.

Lemma update_ok : forall c m x, fed c m -> zl x <= 4294967232 ->
  exists c', md5_update c x (zl x) = Ret c' /\ fed c' (m ++ x).
Proof.
  intros c m x F L. pose proof (index_ok c m F) as IX. destruct F as [R C B BF [W0 W1] E].
  unfold md5_update. rewrite IX.
  destruct (count_add c m x W0 W1 E ltac:(lia)) as (N0 & N1 & NE). cbv zeta in N0, N1, NE.
  set (n0 := u32 (count0 c + _)) in *.
  set (n1 := u32 (_ + Z.shiftr (zl x) 29)) in *. clearbody n0 n1. cbv zeta.
  set (r := (length m mod 64)%nat) in *. set (k := (length m / 64)%nat) in *.
  assert (Er : length m = (64 * k + r)%nat) by apply Nat.div_mod_eq.
  assert (Hr : (r < 64)%nat) by (apply Nat.mod_upper_bound; lia).
  assert (PL : u32 (64 - Z.of_nat r) = 64 - Z.of_nat r) by (apply Z.mod_small; lia). rewrite PL.
  assert (SK : length (skipn (64 * k) m) = r) by (rewrite skipn_length; lia).
  destruct (64 - Z.of_nat r <=? zl x) eqn:Big.
  - rewrite rd_ok by lia. cbn [obind].
    set (d := firstn (Z.to_nat (64 - Z.of_nat r)) (skipn (Z.to_nat 0) x)).
    assert (Ld : length d = (64 - r)%nat).
    { unfold d. change (Z.to_nat 0) with 0%nat. cbn [skipn]. rewrite firstn_length. unfold zl in Big. lia. }
    destruct (wr_ok (buffer c) (Z.of_nat r) d B ltac:(lia) ltac:(unfold zl; lia)) as (b' & W & Lb & Fb).
    rewrite W. cbn [obind].
    assert (BB : b' = block_of (m ++ x) k).
    { rewrite Nat2Z.id, Ld, BF in Fb.
      rewrite firstn_all2 in Fb by lia. rewrite Fb. unfold block_of.
      rewrite skipn_app, firstn_app, SK. replace (64 * k - length m)%nat with 0%nat by lia.
      rewrite (firstn_all2 (skipn (64 * k) m)) by lia. unfold d.
      replace (Z.to_nat (64 - Z.of_nat r)) with (64 - r)%nat by lia. reflexivity. }
    destruct (transform_ok (state c) b' R) as [Q R'].
    rewrite C, BB in Q. rewrite <- (chain_app m x k) in Q by lia. rewrite <- chain_S, <- BB in Q.
    destruct (loop_ok m x (Z.to_nat (zl x / 64) + 3) (transform (state c) b') (64 - Z.of_nat r) (S k))
      as (s' & i' & q' & A1 & A2 & A3 & A4 & A5 & A6); try assumption; try lia.
    rewrite A1. cbn [obind].
    assert (UL : u32 (zl x - i') = zl x - i') by (apply Z.mod_small; lia). rewrite UL.
    rewrite rd_ok by lia. cbn [obind].
    set (e := firstn (Z.to_nat (zl x - i')) (skipn (Z.to_nat i') x)).
    assert (Ee : e = skipn (Z.to_nat i') x).
    { unfold e. apply firstn_all2. rewrite skipn_length. unfold zl. lia. }
    assert (Le : length e = Z.to_nat (zl x - i')) by (rewrite Ee, skipn_length; unfold zl; lia).
    destruct (wr_ok b' 0 e Lb ltac:(lia) ltac:(unfold zl in *; lia)) as (b2 & W2 & Lb2 & Fb2).
    rewrite W2. cbn [obind]. eexists. split; [reflexivity|].
    destruct (divmod64 (length (m ++ x)) q' (Z.to_nat (zl x - i'))) as [D1 D2].
    { lia. }
    { rewrite app_length. unfold zl in *. lia. }
    constructor; cbn [state count0 count1 buffer]; try assumption.
    + rewrite D1. exact A6.
    + rewrite D1, D2. change (Z.to_nat 0) with 0%nat in Fb2. cbn [Nat.add] in Fb2. rewrite Le in Fb2. rewrite Fb2.
      cbn [firstn app]. rewrite Ee. rewrite skipn_app. rewrite (skipn_all2 m) by lia. cbn [app]. f_equal. lia.
    + split; assumption.
  - cbn [obind].
    assert (UL : u32 (zl x - 0) = zl x) by (replace (zl x - 0) with (zl x) by lia; apply Z.mod_small; unfold zl in *; lia). rewrite UL.
    rewrite rd_ok by lia. cbn [obind].
    set (e := firstn (Z.to_nat (zl x)) (skipn (Z.to_nat 0) x)).
    assert (Ee : e = x).
    { unfold e, zl. rewrite Nat2Z.id. change (Z.to_nat 0) with 0%nat. cbn [skipn]. apply firstn_all. }
    rewrite Ee.
    destruct (wr_ok (buffer c) (Z.of_nat r) x B ltac:(lia) ltac:(lia)) as (b2 & W2 & Lb2 & Fb2).
    rewrite W2. cbn [obind]. eexists. split; [reflexivity|].
    destruct (divmod64 (length (m ++ x)) k (r + length x)) as [D1 D2].
    { unfold zl in *. lia. }
    { rewrite app_length. lia. }
    constructor; cbn [state count0 count1 buffer]; try assumption.
    + rewrite D1, chain_app by lia. exact C.
    + rewrite D1, D2. rewrite Nat2Z.id in Fb2. rewrite Fb2, BF, skipn_app.
      replace (64 * k - length m)%nat with 0%nat by lia. reflexivity.
    + split; assumption.
Qed.

Lemma updates_ok : forall l c m, fed c m -> Forall (fun x => zl x <= 4294967232) l ->
  exists c', md5_updates c l = Ret c' /\ fed c' (m ++ concat l).
Proof.
  induction l as [|x l IH]; intros c m F H; cbn [md5_updates concat].
  - exists c. rewrite app_nil_r. split; [reflexivity|exact F].
  - inversion H as [|? ? Hx Hl]; subst. destruct (update_ok c m x F Hx) as (c1 & E1 & F1).
    rewrite E1. cbn [obind]. rewrite app_assoc. apply IH; assumption.
Qed.

Lemma init_fed : forall g, length g = 64%nat -> fed (md5_init g) [].
Proof.
  intros g H. constructor; cbn [md5_init state count0 count1 buffer length]; try reflexivity; try exact H.
  - unfold rok, w32; cbn [ra rb rc rd]; lia.
  - unfold w32; lia.
Qed.

Lemma enc_little4 : forall a, w32 a -> enc4 a = little 4 a.
Proof.
  intros a H. unfold enc4. cbn [little].
  rewrite !Z.div_div by lia. reflexivity.
Qed.

Lemma bits_ok : forall a b, w32 a -> w32 b -> enc4 a ++ enc4 b = little 8 (a + 4294967296 * b).
Proof.
  intros a b A B. change (little 8 (a + 4294967296 * b)) with
    (let x := a + 4294967296 * b in [x mod 256; x / 256 mod 256; x / 256 / 256 mod 256; x / 256 / 256 / 256 mod 256] ++ little 4 (x / 256 / 256 / 256 / 256)).
  cbv zeta. rewrite !Z.div_div by lia.
  change (256 * 256 * 256 * 256) with 4294967296. change (256 * (256 * (256 * 256))) with 4294967296.
  rewrite (Z.mul_comm 4294967296 b), Z.div_add by lia.
  unfold w32 in *. rewrite (Z.div_small a) by lia.
  rewrite Z.add_0_l. rewrite <- enc_little4 by (unfold w32; lia). f_equal. unfold enc4.
  change (256 * 256 * 256) with 16777216.  change (256 * (256 * 256)) with 16777216. change (256 * 256) with 65536.
  set (v := a + b * 4294967296). assert (V : forall p q, p * q = 16777216 * 256 -> 0 < p -> q mod 256 = 0 -> 0 < q -> v / p mod 256 = a / p mod 256).
  { intros p q E P Q QP. unfold v. replace (b * 4294967296) with (b * q * p) by (rewrite <- Z.mul_assoc, (Z.mul_comm q p), E; reflexivity).
    rewrite Z.div_add by lia. rewrite <- Z.add_mod_idemp_r, <- Z.mul_mod_idemp_r by lia. rewrite Q, Z.mul_0_r.
    change (0 mod 256) with 0. rewrite Z.add_0_r. reflexivity. }
  rewrite (V 256 16777216), (V 65536 65536), (V 16777216 256) by (reflexivity || lia).
  pose proof (V 1 4294967296) as V1. rewrite !Z.div_1_r in V1. rewrite V1 by (reflexivity || lia). reflexivity.
Qed.

Lemma pad_update : forall c m n, fed c m -> 0 < n <= 64 ->
  md5_update c PADDING n = md5_update c (firstn (Z.to_nat n) PADDING) n.
Proof.
  intros c m n F H. unfold md5_update. cbv zeta. rewrite (index_ok c m F).
  set (r := (length m mod 64)%nat).
  assert (Hr : (r < 64)%nat) by (apply Nat.mod_upper_bound; lia).
  assert (PL : u32 (64 - Z.of_nat r) = 64 - Z.of_nat r) by (apply Z.mod_small; lia). rewrite PL.
  set (P := firstn (Z.to_nat n) PADDING).
  assert (LP : zl P = n) by (unfold zl, P; rewrite firstn_length; change (length PADDING) with 64%nat; lia).
  assert (RD : forall off len, 0 <= off -> 0 <= len -> off + len <= n -> rd_in PADDING off len = rd_in P off len).
  { intros off len O L1 L2. rewrite !rd_ok; try assumption; try lia.
    2: { unfold zl. change (length PADDING) with 64%nat. lia. }
    unfold P. rewrite <- (firstn_skipn (Z.to_nat n) PADDING) at 1. rewrite skipn_app, firstn_app.
    rewrite skipn_length, firstn_length. change (length PADDING) with 64%nat.
    replace (_ - (_ - _))%nat with 0%nat by lia. rewrite firstn_O, app_nil_r. reflexivity. }
  assert (LO : forall f s i, 0 <= i <= n -> upd_loop (S (S f)) s PADDING n i = upd_loop (S (S f)) s P n i).
  { intros f s i Hi. cbn [upd_loop].
    replace (u32 (i + 63)) with (i + 63) by (symmetry; apply Z.mod_small; lia).
    destruct (i + 63 <? n) eqn:E; [|reflexivity].
    rewrite RD by lia. rewrite rd_ok by lia. cbn [obind].
    replace (u32 (u32 (i + 64) + 63)) with (i + 127).
    2: { unfold u32. rewrite Zplus_mod_idemp_l. rewrite Z.mod_small by lia. lia. }
    replace (i + 127 <? n) with false by lia. reflexivity. }
  destruct (64 - Z.of_nat r <=? n) eqn:E.
  - rewrite RD by lia. rewrite rd_ok by lia. cbn [obind].
    destruct (wr_buf _ _ _) as [b| |]; cbn [obind]; try reflexivity.
    replace (Z.to_nat (n / 64) + 3)%nat with (S (S (Z.to_nat (n / 64) + 1))) by lia.
    rewrite LO by lia. cbn [upd_loop].
    replace (u32 (64 - Z.of_nat r + 63)) with (64 - Z.of_nat r + 63) by (symmetry; apply Z.mod_small; lia).
    destruct (64 - Z.of_nat r + 63 <? n) eqn:E2.
    + rewrite rd_ok by lia. cbn [obind].
      replace (u32 (u32 (64 - Z.of_nat r + 64) + 63)) with (64 - Z.of_nat r + 127).
      2: { unfold u32. rewrite Zplus_mod_idemp_l. rewrite Z.mod_small by lia. lia. }
      replace (64 - Z.of_nat r + 127 <? n) with false by lia. cbn [obind].
      exfalso. lia.
    + cbn [obind]. replace (u32 (n - (64 - Z.of_nat r))) with (n - (64 - Z.of_nat r)) by (symmetry; apply Z.mod_small; lia).
      rewrite RD by lia. reflexivity.
  - cbn [obind]. replace (u32 (n - 0)) with n by (replace (n - 0) with n by lia; symmetry; apply Z.mod_small; lia).
    rewrite RD by lia. reflexivity.
Qed.

Lemma padding_firstn : forall j, (j <= 63)%nat -> firstn (S j) PADDING = [128] ++ repeat 0 j.
Proof.
  intros j H. unfold PADDING. cbn [firstn app]. f_equal.
  replace 63%nat with (j + (63 - j))%nat by lia. rewrite repeat_app, firstn_app, repeat_length.
  replace (j - j)%nat with 0%nat by lia. rewrite firstn_O, app_nil_r. rewrite firstn_all2; [reflexivity|rewrite repeat_length; lia].
Qed.

Lemma little_len : forall n x, length (little n x) = n.
Proof. induction n; intros; cbn [little length]; [reflexivity|f_equal; apply IHn]. Qed.

Lemma final_ok : forall c m, fed c m ->
  md5_final c = Ret (md5_of m, mkCtx (mkR 0 0 0 0) 0 0 (repeat 0 64)).
Proof.
  intros c m F. unfold md5_final, md5_pad_ctx. rewrite (index_ok c m F).
  set (r := (length m mod 64)%nat).
  assert (Hr : (r < 64)%nat) by (apply Nat.mod_upper_bound; lia).
  set (n := if Z.of_nat r <? 56 then 56 - Z.of_nat r else 120 - Z.of_nat r).
  assert (Hn : 0 < n <= 64) by (unfold n; destruct (Z.of_nat r <? 56) eqn:E; lia).
  assert (En : n = (55 - Z.of_nat (length m)) mod 64 + 1).
  { pose proof (Nat.div_mod_eq (length m) 64) as D. fold r in D.
    replace (55 - Z.of_nat (length m)) with (n - 1 + (- Z.of_nat (length m / 64) + (if Z.of_nat r <? 56 then 0 else -1)) * 64)
      by (unfold n; destruct (Z.of_nat r <? 56); lia).
    rewrite Z.mod_add by lia. rewrite Z.mod_small; lia. }
  clearbody n. rewrite (pad_update c m n F Hn).
  set (P := firstn (Z.to_nat n) PADDING).
  assert (LP : zl P = n) by (unfold zl, P; rewrite firstn_length; change (length PADDING) with 64%nat; lia).
  rewrite <- LP at 1.
  destruct (update_ok c m P F ltac:(lia)) as (c1 & E1 & F1). rewrite E1. cbn [obind].
  pose proof (fd_w c m F) as [W0 W1]. rewrite bits_ok by assumption. rewrite (fd_count c m F).
  set (Q := little 8 (8 * zl m mod two64)).
  change 8 with (zl Q) at 1.
  destruct (update_ok c1 (m ++ P) Q F1) as (c2 & E2 & F2).
  { unfold zl, Q. rewrite little_len. lia. }
  rewrite E2. cbn [obind].
  assert (PM : (m ++ P) ++ Q = padded m).
  { unfold padded. rewrite <- app_assoc. f_equal. unfold P.
    replace (Z.to_nat n) with (S (Z.to_nat ((55 - Z.of_nat (length m)) mod 64))) by lia.
    rewrite padding_firstn by lia. reflexivity. }
  rewrite PM in F2. do 2 f_equal.
  pose proof (fd_chain c2 _ F2) as CH. unfold md5_of. rewrite <- CH. unfold quad_of.
  destruct (fd_reg c2 _ F2) as (A & B & C & D). rewrite !enc_little4 by assumption. reflexivity.
Qed.
