(* SYN cookies: encoding, and how long a cookie stays valid. *)
From Verif Require Import Base TcpSeqModel TcpOptModel SynModel SynSpec SynProof SynLook.
Ltac Zify.zify_post_hook ::= idtac.

(* bits *)
Lemma lor_add : forall a b n, 0 <= n -> 0 <= a < 2 ^ n -> Z.lor a (Z.shiftl b n) = a + b * 2 ^ n.
Proof.
  intros a b n Hn Ha. rewrite <- Z.shiftl_mul_pow2 by auto. symmetry. apply Z.add_nocarry_lxor in Ha || idtac.
  rewrite <- Z.lxor_lor; [apply Z.add_nocarry_lxor|].
  - apply Z.bits_inj'. intros k Hk. rewrite Z.land_spec, Z.bits_0. destruct (Z_lt_ge_dec k n).
    + rewrite Z.shiftl_spec_low by auto. apply andb_false_r.
    + replace a with (a mod 2 ^ n) by (apply Z.mod_small; auto). rewrite Z.mod_pow2_bits_high by lia. reflexivity.
  - apply Z.bits_inj'. intros k Hk. rewrite Z.land_spec, Z.bits_0. destruct (Z_lt_ge_dec k n).
    + rewrite Z.shiftl_spec_low by auto. apply andb_false_r.
    + replace a with (a mod 2 ^ n) by (apply Z.mod_small; auto). rewrite Z.mod_pow2_bits_high by lia. reflexivity.
Qed.
Lemma u32_shiftl : forall h n, 0 <= n <= 32 -> u32 (Z.shiftl h n) = Z.shiftl (h mod 2 ^ (32 - n)) n.
Proof.
  intros h n Hn. rewrite !Z.shiftl_mul_pow2 by lia. unfold u32. change 4294967296 with (2 ^ 32).
  replace (2 ^ 32) with (2 ^ (32 - n) * 2 ^ n) by (rewrite <- Z.pow_add_r by lia; f_equal; lia).
  rewrite Z.mul_mod_distr_r; auto; apply Z.pow_nonzero; lia.
Qed.
Lemma land_high : forall x n M, w32 x -> 0 <= n <= 32 -> M = Z.shiftl (Z.ones (32 - n)) n -> Z.land x M = Z.shiftl (x / 2 ^ n) n.
Proof.
  intros x n M Hx Hn ->. rewrite <- Z.shiftr_div_pow2 by lia. apply Z.bits_inj'. intros k Hk. rewrite Z.land_spec.
  destruct (Z_lt_ge_dec k n).
  - rewrite !Z.shiftl_spec_low by auto. apply andb_false_r.
  - rewrite !Z.shiftl_spec by lia. rewrite Z.shiftr_spec by lia. replace (k - n + n) with k by lia.
    destruct (Z_lt_ge_dec k 32).
    + rewrite Z.ones_spec_low by lia. apply andb_true_r.
    + replace x with (x mod 2 ^ 32) by (apply Z.mod_small; exact Hx). rewrite Z.mod_pow2_bits_high by lia. reflexivity.
Qed.
Lemma shiftl_div : forall lo hi n, 0 <= n -> 0 <= lo < 2 ^ n -> (lo + hi * 2 ^ n) / 2 ^ n = hi.
Proof. intros. rewrite Z.div_add by (apply Z.pow_nonzero; lia). rewrite Z.div_small by auto. lia. Qed.

(* the low seven bits *)
Lemma data_val : forall (odd : bool) off mss, 0 <= off < 8 -> 0 <= mss < 8 ->
  Z.lor (Z.lor (Z.b2z odd) (Z.shiftl off 1)) (Z.shiftl mss 4) = Z.b2z odd + 2 * off + 16 * mss.
Proof.
  intros odd off mss Ho Hm. assert (0 <= Z.b2z odd < 2) by (destruct odd; cbn [Z.b2z]; lia).
  rewrite (lor_add (Z.b2z odd)) by (change (2 ^ 1) with 2; lia). change (2 ^ 1) with 2.
  rewrite lor_add by (change (2 ^ 4) with 16; lia). change (2 ^ 4) with 16. lia.
Qed.
Section Iss.
Variables (odd : bool) (off mss h0 : Z).
Hypotheses (Ho : 0 <= off < 8) (Hm : 0 <= mss < 8).
Let data := Z.lor (Z.lor (Z.b2z odd) (Z.shiftl off 1)) (Z.shiftl mss 4).
Let iss := Z.lor data (u32 (Z.shiftl h0 7)).
Lemma data_range : 0 <= data < 128.
Proof. unfold data. rewrite data_val by auto. destruct odd; cbn [Z.b2z]; lia. Qed.
Lemma iss_val : iss = data + (h0 mod 2 ^ 25) * 128.
Proof.
  unfold iss. rewrite u32_shiftl by lia. change (32 - 7) with 25. rewrite lor_add; [reflexivity|lia|].
  change (2 ^ 7) with 128. apply data_range.
Qed.
Lemma iss_w32 : w32 iss.
Proof.
  rewrite iss_val. pose proof data_range. pose proof (Z.mod_pos_bound h0 (2 ^ 25) eq_refl). unfold w32. change (2 ^ 25) with 33554432 in *. lia.
Qed.
Lemma iss_flags : Z.land iss 127 = data.
Proof.
  change 127 with (Z.ones 7). rewrite Z.land_ones by lia. rewrite iss_val. change (2 ^ 7) with 128.
  rewrite Z_mod_plus_full. apply Z.mod_small. apply data_range.
Qed.
Lemma iss_digest : Z.land iss 4294967168 = u32 (Z.shiftl h0 7).
Proof.
  rewrite (land_high iss 7) by (try apply iss_w32; try lia; reflexivity). rewrite u32_shiftl by lia. change (32 - 7) with 25. f_equal.
  rewrite iss_val. change 128 with (2 ^ 7). apply shiftl_div; [lia|]. change (2 ^ 7) with 128. apply data_range.
Qed.
Lemma iss_odd : Z.odd (Z.land iss 127) = odd.
Proof.
  rewrite iss_flags. unfold data. rewrite data_val by auto.
  replace (Z.b2z odd + 2 * off + 16 * mss) with (Z.b2z odd + 2 * (off + 8 * mss)) by lia.
  rewrite Z.odd_add_mul_2. destruct odd; reflexivity.
Qed.
Lemma iss_off : Z.land (Z.shiftr iss 1) 7 = off.
Proof.
  change 7 with (Z.ones 3). rewrite Z.land_ones by lia. rewrite Z.shiftr_div_pow2 by lia. change (2 ^ 1) with 2. change (2 ^ 3) with 8.
  rewrite iss_val. unfold data. rewrite data_val by auto.
  replace (Z.b2z odd + 2 * off + 16 * mss + h0 mod 2 ^ 25 * 128) with (Z.b2z odd + (off + (mss + h0 mod 2 ^ 25 * 8) * 8) * 2) by lia.
  rewrite Z.div_add by lia. rewrite (Z.div_small (Z.b2z odd)) by (destruct odd; cbn [Z.b2z]; lia).
  rewrite Z.add_0_l, Z_mod_plus_full. apply Z.mod_small. auto.
Qed.
Lemma iss_mss : Z.land (Z.shiftr iss 4) 7 = mss.
Proof.
  change 7 with (Z.ones 3). rewrite Z.land_ones by lia. rewrite Z.shiftr_div_pow2 by lia. change (2 ^ 4) with 16. change (2 ^ 3) with 8.
  rewrite iss_val. unfold data. rewrite data_val by auto.
  replace (Z.b2z odd + 2 * off + 16 * mss + h0 mod 2 ^ 25 * 128) with ((Z.b2z odd + 2 * off) + (mss + (h0 mod 2 ^ 25) * 8) * 16) by lia.
  rewrite Z.div_add by lia. rewrite (Z.div_small (Z.b2z odd + 2 * off)) by (destruct odd; cbn [Z.b2z]; lia).
  rewrite Z.add_0_l, Z_mod_plus_full. apply Z.mod_small. auto.
Qed.
End Iss.

Section Ts.
Variables (sg sk : bool) (s r h2 : Z).
Hypotheses (Hs : 0 <= s < 16) (Hr : 0 <= r < 16).
Let low := Z.lor (Z.lor (Z.lor (Z.b2z sg) (Z.shiftl (Z.b2z sk) 1)) (Z.shiftl s 2)) (Z.shiftl r 6).
Let d := Z.lor low (u32 (Z.shiftl h2 10)).
Lemma low_val : low = Z.b2z sg + 2 * Z.b2z sk + 4 * s + 64 * r.
Proof.
  unfold low. assert (0 <= Z.b2z sg < 2) by (destruct sg; cbn [Z.b2z]; lia). assert (0 <= Z.b2z sk < 2) by (destruct sk; cbn [Z.b2z]; lia).
  rewrite (lor_add (Z.b2z sg)) by (change (2 ^ 1) with 2; lia). change (2 ^ 1) with 2.
  rewrite (lor_add (Z.b2z sg + Z.b2z sk * 2)) by (change (2 ^ 2) with 4; lia). change (2 ^ 2) with 4.
  rewrite (lor_add (Z.b2z sg + Z.b2z sk * 2 + s * 4)) by (change (2 ^ 6) with 64; lia). change (2 ^ 6) with 64. lia.
Qed.
Lemma low_range : 0 <= low < 1024.
Proof. rewrite low_val. destruct sg, sk; cbn [Z.b2z]; lia. Qed.
Lemma d_val : d = low + (h2 mod 2 ^ 22) * 1024.
Proof.
  unfold d. rewrite u32_shiftl by lia. change (32 - 10) with 22. rewrite lor_add; [reflexivity|lia|]. change (2 ^ 10) with 1024. apply low_range.
Qed.
Lemma d_w32 : w32 d.
Proof.
  rewrite d_val. pose proof low_range. pose proof (Z.mod_pos_bound h2 (2 ^ 22) eq_refl). unfold w32. change (2 ^ 22) with 4194304 in *. lia.
Qed.
Lemma d_digest : Z.land d 4294966272 = u32 (Z.shiftl h2 10).
Proof.
  rewrite (land_high d 10) by (try apply d_w32; try lia; reflexivity). rewrite u32_shiftl by lia. change (32 - 10) with 22. f_equal.
  rewrite d_val. change 1024 with (2 ^ 10). apply shiftl_div; [lia|]. change (2 ^ 10) with 1024. apply low_range.
Qed.
Lemma d_sig : Z.odd d = sg.
Proof.
  rewrite d_val, low_val.
  replace (Z.b2z sg + 2 * Z.b2z sk + 4 * s + 64 * r + h2 mod 2 ^ 22 * 1024) with (Z.b2z sg + 2 * (Z.b2z sk + 2 * s + 32 * r + h2 mod 2 ^ 22 * 512)) by lia.
  rewrite Z.odd_add_mul_2. destruct sg; reflexivity.
Qed.
Lemma d_sack : Z.odd (Z.shiftr d 1) = sk.
Proof.
  rewrite Z.shiftr_div_pow2 by lia. change (2 ^ 1) with 2. rewrite d_val, low_val.
  replace (Z.b2z sg + 2 * Z.b2z sk + 4 * s + 64 * r + h2 mod 2 ^ 22 * 1024) with (Z.b2z sg + (Z.b2z sk + 2 * (s + 16 * r + h2 mod 2 ^ 22 * 256)) * 2) by lia.
  rewrite Z.div_add by lia. rewrite Z.div_small by (destruct sg; cbn [Z.b2z]; lia). rewrite Z.add_0_l, Z.odd_add_mul_2. destruct sk; reflexivity.
Qed.
Lemma d_s : Z.land (Z.shiftr d 2) 15 = s.
Proof.
  change 15 with (Z.ones 4). rewrite Z.land_ones by lia. rewrite Z.shiftr_div_pow2 by lia. change (2 ^ 2) with 4. change (2 ^ 4) with 16.
  rewrite d_val, low_val.
  replace (Z.b2z sg + 2 * Z.b2z sk + 4 * s + 64 * r + h2 mod 2 ^ 22 * 1024) with ((Z.b2z sg + 2 * Z.b2z sk) + (s + (r + h2 mod 2 ^ 22 * 16) * 16) * 4) by lia.
  rewrite Z.div_add by lia. rewrite Z.div_small by (destruct sg, sk; cbn [Z.b2z]; lia). rewrite Z.add_0_l, Z_mod_plus_full. apply Z.mod_small. auto.
Qed.
Lemma d_r : Z.land (Z.shiftr d 6) 15 = r.
Proof.
  change 15 with (Z.ones 4). rewrite Z.land_ones by lia. rewrite Z.shiftr_div_pow2 by lia. change (2 ^ 6) with 64. change (2 ^ 4) with 16.
  rewrite d_val, low_val.
  replace (Z.b2z sg + 2 * Z.b2z sk + 4 * s + 64 * r + h2 mod 2 ^ 22 * 1024) with ((Z.b2z sg + 2 * Z.b2z sk + 4 * s) + (r + (h2 mod 2 ^ 22) * 16) * 64) by lia.
  rewrite Z.div_add by lia. rewrite Z.div_small by (destruct sg, sk; cbn [Z.b2z]; lia). rewrite Z.add_0_l, Z_mod_plus_full. apply Z.mod_small. auto.
Qed.
Lemma d_nonzero : sk = true \/ s <> 0 \/ r <> 0 -> d <> 0.
Proof.
  intros N E. rewrite d_val, low_val in E. pose proof (Z.mod_pos_bound h2 (2 ^ 22) eq_refl). change (2 ^ 22) with 4194304 in *.
  destruct N as [->|N]; destruct sg; cbn [Z.b2z] in *; try lia; destruct sk; cbn [Z.b2z] in *; lia.
Qed.
End Ts.

(* the mss the cookie stands for *)
Definition cookie_mss (c : cfg) (e : env) (x : sc) : Z :=
  nth (Z.to_nat (mss_index 7 (Z.max (Z.min (sc_mss x) (e_mssopt e)) (c_minmss c)))) msstab 0.
(* the secret of a parity *)
Definition sec_of (h : head) (p : bool) : list Z := if p then h_so h else h_se h.

Lemma u32_back : forall x, w32 x -> u32 (u32 (x + 1) - 1) = x.
Proof. intros x Hx. rewrite u32_pred. replace (x + 1 - 1) with x by lia. apply u32_small. exact Hx. Qed.

(* what the returning ACK is turned into *)
Lemma cookie_back : forall H c e h x e2 h2 g2,
  let y := snd (generate H c e h x) in let p := h_odd (fst (generate H c e h x)) in
  sc_ok x ->
  sec_of h2 p = sec_of (fst (generate H c e h x)) p ->
  uptime (e_ticks e2) <= u32 (h_reseed h2 + LIFETIME) ->
  g_ack g2 = u32 (sc_iss y + 1) -> g_seq g2 = u32 (sc_irs y + 1) ->
  (match o_ts (g_to g2) with
   | None => exists z, cookie_lookup H e2 h2 (sc_inc x) g2 = Some z /\
       sc_inc z = sc_inc x /\ sc_iss z = sc_iss y /\ sc_irs z = sc_irs x /\ sc_mss z = cookie_mss c e x /\
       sc_wnd z = Z.min (Z.max (e_space e2) 0) MAXWIN /\ f_noopt z = true /\ f_tst z = false /\ f_ecn z = false /\ sc_rxmits z = 0
   | Some (tsval, tsecr) =>
       f_tst x = true -> tsecr = sc_ts y -> f_sack x = true \/ sc_s x <> 0 \/ sc_r x <> 0 ->
       exists z, cookie_lookup H e2 h2 (sc_inc x) g2 = Some z /\
       sc_inc z = sc_inc x /\ sc_iss z = sc_iss y /\ sc_irs z = sc_irs x /\ sc_mss z = cookie_mss c e x /\
       sc_wnd z = Z.min (Z.max (e_space e2) 0) MAXWIN /\ f_noopt z = false /\ f_tst z = true /\ f_ecn z = false /\ sc_rxmits z = 0 /\
       sc_ts z = sc_ts y /\ sc_tsreflect z = tsval /\ f_sack z = f_sack x /\
       sc_s z = Z.min (sc_s x) 14 /\ sc_r z = Z.min (sc_r x) 14 /\ f_ws z = negb ((Z.min (sc_s x) 14 =? 0) && (Z.min (sc_r x) 14 =? 0))
   end).
Proof.
  intros H c e h x e2 h2 g2 y p Ok Sec Fresh EA ES.
  set (h' := fst (generate H c e h x)) in *.
  set (off := Z.land (sc_iss x) 7). set (mss := mss_index 7 (Z.max (Z.min (sc_mss x) (e_mssopt e)) (c_minmss c))).
  assert (Hoff : 0 <= off < 8) by apply land7.
  assert (Hmss : 0 <= mss < 8) by (pose proof (mss_index_range 7 (Z.max (Z.min (sc_mss x) (e_mssopt e)) (c_minmss c))); unfold mss; lia).
  set (data := Z.lor (Z.lor (Z.b2z p) (Z.shiftl off 1)) (Z.shiftl mss 4)).
  set (md := fun k => u32 (H (sec_of h' p) off (sc_inc x) (sc_irs x) data k)).
  assert (YI : sc_iss y = Z.lor data (u32 (Z.shiftl (md 0) 7))) by reflexivity.
  assert (YS : f_tst x = true -> sc_ts y = Z.lxor (Z.lor (Z.lor (Z.lor (Z.lor (Z.b2z (f_sig x)) (Z.shiftl (Z.b2z (f_sack x)) 1)) (Z.shiftl (sc_s x) 2)) (Z.shiftl (sc_r x) 6)) (u32 (Z.shiftl (md 2) 10))) (md 3)).
  { intro T. unfold y, generate. cbn [snd sc_ts]. rewrite T. reflexivity. }
  assert (WI : w32 (sc_iss y)) by (rewrite YI; apply iss_w32; auto).
  assert (WR : w32 (sc_irs y)) by (unfold y; rewrite generate_irs; apply Ok).
  assert (B1 : u32 (g_ack g2 - 1) = sc_iss y) by (rewrite EA; apply u32_back; auto).
  assert (B2 : u32 (g_seq g2 - 1) = sc_irs x) by (rewrite ES; apply u32_back; auto).
  assert (A1 : Z.odd (Z.land (sc_iss y) 127) = p) by (rewrite YI; apply iss_odd; auto).
  assert (A2 : Z.land (Z.shiftr (sc_iss y) 1) 7 = off) by (rewrite YI; apply iss_off; auto).
  assert (A3 : Z.land (Z.shiftr (sc_iss y) 4) 7 = mss) by (rewrite YI; apply iss_mss; auto).
  assert (A4 : Z.land (sc_iss y) 4294967168 = u32 (Z.shiftl (md 0) 7)) by (rewrite YI; apply iss_digest; auto).
  assert (A5 : Z.land (sc_iss y) 127 = data) by (rewrite YI; apply iss_flags; auto).
  destruct Ok as (_ & _ & _ & _ & _ & Hs & Hr & _).
  assert (LK : forall b : bool, (if b then h_so h2 else h_se h2) = sec_of h2 b) by reflexivity.
  destruct (o_ts (g_to g2)) as [[tsval tsecr]|] eqn:TS.
  - intros T -> NZ. unfold cookie_lookup. rewrite B1, B2, TS.
    destruct (Z.ltb_spec (u32 (h_reseed h2 + LIFETIME)) (uptime (e_ticks e2))); [lia|].
    rewrite LK, A1, A2, A3, A4, A5, Sec. change (u32 (H (sec_of h' p) off (sc_inc x) (sc_irs x) data 0)) with (md 0).
    change (u32 (H (sec_of h' p) off (sc_inc x) (sc_irs x) data 2)) with (md 2). change (u32 (H (sec_of h' p) off (sc_inc x) (sc_irs x) data 3)) with (md 3).
    rewrite Z.eqb_refl. cbn [negb].
    rewrite (YS T). set (D := Z.lor _ (u32 (Z.shiftl (md 2) 10))).
    assert (XX : Z.lxor (md 3) (Z.lxor D (md 3)) = D).
    { rewrite (Z.lxor_comm D), <- Z.lxor_assoc, Z.lxor_nilpotent, Z.lxor_0_l. reflexivity. }
    rewrite XX. unfold D at 1. rewrite d_digest by auto. rewrite Z.eqb_refl. cbn [negb].
    assert (DN : D <> 0) by (unfold D; apply d_nonzero; auto).
    assert (DB : negb (D =? 0) = true) by (apply negb_true_iff, Z.eqb_neq; auto).
    eexists; split; [reflexivity|]. cbn [sc_inc sc_iss sc_irs sc_mss sc_wnd f_noopt f_tst f_ecn sc_rxmits sc_ts sc_tsreflect f_sack sc_s sc_r f_ws].
    rewrite DB. unfold D at 3 4 5 6 7. rewrite d_sack, d_s, d_r by auto.
    repeat split; auto.
  - unfold cookie_lookup. rewrite B1, B2, TS.
    destruct (Z.ltb_spec (u32 (h_reseed h2 + LIFETIME)) (uptime (e_ticks e2))); [lia|].
    rewrite LK, A1, A2, A3, A4, A5, Sec. change (u32 (H (sec_of h' p) off (sc_inc x) (sc_irs x) data 0)) with (md 0).
    rewrite Z.eqb_refl. cbn [negb]. change (0 =? 0) with true. cbn [negb andb].
    eexists; split; [reflexivity|]. cbn [sc_inc sc_iss sc_irs sc_mss sc_wnd f_noopt f_tst f_ecn sc_rxmits].
    repeat split; auto.
Qed.

(* the secrets of a row *)
Definition sg (h : head) : bool * list Z * list Z * Z := (h_odd h, h_so h, h_se h, h_reseed h).
Definition reseed (e : env) (q : bool * list Z * list Z * Z) : bool * list Z * list Z * Z :=
  match q with (o, so, se, r) =>
    let up := uptime (e_ticks e) in
    if r <? up then (negb o, if negb o then e_rnd e else so, if negb o then se else e_rnd e, u32 (up + LIFETIME)) else q
  end.
Lemma generate_sg : forall H c e h x, sg (fst (generate H c e h x)) = reseed e (sg h).
Proof. intros. unfold generate, sg, reseed. cbn [fst]. destruct (h_reseed h <? uptime (e_ticks e)); reflexivity. Qed.
Definition env_of (o : op) : option env := match o with Seg _ e _ _ | SynBegin _ e _ _ | SynEnd _ e => Some e | Unreach _ _ => None end.

Lemma sg_drop : forall s b l b', sg (s_b (drop_row s b l) b') = sg (s_b s b').
Proof. intros. unfold drop_row, upd; cbn [s_b]. destruct (Z.eqb_spec b' b); [subst; reflexivity|reflexivity]. Qed.
Lemma sg_set_row : forall f b l n b', sg (upd f b (set_row (f b) l n) b') = sg (f b').
Proof. intros. unfold upd. destruct (Z.eqb_spec b' b); [subst; reflexivity|reflexivity]. Qed.
Lemma sg_insert : forall x b s s' b', insert x b s = Ret s' -> sg (s_b s' b') = sg (s_b s b').
Proof.
  intros x b s s' b' E. unfold insert in E. destruct (h_len (s_b s b) >=? LIMIT).
  - destruct (h_l (s_b s b)); [discriminate|]. cbn [obind] in E.
    match type of E with Ret ?a = Ret ?b => assert (EE : b = a) by congruence end. rewrite EE. cbn [s_b]. rewrite sg_set_row, sg_drop. reflexivity.
  - cbn [obind] in E. match type of E with Ret ?a = Ret ?b => assert (EE : b = a) by congruence end. rewrite EE. cbn [s_b]. apply sg_set_row.
Qed.
Lemma sg_syn_begin : forall H c e k i g s b, sg (s_b (fst (syn_begin H c e k i g s)) b) = sg (s_b s b)
  \/ sg (s_b (fst (syn_begin H c e k i g s)) b) = reseed e (sg (s_b s b)).
Proof.
  intros. unfold syn_begin. destruct (take (matches i) (h_l (s_b s (bucket i)))) as [[x r]|].
  - left. cbn [fst s_b]. apply sg_set_row.
  - set (s1 := if e_a1 e then s else _).
    assert (E1 : forall b, sg (s_b s1 b) = sg (s_b s b)).
    { intro b0. unfold s1. destruct (e_a1 e); [auto|]. destruct (h_l (s_b s (bucket i))); [auto|apply sg_drop]. }
    set (s2 := if e_a1 e || e_a2 e then _ else s1).
    assert (E2 : forall b, sg (s_b s2 b) = sg (s_b s b)) by (intro b0; unfold s2; destruct (e_a1 e || e_a2 e); apply E1).
    destruct (_ && _); cbn [fst s_b]; [left; apply E2|].
    unfold upd. destruct (Z.eqb_spec b (bucket i)); [|left; apply E2].
    destruct (c_cook c); [right|left; subst; apply E2]. rewrite generate_sg, E2, e0. reflexivity.
Qed.
Lemma sg_syn_end : forall c e k s s' v b, syn_end c e k s = Ret (s', v) -> sg (s_b s' b) = sg (s_b s b).
Proof.
  intros c e k s s' v b E. unfold syn_end in E. destruct (pend_take k (s_pend s)) as [[[[b0 o] x] r]|]; [|inversion E; auto].
  destruct (negb (e_out e)); [inversion E; auto|]. destruct (o || c_cook c && c_only c); [inversion E; auto|].
  destruct (insert x b0 _) eqn:EI; try discriminate. cbn [obind] in E. inversion E; subst. eapply sg_insert in EI. rewrite EI. reflexivity.
Qed.
Lemma sg_step : forall H c o s s' v b, step H c o s = Ret (s', v) ->
  sg (s_b s' b) = sg (s_b s b) \/ exists e, env_of o = Some e /\ sg (s_b s' b) = reseed e (sg (s_b s b)).
Proof.
  intros H c o s s' v b E. destruct o as [k e i g|k e i g|k e|i q]; cbn [step env_of] in *.
  - unfold listen_input in E. destruct (g_fack g && negb (g_frst g) && negb (g_fsyn g)).
    { left. unfold expand in E. destruct (take (matches i) (h_l (s_b s (bucket i)))) as [[x r]|]; [inversion E; subst; apply sg_drop|].
      destruct (negb (c_cook c)); [inversion E; auto|]. destruct (cookie_lookup _ _ _ _ _); inversion E; auto. }
    destruct (g_frst g).
    { left. inversion E; subst. unfold chkrst. destruct (_ || _); [auto|]. destruct (take (matches i) (h_l (s_b s (bucket i)))) as [[x r]|]; [|auto].
      destruct (_ && _); [apply sg_drop|auto]. }
    destruct (negb (g_fsyn g)); [left; inversion E; auto|].
    destruct (g_fack g).
    { left. inversion E; subst. unfold badack. destruct (take (matches i) (h_l (s_b s (bucket i)))) as [[x r]|]; [apply sg_drop|auto]. }
    destruct (negb (syn_sane i g)); [left; inversion E; auto|].
    unfold syn in E. pose proof (sg_syn_begin H c e k i g s b) as B. destruct (snd (syn_begin H c e k i g s)).
    + inversion E; subst. destruct B; eauto.
    + apply sg_syn_end with (b := b) in E. rewrite E. destruct B; eauto.
  - destruct (plain_syn g && syn_sane i g); [|left; inversion E; auto]. inversion E; subst. destruct (sg_syn_begin H c e k i g s b); eauto.
  - left. eapply sg_syn_end; eauto.
  - left. inversion E; subst. unfold unreach. destruct (take (matches i) (h_l (s_b s (bucket i)))) as [[x r]|]; [|auto].
    destruct (negb (q =? sc_iss x)); [auto|]. destruct (_ || _); [cbn [s_b]; apply sg_set_row|apply sg_drop].
Qed.

(* ticks that have not wrapped *)
Definition young (o : op) : Prop := match env_of o with Some e => 0 <= e_ticks e < 2147483648 | None => True end.
Lemma uptime_young : forall t, 0 <= t < 2147483648 -> 0 <= uptime t <= 21474836.
Proof.
  intros t Ht. unfold uptime, u64. rewrite Z.mod_small by lia. split; [apply Z.div_pos; lia|].
  change 21474836 with (2147483647 / 100). apply Z.div_le_mono; lia.
Qed.
Definition sg_small (q : bool * list Z * list Z * Z) : Prop := match q with (_, _, _, r) => 0 <= r <= 21474852 end.
Lemma reseed_small : forall e q, 0 <= e_ticks e < 2147483648 -> sg_small q -> sg_small (reseed e q).
Proof.
  intros e [[[o so] se] r] He Hq. unfold reseed. destruct (r <? _); [|auto]. pose proof (uptime_young _ He).
  cbn [sg_small]. unfold LIFETIME. rewrite u32_small by lia. lia.
Qed.
Lemma small_step : forall H c o s s' v, young o -> step H c o s = Ret (s', v) -> (forall b, sg_small (sg (s_b s b))) -> forall b, sg_small (sg (s_b s' b)).
Proof.
  intros H c o s s' v Y E S b. destruct (sg_step H c o s s' v b E) as [->|(e & Ee & ->)]; [auto|].
  apply reseed_small; auto. unfold young in Y. rewrite Ee in Y. auto.
Qed.
Lemma small_run : forall H c l s s' evs, Forall young l -> run H c l s = Ret (s', evs) -> (forall b, sg_small (sg (s_b s b))) -> forall b, sg_small (sg (s_b s' b)).
Proof.
  induction l as [|o l IH]; intros s s' evs F E S; [inversion E; subst; auto|]. inversion F; subst. cbn [run] in E.
  destruct (step H c o s) as [[s1 v]| |] eqn:E1; try discriminate. cbn [obind fst snd] in E.
  destruct (run H c l s1) as [[s2 ev2]| |] eqn:E2; try discriminate. cbn [obind fst snd] in E. inversion E; subst.
  eapply IH; eauto. eapply small_step; eauto.
Qed.

(* a secret used at uptime u is kept until u + LIFETIME at least *)
Definition kept (p : bool) (K : list Z) (u : Z) (q : bool * list Z * list Z * Z) : Prop :=
  match q with (o, so, se, r) => (if p then so else se) = K /\ u <= r /\ (o = p \/ u + LIFETIME < r) end.
Lemma kept_reseed : forall p K u e q, 0 <= e_ticks e < 2147483648 -> uptime (e_ticks e) <= u + LIFETIME -> 0 <= u ->
  kept p K u q -> kept p K u (reseed e q).
Proof.
  intros p K u e [[[o so] se] r] He Hu U (Es & Hr & Ho). unfold reseed. destruct (Z.ltb_spec r (uptime (e_ticks e))); [|repeat split; auto].
  pose proof (uptime_young _ He). unfold LIFETIME in *. destruct Ho as [->|Ho]; [|lia].
  unfold kept. rewrite u32_small by lia. split; [destruct p; cbn [negb]; auto|split; [lia|right; unfold LIFETIME; lia]].
Qed.
Lemma kept_start : forall e q, 0 <= e_ticks e < 2147483648 ->
  match reseed e q with (p, so, se, r) => kept p (if p then so else se) (uptime (e_ticks e)) (reseed e q) end.
Proof.
  intros e [[[o so] se] r] He. pose proof (uptime_young _ He). unfold reseed. destruct (Z.ltb_spec r (uptime (e_ticks e))).
  - unfold kept, LIFETIME. rewrite u32_small by lia. repeat split; auto; lia.
  - unfold kept. repeat split; auto; lia.
Qed.
Definition within (T : Z) (o : op) : Prop := match env_of o with Some e => uptime (e_ticks e) <= T | None => True end.
Lemma kept_run : forall H c b p K u l s s' evs, Forall young l -> Forall (within (u + LIFETIME)) l -> 0 <= u ->
  run H c l s = Ret (s', evs) -> kept p K u (sg (s_b s b)) -> kept p K u (sg (s_b s' b)).
Proof.
  intros H c b p K u. induction l as [|o l IH]; intros s s' evs F1 F2 U E S; [inversion E; subst; auto|]. inversion F1; inversion F2; subst. cbn [run] in E.
  destruct (step H c o s) as [[s1 v]| |] eqn:E1; try discriminate. cbn [obind fst snd] in E.
  destruct (run H c l s1) as [[s2 ev2]| |] eqn:E2; try discriminate. cbn [obind fst snd] in E. inversion E; subst.
  eapply IH; eauto. destruct (sg_step H c o s s1 v b E1) as [->|(e & Ee & ->)]; [auto|].
  unfold young, within in *. rewrite Ee in *. apply kept_reseed; auto.
Qed.
