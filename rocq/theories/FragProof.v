(* Proofs about FragModel: options, header, loop. *)
From Verif Require Import Base CksumModel CksumSpec CksumProof CksumProof2 CksumProof3 CksumProps ReassModel ReassSpec ReassProof ReassInv
  FragModel FragSpec.
Ltac Zify.zify_post_hook ::= idtac.

(* ---------- arithmetic ---------- *)
Lemma land_65528 x : 0 <= x < 65536 -> Z.land x 65528 = 8 * (x / 8).
Proof.
  intros H. change 65528 with (Z.shiftl 8191 3). 
  assert (E : x = 8 * (x / 8) + x mod 8) by (apply Z.div_mod; lia).
  assert (B : 0 <= x / 8 < 8192) by (split; [apply Z.div_pos; lia|apply Z.div_lt_upper_bound; lia]).
  assert (M : 0 <= x mod 8 < 8) by (apply Z.mod_pos_bound; lia).
  apply Z.bits_inj'. intros n Hn. rewrite Z.land_spec, Z.shiftl_spec by exact Hn.
  replace (8 * (x / 8)) with (Z.shiftl (Z.shiftr x 3) 3).
  2:{ rewrite Z.shiftl_mul_pow2, Z.shiftr_div_pow2 by lia. change (2^3) with 8. lia. }
  rewrite Z.shiftl_spec by exact Hn.
  destruct (Z_lt_le_dec n 3) as [L|L].
  - rewrite !(Z.testbit_neg_r _ (n - 3)) by lia. apply andb_false_r.
  - rewrite Z.shiftr_spec by lia. replace (n - 3 + 3) with n by lia.
    destruct (Z_lt_le_dec n 16) as [U|U].
    + change 8191 with (Z.ones 13). rewrite Z.ones_spec_low by lia. apply andb_true_r.
    + change 8191 with (Z.ones 13). rewrite Z.ones_spec_high by lia. rewrite andb_false_r. symmetry.
      rewrite <- (Z.mod_small x (2^16)) by (change (2^16) with 65536; lia).
      apply Z.mod_pow2_bits_high. lia.
Qed.

Lemma bit13 x : 0 <= x -> Z.testbit x 13 = Z.odd (x / 8192).
Proof. intros H. change 8192 with (2^13). rewrite <- Z.shiftr_div_pow2 by lia. rewrite <- Z.bit0_odd, Z.shiftr_spec by lia. reflexivity. Qed.

Lemma lor_MF x : 0 <= x < 65536 -> let y := Z.lor x OFP_IP_MF in
  0 <= y < 65536 /\ y mod 8192 = x mod 8192 /\ Z.testbit y 13 = true /\ y / 16384 = x / 16384.
Proof.
  intros H y. unfold OFP_IP_MF in y. change 8192 with (2^13) in y.
  assert (P : 0 <= y) by (apply Z.lor_nonneg; split; [lia|apply Z.pow_nonneg; lia]).
  assert (HI : forall n, 16 <= n -> Z.testbit y n = false).
  { intros n Hn. unfold y. rewrite Z.lor_spec, Z.pow2_bits_false by lia. rewrite orb_false_r.
    rewrite <- (Z.mod_small x (2^16)) by (change (2^16) with 65536; lia). apply Z.mod_pow2_bits_high. lia. }
  split; [|split; [|split]].
  - split; [exact P|]. change 65536 with (2^16).
    assert (E : y = y mod 2^16).
    { apply Z.bits_inj'. intros n Hn. destruct (Z_lt_le_dec n 16).
      - rewrite Z.mod_pow2_bits_low by lia. reflexivity.
      - rewrite Z.mod_pow2_bits_high by lia. apply HI. lia. }
    rewrite E. apply Z.mod_pos_bound. reflexivity.
  - change 8192 with (2^13). apply Z.bits_inj'. intros n Hn. destruct (Z_lt_le_dec n 13).
    + rewrite !Z.mod_pow2_bits_low by lia. unfold y. rewrite Z.lor_spec, Z.pow2_bits_false by lia. apply orb_false_r.
    + rewrite !Z.mod_pow2_bits_high by lia. reflexivity.
  - unfold y. rewrite Z.lor_spec, Z.pow2_bits_true by lia. apply orb_true_r.
  - change 16384 with (2^14). rewrite <- !Z.shiftr_div_pow2 by lia. apply Z.bits_inj'. intros n Hn.
    rewrite !Z.shiftr_spec by lia. unfold y. rewrite Z.lor_spec, Z.pow2_bits_false by lia. apply orb_false_r.
Qed.

(* the offset field of a fragment of a packet with field o, k units further on *)
Lemma off_add o k : 0 <= o < 65536 -> 0 <= k -> o mod 8192 + k < 8192 -> let y := o + k in
  0 <= y < 65536 /\ y mod 8192 = o mod 8192 + k /\ Z.testbit y 13 = Z.testbit o 13 /\ y / 16384 = o / 16384.
Proof.
  intros H HK HB y.
  assert (ED : o = 8192 * (o / 8192) + o mod 8192) by (apply Z.div_mod; lia).
  assert (M : 0 <= o mod 8192 < 8192) by (apply Z.mod_pos_bound; lia).
  assert (Q : 0 <= o / 8192 < 8) by (split; [apply Z.div_pos; lia|apply Z.div_lt_upper_bound; lia]).
  assert (EY : y = 8192 * (o / 8192) + (o mod 8192 + k)) by (unfold y; lia).
  assert (DY : y / 8192 = o / 8192) by (symmetry; apply (Z.div_unique y 8192 (o / 8192) (o mod 8192 + k)); [left; lia|exact EY]).
  assert (MY : y mod 8192 = o mod 8192 + k) by (symmetry; apply (Z.mod_unique y 8192 (o / 8192) (o mod 8192 + k)); [left; lia|exact EY]).
  split; [lia|]. split; [exact MY|]. split.
  - rewrite !bit13 by lia. rewrite DY. reflexivity.
  - change 16384 with (8192 * 2). rewrite <- !Z.div_div by lia. rewrite DY. reflexivity.
Qed.

(* ---------- header ---------- *)
(* ReassInv.finish_hdr_ok for any offset field *)
Lemma hdr_cksum_ok be al h len off : hdr_wf h -> 0 <= len < 65536 -> 0 <= off < 65536 ->
  exists c, ofp_cksum_iph be al (hdr_bytes be h len off 0) (h_hl h) = Ret c /\
    forall al', ofp_cksum_iph be al' (hdr_bytes be h len off c) (h_hl h) = Ret 0.
Proof.
  intros W HB HO.
  set (pre := hdr_pre be h len off). set (post := hdr_post be h).
  assert (Bpre : bytes_ok pre) by (apply hdr_pre_bytes; [exact W|exact HB|exact HO]).
  assert (Bpost : bytes_ok post) by (apply hdr_post_bytes; exact W).
  assert (E0 : hdr_bytes be h len off 0 = pre ++ [0; 0] ++ post).
  { rewrite hdr_bytes_split. unfold pre, post. destruct be; reflexivity. }
  assert (L0 : Z.of_nat (length (pre ++ [0; 0] ++ post)) = 4 * h_hl h) by (rewrite <- E0; apply hdr_bytes_len, W).
  assert (B0 : bytes_ok (pre ++ [0; 0] ++ post)).
  { apply Forall_app. split; [exact Bpre|]. apply Forall_app. split; [|exact Bpost].
    repeat constructor; unfold is_byte; lia. }
  pose proof (hw_hl _ W) as HL.
  destruct (cksum_iph_rfc1071 be al (pre ++ [0; 0] ++ post) [] (h_hl h) B0 HL L0) as (c & E & S).
  rewrite app_nil_r in E. exists c. split; [rewrite E0; exact E|].
  intros al'. rewrite hdr_bytes_split. fold pre post.
  assert (HLE : Z.of_nat (length (pre ++ [0; 0] ++ post)) <= 262144) by lia.
  destruct (cksum_buffer_rfc1071 be false 0 (pre ++ [0; 0] ++ post) [] B0 HLE) as (c2 & E2 & S2).
  rewrite app_nil_r in E2.
  assert (EV : Nat.even (length pre) = true) by (unfold pre; rewrite hdr_pre_len; reflexivity).
  pose proof (cksum_stored_verifies be false 0 0 pre post c2 Bpre Bpost EV HLE E2) as V.
  rewrite S2, <- S in V.
  assert (LL : Z.of_nat (length (pre ++ st16 be c ++ post)) = 4 * h_hl h).
  { rewrite <- L0, !app_length, st16_len. reflexivity. }
  assert (Bc : bytes_ok (st16 be c)).
  { rewrite S. assert (R : 0 <= rfc1071 (pre ++ [0; 0] ++ post) < 65536).
    { destruct (rfc_sum_char _ B0) as (R1 & _). unfold rfc1071. lia. }
    unfold net16, bytes_ok, is_byte.
    assert (0 <= rfc1071 (pre ++ [0; 0] ++ post) / 256 < 256) by (split; [apply Z.div_pos; lia|apply Z.div_lt_upper_bound; lia]).
    assert (0 <= rfc1071 (pre ++ [0; 0] ++ post) mod 256 < 256) by (apply Z.mod_pos_bound; lia).
    repeat constructor; lia. }
  assert (B1 : bytes_ok (pre ++ st16 be c ++ post)).
  { apply Forall_app. split; [exact Bpre|]. apply Forall_app. split; [exact Bc|exact Bpost]. }
  destruct (cksum_iph_rfc1071 be al' _ [] (h_hl h) B1 HL LL) as (c3 & E3 & S3).
  rewrite app_nil_r in E3. rewrite E3. f_equal.
  assert (HLE2 : Z.of_nat (length (pre ++ st16 be c ++ post)) <= 262144) by lia.
  destruct (cksum_buffer_rfc1071 be false 0 _ [] B1 HLE2) as (c4 & E4 & S4).
  rewrite app_nil_r in E4.
  rewrite V in E4. injection E4 as <-. rewrite <- S4 in S3.
  revert S3. unfold st16.
  assert (DM : forall z, z mod 256 = 0 -> z / 256 = 0 -> z = 0).
  { intros z A B. rewrite (Z.div_mod z 256) by lia. lia. }
  destruct be; intros X; injection X as X1 X2; apply DM; assumption.
Qed.

Lemma frag_hdr_ok be al h hl len off opts :
  hdr_wf h -> 5 <= hl <= 15 -> bytes_ok opts -> Z.of_nat (length opts) = 4 * hl - 20 ->
  0 <= len < 65536 -> 0 <= off < 65536 ->
  exists c, let fh := mkH hl (h_tos h) len (h_id h) off (h_ttl h) (h_p h) c (h_src h) (h_dst h) opts in
    frag_hdr be al h hl len off opts = Ret fh /\ hdr_wf fh /\
    forall al', ofp_cksum_iph be al' (hdr_bytes be fh (cpu_to_be_16 be len) (cpu_to_be_16 be off) c) hl = Ret 0.
Proof.
  intros W HL BO LO HN HO.
  assert (W0 : forall c, hdr_wf (mkH hl (h_tos h) len (h_id h) off (h_ttl h) (h_p h) c (h_src h) (h_dst h) opts)).
  { intros c. split; cbn [h_hl h_tos h_ttl h_p h_id h_off h_src h_dst h_opt]; try apply W; try assumption. split; assumption. }
  destruct (hdr_cksum_ok be al _ (cpu_to_be_16 be len) (cpu_to_be_16 be off) (W0 0)
    (be16_range be _ HN) (be16_range be _ HO)) as (c & E & V).
  exists c. cbv zeta. split; [|split; [apply W0|exact V]].
  unfold frag_hdr. cbn [h_hl] in E. rewrite E. reflexivity.
Qed.

(* ---------- options ---------- *)
Lemma opt_number_mod o : 0 <= o -> opt_number o = o mod 32.
Proof. intros H. unfold opt_number. change 31 with (Z.ones 5). rewrite Z.land_ones by lia. reflexivity. Qed.

Lemma opt_copied_spec o : 0 <= o < 256 -> opt_copied o = (128 <=? o).
Proof.
  intros H. unfold opt_copied.
  assert (E : Z.land o 128 = if Z.testbit o 7 then 128 else 0).
  { apply Z.bits_inj'. intros n Hn. rewrite Z.land_spec. change 128 with (2^7).
    destruct (Z.eq_dec n 7) as [->|N].
    - rewrite Z.pow2_bits_true by lia. rewrite andb_true_r. destruct (Z.testbit o 7); [rewrite Z.pow2_bits_true by lia|rewrite Z.bits_0]; reflexivity.
    - rewrite Z.pow2_bits_false by lia. rewrite andb_false_r. destruct (Z.testbit o 7); [rewrite Z.pow2_bits_false by lia|rewrite Z.bits_0]; reflexivity. }
  assert (T : Z.testbit o 7 = (128 <=? o)).
  { rewrite <- Z.bit0_odd || idtac. replace 7 with (0 + 7) by lia. rewrite <- Z.shiftr_spec by lia. rewrite Z.shiftr_div_pow2 by lia.
    change (2^7) with 128. rewrite Z.bit0_odd. destruct (128 <=? o) eqn:L.
    - apply Z.leb_le in L. replace (o / 128) with 1; [reflexivity|]. apply (Z.div_unique o 128 1 (o - 128)); lia.
    - apply Z.leb_gt in L. rewrite Z.div_small by lia. reflexivity. }
  rewrite E, <- T. destruct (Z.testbit o 7); reflexivity.
Qed.

Lemma at_mid (a : list Z) x r : at_ (a ++ x :: r) (zlen a) = Some x.
Proof.
  unfold at_, zlen. replace (Z.of_nat (length a) <? 0) with false by (symmetry; apply Z.ltb_ge; lia).
  rewrite Nat2Z.id, nth_error_app2 by lia. rewrite Nat.sub_diag. reflexivity.
Qed.

Lemma copy_opts_ok o c : options o c -> bytes_ok o -> forall done rest acc fuel, (length o < fuel)%nat ->
  copy_opts fuel (done ++ o ++ rest) (zlen done) (zlen done + zlen o) acc = Ret (acc ++ c).
Proof.
  induction 1 as [|o r c HO HR IH|o l body r c H0 H1 HB HL HR IH]; intros BY done rest acc fuel HF.
  - destruct fuel; [cbn in HF; lia|]. cbn [copy_opts].
    replace (zlen done >=? _) with true. { rewrite app_nil_r. reflexivity. }
    symmetry. apply Z.geb_le. unfold zlen. cbn [length]. lia.
  - assert (Bo : is_byte o) by (inversion BY; assumption).
    assert (Br : bytes_ok r) by (inversion BY; assumption).
    destruct fuel; [cbn in HF; lia|]. cbn [copy_opts].
    replace (zlen done >=? _) with false.
    2:{ symmetry. unfold zlen. cbn [length]. apply Bool.not_true_is_false. rewrite Z.geb_le. lia. }
    cbn [app]. rewrite at_mid, opt_number_mod by (unfold is_byte in Bo; lia).
    replace ((o mod 32 =? 0) || (o mod 32 =? 1)) with true.
    2:{ symmetry. apply orb_true_iff. destruct HO as [-> | ->]; [left|right]; reflexivity. }
    replace (done ++ o :: r ++ rest) with ((done ++ [o]) ++ r ++ rest) by (rewrite <- app_assoc; reflexivity).
    assert (LD : zlen (done ++ [o]) = zlen done + 1) by (unfold zlen; rewrite app_length; cbn [length]; lia).
    rewrite <- LD. replace (zlen done + zlen (o :: r)) with (zlen (done ++ [o]) + zlen r).
    2:{ rewrite LD. unfold zlen. cbn [length]. lia. }
    apply IH; [exact Br|cbn [length] in HF; lia].
  - assert (Br : bytes_ok r).
    { unfold bytes_ok in *. inversion_clear BY as [|? ? _ B2]. inversion_clear B2 as [|? ? _ B3]. apply Forall_app in B3. apply B3. }
    destruct fuel; [cbn in HF; lia|]. cbn [copy_opts].
    replace (zlen done >=? _) with false.
    2:{ symmetry. unfold zlen. cbn [length]. apply Bool.not_true_is_false. rewrite Z.geb_le. lia. }
    cbn [app]. rewrite at_mid, opt_number_mod by lia.
    replace ((o mod 32 =? 0) || (o mod 32 =? 1)) with false.
    2:{ symmetry. apply orb_false_iff. split; apply Z.eqb_neq; assumption. }
    replace (at_ (done ++ o :: l :: (body ++ r) ++ rest) (zlen done + 1)) with (Some l).
    2:{ replace (done ++ o :: l :: (body ++ r) ++ rest) with ((done ++ [o]) ++ l :: (body ++ r) ++ rest) by (rewrite <- app_assoc; reflexivity).
        replace (zlen done + 1) with (zlen (done ++ [o])) by (unfold zlen; rewrite app_length; cbn [length]; lia).
        rewrite at_mid. reflexivity. }
    assert (LE : zlen (o :: l :: body ++ r) = l + zlen r).
    { unfold zlen. cbn [length]. rewrite app_length. lia. }
    rewrite LE. replace (l >? zlen done + (l + zlen r) - zlen done) with false.
    2:{ symmetry. unfold zlen. apply Bool.not_true_is_false. rewrite Z.gtb_lt. lia. }
    cbv zeta.
    assert (TK : ztake l (zdrop (zlen done) (done ++ o :: l :: (body ++ r) ++ rest)) = o :: l :: body).
    { unfold ztake, zdrop, zlen. rewrite Nat2Z.id, skipn_app, skipn_all, Nat.sub_diag. cbn [skipn app].
      replace (Z.to_nat l) with (length (o :: l :: body)) by (cbn [length]; lia).
      replace (o :: l :: (body ++ r) ++ rest) with ((o :: l :: body) ++ (r ++ rest)) by (cbn [app]; rewrite app_assoc; reflexivity).
      rewrite firstn_app, firstn_all, Nat.sub_diag. cbn [firstn]. apply app_nil_r. }
    rewrite TK, opt_copied_spec by exact HB.
    replace (done ++ o :: l :: (body ++ r) ++ rest) with ((done ++ o :: l :: body) ++ r ++ rest)
      by (rewrite <- !app_assoc; reflexivity).
    assert (LD : zlen (done ++ o :: l :: body) = zlen done + l) by (unfold zlen; rewrite app_length; cbn [length]; lia).
    rewrite <- LD. replace (zlen done + (l + zlen r)) with (zlen (done ++ o :: l :: body) + zlen r) by (rewrite LD; lia).
    rewrite IH; [|exact Br|cbn [length] in HF; rewrite app_length in HF; lia].
    destruct (128 <=? o); cbn [app]; rewrite <- ?app_assoc; reflexivity.
Qed.

Lemma options_len o c : options o c -> (length c <= length o)%nat.
Proof.
  induction 1; cbn [length]; try lia. rewrite !app_length. destruct (128 <=? o); cbn [length]; lia.
Qed.
Lemma options_bytes o c : options o c -> bytes_ok o -> bytes_ok c.
Proof.
  induction 1; intros B; [exact B| |].
  - apply IHoptions. inversion B; assumption.
  - apply Forall_app. inversion_clear B as [|? ? B1 B2]. inversion_clear B2 as [|? ? B3 B4]. apply Forall_app in B4.
    split; [|apply IHoptions; apply B4]. destruct (128 <=? o); [|constructor]. constructor; [exact B1|]. constructor; [exact B3|apply B4].
Qed.

Lemma pad4_ok l : exists n, (n < 4)%nat /\ pad4 l = l ++ repeat 0 n /\ zlen (pad4 l) mod 4 = 0.
Proof.
  exists (Z.to_nat ((- zlen l) mod 4)).
  assert (M : 0 <= (- zlen l) mod 4 < 4) by (apply Z.mod_pos_bound; lia).
  split; [lia|]. split; [reflexivity|]. unfold pad4. unfold zlen at 1. rewrite app_length, repeat_length, Nat2Z.inj_add, Z2Nat.id by lia.
  fold (zlen l). rewrite Zplus_mod_idemp_r. replace (zlen l + - zlen l) with 0 by lia. reflexivity.
Qed.
Lemma pad4_le l n : zlen l <= 4 * n -> zlen (pad4 l) <= 4 * n.
Proof.
  intros H. unfold pad4. unfold zlen at 1. rewrite app_length, repeat_length, Nat2Z.inj_add. fold (zlen l).
  assert (M : 0 <= (- zlen l) mod 4 < 4) by (apply Z.mod_pos_bound; lia). rewrite Z2Nat.id by lia.
  assert (D : - zlen l = 4 * ((- zlen l) / 4) + (- zlen l) mod 4) by (apply Z.div_mod; lia). lia.
Qed.

(* ---------- the loop ---------- *)
Definition env_ok (e : fenv) : bool := fe_alloc e && fe_out e.
Definition make_ok (env : nat -> fenv) (k : nat) : fenv := mkFE true (fe_uid (env k)) (fe_al (env k)) true.

Lemma ztake_drop_len n k (l : list Z) : 0 <= n -> 0 <= k -> k + n <= zlen l -> zlen (ztake n (zdrop k l)) = n.
Proof. intros. unfold zlen, ztake, zdrop in *. rewrite firstn_length, skipn_length. lia. Qed.

Lemma firstn_split a b (l : list Z) : firstn (a + b) l = firstn a l ++ firstn b (skipn a l).
Proof.
  revert l. induction a as [|a IH]; intros l; [reflexivity|].
  destruct l as [|x l]; cbn [Nat.add firstn skipn]; [rewrite firstn_nil; reflexivity|]. rewrite IH. reflexivity.
Qed.
Lemma skipn_twice a b (l : list Z) : skipn a (skipn b l) = skipn (b + a) l.
Proof. revert l. induction b as [|b IH]; intros l; [reflexivity|]. destruct l as [|x l]; cbn [Nat.add skipn]; [apply skipn_nil|apply IH]. Qed.
Lemma ztake_split a b k (l : list Z) : 0 <= a -> 0 <= b -> 0 <= k ->
  ztake (a + b) (zdrop k l) = ztake a (zdrop k l) ++ ztake b (zdrop (k + a) l).
Proof.
  intros. unfold ztake, zdrop. rewrite Z2Nat.inj_add by lia. rewrite firstn_split, skipn_twice.
  rewrite Z2Nat.inj_add by lia. reflexivity.
Qed.

Section LOOP.
Variables (be : bool) (p : ippkt) (mtu : Z) (fopts : list Z).
Let h := p_hdr p.
Let pl := frag_len p.
Hypothesis W : pkt_wf p.
Hypothesis HM : 68 <= mtu <= 65535.
Hypothesis HEND : frag_begin p + pl <= 65536.
Hypothesis FB : bytes_ok fopts.
Hypothesis FL : zlen fopts mod 4 = 0 /\ zlen fopts <= 40.

Lemma one_fragment al uid pos (first : bool) :
  0 <= pos < pl -> pos mod 8 = 0 ->
  let opts := if first then h_opt h else fopts in
  let f_hl := if first then h_hl h else Z.shiftr (20 + zlen fopts) 2 in
  let seg_len := Z.land (mtu - Z.shiftl f_hl 2) 65528 in
  let flen := if pl - pos >? seg_len then seg_len else pl - pos in
  let off := u16 (h_off h + pos / 8) in
  let off := if pos + flen <? pl then Z.lor off OFP_IP_MF else off in
  0 < flen <= pl - pos /\ (pos + flen < pl -> flen mod 8 = 0 /\ mtu < flen + Z.shiftl f_hl 2 + 8) /\
  exists fh, frag_hdr be al h f_hl (u16 (flen + Z.shiftl f_hl 2)) off opts = Ret fh /\
    let f := mkP uid fh (ztake flen (zdrop pos (p_data p))) in
    h_len fh = flen + Z.shiftl f_hl 2 /\ frag_len f = flen /\
    frag_begin f = frag_begin p + pos /\ more_frags f = (if pos + flen <? pl then true else more_frags p) /\
    fragment_of be p mtu opts f.
Proof.
  intros HP HP8 opts f_hl seg_len flen off0 off.
  destruct W as (WH & WL & WD). fold h in WH, WL. fold pl in WD.
  pose proof (hw_hl _ WH) as HL. pose proof (hw_opt _ WH) as (OB & OL). pose proof (hw_off _ WH) as HO.
  assert (D4 : zlen fopts = 4 * (zlen fopts / 4)) by (rewrite (Z.div_mod (zlen fopts) 4) at 1 by lia; lia).
  assert (Z0 : 0 <= zlen fopts) by (unfold zlen; lia).
  assert (HF : 5 <= f_hl <= 15 /\ Z.of_nat (length opts) = 4 * f_hl - 20 /\ bytes_ok opts).
  { unfold f_hl, opts. destruct first; [split; [exact HL|]; split; [exact OL|exact OB]|].
    rewrite Z.shiftr_div_pow2 by lia. change (2^2) with 4.
    replace (20 + zlen fopts) with (zlen fopts + 5 * 4) by lia. rewrite Z.div_add by lia. fold (zlen fopts). split; [lia|]. split; [lia|exact FB]. }
  destruct HF as (HF & LO & BO).
  assert (SH : Z.shiftl f_hl 2 = 4 * f_hl) by (rewrite Z.shiftl_mul_pow2 by lia; change (2^2) with 4; lia).
  assert (SG : seg_len = 8 * ((mtu - 4 * f_hl) / 8)).
  { unfold seg_len. rewrite SH. apply land_65528. lia. }
  pose proof (Z.div_mod (mtu - 4 * f_hl) 8 ltac:(lia)) as DM.
  pose proof (Z.mod_pos_bound (mtu - 4 * f_hl) 8 ltac:(lia)) as MM.
  assert (SB : 8 <= seg_len <= mtu - 4 * f_hl /\ mtu < seg_len + 4 * f_hl + 8).
  { assert (1 <= (mtu - 4 * f_hl) / 8) by (apply Z.div_le_lower_bound; lia). lia. }
  assert (FLB : 0 < flen <= pl - pos /\ flen <= seg_len /\ (pos + flen < pl -> flen = seg_len)).
  { unfold flen. destruct (pl - pos >? seg_len) eqn:G.
    - apply Z.gtb_lt in G. lia.
    - assert (~ seg_len < pl - pos) by (rewrite <- Z.gtb_lt, G; discriminate). lia. }
  destruct FLB as (FLB & FLS & FLE).
  split; [exact FLB|]. split.
  { intros Hlt. rewrite (FLE Hlt), SH. split; [rewrite SG, Z.mul_comm; apply Z.mod_mul; lia|lia]. }
  assert (PLB : pl <= 65535) by (unfold pl, frag_len; fold h; lia).
  assert (LEN : u16 (flen + Z.shiftl f_hl 2) = flen + 4 * f_hl).
  { unfold u16. rewrite SH. apply Z.mod_small. lia. }
  pose proof (Z.div_mod pos 8 ltac:(lia)) as PD.
  assert (OK : h_off h mod 8192 + pos / 8 < 8192).
  { unfold frag_begin in HEND. fold h in HEND. lia. }
  pose proof (off_add (h_off h) (pos / 8) HO ltac:(apply Z.div_pos; lia) OK) as (A1 & A2 & A3 & A4).
  assert (O0 : off0 = h_off h + pos / 8) by (unfold off0, u16; apply Z.mod_small; exact A1).
  assert (OF : 0 <= off < 65536 /\ off mod 8192 = h_off h mod 8192 + pos / 8 /\
    Z.testbit off 13 = (if pos + flen <? pl then true else Z.testbit (h_off h) 13) /\ off / 16384 = h_off h / 16384).
  { unfold off. rewrite O0. destruct (pos + flen <? pl); [|auto].
    pose proof (lor_MF _ A1) as (B1 & B2 & B3 & B4). cbv zeta in B1, B2, B3, B4.
    split; [exact B1|]. split; [rewrite B2; exact A2|]. split; [exact B3|rewrite B4; exact A4]. }
  destruct OF as (OF1 & OF2 & OF3 & OF4).
  destruct (frag_hdr_ok be al h f_hl (flen + 4 * f_hl) off opts WH HF BO LO ltac:(lia) OF1) as (c & E & WF & V).
  eexists. split; [rewrite LEN; exact E|]. cbv zeta.
  set (fh := mkH _ _ _ _ _ _ _ _ _ _ _) in *.
  assert (EL : frag_len (mkP uid fh (ztake flen (zdrop pos (p_data p)))) = flen).
  { unfold frag_len. cbn [p_hdr fh h_len h_hl]. lia. }
  assert (ED : Z.of_nat (length (ztake flen (zdrop pos (p_data p)))) = flen).
  { apply ztake_drop_len; [lia|lia|]. unfold zlen. lia. }
  split; [cbn [fh h_len]; lia|]. split; [exact EL|].
  split. { unfold frag_begin. cbn [p_hdr fh h_off]. rewrite OF2. fold h. lia. }
  split. { unfold more_frags. cbn [p_hdr fh h_off]. exact OF3. }
  split.
  { split; [exact WF|]. split; [cbn [p_hdr fh h_len h_hl]; lia|]. rewrite EL. cbn [p_data]. lia. }
  split; [cbn [p_hdr fh h_len]; lia|].
  split; [rewrite EL; exact ED|].
  split; [repeat split|]. split; [reflexivity|]. split; [reflexivity|]. split; [exact OF4|]. split; [reflexivity|]. exact V.
Qed.

Lemma frag_loop_ok env : (forall k, env_ok (env k) = true) -> forall fuel pos k (first : bool),
  0 <= pos < pl -> pos mod 8 = 0 -> pl - pos < Z.of_nat fuel ->
  exists f r, frag_loop fuel be env k h fopts (p_data p) pl mtu pos first = Ret (f :: r, FProcessed) /\
    consecutive (frag_begin p + pos) (more_frags p) (f :: r) /\
    datagram (f :: r) = ztake (pl - pos) (zdrop pos (p_data p)) /\
    greedy mtu (f :: r) /\ map p_uid (f :: r) = map (fun i => fe_uid (env i)) (seq k (S (length r))) /\
    fragment_of be p mtu (if first then h_opt h else fopts) f /\ Forall (fragment_of be p mtu fopts) r.
Proof.
  intros HE. induction fuel as [|fuel IH]; intros pos k first HP HP8 HF; [lia|].
  cbn [frag_loop].
  replace (pos >=? pl) with false by (symmetry; apply Bool.not_true_is_false; rewrite Z.geb_le; lia).
  pose proof (HE k) as EK. unfold env_ok in EK. apply andb_true_iff in EK. destruct EK as (EA & EO). rewrite EA, EO. cbn [negb].
  pose proof (one_fragment (fe_al (env k)) (fe_uid (env k)) pos first HP HP8) as ONE. cbv zeta in ONE.
  set (f_hl := if first then h_hl h else Z.shiftr (20 + zlen fopts) 2) in *.
  set (seg_len := Z.land (mtu - Z.shiftl f_hl 2) 65528) in *.
  set (flen := if pl - pos >? seg_len then seg_len else pl - pos) in *.
  destruct ONE as (FB1 & FM & fh & EH & LH & EL & BG & MF & FO).
  assert (C1 : first && (h_hl h <? 5) = false).
  { apply andb_false_iff. right. apply Z.ltb_ge. destruct W as (WH & _). apply (hw_hl _ WH). }
  rewrite C1. replace (zlen (p_data p) <? pos + flen) with false.
  2:{ symmetry. apply Z.ltb_ge. destruct W as (_ & _ & WD). fold pl in WD. unfold zlen. lia. }
  rewrite EH. cbn [obind].
  set (f := mkP (fe_uid (env k)) fh (ztake flen (zdrop pos (p_data p)))) in *.
  assert (PAY : frag_payload f = ztake flen (zdrop pos (p_data p))).
  { unfold frag_payload. rewrite EL. cbn [f p_data]. unfold ztake at 1 2. rewrite firstn_firstn, Nat.min_id. reflexivity. }
  destruct (Z_lt_le_dec (pos + flen) pl) as [LT|GE].
  - destruct (FM LT) as (F8 & FG).
    destruct (IH (pos + flen) (S k) false ltac:(lia)) as (f2 & r2 & E2 & C2 & D2 & G2 & U2 & O2 & R2).
    { rewrite Z.add_mod, HP8, F8 by lia. reflexivity. }
    { lia. }
    rewrite E2. cbn [obind]. exists f, (f2 :: r2). split; [reflexivity|].
    replace (pos + flen <? pl) with true in MF by (symmetry; apply Z.ltb_lt; exact LT).
    split. { cbn [consecutive]. cbn [consecutive] in C2. rewrite EL, BG, MF. replace (frag_begin p + pos + flen) with (frag_begin p + (pos + flen)) by lia.
      repeat (split; [first [reflexivity|lia|exact F8]|]). exact C2. }
    split. { change (datagram (f :: f2 :: r2)) with (frag_payload f ++ datagram (f2 :: r2)). rewrite D2, PAY.
      replace (pl - pos) with (flen + (pl - (pos + flen))) by lia. rewrite ztake_split by lia. reflexivity. }
    split. { cbn [greedy]. split; [cbn [f p_hdr]; lia|exact G2]. }
    split. { cbn [map length]. cbn [map length] in U2. change (seq k (S (S (length r2)))) with (k :: seq (S k) (S (length r2))). cbn [map]. rewrite U2. reflexivity. }
    split; [exact FO|]. constructor; [exact O2|exact R2].
  - destruct fuel as [|fuel']; [lia|]. cbn [frag_loop].
    replace (pos + flen >=? pl) with true by (symmetry; apply Z.geb_le; lia). cbn [obind].
    exists f, []. split; [reflexivity|].
    replace (pos + flen <? pl) with false in MF by (symmetry; apply Z.ltb_ge; lia).
    split. { cbn [consecutive]. rewrite EL, BG, MF. repeat split; lia. }
    split. { change (datagram [f]) with (frag_payload f ++ []). rewrite app_nil_r, PAY. f_equal. lia. }
    split; [exact I|]. split; [reflexivity|]. split; [exact FO|constructor].
Qed.
End LOOP.

(* whatever the environment, the fragments handed on are the first ones *)
Lemma frag_loop_prefix be env h fopts data pl mtu : forall fuel k pos first fs,
  frag_loop fuel be (make_ok env) k h fopts data pl mtu pos first = Ret (fs, FProcessed) ->
  exists n, (n <= length fs)%nat /\ (forall i, (i < n)%nat -> env_ok (env (k + i)%nat) = true) /\
    frag_loop fuel be env k h fopts data pl mtu pos first = Ret (firstn n fs, if (n =? length fs)%nat then FProcessed else FDrop) /\
    (n = length fs \/ env_ok (env (k + n)%nat) = false).
Proof.
  induction fuel as [|fuel IH]; intros k pos first fs E; [discriminate|].
  cbn [frag_loop] in E |- *.
  destruct (pos >=? pl).
  { injection E as <-. exists 0%nat. split; [cbn; lia|]. split; [lia|]. split; [reflexivity|left; reflexivity]. }
  cbn [make_ok fe_alloc negb] in E.
  set (f_hl := if first then h_hl h else Z.shiftr (20 + zlen fopts) 2) in *.
  set (flen := if pl - pos >? Z.land (mtu - Z.shiftl f_hl 2) 65528 then Z.land (mtu - Z.shiftl f_hl 2) 65528 else pl - pos) in *.
  cbv zeta in E |- *.
  destruct (first && (h_hl h <? 5)); [discriminate|].
  destruct (zlen data <? pos + flen); [discriminate|].
  cbn [make_ok fe_al fe_uid fe_out negb] in E.
  destruct (frag_hdr be (fe_al (env k)) h f_hl _ _ _) as [fh| |] eqn:EH; [|discriminate|discriminate].
  cbn [obind] in E |- *.
  destruct (frag_loop fuel be (make_ok env) (S k) h fopts data pl mtu (pos + flen) false) as [[l r]| |] eqn:EL;
    [|discriminate|discriminate].
  cbn [obind] in E. injection E as <- ->.
  destruct (fe_alloc (env k)) eqn:EA; cbn [negb].
  2:{ exists 0%nat. split; [lia|]. split; [lia|]. split; [reflexivity|]. right. rewrite Nat.add_0_r. unfold env_ok. rewrite EA. reflexivity. }
  destruct (fe_out (env k)) eqn:EO; cbn [negb].
  2:{ exists 0%nat. split; [lia|]. split; [lia|]. split; [reflexivity|]. right. rewrite Nat.add_0_r. unfold env_ok. rewrite EO, andb_false_r. reflexivity. }
  destruct (IH _ _ _ _ EL) as (n & N1 & N2 & N3 & N4).
  exists (S n). cbn [length]. split; [lia|]. split.
  { intros [|i] Hi; [rewrite Nat.add_0_r; unfold env_ok; rewrite EA, EO; reflexivity|].
    replace (k + S i)%nat with (S k + i)%nat by lia. apply N2. lia. }
  rewrite N3. cbn [obind firstn Nat.eqb]. split; [reflexivity|].
  destruct N4 as [->|N4]; [left; reflexivity|right]. replace (k + S n)%nat with (S k + n)%nat by lia. exact N4.
Qed.

Lemma copy_whole p copied fuel : options (h_opt (p_hdr p)) copied -> pkt_wf p -> (64 <= fuel)%nat ->
  copy_opts fuel (h_opt (p_hdr p) ++ p_data p) 0 (Z.shiftl (h_hl (p_hdr p)) 2 - 20) [] = Ret copied.
Proof.
  intros HO (WH & _) HF. pose proof (hw_opt _ WH) as (OB & OL). pose proof (hw_hl _ WH).
  rewrite Z.shiftl_mul_pow2 by lia. change (2^2) with 4.
  pose proof (copy_opts_ok _ _ HO OB [] (p_data p) [] fuel) as E. cbn [app] in E.
  change (zlen []) with 0 in E. rewrite <- E by lia. f_equal. unfold zlen. lia.
Qed.

Lemma fragment_pkt_ok be env p mtu fuel copied :
  pkt_wf p -> options (h_opt (p_hdr p)) copied -> 68 <= mtu <= 65535 -> 0 < frag_len p ->
  frag_end p <= 65536 -> (forall k, env_ok (env k) = true) -> h_len (p_hdr p) + 64 < Z.of_nat fuel ->
  exists fs, fragment_pkt fuel be env p mtu = Ret (fs, FProcessed) /\ fragmentation be p mtu fs /\
    map p_uid fs = map (fun i => fe_uid (env i)) (seq 0 (length fs)).
Proof.
  intros W HO HM HL HE HEN HF.
  destruct (pad4_ok copied) as (n & N4 & EP & M4).
  pose proof (hw_opt _ (proj1 W)) as (OB & OL). pose proof (hw_hl _ (proj1 W)) as HHL.
  assert (PB : bytes_ok (pad4 copied)).
  { rewrite EP. apply Forall_app. split; [apply (options_bytes _ _ HO OB)|]. apply Forall_forall. intros x Hx.
    apply repeat_spec in Hx. subst x. unfold is_byte. lia. }
  assert (PLN : zlen (pad4 copied) <= 40).
  { apply (pad4_le copied 10). pose proof (options_len _ _ HO). unfold zlen. lia. }
  assert (SH : Z.shiftl (h_hl (p_hdr p)) 2 = 4 * h_hl (p_hdr p)) by (rewrite Z.shiftl_mul_pow2 by lia; change (2^2) with 4; lia).
  assert (EN : frag_begin p + frag_len p <= 65536) by exact HE.
  destruct (frag_loop_ok be p mtu (pad4 copied) W HM EN PB (conj M4 PLN) env HEN fuel 0 0%nat true) as (f & r & E & C & D & G & U & O & R).
  { lia. } { reflexivity. } { unfold frag_len. destruct W as (_ & WL & _). lia. }
  exists (f :: r). split.
  { unfold fragment_pkt. rewrite (copy_whole p copied fuel HO W); [|destruct W as (_ & WL & _); lia]. cbn [obind].
    replace (h_len (p_hdr p) - Z.shiftl (h_hl (p_hdr p)) 2) with (frag_len p) by (unfold frag_len; lia). exact E. }
  split; [|exact U].
  split; [rewrite Z.add_0_r in C; exact C|]. split.
  { rewrite D, Z.sub_0_r. reflexivity. }
  split; [exact G|]. exists copied, n. split; [exact HO|]. split; [exact N4|]. split; [exact O|]. rewrite <- EP. exact R.
Qed.

Lemma fragment_pkt_prefix be env p mtu fuel fs :
  fragment_pkt fuel be (make_ok env) p mtu = Ret (fs, FProcessed) ->
  exists n, (n <= length fs)%nat /\ (forall i, (i < n)%nat -> env_ok (env i) = true) /\
    fragment_pkt fuel be env p mtu = Ret (firstn n fs, if (n =? length fs)%nat then FProcessed else FDrop) /\
    (n = length fs \/ env_ok (env n) = false).
Proof.
  unfold fragment_pkt. destruct (copy_opts _ _ _ _ _); cbn [obind]; [|discriminate|discriminate].
  intros E. destruct (frag_loop_prefix _ _ _ _ _ _ _ _ _ _ _ _ E) as (n & A & B & C & D). eauto.
Qed.

(* an option of length zero: the loop over the options never ends *)
Lemma zero_option_diverges fuel m pos len acc o :
  pos < len -> at_ m pos = Some o -> opt_number o <> 0 -> opt_number o <> 1 -> at_ m (pos + 1) = Some 0 ->
  copy_opts fuel m pos len acc = Diverge.
Proof.
  intros HL HA H0 H1 HZ. revert acc. induction fuel as [|fuel IH]; intros acc; [reflexivity|].
  cbn [copy_opts]. replace (pos >=? len) with false by (symmetry; apply Bool.not_true_is_false; rewrite Z.geb_le; lia).
  rewrite HA. replace ((opt_number o =? 0) || (opt_number o =? 1)) with false.
  2:{ symmetry. apply orb_false_iff. split; apply Z.eqb_neq; assumption. }
  rewrite HZ. replace (0 >? len - pos) with false by (symmetry; apply Bool.not_true_is_false; rewrite Z.gtb_lt; lia).
  cbv zeta. replace (ztake 0 (zdrop pos m)) with (@nil Z) by reflexivity. rewrite Z.add_0_r.
  destruct (opt_copied o); rewrite ?app_nil_r; apply IH.
Qed.
