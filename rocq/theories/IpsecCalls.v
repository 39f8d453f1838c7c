(* One lemma per kind of call. *)
From Verif Require Import Base IpsecModel IpsecSpec IpsecList IpsecSp IpsecLk IpsecSa IpsecInv IpsecInv2 IpsecStep.
Ltac Zify.zify_post_hook ::= idtac.

Section CALLS.
Context (nsp nsa fuel : nat) (sync : Z -> bool).
Context (Np : Z.of_nat nsp <= 1073741824) (Fp : (nsp < fuel)%nat) (Fa : (nsa < fuel)%nat).
Notation Inv' := (Inv nsp nsa).
Notation good d a c := (exists d' x, istep fuel sync d c = Ret (d', x) /\ allowed nsp nsa a c x /\ Inv' d' (after sync a c x)).

Lemma legal_small a c : legal a c -> small a.
Proof. intros (F & _) h. destruct (F h). lia. Qed.
Lemma legal_pend a c : legal a c -> c <> CRelease -> pending a = false.
Proof. intros (_ & P & _) N. destruct (pending a); [exfalso; auto|reflexivity]. Qed.

(* creating a policy *)
Lemma supported_dec p : supported_sp p <->
  ((negb (s_p1 (p_sel p) =? 0) || negb (s_p2 (p_sel p) =? 0) || negb (s_p3 (p_sel p) =? 0) || negb (s_p4 (p_sel p) =? 0)) = false /\
   negb (s_type (p_sel p) =? SEL_IPV4) = false /\ p_sa p = None).
Proof.
  unfold supported_sp. rewrite !orb_false_iff, !negb_false_iff, !Z.eqb_eq. tauto.
Qed.
Lemma c_sp_create d a p : Inv' d a -> legal a (CSpCreate p) -> good d a (CSpCreate p).
Proof.
  intros H L. pose proof (legal_pend _ _ L ltac:(discriminate)) as Pe. destruct L as (_ & _ & L). cbv zeta in L.
  pose proof H as [[lf X1] X2 X3 [sf X4] X5 X6 X7 X8 X9 X10 X11].
  pose proof (base_length _ _ _ _ _ _ X1) as Ln.
  assert (Fail : istep fuel sync d (CSpCreate p) = Ret (d, AHandle None) -> (~ supported_sp p \/ sp_clash a p \/ forall h, (h < nsp)%nat -> used_sp a h) -> good d a (CSpCreate p)).
  { intros Q W. exists d, (AHandle None). split; [exact Q|]. split; [right; auto|exact H]. }
  cbn [istep] in *. unfold sp_create, sp_add in *. rewrite supported_dec in Fail.
  destruct (negb (s_p1 (p_sel p) =? 0) || negb (s_p2 (p_sel p) =? 0) || negb (s_p3 (p_sel p) =? 0) || negb (s_p4 (p_sel p) =? 0)) eqn:G1.
  { apply Fail; [reflexivity|]. left. intros (W & _). discriminate. }
  destruct (negb (s_type (p_sel p) =? SEL_IPV4)) eqn:G2.
  { apply Fail; [reflexivity|]. left. intros (_ & W & _). discriminate. }
  rewrite (sp_find_ok (sph d) (p_id p) (names a) fuel (spl d) (b_chain _ _ _ _ _ _ X1)) in * by lia. cbn [obind] in *.
  assert (Ef : find (fun i => p_id (n_par (sph d i)) =? p_id p) (names a) = find (fun i => p_id (ppar a i) =? p_id p) (names a)).
  { apply find_ext_in. intros h Hh. rewrite (b_par _ _ _ _ _ _ X1 h (or_introl Hh)). reflexivity. }
  rewrite Ef in *. destruct (find (fun i => p_id (ppar a i) =? p_id p) (names a)) as [h0|] eqn:G3.
  { apply Fail; [reflexivity|]. right. left. apply find_some in G3. destruct G3 as [G3 G4]. exists h0. split; [exact G3|apply Z.eqb_eq; exact G4]. }
  destruct (p_sa p) as [s0|] eqn:G4.
  { apply Fail; [reflexivity|]. left. intros (_ & _ & W). discriminate. }
  unfold sp_alloc in *. destruct (spf d) as [i|] eqn:G5.
  2:{ apply Fail; [reflexivity|]. right. right. intros h Hh. apply (sp_alloc_none _ _ _ _ _ _ X1 G5 h Hh). }
  clear Fail.
  destruct (newrec_ok nsp d (names a) (ppar a) (pcnt a) lf i X1 G5 p) as (Li & NU & lf' & B' & Sa & Oth & I1 & O1 & Ah & Al & Af & Ac & Rh).
  match goal with |- context [obind (Ret (?dd, Some i)) _] => change dd with (newrec d i p) end.
  set (d1 := newrec d i p) in *. clearbody d1. cbn [obind]. unfold sp_create2. rewrite Rh, X6, Pe.
  set (d2 := w_sp d1 i (f_bsa (sph d1 i) None)).
  assert (S2 : forall k, sph d2 k = if Nat.eqb k i then f_bsa (sph d1 i) None else sph d1 k) by reflexivity.
  assert (SB : sameB d1 d2).
  { split; [reflexivity|split; [reflexivity|]]. intros k. rewrite S2. destruct (Nat.eqb_spec k i) as [EK|]; [subst k|]; repeat split. }
  pose proof (base_same nsp d1 d2 _ _ _ _ SB B') as B2.
  assert (NIn : ~ In i (names a)) by (intros W; apply NU; left; exact W).
  assert (L2 : LkInv d2 (names a) (set (ppar a) i p)).
  { intros dir. rewrite (lkl_ext (set (ppar a) i p) (ppar a)); [|intros j Hj; apply set_ne; intros ->; contradiction].
    replace (lk d2 dir) with (lk d dir).
    2:{ unfold lk. change (inl d2) with (inl d1). change (outl d2) with (outl d1). rewrite I1, O1. reflexivity. }
    apply (chain_ext (fun k => n_nl (sph d k))); [|apply X2]. intros k Hk. apply lkl_in in Hk. rewrite S2.
    destruct (Nat.eqb_spec k i) as [EK|Nk]; [subst k|]; [tauto|]. apply (Oth k Nk). }
  pose proof (b_nd _ _ _ _ _ _ X1) as ND.
  destruct (lookup_add_ok fuel d2 (names a) (set (ppar a) i p) i L2 NIn ND) as (d3 & Q3 & L3 & SB3 & SL3).
  { intros j Hj. apply (b_par _ _ _ _ _ _ B2). left. exact Hj. }
  { lia. }
  rewrite Q3. cbn [obind]. exists (w_act d3 true), (AHandle (Some i)). split; [reflexivity|]. split.
  - left. split; [apply supported_dec; auto|]. split.
    + intros (h & Hh & Eh). rewrite find_none_iff in G3. specialize (G3 h Hh). rewrite Eh, Z.eqb_refl in G3. discriminate.
    + exists i. split; [reflexivity|]. split; [exact Li|exact NU].
  - cbn [after]. destruct SL3 as (SL1 & SL2 & SL3 & SL4 & SL5 & SL6).
    pose proof (base_same nsp d2 d3 _ _ _ _ SB3 B2) as B3.
    constructor; cbn [new_pol pols ppar pcnt assocs qpar qdis qcnt qsel qselp pending]; try assumption.
    + exists lf'. apply (base_same nsp d3 (w_act d3 true) _ _ _ _ ltac:(repeat split) B3).
    + change (sph (w_act d3 true)) with (sph d3). intros h b [W|W].
      * injection W as <- <-. rewrite SL6, S2, Nat.eqb_refl. reflexivity.
      * rewrite SL6, S2. pose proof (pol_names _ _ _ W) as Wn. destruct (Nat.eqb_spec h i) as [EK|Nh]; [subst h|]; [contradiction|]. destruct (Oth h Nh) as [_ ->]. auto.
    + exists sf. apply (sa_same nsa d); [change (sah d3 = sah d); rewrite SL1; exact Ah|change (sal d3 = sal d); rewrite SL2; exact Al|change (saf d3 = saf d); rewrite SL3; exact Af|].
      apply (sa_ext nsa d (assocs a) (qpar a) (qdis a) (fun i => isSome (qsel a i)) (qselp a) (rcv a)); [|intros; auto|exact X4].
      intros k. reflexivity.
    + reflexivity.
    + change (rheld (w_act d3 true)) with (rheld d3). rewrite SL5. change (rheld d2) with (rheld d1). rewrite Rh. exact X6.
    + intros h U. unfold set in *. destruct (Nat.eqb_spec h i) as [EK|Nh]; [subst h|].
      * destruct L as (A1 & A2 & A3 & A4 & A5 & A6). apply negb_false_iff, Z.eqb_eq in G2. repeat (split; [assumption|]). exact G2.
      * apply X7. destruct U as [[W|W]|W]; [cbn in W; congruence|left; exact W|right]. destruct (Nat.eqb_spec h i); [congruence|exact W].
    + intros h b [W|W]; [discriminate W|]. unfold set. pose proof (pol_names _ _ _ W) as Wn. destruct (Nat.eqb_spec h i) as [EK|Nh]; [subst h|]; [contradiction|]. apply (X9 h b W).
Qed.

Lemma pol_split a h : installed a h -> exists l1 b l2, pols a = l1 ++ (h, b) :: l2.
Proof.
  intros W. destruct (in_names_pol a h W) as [b Wb]. destruct (in_split _ _ Wb) as (l1 & l2 & E). exists l1, b, l2. exact E.
Qed.
Lemma pol_nd d a l1 h b l2 : Inv' d a -> pols a = l1 ++ (h, b) :: l2 -> ~ In h (map fst l1) /\ ~ In h (map fst l2).
Proof.
  intros H E. destruct (i_sp _ _ _ _ H) as [lf B]. pose proof (b_nd _ _ _ _ _ _ B) as ND. unfold names in ND. rewrite E, map_app in ND. cbn [map fst] in ND.
  destruct (nodup_split _ _ _ ND) as (N1 & N2 & _). auto.
Qed.
Lemma c_sp_destroy d a i : Inv' d a -> legal a (CSpDestroy i) -> good d a (CSpDestroy i).
Proof.
  intros H L. pose proof (legal_pend _ _ L ltac:(discriminate)) as Pe. pose proof (legal_small _ _ L) as Sm. destruct L as (_ & _ & I & P).
  destruct (pol_split a i I) as (l1 & b & l2 & E). destruct (pol_nd _ _ _ _ _ _ H E) as [N1 N2].
  destruct (sp_destroy_ok nsp nsa d a l1 i b l2 fuel H E P Sm Pe Np Fp) as (d' & Q & I' & _).
  exists d', (ARc true). cbn [istep]. rewrite Q. cbn [obind]. split; [reflexivity|]. split; [reflexivity|].
  cbn [after]. rewrite E, kill_one by assumption. exact I'.
Qed.

Lemma hd_in {A} (l : list A) x : hd_error l = Some x -> In x l.
Proof. destruct l; [discriminate|]. intros E. injection E as ->. left. reflexivity. Qed.

Lemma sp_ref_inv d a o : Inv' d a -> few_refs a -> (forall i, o = Some i -> In i (names a)) ->
  Inv' (sp_ref d o) (v_pp a (pols a) (fun j => pcnt a j + heldb o j)).
Proof.
  intros H Fw I. destruct (i_sp _ _ _ _ H) as [lf B].
  destruct (sp_ref_ok' nsp d (names a) (ppar a) (pcnt a) lf o B I) as (pc' & E & B' & R & _).
  { intros j. destruct (Fw j). lia. }
  apply (inv_sp nsp nsa d _ a _ lf H).
  - apply (base_ext nsp _ (names a) (ppar a) pc'); [intros j; rewrite E; reflexivity|auto|exact B'].
  - exact R.
  - intros h Hh. destruct (Z_lt_le_dec 0 (pcnt a h)); [right; assumption|]. left.
    assert (heldb o h = 1) as W by (pose proof (heldb_le o h); lia). unfold heldb, b2z in W. destruct o as [k|]; [|discriminate].
    destruct (Nat.eqb_spec h k) as [->|]; [apply I; reflexivity|discriminate].
Qed.
Lemma sp_flush_ok d a check vrf : Inv' d a -> few_refs a -> pending a = false ->
  exists d', sp_flush fuel d check vrf = Ret (d', true) /\ Inv' d' (v_pols a (kill (pols a) (fun h => in_vrf check vrf (p_vrf (ppar a h))))).
Proof.
  intros H Fw Pe. unfold sp_flush, sp_first. destruct (i_sp _ _ _ _ H) as [lf B].
  pose proof (chain_hd _ _ _ (b_chain _ _ _ _ _ _ B)) as Hd. fold (names a) in Hd. unfold names in Hd.
  assert (H1 : Inv' (sp_ref d (spl d)) (v_pp a (pols a) (fun j => pcnt a j + heldb (spl d) j))).
  { apply sp_ref_inv; [exact H|exact Fw|]. intros i E. rewrite Hd in E. apply hd_in. exact E. }
  pose proof (names_length _ _ _ _ B) as Ln.
  destruct (sp_flush_loop_ok nsp nsa fuel check vrf (pcnt a) Np Fp (pols a) [] _ _ fuel H1) as (d' & Q & I').
  { reflexivity. }
  { exact Pe. }
  { lia. }
  { intros j. cbn [v_pp pcnt]. rewrite Hd. reflexivity. }
  { intros j. split; [apply (b_pos _ _ _ _ _ _ B)|apply Fw]. }
  { intros j. apply Fw. }
  rewrite <- Hd in Q. exists d'. split; [exact Q|]. refine (inv_veq nsp nsa d' _ _ _ I').
  constructor; reflexivity.
Qed.
Lemma c_sp_flush d a v : Inv' d a -> legal a (CSpFlush v) -> good d a (CSpFlush v).
Proof.
  intros H L. pose proof (legal_pend _ _ L ltac:(discriminate)) as Pe. destruct L as (Fw & _).
  destruct (sp_flush_ok d a true v H Fw Pe) as (d' & Q & I'). exists d', (ARc true). cbn [istep]. rewrite Q. split; [reflexivity|]. split; [reflexivity|]. exact I'.
Qed.

(* find, first, next, ref, unref, info *)
Lemma give_p_eq a o : veq (v_pp a (pols a) (fun j => pcnt a j + heldb o j)) (give_p a o 1).
Proof.
  destruct o as [i|]; constructor; cbn [v_pp give_p pols ppar pcnt assocs qpar qdis qcnt qsel qselp pending]; try reflexivity; intros j; unfold heldb, b2z, set; [|lia].
  destruct (Nat.eqb_spec j i) as [->|]; lia.
Qed.
Lemma c_sp_find d a id : Inv' d a -> legal a (CSpFind id) -> good d a (CSpFind id).
Proof.
  intros H (Fw & _). destruct (i_sp _ _ _ _ H) as [lf B]. pose proof (base_length _ _ _ _ _ _ B) as Ln.
  cbn [istep]. unfold sp_find_by_id. rewrite (sp_find_ok (sph d) id (names a) fuel (spl d) (b_chain _ _ _ _ _ _ B)) by lia. cbn [obind].
  assert (Ef : find (fun i => p_id (n_par (sph d i)) =? id) (names a) = find (fun i => p_id (ppar a i) =? id) (names a)).
  { apply find_ext_in. intros h Hh. rewrite (b_par _ _ _ _ _ _ B h (or_introl Hh)). reflexivity. }
  rewrite Ef. set (o := find (fun i => p_id (ppar a i) =? id) (names a)).
  exists (sp_ref d o), (AHandle o). split; [reflexivity|]. split.
  - unfold o. destruct (find (fun i => p_id (ppar a i) =? id) (names a)) as [h|] eqn:E.
    + left. apply find_some in E. destruct E as [E1 E2]. exists h. split; [reflexivity|]. split; [exact E1|apply Z.eqb_eq; exact E2].
    + right. split; [reflexivity|]. intros h Hh Eh. rewrite find_none_iff in E. specialize (E h Hh). rewrite Eh, Z.eqb_refl in E. discriminate.
  - cbn [after]. refine (inv_veq _ _ _ _ _ (give_p_eq a o) _). apply sp_ref_inv; [exact H|exact Fw|].
    intros i E. apply find_some in E. tauto.
Qed.
Lemma c_sp_first d a : Inv' d a -> legal a CSpFirst -> good d a CSpFirst.
Proof.
  intros H (Fw & _). destruct (i_sp _ _ _ _ H) as [lf B]. cbn [istep]. unfold sp_first. pose proof (chain_hd _ _ _ (b_chain _ _ _ _ _ _ B)) as Hd.
  exists (sp_ref d (spl d)), (AHandle (spl d)). split; [reflexivity|]. split; [cbn [allowed]; f_equal; exact Hd|]. cbn [after].
  refine (inv_veq _ _ _ _ _ (give_p_eq a _) _). apply sp_ref_inv; [exact H|exact Fw|]. intros i E. rewrite Hd in E. apply hd_in. exact E.
Qed.
Lemma c_sp_next d a i : Inv' d a -> legal a (CSpNext i) -> good d a (CSpNext i).
Proof.
  intros H L. pose proof (legal_small _ _ L) as Sm. destruct L as (Fw & _ & I & P). destruct (i_sp _ _ _ _ H) as [lf B].
  destruct (in_split _ _ I) as (m1 & m2 & Em). fold (names a) in Em.
  pose proof (b_nd _ _ _ _ _ _ B) as ND. rewrite Em in ND. destruct (nodup_split _ _ _ ND) as (N1 & N2 & _).
  assert (NX : n_next (sph d i) = hd_error m2).
  { pose proof (b_chain _ _ _ _ _ _ B) as C. rewrite Em in C. apply (chain_next _ _ _ _ _ C). }
  assert (Hin : forall j, n_next (sph d i) = Some j -> In j (names a)).
  { rewrite NX, Em. intros j Hj. apply in_app_iff. right. right. apply hd_in. exact Hj. }
  destruct (sp_next_ok nsp d (names a) (ppar a) (pcnt a) lf i B P) as (lf' & pc' & B' & R & C).
  { intros j. apply Sm. }
  { exact Hin. }
  exists (fst (sp_next d i)), (AHandle (n_next (sph d i))). split; [reflexivity|]. split.
  - cbn [allowed]. fold (names a). rewrite Em, (after_in_app i m2 m1 N1), NX. reflexivity.
  - cbn [after]. refine (inv_veq nsp nsa _ _ _ _ (inv_sp nsp nsa d _ a pc' lf' H B' R _)).
    + destruct (n_next (sph d i)) as [k|]; constructor; cbn [give_p pols ppar pcnt assocs qpar qdis qcnt qsel qselp pending]; try reflexivity; intros j; rewrite C; unfold b2z, set.
      * destruct (Nat.eqb_spec j i) as [->|]; [destruct (Nat.eqb_spec i k) as [<-|]; lia|]. destruct (Nat.eqb_spec j k) as [->|]; lia.
      * destruct (Nat.eqb_spec j i) as [->|]; lia.
    + intros h Hh. destruct (Z_lt_le_dec 0 (pcnt a h)); [right; assumption|]. left. rewrite C in Hh.
      apply Hin. destruct (n_next (sph d i)) as [k|]; unfold b2z in Hh; [destruct (Nat.eqb_spec h k) as [EK|]; [rewrite EK; reflexivity|]|]; destruct (Nat.eqb h i); lia.
Qed.
Lemma c_sp_ref d a i : Inv' d a -> legal a (CSpRef i) -> good d a (CSpRef i).
Proof.
  intros H (Fw & _ & P). destruct (i_sp _ _ _ _ H) as [lf B]. exists (sp_ref d (Some i)), AUnit. split; [reflexivity|]. split; [reflexivity|].
  destruct (sp_ref_ok nsp d (names a) (ppar a) (pcnt a) lf i B (or_intror P)) as (B' & R & _).
  { destruct (Fw i). lia. }
  cbn [after]. refine (inv_sp nsp nsa d _ a _ lf H B' R _). intros h Hh. unfold set in Hh. destruct (Nat.eqb_spec h i) as [EK|]; [subst h|]; right; assumption.
Qed.
Lemma c_sp_unref d a i : Inv' d a -> legal a (CSpUnref i) -> good d a (CSpUnref i).
Proof.
  intros H (Fw & _ & P). destruct (i_sp _ _ _ _ H) as [lf B]. exists (sp_unref d (Some i)), AUnit. split; [reflexivity|]. split; [reflexivity|].
  destruct (sp_unref_ok nsp d (names a) (ppar a) (pcnt a) lf i B P) as (lf' & B' & R).
  { destruct (Fw i). lia. }
  cbn [after]. refine (inv_veq nsp nsa _ _ _ _ (inv_sp nsp nsa d _ a _ lf' H B' R _)).
  - constructor; reflexivity.
  - intros h Hh. unfold set in Hh. destruct (Nat.eqb_spec h i) as [EK|]; [subst h|]; right; assumption.
Qed.
Lemma c_sp_info d a i : Inv' d a -> legal a (CSpInfo i) -> good d a (CSpInfo i).
Proof.
  intros H (Fw & _ & P). destruct (i_sp _ _ _ _ H) as [lf B].
  exists d, (ASp (negb (isin i (names a))) (ppar a i)). cbn [istep]. unfold sp_get_info. rewrite (b_par _ _ _ _ _ _ B i (or_intror P)), (b_destr _ _ _ _ _ _ B i (or_intror P)).
  rewrite par_back by (apply (i_good _ _ _ _ H); right; exact P). split; [reflexivity|]. split; [|exact H].
  exists (negb (isin i (names a))). split; [reflexivity|]. rewrite negb_false_iff, isin_in. reflexivity.
Qed.

(* associations *)
Lemma sa_ok_true a q odp : sa_ok (assocs a) (qpar a) q odp = true <-> supported_sa q /\ ~ sa_clash a q /\ odp = true.
Proof.
  unfold sa_ok, supported_sa, sa_clash. rewrite !andb_true_iff, negb_true_iff, !orb_false_iff, andb_false_iff, negb_false_iff, Z.eqb_eq, Z.eqb_neq.
  split.
  - intros (((((A1 & A2) & A3) & A4) & A5) & A6). split; [split; [exact A1|split; [exact A2|tauto]]|]. split; [|exact A6].
    intros (h & Hh & [W|(W1 & W2 & W3)]).
    + destruct (find (fun h0 => q_id (qpar a h0) =? q_id q) (assocs a)) eqn:E; [discriminate|]. rewrite find_none_iff in E. specialize (E h Hh). rewrite W, Z.eqb_refl in E. discriminate.
    + destruct (find (fun h0 => (q_dir q =? DIR_IN) && ((q_dir (qpar a h0) =? DIR_IN) && (q_spi (qpar a h0) =? q_spi q))) (assocs a)) eqn:E; [discriminate|].
      rewrite find_none_iff in E. specialize (E h Hh). cbv beta in E. rewrite W1, W2, W3, !Z.eqb_refl in E. discriminate.
  - intros ((A1 & A2 & A3) & N & A6). split; [|exact A6]. split; [split|].
    + split; [auto|]. destruct (Z.eq_dec (q_mode q) MODE_TUNNEL); [right; auto|left; assumption].
    + destruct (find (fun h0 => q_id (qpar a h0) =? q_id q) (assocs a)) as [h|] eqn:E; [|reflexivity]. exfalso. apply N. apply find_some in E. destruct E as [E1 E2].
      exists h. split; [exact E1|]. left. apply Z.eqb_eq. exact E2.
    + destruct (find (fun h0 => (q_dir q =? DIR_IN) && ((q_dir (qpar a h0) =? DIR_IN) && (q_spi (qpar a h0) =? q_spi q))) (assocs a)) as [h|] eqn:E; [|reflexivity].
      exfalso. apply N. apply find_some in E. destruct E as [E1 E2]. rewrite !andb_true_iff, !Z.eqb_eq in E2. exists h. split; [exact E1|]. right. tauto.
Qed.
Lemma supported_sa_dec q : supported_sa q \/ ~ supported_sa q.
Proof.
  unfold supported_sa. destruct (q_udp q); [right; intros (W & _); discriminate|]. destruct (q_flabel q); [right; intros (_ & W & _); discriminate|].
  destruct (Z.eq_dec (q_mode q) MODE_TUNNEL), (Z.eq_dec (q_tun q) TUN_IPV4); [left; auto|right; intros (_ & _ & W); auto|left; auto|left; repeat split; intros; contradiction].
Qed.
Lemma c_sa_create d a q odp : Inv' d a -> legal a (CSaCreate q odp) -> good d a (CSaCreate q odp).
Proof.
  intros H (Fw & _). destruct (i_sa _ _ _ _ H) as [sf B].
  destruct (sa_create_ok nsa d (assocs a) _ _ _ _ (rcv a) sf q odp fuel B Fa) as (d' & o & Q & P & X).
  exists d', (AHandle o). cbn [istep]. rewrite Q. cbn [obind]. split; [reflexivity|]. destruct o as [i|].
  - destruct X as (Ok & Li & NU & sf' & B'). apply sa_ok_true in Ok. destruct Ok as (O1 & O2 & O3). split.
    + left. split; [exact O1|]. split; [exact O2|]. split; [exact O3|]. exists i. split; [reflexivity|]. split; [exact Li|]. rewrite (used_rc nsp nsa d a i H). exact NU.
    + cbn [after]. destruct H as [[lf X1] X2 X3 _ X5 X6 X7 X8 X9 X10 X11]. pose proof P as (E1 & E2 & E3 & E4 & E5 & E6 & E7).
      assert (Z0 : nb (pols a) i = 0 /\ ~ In i (assocs a)).
      { pose proof (nb_nonneg (pols a) i). pose proof (X11 i). unfold rcv in NU. unfold b2z in NU. destruct (isin i (assocs a)) eqn:W; [exfalso; lia|]. split; [lia|apply isin_not; exact W]. }
      destruct Z0 as [Z0 Z1].
      assert (Rc : forall k, rcv (new_assoc a i q) k = set (rcv a) i 2 k).
      { intros k. unfold rcv, set. cbn [new_assoc qcnt assocs pols]. rewrite isin_cons. unfold set. destruct (Nat.eqb_spec k i) as [EK|]; [subst k|]; [rewrite Z0; reflexivity|reflexivity]. }
      constructor; cbn [new_assoc pols ppar pcnt assocs qpar qdis qcnt qsel qselp pending]; try assumption.
      * exists lf. apply (sp_sameP _ d d' _ _ _ _ P X1).
      * apply (lk_sameP d d' _ _ P X2).
      * intros h c Hc. rewrite E1. auto.
      * exists sf'. apply (sa_ext nsa d' (i :: assocs a) (set (qpar a) i q) (set (qdis a) i false) (set (fun i => isSome (qsel a i)) i false) (qselp a) (set (rcv a) i 2)); [exact Rc| |exact B'].
        intros k _. repeat (split; [reflexivity|]). split; [|auto]. unfold set. destruct (Nat.eqb k i); reflexivity.
      * rewrite E6. exact X5.
      * rewrite E7. exact X6.
      * intros k W. apply X8. unfold set in W. destruct (Nat.eqb k i); [congruence|exact W].
      * intros k Hk W. rewrite Rc in Hk. unfold set in *. destruct (Nat.eqb_spec k i) as [EK|]; [subst k|]; [exfalso; apply W; left; reflexivity|]. apply X10; [exact Hk|]. intros V. apply W. right. exact V.
      * intros k. unfold set. destruct (Nat.eqb k i); [lia|apply X11].
  - destruct X as [B' W]. split.
    + right. split; [reflexivity|]. destruct W as [W|W].
      * destruct (supported_sa_dec q) as [S|S]; [|left; exact S]. right. destruct odp; [|right; left; reflexivity]. left.
        assert (N : ~ (supported_sa q /\ ~ sa_clash a q /\ true = true)) by (rewrite <- sa_ok_true; congruence).
        (* clash is decidable *)
        destruct (find (fun h0 => (q_id (qpar a h0) =? q_id q) || ((q_dir q =? DIR_IN) && ((q_dir (qpar a h0) =? DIR_IN) && (q_spi (qpar a h0) =? q_spi q)))) (assocs a)) as [h|] eqn:E.
        -- apply find_some in E. destruct E as [E1 E2]. rewrite orb_true_iff, !andb_true_iff, !Z.eqb_eq in E2. exists h. split; [exact E1|]. tauto.
        -- exfalso. apply N. split; [exact S|]. split; [|reflexivity]. intros (h & Hh & V). rewrite find_none_iff in E. specialize (E h Hh). cbv beta in E.
           destruct V as [V|(V1 & V2 & V3)]; [rewrite V, Z.eqb_refl in E|rewrite V1, V2, V3, !Z.eqb_refl, orb_true_r in E]; discriminate.
      * right. right. right. intros h Hh. apply (used_rc nsp nsa d a h H). auto.
    + cbn [after]. refine (inv_veq nsp nsa d' _ a _ (inv_sa nsp nsa d d' a (assocs a) (qdis a) (qcnt a) (qsel a) (qselp a) sf H P B' (i_gone _ _ _ _ H) (i_qpos _ _ _ _ H) (i_goodq _ _ _ _ H))).
      constructor; reflexivity.
Qed.

Lemma c_sa_destroy d a i o1 o2 : Inv' d a -> legal a (CSaDestroy i o1 o2) -> good d a (CSaDestroy i o1 o2).
Proof.
  intros H L. pose proof (legal_pend _ _ L ltac:(discriminate)) as Pe. pose proof (legal_small _ _ L) as Sm. destruct L as (_ & _ & P & ->).
  destruct (sa_destroy_ok nsp nsa d a i fuel sync o1 H P Pe Sm Np Fa) as (d' & Q & I' & _).
  exists d', (ARc (sa_destroy_rc a o1 i)). cbn [istep]. rewrite Q. split; [reflexivity|]. split; [reflexivity|]. exact I'.
Qed.
Lemma c_sa_done d a i o2 : Inv' d a -> legal a (CSaDone i o2) -> good d a (CSaDone i o2).
Proof.
  intros H L. pose proof (legal_small _ _ L) as Sm. destruct L as (_ & _ & I & Qd & ->). destruct (in_split _ _ I) as (l1 & l2 & E).
  destruct (sa_fin_inv nsp nsa d a l1 i l2 fuel H E Qd Sm Np Fa) as (d' & Q & I' & _).
  exists d', (ARc true). cbn [istep]. rewrite Q. split; [reflexivity|]. split; [reflexivity|]. cbn [after].
  destruct (i_sa _ _ _ _ H) as [sf B]. pose proof (c_nd _ _ _ _ _ _ _ _ _ B) as ND. rewrite E in ND. destruct (nodup_split _ _ _ ND) as (N1 & N2 & _).
  rewrite E, filter_keep_one; [|intros x Nx; destruct (Nat.eqb_spec x i); [congruence|reflexivity]|exact N1|exact N2]. rewrite Nat.eqb_refl. exact I'.
Qed.

Definition v_qc (a : view) qc := v_sa a (assocs a) (qdis a) qc.
Lemma sa_ref_inv d a o : Inv' d a -> few_refs a -> (forall i, o = Some i -> 0 < rcv a i) ->
  Inv' (sa_ref d o) (v_qc a (fun j => qcnt a j + heldb o j)).
Proof.
  intros H Fw I. destruct (i_sa _ _ _ _ H) as [sf B].
  assert (Sm : small a) by (intros h; destruct (Fw h); lia). pose proof (rc_small _ _ _ _ H Sm Np) as Rs.
  destruct (sa_ref_ok' nsa d (assocs a) _ _ _ _ (rcv a) sf o B) as (rc' & E & B' & R & _).
  { intros i Hi. split; [auto|]. specialize (Rs i). lia. }
  assert (Rc : forall j, rcv (v_qc a (fun j => qcnt a j + heldb o j)) j = rc' j).
  { intros j. rewrite E. unfold rcv. cbn [v_qc v_sa qcnt assocs pols]. unfold heldb. lia. }
  refine (inv_sa nsp nsa d _ a (assocs a) (qdis a) _ (qsel a) (qselp a) sf H R _ _ _ (i_goodq _ _ _ _ H)).
  - apply (sa_ext nsa _ (assocs a) (qpar a) (qdis a) (fun i => isSome (qsel a i)) (qselp a) rc'); [exact Rc|auto|exact B'].
  - intros k Hk W. apply (i_gone _ _ _ _ H); [|exact W]. change (0 < rcv (v_qc a (fun j => qcnt a j + heldb o j)) k) in Hk. rewrite Rc, E in Hk.
    unfold b2z in Hk. destruct o as [j|]; [destruct (Nat.eqb_spec k j) as [EK|]; [rewrite EK; apply I; reflexivity|]|]; lia.
  - intros k. pose proof (heldb_le o k). pose proof (i_qpos _ _ _ _ H k). lia.
Qed.
Lemma sa_flush_ok d a check vrf o1 : Inv' d a -> few_refs a -> pending a = false ->
  let pick h := in_vrf check vrf (q_vrf (qpar a h)) in
  exists d', sa_flush fuel d check vrf sync o1 true = Ret (d', forallb (fun i => negb (pick i) || sa_destroy_rc a o1 i) (assocs a)) /\
    Inv' d' (kill_sa a sync pick o1).
Proof.
  intros H Fw Pe pick. unfold sa_flush, sa_first. destruct (i_sa _ _ _ _ H) as [sf B].
  pose proof (chain_hd _ _ _ (c_chain _ _ _ _ _ _ _ _ _ B)) as Hd.
  assert (H1 : Inv' (sa_ref d (sal d)) (v_qc a (fun j => qcnt a j + heldb (sal d) j))).
  { apply sa_ref_inv; [exact H|exact Fw|]. intros i E. rewrite Hd in E. apply (c_in _ _ _ _ _ _ _ _ _ B). apply hd_in. exact E. }
  pose proof (sa_length _ _ _ _ _ _ _ _ _ B) as Ln.
  destruct (sa_flush_loop_ok nsp nsa fuel check vrf sync o1 (qcnt a) Np Fa (assocs a) [] _ _ fuel true H1) as (d' & Q & I').
  { reflexivity. }
  { exact Pe. }
  { lia. }
  { intros j. cbn [v_qc v_sa qcnt]. rewrite Hd. reflexivity. }
  { intros j. split; [apply (i_qpos _ _ _ _ H)|apply Fw]. }
  { intros j. apply Fw. }
  rewrite <- Hd in Q. exists d'. split; [exact Q|]. rewrite kill_sa_eq. refine (inv_veq nsp nsa d' _ _ _ I').
  constructor; reflexivity.
Qed.
Lemma c_sa_flush d a v o1 o2 : Inv' d a -> legal a (CSaFlush v o1 o2) -> good d a (CSaFlush v o1 o2).
Proof.
  intros H L. pose proof (legal_pend _ _ L ltac:(discriminate)) as Pe. destruct L as (Fw & _ & ->).
  destruct (sa_flush_ok d a true v o1 H Fw Pe) as (d' & Q & I'). eexists d', _. cbn [istep]. rewrite Q. split; [reflexivity|]. split; [reflexivity|]. exact I'.
Qed.
Lemma c_stop d a o1 o2 : Inv' d a -> legal a (CStop o1 o2) -> good d a (CStop o1 o2).
Proof.
  intros H L. pose proof (legal_pend _ _ L ltac:(discriminate)) as Pe. destruct L as (Fw & _ & ->).
  destruct (sp_flush_ok d a false 0 H Fw Pe) as (d1 & Q1 & I1).
  assert (K : kill (pols a) (fun h => in_vrf false 0 (p_vrf (ppar a h))) = []).
  { unfold kill. clear. induction (pols a) as [|x r IH]; cbn [filter]; [reflexivity|]. exact IH. }
  rewrite K in I1. destruct (sa_flush_ok d1 (v_pols a []) false 0 o1 I1 Fw Pe) as (d2 & Q2 & I2).
  exists d2, (ARc true). cbn [istep]. rewrite Q1. cbn [obind]. rewrite Q2. split; [reflexivity|]. split; [reflexivity|]. exact I2.
Qed.

Lemma give_q_eq a o : veq (v_qc a (fun j => qcnt a j + heldb o j)) (give_q a o 1).
Proof.
  destruct o as [i|]; constructor; cbn [v_qc v_sa give_q pols ppar pcnt assocs qpar qdis qcnt qsel qselp pending]; try reflexivity; intros j; unfold heldb, b2z, set; [|lia].
  destruct (Nat.eqb_spec j i) as [->|]; lia.
Qed.
Lemma c_sa_find d a id : Inv' d a -> legal a (CSaFind id) -> good d a (CSaFind id).
Proof.
  intros H (Fw & _). destruct (i_sa _ _ _ _ H) as [sf B]. pose proof (sa_length _ _ _ _ _ _ _ _ _ B) as Ln.
  cbn [istep]. unfold sa_find_by_id. rewrite (sa_find_ok (sah d) (by_id id) (assocs a) fuel (sal d) (c_chain _ _ _ _ _ _ _ _ _ B)) by lia. cbn [obind].
  assert (Ef : find (fun i => by_id id (a_par (sah d i))) (assocs a) = find (fun i => q_id (qpar a i) =? id) (assocs a)).
  { apply find_ext_in. intros h Hh. rewrite (c_par _ _ _ _ _ _ _ _ _ B h (c_in _ _ _ _ _ _ _ _ _ B h Hh)). reflexivity. }
  rewrite Ef. set (o := find (fun i => q_id (qpar a i) =? id) (assocs a)).
  exists (sa_ref d o), (AHandle o). split; [reflexivity|]. split.
  - unfold o. destruct (find (fun i => q_id (qpar a i) =? id) (assocs a)) as [h|] eqn:E.
    + left. apply find_some in E. destruct E as [E1 E2]. exists h. split; [reflexivity|]. split; [exact E1|apply Z.eqb_eq; exact E2].
    + right. split; [reflexivity|]. intros h Hh Eh. rewrite find_none_iff in E. specialize (E h Hh). rewrite Eh, Z.eqb_refl in E. discriminate.
  - cbn [after]. refine (inv_veq _ _ _ _ _ (give_q_eq a o) _). apply sa_ref_inv; [exact H|exact Fw|].
    intros i E. apply find_some in E. apply (c_in _ _ _ _ _ _ _ _ _ B). tauto.
Qed.
Lemma c_sa_first d a : Inv' d a -> legal a CSaFirst -> good d a CSaFirst.
Proof.
  intros H (Fw & _). destruct (i_sa _ _ _ _ H) as [sf B]. cbn [istep]. unfold sa_first. pose proof (chain_hd _ _ _ (c_chain _ _ _ _ _ _ _ _ _ B)) as Hd.
  exists (sa_ref d (sal d)), (AHandle (sal d)). split; [reflexivity|]. split; [cbn [allowed]; f_equal; exact Hd|]. cbn [after].
  refine (inv_veq _ _ _ _ _ (give_q_eq a _) _). apply sa_ref_inv; [exact H|exact Fw|]. intros i E. rewrite Hd in E. apply (c_in _ _ _ _ _ _ _ _ _ B). apply hd_in. exact E.
Qed.
Lemma q_rc d a i : Inv' d a -> 0 < qcnt a i -> 0 < rcv a i.
Proof. intros H P. unfold rcv. pose proof (nb_nonneg (pols a) i). unfold b2z. destruct (isin i (assocs a)); lia. Qed.
Lemma sa_hold_inv d d' a qc sf : Inv' d a -> sameP d d' -> (forall j, 0 <= qc j) ->
  SaBase nsa d' (assocs a) (qpar a) (qdis a) (fun i => isSome (qsel a i)) (qselp a) (rcv (v_qc a qc)) sf ->
  (forall h, 0 < qc h -> 0 < rcv a h) -> Inv' d' (v_qc a qc).
Proof.
  intros H R Pq B U. refine (inv_sa nsp nsa d d' a (assocs a) (qdis a) qc (qsel a) (qselp a) sf H R B _ Pq (i_goodq _ _ _ _ H)).
  intros k Hk W. apply (i_gone _ _ _ _ H); [|exact W].
  change (0 < rcv (v_qc a qc) k) in Hk. destruct (Z_lt_le_dec 0 (qc k)); [auto|].
  unfold rcv in Hk |- *. cbn [v_qc v_sa qcnt assocs pols] in Hk. pose proof (i_qpos _ _ _ _ H k). specialize (Pq k). lia.
Qed.
Lemma c_sa_next d a i : Inv' d a -> legal a (CSaNext i) -> good d a (CSaNext i).
Proof.
  intros H L. pose proof (legal_small _ _ L) as Sm. destruct L as (Fw & _ & I & P). destruct (i_sa _ _ _ _ H) as [sf B].
  pose proof (rc_small _ _ _ _ H Sm Np) as Rs.
  destruct (in_split _ _ I) as (m1 & m2 & Em).
  pose proof (c_nd _ _ _ _ _ _ _ _ _ B) as ND. rewrite Em in ND. destruct (nodup_split _ _ _ ND) as (N1 & N2 & _).
  assert (NX : a_next (sah d i) = hd_error m2).
  { pose proof (c_chain _ _ _ _ _ _ _ _ _ B) as C. rewrite Em in C. apply (chain_next _ _ _ _ _ C). }
  assert (Hin : forall j, a_next (sah d i) = Some j -> In j (assocs a)).
  { rewrite NX, Em. intros j Hj. apply in_app_iff. right. right. apply hd_in. exact Hj. }
  destruct (sa_next_ok nsa d (assocs a) _ _ _ _ (rcv a) sf i B (q_rc d a i H P)) as (sf' & rc' & B' & R & C).
  { unfold rcv. rewrite (proj2 (isin_in i _) I). pose proof (nb_nonneg (pols a) i). unfold b2z. intros; exfalso; lia. }
  { intros j. specialize (Rs j). lia. }
  { exact Hin. }
  exists (fst (sa_next d i)), (AHandle (a_next (sah d i))). split; [reflexivity|]. split.
  - cbn [allowed]. rewrite Em, (after_in_app i m2 m1 N1), NX. reflexivity.
  - cbn [after]. set (qc := fun j => qcnt a j + heldb (a_next (sah d i)) j - b2z (Nat.eqb j i)).
    refine (inv_veq nsp nsa _ (v_qc a qc) _ _ (sa_hold_inv d _ a qc sf' H R _ _ _)).
    + destruct (a_next (sah d i)) as [k|]; constructor; cbn [v_qc v_sa give_q pols ppar pcnt assocs qpar qdis qcnt qsel qselp pending]; try reflexivity; intros j; unfold qc, heldb, b2z, set.
      * destruct (Nat.eqb_spec j i) as [->|]; [destruct (Nat.eqb_spec i k) as [<-|]; lia|]. destruct (Nat.eqb_spec j k) as [->|]; lia.
      * destruct (Nat.eqb_spec j i) as [->|]; lia.
    + intros j. unfold qc. pose proof (heldb_le (a_next (sah d i)) j). pose proof (i_qpos _ _ _ _ H j). unfold b2z. destruct (Nat.eqb_spec j i) as [->|]; lia.
    + apply (sa_ext nsa _ (assocs a) (qpar a) (qdis a) (fun i => isSome (qsel a i)) (qselp a) rc'); [|auto|exact B'].
      intros j. rewrite C. unfold rcv. cbn [v_qc v_sa qcnt assocs pols]. unfold qc, heldb. lia.
    + intros h Hh. destruct (Z_lt_le_dec 0 (qcnt a h)); [apply (q_rc d); assumption|]. apply (c_in _ _ _ _ _ _ _ _ _ B). apply Hin. unfold qc in Hh.
      unfold heldb in Hh. destruct (a_next (sah d i)) as [k|]; unfold b2z in Hh; [destruct (Nat.eqb_spec h k) as [EK|]; [rewrite EK; reflexivity|]|]; destruct (Nat.eqb h i); lia.
Qed.
Lemma c_sa_ref d a i : Inv' d a -> legal a (CSaRef i) -> good d a (CSaRef i).
Proof.
  intros H (Fw & _ & P). exists (sa_ref d (Some i)), AUnit. split; [reflexivity|]. split; [reflexivity|]. cbn [after].
  refine (inv_veq _ _ _ _ _ (give_q_eq a (Some i)) _). apply sa_ref_inv; [exact H|exact Fw|]. intros j E. injection E as <-. apply (q_rc d); assumption.
Qed.
Lemma c_sa_unref d a i : Inv' d a -> legal a (CSaUnref i) -> good d a (CSaUnref i).
Proof.
  intros H L. pose proof (legal_small _ _ L) as Sm. destruct L as (Fw & _ & P). destruct (i_sa _ _ _ _ H) as [sf B].
  pose proof (rc_small _ _ _ _ H Sm Np) as Rs.
  destruct (sa_unref_ok nsa d (assocs a) _ _ _ _ (rcv a) sf i B (q_rc d a i H P)) as (sf' & B' & R & _).
  { specialize (Rs i). lia. }
  { unfold rcv. intros W V. rewrite (proj2 (isin_in i _) V) in W. pose proof (nb_nonneg (pols a) i). unfold b2z in W. lia. }
  exists (sa_unref d (Some i)), AUnit. split; [reflexivity|]. split; [reflexivity|]. cbn [after].
  refine (inv_veq nsp nsa _ (v_qc a (set (qcnt a) i (qcnt a i - 1))) _ _ (sa_hold_inv d _ a _ sf' H R _ _ _)).
  - constructor; reflexivity.
  - intros j. unfold set. pose proof (i_qpos _ _ _ _ H j). destruct (Nat.eqb_spec j i) as [->|]; lia.
  - apply (sa_ext nsa _ (assocs a) (qpar a) (qdis a) (fun i => isSome (qsel a i)) (qselp a) (set (rcv a) i (rcv a i - 1))); [|auto|exact B'].
    intros j. unfold rcv, set. cbn [v_qc v_sa qcnt assocs pols]. destruct (Nat.eqb_spec j i) as [->|]; [lia|reflexivity].
  - intros h Hh. apply (q_rc d); [exact H|]. unfold set in Hh. destruct (Nat.eqb_spec h i) as [EK|]; [subst h|]; [exact P|exact Hh].
Qed.
Lemma c_sa_info d a i : Inv' d a -> legal a (CSaInfo i) -> good d a (CSaInfo i).
Proof.
  intros H (Fw & _ & P). destruct (i_sa _ _ _ _ H) as [sf B]. pose proof (q_rc d a i H P) as U.
  exists d, (ASa (if negb (isin i (assocs a)) then DESTROYED else if qdis a i then DISABLED else ACTIVE) (qpar a i)). cbn [istep]. unfold sa_get_info.
  rewrite (c_destr _ _ _ _ _ _ _ _ _ B i U), (c_dis _ _ _ _ _ _ _ _ _ B i U), (c_par _ _ _ _ _ _ _ _ _ B i U). split; [reflexivity|]. split; [|exact H].
  eexists. split; [reflexivity|]. destruct (isin i (assocs a)) eqn:W; cbn [negb].
  - apply isin_in in W. split; [|auto]. destruct (qdis a i); split; intros V; try discriminate; contradiction.
  - apply isin_not in W. split; [tauto|contradiction].
Qed.

(* binding *)
Lemma bindp_split l1 (i : nat) b l2 j : ~ In i (map fst l1) -> ~ In i (map fst l2) -> bindp (l1 ++ (i, b) :: l2) i j = l1 ++ (i, Some j) :: l2.
Proof.
  assert (Q : forall l : list (nat * option nat), ~ In i (map fst l) -> bindp l i j = l).
  { unfold bindp. induction l as [|[x c] r IH]; intros N; cbn [map fst]; [reflexivity|].
    destruct (Nat.eqb_spec x i) as [->|_]; [exfalso; apply N; left; reflexivity|]. f_equal. apply IH.
    intros X. apply N. right. exact X. }
  intros N1 N2. unfold bindp in *. rewrite map_app. cbn [map fst]. rewrite Nat.eqb_refl, (Q l1 N1), (Q l2 N2). reflexivity.
Qed.
Lemma c_sp_bind d a i j : Inv' d a -> legal a (CSpBind i j) -> good d a (CSpBind i j).
Proof.
  intros H L. pose proof (legal_pend _ _ L ltac:(discriminate)) as Pe. pose proof (legal_small _ _ L) as Sm. destruct L as (Fw & _ & I & P & Pj & Pr).
  pose proof (rc_small _ _ _ _ H Sm Np) as Rs. pose proof (q_rc d a j H Pj) as Uj.
  pose proof H as [[lf X1] X2 X3 [sf X4] X5 X6 X7 X8 X9 X10 X11].
  assert (Up : usedp (names a) (pcnt a) i) by (right; exact P).
  cbn [istep]. unfold sp_bind. rewrite (b_par _ _ _ _ _ _ X1 i Up), (c_par _ _ _ _ _ _ _ _ _ X4 j Uj). cbn [par_ntohl p_dir p_vrf p_sel].
  destruct (Z.eqb_spec (p_dir (ppar a i)) (q_dir (qpar a j))) as [E1|E1]; cbn [negb].
  2:{ exists d, (ARc false). split; [reflexivity|]. split; [|exact H]. exists false. split; [reflexivity|]. split; [discriminate|tauto]. }
  destruct (Z.eqb_spec (p_vrf (ppar a i)) (q_vrf (qpar a j))) as [E2|E2]; cbn [negb].
  2:{ exists d, (ARc false). split; [reflexivity|]. split; [|exact H]. exists false. split; [reflexivity|]. split; [discriminate|tauto]. }
  destruct (Z.eqb_spec (p_dir (ppar a i)) DIR_IN) as [E3|E3].
  - unfold sa_set_selectors. pose proof (c_sel _ _ _ _ _ _ _ _ _ X4 j Uj) as [S1 S2]. cbv beta in S1, S2. rewrite S1. destruct (qsel a j) as [s0|] eqn:Qs; cbn [isSome] in *.
    { exists d, (ARc false). split; [reflexivity|]. split; [|exact H]. exists false. split; [reflexivity|]. split; [discriminate|]. rewrite Qs. intros (_ & _ & W). discriminate (W E3). }
    cbn [obind]. eexists _, (ARc true). split; [reflexivity|]. split; [exists true; split; [reflexivity|]; rewrite Qs; tauto|].
    cbn [after]. rewrite (proj2 (Z.eqb_eq _ _) E3).
    refine (inv_sa nsp nsa d _ a (assocs a) (qdis a) (qcnt a) (set (qsel a) j (Some i)) (set (qselp a) j (p_sel (ppar a i))) sf H _ _ X10 X11 _).
    + spok.
    + apply (sa_write nsa d (assocs a) (qpar a) (qdis a) _ (qselp a) (rcv a) sf j _ _ _ _ _ X4 Uj Uj).
      * intros k Nk. rewrite !set_ne by exact Nk. auto.
      * apply (c_par _ _ _ _ _ _ _ _ _ X4 j Uj).
      * apply (c_dis _ _ _ _ _ _ _ _ _ X4 j Uj).
      * reflexivity.
      * rewrite set_eq. reflexivity.
      * intros _. rewrite set_eq. reflexivity.
      * apply (c_ref _ _ _ _ _ _ _ _ _ X4 j Uj).
      * reflexivity.
    + intros k. unfold set. destruct (Nat.eqb k j); [intros _; apply X7; exact Up|apply X8].
  - rewrite X6, Pe. destruct (pol_split a i I) as (l1 & b & l2 & E). destruct (pol_nd _ _ _ _ _ _ H E) as [N1 N2].
    assert (Ini : In (i, b) (pols a)) by (rewrite E; apply in_app_iff; right; left; reflexivity).
    rewrite (X3 i b Ini). cbn [obind].
    set (d1 := w_sp d i (f_bsa (sph d i) (Some j))).
    assert (S1 : forall k, sph d1 k = if Nat.eqb k i then f_bsa (sph d i) (Some j) else sph d k) by reflexivity.
    set (a2 := v_pols a (l1 ++ (i, Some j) :: l2)).
    assert (Rc : forall k, rcv a2 k = rcv a k - heldb b k + heldb (Some j) k).
    { intros k. unfold rcv, a2. cbn [qcnt assocs pols v_pols]. rewrite E, !nb_app. cbn [nb]. unfold heldb. lia. }
    assert (Rj : forall k, b = Some k -> 0 < rcv a k /\ (rcv a k = 1 -> ~ In k (assocs a) /\ k <> j)).
    { intros k ->. assert (nb (pols a) k >= 1).
      { assert (0 < nb (pols a) k); [|lia]. apply nb_in. apply in_map_iff. exists (i, Some k). auto. }
      pose proof (X11 k). unfold rcv. unfold b2z. destruct (isin k (assocs a)) eqn:W.
      - split; [lia|intros; exfalso; lia].
      - split; [lia|]. intros V. split; [apply isin_not; exact W|]. intros ->. lia. }
    assert (S4 : exists d4 sf', sa_unref d1 b = d4 /\ sameP d1 d4 /\
       SaBase nsa d4 (assocs a) (qpar a) (qdis a) (fun i => isSome (qsel a i)) (qselp a) (fun k => rcv a k - heldb b k) sf').
    { assert (Sa1 : SaBase nsa d1 (assocs a) (qpar a) (qdis a) (fun i => isSome (qsel a i)) (qselp a) (rcv a) sf).
      { apply (sa_same nsa d d1); try reflexivity. exact X4. }
      destruct b as [k|].
      - destruct (Rj k eq_refl) as [R1 R2].
        destruct (sa_unref_ok nsa d1 (assocs a) _ _ _ _ (rcv a) sf k Sa1 R1) as (sf' & B4 & P4 & _).
        { specialize (Rs k). lia. }
        { intros W. apply R2 in W. tauto. }
        exists (sa_unref d1 (Some k)), sf'. split; [reflexivity|]. split; [exact P4|].
        apply (sa_ext nsa _ (assocs a) (qpar a) (qdis a) (fun i => isSome (qsel a i)) (qselp a) (set (rcv a) k (rcv a k - 1))); [|auto|exact B4].
        intros m. unfold set, heldb, b2z. destruct (Nat.eqb_spec m k) as [EK|EK]; [rewrite EK; reflexivity|lia].
      - exists d1, sf. split; [reflexivity|]. split; [apply sameP_refl|].
        apply (sa_ext nsa _ (assocs a) (qpar a) (qdis a) (fun i => isSome (qsel a i)) (qselp a) (rcv a)); [|auto|exact Sa1]. intros m. unfold heldb, b2z. lia. }
    destruct S4 as (d4 & sf' & Q4 & P4 & B4). rewrite Q4.
    assert (Uj4 : 0 < rcv a j - heldb b j /\ rcv a j - heldb b j + 1 < RMAX).
    { pose proof (heldb_le b j). specialize (Rs j). split; [|lia]. unfold heldb, b2z in *. destruct b as [k|]; [|lia]. destruct (Nat.eqb_spec j k) as [EK|]; [|lia].
      destruct (Rj k eq_refl) as [R1 R2]. destruct (Z.eq_dec (rcv a k) 1) as [W|W]; [destruct (R2 W); congruence|]. rewrite EK. lia. }
    destruct Uj4 as [Uj4 Lj4].
    destruct (sa_ref_ok nsa d4 (assocs a) _ _ _ _ _ sf' j B4 Uj4 Lj4) as (B5 & P5 & _).
    set (d5 := sa_ref d4 (Some j)) in *. exists d5, (ARc true). split; [reflexivity|]. split; [exists true; split; [reflexivity|]; split; [intros _; split; [exact E1|split; [exact E2|tauto]]|reflexivity]|].
    cbn [after]. rewrite (proj2 (Z.eqb_neq _ _) E3). rewrite E, bindp_split by assumption. fold a2.
    pose proof (sameP_trans _ _ _ P4 P5) as P15. pose proof P15 as (Q1 & Q2 & Q3 & Q5 & Q6 & Q7 & Q8).
    assert (EN : names a2 = names a) by (unfold names, a2; cbn [pols v_pols]; rewrite E, !map_app; reflexivity).
    assert (SB1 : sameB d d1).
    { split; [reflexivity|split; [reflexivity|]]. intros k. rewrite S1. destruct (Nat.eqb_spec k i) as [EK|]; [subst k|]; repeat split. }
    constructor; try assumption; change (qpar a2) with (qpar a); change (qdis a2) with (qdis a); change (qsel a2) with (qsel a); change (qselp a2) with (qselp a); change (assocs a2) with (assocs a); change (ppar a2) with (ppar a); change (pcnt a2) with (pcnt a).
    + exists lf. rewrite EN. apply (sp_sameP nsp d1 d5 _ _ _ _ P15). apply (base_same nsp d d1 _ _ _ _ SB1 X1).
    + rewrite EN. apply (lk_sameP d1 d5 _ _ P15). intros dir. change (lk d1 dir) with (lk d dir). apply (chain_ext (fun k => n_nl (sph d k))); [|apply X2].
      intros k _. rewrite S1. destruct (Nat.eqb_spec k i) as [EK|]; [subst k|]; reflexivity.
    + intros h c Hc. rewrite Q1, S1. cbn [a2 v_pols pols] in Hc. destruct (Nat.eqb_spec h i) as [EK|Nh]; [subst h|].
      * cbn [n_sa f_bsa]. apply in_app_iff in Hc. destruct Hc as [W|[W|W]]; [apply (in_map fst) in W; contradiction|injection W as <-; reflexivity|apply (in_map fst) in W; contradiction].
      * apply X3. rewrite E. apply in_app_iff in Hc. apply in_app_iff. cbn [In] in *. destruct Hc as [W|[W|W]]; [tauto|congruence|tauto].
    + exists sf'. apply (sa_ext nsa _ (assocs a) (qpar a) (qdis a) (fun i => isSome (qsel a i)) (qselp a) (set (fun k => rcv a k - heldb b k) j (rcv a j - heldb b j + 1))); [|auto|exact B5].
      intros k. rewrite Rc. unfold set. destruct (Nat.eqb_spec k j) as [EK|EK]; unfold heldb at 2; [rewrite EK, Nat.eqb_refl; reflexivity|]. destruct (Nat.eqb_spec k j); [congruence|]. unfold b2z. lia.
    + rewrite Q7. change (active d1) with (active d). rewrite X5, E. cbn [a2 v_pols pols]. destruct l1; reflexivity.
    + rewrite Q8. exact X6.
    + rewrite EN. exact X7.
    + intros h c Hc. cbn [a2 v_pols pols] in Hc. apply in_app_iff in Hc. destruct Hc as [W|[W|W]].
      * apply (X9 h c). rewrite E. apply in_app_iff. left. exact W.
      * injection W as <- <-. exact Pr.
      * apply (X9 h c). rewrite E. apply in_app_iff. right. right. exact W.
    + intros k Hk W. apply X10; [|exact W]. rewrite Rc in Hk. pose proof (heldb_le b k). unfold heldb at 2 in Hk. unfold b2z in Hk. destruct (Nat.eqb_spec k j) as [EK|EK]; [rewrite EK; exact Uj|lia].
Qed.

(* packets *)
Lemma bound_used d a h j : Inv' d a -> In (h, Some j) (pols a) -> 0 < rcv a j.
Proof.
  intros H W. unfold rcv. assert (0 < nb (pols a) j) by (apply nb_in, in_map_iff; exists (h, Some j); auto). pose proof (i_qpos _ _ _ _ H j).
  unfold b2z. destruct (isin j (assocs a)); lia.
Qed.
Lemma c_out d a v l : Inv' d a -> legal a (COut v l) -> good d a (COut v l).
Proof.
  intros H L. pose proof (legal_pend _ _ L ltac:(discriminate)) as Pe. destruct L as (Fw & _ & Pk).
  pose proof H as [[lf X1] X2 X3 [sf X4] X5 X6 X7 X8 X9 X10 X11]. cbn [istep]. unfold out_lookup. rewrite X5. destruct (pols a) as [|x0 r0] eqn:Ep; cbn [isNil negb].
  { exists d, (AOut false None). split; [reflexivity|]. split; [|exact H]. exists None, false, None. split; [reflexivity|]. split; [|split; reflexivity].
    intros h b W. rewrite Ep in W. destruct W. }
  rewrite <- Ep in *. rewrite X6, Pe. unfold sp_lookup.
  destruct (walk_decides nsp nsa d a 1 v l fuel H Pk Fp) as (r & Q & D & Ir). rewrite Q. cbn [obind]. change (1 =? DIR_IN) with false in D.
  destruct r as [[h b]|]; cbn [option_map fst].
  2:{ cbn [obind]. exists d, (AOut false None). split; [reflexivity|]. split; [|exact H]. exists None, false, None. split; [reflexivity|]. split; [exact D|split; reflexivity]. }
  specialize (Ir h b eq_refl). rewrite (X3 h b Ir). rewrite (b_par _ _ _ _ _ _ X1 h (or_introl (pol_names _ _ _ Ir))). cbn [par_ntohl p_act obind].
  destruct b as [j|]; cbn [sa_disabled].
  - rewrite (X9 h j Ir). pose proof (bound_used d a h j H Ir) as Uj. rewrite (c_dis _ _ _ _ _ _ _ _ _ X4 j Uj). destruct (qdis a j) eqn:Qd.
    + exists d, (AOut true None). split; [reflexivity|]. split; [|exact H]. exists (Some (h, Some j)), true, None. split; [reflexivity|]. split; [exact D|].
      unfold out_answer. rewrite (X9 h j Ir), Qd. auto.
    + exists (w_held d true), (AOut false (Some j)). split; [reflexivity|]. split.
      * exists (Some (h, Some j)), false, (Some j). split; [reflexivity|]. split; [exact D|]. unfold out_answer. rewrite (X9 h j Ir), Qd. auto.
      * cbn [after]. constructor; try assumption; cbn [v_pend pols ppar pcnt assocs qpar qdis qcnt qsel qselp pending]; try assumption.
        -- exists lf. apply (base_same nsp d (w_held d true) _ _ _ _ ltac:(repeat split) X1).
        -- exists sf. apply (sa_same nsa d); try reflexivity. exact X4.
        -- reflexivity.
  - destruct (p_act (ppar a h)) eqn:Pa.
    + exists d, (AOut true None). split; [reflexivity|]. split; [|exact H]. exists (Some (h, None)), true, None. split; [reflexivity|]. split; [exact D|]. unfold out_answer. rewrite Pa. auto.
    + exists d, (AOut false None). split; [reflexivity|]. split; [|exact H]. exists (Some (h, None)), false, None. split; [reflexivity|]. split; [exact D|]. unfold out_answer. rewrite Pa. auto.
    + exists d, (AOut true None). split; [reflexivity|]. split; [|exact H]. exists (Some (h, None)), true, None. split; [reflexivity|]. split; [exact D|]. unfold out_answer. rewrite Pa. auto.
Qed.
Lemma c_release d a : Inv' d a -> legal a CRelease -> good d a CRelease.
Proof.
  intros H (_ & _ & Pe). pose proof H as [[lf X1] X2 X3 [sf X4] X5 X6 X7 X8 X9 X10 X11]. exists (w_held d false), AUnit. cbn [istep]. unfold out_release. rewrite X6, Pe.
  split; [reflexivity|]. split; [reflexivity|]. cbn [after]. constructor; try assumption; cbn [v_pend pols ppar pcnt assocs qpar qdis qcnt qsel qselp pending]; try assumption.
  - exists lf. apply (base_same nsp d (w_held d false) _ _ _ _ ltac:(repeat split) X1).
  - exists sf. apply (sa_same nsa d); try reflexivity. exact X4.
  - reflexivity.
Qed.
Lemma c_in_ d a v l ours decap : Inv' d a -> legal a (CIn v l ours decap) -> good d a (CIn v l ours decap).
Proof.
  intros H L. pose proof (legal_pend _ _ L ltac:(discriminate)) as Pe. destruct L as (Fw & _ & Pk).
  pose proof H as [[lf X1] X2 X3 [sf X4] X5 X6 X7 X8 X9 X10 X11]. cbn [istep]. unfold inbound_check. rewrite X5. destruct (pols a) as [|x0 r0] eqn:Ep; cbn [isNil negb].
  { exists d, (ABool false). split; [reflexivity|]. split; [|exact H]. exists false. split; [reflexivity|]. split; [discriminate|].
    intros (_ & _ & h & s & (n & o & E & _) & _). rewrite Ep in E. destruct n; discriminate. }
  rewrite <- Ep in *.
  destruct (ours && ((byte l 9 =? 50) || (byte l 9 =? 51))) eqn:G1.
  { exists d, (ABool false). split; [reflexivity|]. split; [|exact H]. exists false. split; [reflexivity|]. split; [discriminate|].
    intros (W & _). exfalso. apply W. apply andb_true_iff in G1. destruct G1 as [G1 G2]. rewrite orb_true_iff, !Z.eqb_eq in G2. auto. }
  destruct decap.
  { exists d, (ABool false). split; [reflexivity|]. split; [|exact H]. exists false. split; [reflexivity|]. split; [discriminate|].
    intros (_ & W & _). discriminate. }
  rewrite X6, Pe. unfold sp_lookup. destruct (walk_decides nsp nsa d a DIR_IN v l fuel H Pk Fp) as (r & Q & D & Ir). rewrite Q. cbn [obind]. change (DIR_IN =? DIR_IN) with true in D.
  assert (NE : ~ (ours = true /\ (nth 9 l 0 = 50 \/ nth 9 l 0 = 51))).
  { intros [W1 W2]. unfold byte in G1. rewrite W1 in G1. cbn [andb] in G1. rewrite orb_false_iff, !Z.eqb_neq in G1. tauto. }
  destruct r as [[h b]|]; cbn [option_map fst].
  2:{ exists d, (ABool false). split; [reflexivity|]. split; [|exact H]. exists false. split; [reflexivity|]. split; [discriminate|].
    intros (_ & _ & h & s & D' & _). pose proof (decides_fun nsp nsa d a true v l _ _ H D D') as W. discriminate. }
  specialize (Ir h b eq_refl). rewrite (b_par _ _ _ _ _ _ X1 h (or_introl (pol_names _ _ _ Ir))). cbn [par_ntohl p_act obind].
  exists d, (ABool (match p_act (ppar a h) with BYPASS => false | _ => true end)). split; [reflexivity|]. split; [|exact H].
  eexists. split; [reflexivity|]. split.
  - intros W. split; [exact NE|]. split; [reflexivity|]. exists h, b. split; [exact D|]. destruct (p_act (ppar a h)); discriminate.
  - intros (_ & _ & h' & s & D' & W). pose proof (decides_fun nsp nsa d a true v l _ _ H D D') as V. injection V as <- <-. destruct (p_act (ppar a h)); [reflexivity|congruence|reflexivity].
Qed.
Lemma c_input d a i v l : Inv' d a -> legal a (CInput i v l) -> good d a (CInput i v l).
Proof.
  intros H (Fw & _ & P & Pk & NI). destruct (i_sa _ _ _ _ H) as [sf B]. pose proof (q_rc d a i H P) as U.
  cbn [istep]. unfold input_accepted. pose proof (c_sel _ _ _ _ _ _ _ _ _ B i U) as [S1 S2]. cbv beta in S1, S2. rewrite S1.
  destruct (qsel a i) as [p0|] eqn:Qs; cbn [isSome negb] in *.
  2:{ exists d, (ABool false). split; [reflexivity|]. split; [|exact H]. exists false. split; [reflexivity|]. split; [discriminate|]. rewrite Qs. tauto. }
  rewrite (S2 eq_refl). pose proof (i_goodq _ _ _ _ H i) as G. rewrite Qs in G. specialize (G ltac:(discriminate)).
  pose proof (sel_match_pkt (qselp a i) l G Pk) as M. rewrite (c_par _ _ _ _ _ _ _ _ _ B i U).
  unfold selector_match. destruct (sel_match (sel_ntohl (qselp a i)) (sel_values l)) eqn:E.
  - cbn [obind andb]. exists d, (ABool (v =? q_vrf (qpar a i))). split; [reflexivity|]. split; [|exact H]. eexists. split; [reflexivity|].
    rewrite Z.eqb_eq, Qs. split; [intros W; split; [discriminate|split; [left; apply M; reflexivity|exact W]]|tauto].
  - assert (NM : ~ sel_accepts_pkt (qselp a i) l) by (intros W; apply M in W; discriminate).
    destruct NI as [NI|NI]; [|contradiction].
    unfold icmp_match. destruct Pk as [Pk1 Pk2]. destruct (Nat.ltb_spec (length l) 20); [exfalso; lia|].
    destruct (Z.eqb_spec (byte l 9) 1) as [W|W]; [contradiction|]. cbn [negb obind andb].
    exists d, (ABool false). split; [reflexivity|]. split; [|exact H]. exists false. split; [reflexivity|]. split; [discriminate|].
    intros (_ & [W1|W1] & _); [contradiction|]. destruct W1 as (W1 & _). contradiction.
Qed.

Theorem step_ok d a c : Inv' d a -> legal a c -> good d a c.
Proof.
  destruct c; [apply c_sp_create|apply c_sp_destroy|apply c_sp_flush|apply c_sp_bind|apply c_sp_find|apply c_sp_first|apply c_sp_next|apply c_sp_ref|
    apply c_sp_unref|apply c_sp_info|apply c_sa_create|apply c_sa_destroy|apply c_sa_flush|apply c_sa_done|apply c_sa_find|apply c_sa_first|apply c_sa_next|
    apply c_sa_ref|apply c_sa_unref|apply c_sa_info|apply c_stop|apply c_out|apply c_release|apply c_in_|apply c_input].
Qed.
Theorem reach_inv d a : reach fuel nsp nsa sync d a -> Inv' d a.
Proof.
  induction 1 as [|d a c d' x R IH L E]; [apply inv_init|]. destruct (step_ok d a c IH L) as (d1 & x1 & E1 & _ & I1). rewrite E in E1. injection E1 as <- <-. exact I1.
Qed.
End CALLS.
