(* The invariant tying the databases to the client's view, and how it is kept. *)
From Verif Require Import Base IpsecModel IpsecSpec IpsecList IpsecSp IpsecLk IpsecSa.
Ltac Zify.zify_post_hook ::= idtac.

Fixpoint nb (l : list (nat * option nat)) (i : nat) : Z :=
  match l with [] => 0 | (_, b) :: r => b2z (match b with Some j => Nat.eqb i j | None => false end) + nb r i end.
Definition rcv (a : view) (i : nat) : Z := qcnt a i + b2z (isin i (assocs a)) + nb (pols a) i.
Definition isSome {A} (o : option A) : bool := match o with Some _ => true | None => false end.
Definition isNil {A} (l : list A) : bool := match l with [] => true | _ => false end.
Definition goodsel (s : sel) : Prop :=
  u32v (s_sf s) /\ u32v (s_sl s) /\ u32v (s_df s) /\ u32v (s_dl s) /\ ~ any_range (s_sf s) (s_sl s) /\ ~ any_range (s_df s) (s_dl s) /\ s_type s = SEL_IPV4.
Definition names (a : view) : list nat := map fst (pols a).

Record Inv (nsp nsa : nat) (d : db) (a : view) : Prop := {
  i_sp : exists lf, SpBase nsp d (names a) (ppar a) (pcnt a) lf;
  i_lk : LkInv d (names a) (ppar a);
  i_bsa : forall h b, In (h, b) (pols a) -> n_sa (sph d h) = b;
  i_sa : exists sf, SaBase nsa d (assocs a) (qpar a) (qdis a) (fun i => isSome (qsel a i)) (qselp a) (rcv a) sf;
  i_act : active d = negb (isNil (pols a));
  i_held : rheld d = pending a;
  i_good : forall h, usedp (names a) (pcnt a) h -> goodsel (p_sel (ppar a h));
  i_goodq : forall i, qsel a i <> None -> goodsel (qselp a i);
  i_prot : forall h b, In (h, Some b) (pols a) -> p_act (ppar a h) = PROTECT;
  i_gone : forall i, 0 < rcv a i -> ~ In i (assocs a) -> qdis a i = true;
  i_qpos : forall i, 0 <= qcnt a i }.

Lemma nb_nonneg l i : 0 <= nb l i.
Proof. induction l as [|[h b] r IH]; cbn [nb]; [lia|]. unfold b2z. destruct b as [j|]; [destruct (Nat.eqb i j)|]; lia. Qed.
Lemma nb_le l i : nb l i <= Z.of_nat (length l).
Proof. induction l as [|[h b] r IH]; cbn [nb length]; [lia|]. unfold b2z. destruct b as [j|]; [destruct (Nat.eqb i j)|]; lia. Qed.
Lemma nb_in l i : 0 < nb l i <-> In (Some i) (map snd l).
Proof.
  induction l as [|[h b] r IH]; cbn [nb map snd In]; [split; [lia|intros []]|]. pose proof (nb_nonneg r i) as P.
  unfold b2z. destruct b as [j|].
  - destruct (Nat.eqb_spec i j) as [->|N]; [split; [auto|lia]|]. rewrite <- IH. split; [intros; right; lia|intros [X|X]; [congruence|lia]].
  - rewrite <- IH. split; [intros; right; lia|intros [X|X]; [congruence|lia]].
Qed.
Lemma nb_app l1 l2 i : nb (l1 ++ l2) i = nb l1 i + nb l2 i.
Proof. induction l1 as [|[h b] r IH]; cbn [nb app]; [reflexivity|]. rewrite IH. lia. Qed.
Lemma names_length nsp d a lf : SpBase nsp d (names a) (ppar a) (pcnt a) lf -> (length (pols a) <= nsp)%nat.
Proof. intros B. pose proof (base_length _ _ _ _ _ _ B) as H. unfold names in H. rewrite map_length in H. exact H. Qed.
Lemma used_rc nsp nsa d a i : Inv nsp nsa d a -> used_sa a i <-> 0 < rcv a i.
Proof.
  intros H. unfold used_sa, rcv. rewrite <- nb_in. pose proof (nb_nonneg (pols a) i). pose proof (i_qpos _ _ _ _ H i).
  unfold b2z. destruct (isin i (assocs a)) eqn:Q; [apply isin_in in Q; split; [lia|auto]|apply isin_not in Q]. split; [intros [X|[X|X]]; [contradiction|lia|lia]|].
  intros X. destruct (Z_lt_le_dec 0 (qcnt a i)); [auto|]. right. right. lia.
Qed.

(* views that agree *)
Record veq (a b : view) : Prop := {
  v1 : pols a = pols b; v2 : forall i, ppar a i = ppar b i; v3 : forall i, pcnt a i = pcnt b i; v4 : assocs a = assocs b;
  v5 : forall i, qpar a i = qpar b i; v6 : forall i, qdis a i = qdis b i; v7 : forall i, qcnt a i = qcnt b i;
  v8 : forall i, qsel a i = qsel b i; v9 : forall i, qselp a i = qselp b i; v10 : pending a = pending b }.
Lemma lkl_ext pp pp' dir hs : (forall i, In i hs -> pp i = pp' i) -> lkl pp dir hs = lkl pp' dir hs.
Proof.
  intros E. unfold lkl. replace (filter (side pp' dir) hs) with (filter (side pp dir) hs).
  - apply srt_ext. intros y Hy. unfold prio. rewrite E; [reflexivity|]. apply filter_In in Hy. tauto.
  - apply filter_ext_in. intros x Hx. unfold side. rewrite (E x Hx). reflexivity.
Qed.
Lemma inv_veq nsp nsa d a b : veq a b -> Inv nsp nsa d a -> Inv nsp nsa d b.
Proof.
  intros V H. destruct V as [E1 E2 E3 E4 E5 E6 E7 E8 E9 E10].
  assert (R : forall i, rcv b i = rcv a i) by (intros i; unfold rcv; rewrite E1, E4, E7; reflexivity).
  destruct H as [[lf X1] X2 X3 [sf X4] X5 X6 X7 X8 X9 X10 X11].
  assert (EN : names b = names a) by (unfold names; rewrite E1; reflexivity).
  constructor.
  - exists lf. rewrite EN. apply (base_ext nsp d (names a) (ppar a) (pcnt a)); [congruence|congruence|exact X1].
  - intros dir. rewrite EN, <- (lkl_ext (ppar a)); [apply X2|congruence].
  - intros h c. rewrite <- E1. apply X3.
  - exists sf. rewrite <- E4. apply (sa_ext nsa d (assocs a) (qpar a) (qdis a) (fun i => isSome (qsel a i)) (qselp a) (rcv a)); [exact R| |exact X4].
    intros i _. rewrite E5, E6, E8, E9. auto.
  - rewrite <- E1. exact X5.
  - rewrite <- E10. exact X6.
  - intros h U. rewrite <- E2. apply X7. rewrite EN in U. unfold usedp in *. rewrite E3. exact U.
  - intros i. rewrite <- E8, <- E9. apply X8.
  - intros h c. rewrite <- E1, <- E2. apply X9.
  - intros i. rewrite R, <- E4, <- E6. apply X10.
  - intros i. rewrite <- E7. apply X11.
Qed.

(* reference bounds *)
Definition small (a : view) : Prop := forall h, pcnt a h < LIMIT + 4 /\ qcnt a h < LIMIT + 4.
Lemma rc_small nsp nsa d a : Inv nsp nsa d a -> small a -> Z.of_nat nsp <= 1073741824 -> forall i, rcv a i + 8 < RMAX.
Proof.
  intros H S N i. destruct (i_sp _ _ _ _ H) as [lf B]. pose proof (names_length _ _ _ _ B) as L. pose proof (nb_le (pols a) i) as Q.
  destruct (S i) as [_ X]. unfold rcv, RMAX, LIMIT, b2z in *. destruct (isin i (assocs a)); lia.
Qed.

(* transporting the two halves *)
Lemma lk_sameR d d' hs pp : sameR d d' -> LkInv d hs pp -> LkInv d' hs pp.
Proof.
  intros (E1 & E2 & _ & _ & _ & _ & _ & E) H dir. unfold lk in *. specialize (H dir). unfold lk in H. rewrite E1, E2.
  apply (chain_ext (fun i => n_nl (sph d i))); [|exact H]. intros i _. apply (E i).
Qed.
Lemma lk_sameP d d' hs pp : sameP d d' -> LkInv d hs pp -> LkInv d' hs pp.
Proof. intros (E1 & _ & E2 & E3 & _) H dir. specialize (H dir). unfold lk in *. rewrite E1, E2, E3. exact H. Qed.
Lemma sp_sameP n d d' hs pp pc lf : sameP d d' -> SpBase n d hs pp pc lf -> SpBase n d' hs pp pc lf.
Proof.
  intros (E1 & E2 & _ & _ & E3 & _) B. apply (base_same n d d'); [|exact B]. unfold sameB. rewrite E1, E2, E3. repeat split.
Qed.
Lemma sa_sameR n d d' hs qp qd ss sl rc lf : sameR d d' -> SaBase n d hs qp qd ss sl rc lf -> SaBase n d' hs qp qd ss sl rc lf.
Proof. intros (_ & _ & E1 & E2 & E3 & _) B. apply (sa_same n d d'); assumption. Qed.
Lemma sa_sameL n d d' hs qp qd ss sl rc lf : sameL d d' -> SaBase n d hs qp qd ss sl rc lf -> SaBase n d' hs qp qd ss sl rc lf.
Proof. intros (E1 & E2 & E3 & _) B. apply (sa_same n d d'); assumption. Qed.

(* a change of the policy side only: same names *)
Lemma inv_sp nsp nsa d d' a pc lf : Inv nsp nsa d a -> SpBase nsp d' (names a) (ppar a) pc lf -> sameR d d' ->
  (forall h, 0 < pc h -> usedp (names a) (pcnt a) h) ->
  Inv nsp nsa d' (mkView (pols a) (ppar a) pc (assocs a) (qpar a) (qdis a) (qcnt a) (qsel a) (qselp a) (pending a)).
Proof.
  intros H B R U. destruct H as [_ X2 X3 [sf X4] X5 X6 X7 X8 X9 X10 X11].
  pose proof R as (E1 & E2 & E3 & E4 & E5 & E6 & E7 & E8).
  constructor; cbn [pols ppar pcnt assocs qpar qdis qcnt qsel qselp pending]; try assumption.
  - exists lf. exact B.
  - apply (lk_sameR d d' _ _ R X2).
  - intros h b Hb. destruct (E8 h) as [_ ->]. auto.
  - exists sf. apply (sa_sameR _ d d' _ _ _ _ _ _ _ R X4).
  - rewrite E6. exact X5.
  - rewrite E7. exact X6.
  - intros h [W|W]; apply X7; [left; exact W|apply U, W].
Qed.
(* a change of the association side only *)
Lemma inv_sa nsp nsa d d' a asc qd qc qs qsp sf : Inv nsp nsa d a -> sameP d d' ->
  let b := mkView (pols a) (ppar a) (pcnt a) asc (qpar a) qd qc qs qsp (pending a) in
  SaBase nsa d' asc (qpar a) qd (fun i => isSome (qs i)) qsp (rcv b) sf ->
  (forall i, 0 < rcv b i -> ~ In i asc -> qd i = true) -> (forall i, 0 <= qc i) -> (forall i, qs i <> None -> goodsel (qsp i)) ->
  Inv nsp nsa d' b.
Proof.
  intros H R b B G P Gs. destruct H as [[lf X1] X2 X3 [sf' X4] X5 X6 X7 X8 X9 X10 X11].
  pose proof R as (E1 & E2 & E3 & E4 & E5 & E6 & E7).
  constructor; unfold b in *; cbn [pols ppar pcnt assocs qpar qdis qcnt qsel qselp pending] in *; try assumption.
  - exists lf. apply (sp_sameP _ d d' _ _ _ _ R X1).
  - apply (lk_sameP d d' _ _ R X2).
  - intros h c Hc. rewrite E1. auto.
  - exists sf. exact B.
  - rewrite E6. exact X5.
  - rewrite E7. exact X6.
Qed.

Lemma names_inst a h : installed a h <-> In h (names a).
Proof. reflexivity. Qed.
Lemma in_names_pol a h : In h (names a) -> exists b, In (h, b) (pols a).
Proof. unfold names. intros H. apply in_map_iff in H. destruct H as ([x b] & <- & H). exists b. exact H. Qed.
Lemma pol_names a h b : In (h, b) (pols a) -> In h (names a).
Proof. intros H. unfold names. apply in_map_iff. exists (h, b). split; [reflexivity|exact H]. Qed.
Lemma kill_one l1 (i : nat) b l2 : ~ In i (map fst l1) -> ~ In i (map fst l2) -> kill (l1 ++ (i, b) :: l2) (Nat.eqb i) = l1 ++ l2.
Proof.
  assert (Q : forall l : list (nat * option nat), ~ In i (map fst l) -> kill l (Nat.eqb i) = l).
  { unfold kill. induction l as [|[x c] r IH]; intros N; cbn [filter fst]; [reflexivity|].
    destruct (Nat.eqb_spec i x) as [->|_]; [exfalso; apply N; left; reflexivity|]. cbn [negb]. f_equal. apply IH.
    intros X. apply N. right. exact X. }
  intros N1 N2. unfold kill in *. rewrite filter_app. cbn [filter fst]. rewrite Nat.eqb_refl. cbn [negb]. rewrite (Q l1 N1), (Q l2 N2). reflexivity.
Qed.

(* destroying a policy *)
Lemma sp_destroy_ok nsp nsa d a l1 i b l2 fuel : Inv nsp nsa d a -> pols a = l1 ++ (i, b) :: l2 -> 0 < pcnt a i ->
  small a -> pending a = false -> Z.of_nat nsp <= 1073741824 -> (nsp < fuel)%nat ->
  exists d', sp_destroy fuel d i = Ret (d', true) /\ Inv nsp nsa d' (v_pols a (l1 ++ l2)) /\ n_next (sph d' i) = n_next (sph d i).
Proof.
  intros H E P Sm Pe Np F. pose proof (rc_small _ _ _ _ H Sm Np) as Rs.
  destruct H as [[lf X1] X2 X3 [sf X4] X5 X6 X7 X8 X9 X10 X11].
  assert (EN : names a = map fst l1 ++ i :: map fst l2) by (unfold names; rewrite E, map_app; reflexivity).
  assert (EN2 : names (v_pols a (l1 ++ l2)) = map fst l1 ++ map fst l2) by (unfold names; cbn [pols v_pols]; apply map_app).
  assert (Ini : In (i, b) (pols a)) by (rewrite E; apply in_app_iff; right; left; reflexivity).
  pose proof (b_nd _ _ _ _ _ _ X1) as ND. rewrite EN in ND. destruct (nodup_split _ _ _ ND) as (N1 & N2 & ND').
  unfold sp_destroy. rewrite X6, Pe. rewrite (X3 i b Ini).
  set (d1 := w_sp d i (f_bsa (sph d i) None)).
  assert (S1 : forall k, sph d1 k = if Nat.eqb k i then f_bsa (sph d i) None else sph d k) by reflexivity.
  assert (SB1 : sameB d d1).
  { split; [reflexivity|split; [reflexivity|]]. intros k. rewrite S1. destruct (Nat.eqb_spec k i) as [->|]; repeat split. }
  assert (B1 : SpBase nsp d1 (names a) (ppar a) (pcnt a) lf) by (apply (base_same nsp d d1 _ _ _ _ SB1 X1)).
  assert (L1 : LkInv d1 (names a) (ppar a)).
  { intros dir. change (lk d1 dir) with (lk d dir). apply (chain_ext (fun k => n_nl (sph d k))); [|apply X2].
    intros k _. rewrite S1. destruct (Nat.eqb_spec k i) as [->|]; reflexivity. }
  rewrite EN in L1.
  destruct (lookup_del_ok fuel d1 (ppar a) _ i _ L1 ND) as (d2 & Q2 & L2 & SB2 & SL2).
  { rewrite S1, Nat.eqb_refl. apply (b_par _ _ _ _ _ _ X1). right. exact P. }
  { pose proof (base_length _ _ _ _ _ _ X1) as Y. rewrite EN in Y. lia. }
  rewrite Q2. cbn [obind].
  set (em := match map fst l1 ++ map fst l2 with [] => true | _ => false end).
  set (d3 := if em then w_act d2 false else d2).
  assert (C3 : sph d3 = sph d2 /\ spl d3 = spl d2 /\ outl d3 = outl d2 /\ inl d3 = inl d2 /\ spf d3 = spf d2 /\ sah d3 = sah d2 /\ sal d3 = sal d2 /\
     saf d3 = saf d2 /\ rheld d3 = rheld d2) by (unfold d3; destruct em; repeat split).
  destruct C3 as (C31 & C32 & C33 & C34 & C35 & C36 & C37 & C38 & C39).
  destruct SL2 as (SL21 & SL22 & SL23 & SL24 & SL25 & SL26).
  assert (A3 : active d3 = negb (isNil (l1 ++ l2))).
  { unfold d3, em. rewrite <- map_app. destruct (l1 ++ l2) as [|x r] eqn:EE; cbn [map isNil]; [reflexivity|].
    rewrite SL24. change (active d1) with (active d). rewrite X5, E. destruct l1; reflexivity. }
  set (a2 := v_pols a (l1 ++ l2)).
  assert (Sa3 : SaBase nsa d3 (assocs a) (qpar a) (qdis a) (fun i => isSome (qsel a i)) (qselp a) (rcv a) sf).
  { apply (sa_same nsa d d3); [rewrite C36, SL21; reflexivity|rewrite C37, SL22; reflexivity|rewrite C38, SL23; reflexivity|exact X4]. }
  assert (Rc : forall k, rcv a k = rcv a2 k + b2z (match b with Some j => Nat.eqb k j | None => false end)).
  { intros k. unfold rcv, a2. cbn [qcnt assocs pols v_pols]. rewrite E, !nb_app. cbn [nb]. lia. }
  (* the SA reference *)
  assert (S4 : exists d4 sf', sa_unref d3 b = d4 /\ sameP d3 d4 /\
     SaBase nsa d4 (assocs a) (qpar a) (qdis a) (fun i => isSome (qsel a i)) (qselp a) (rcv a2) sf').
  { destruct b as [j|].
    - assert (Pj : 0 < rcv a2 j \/ rcv a2 j = 0).
      { unfold rcv, a2. cbn [qcnt assocs pols v_pols]. pose proof (nb_nonneg (l1 ++ l2) j). pose proof (X11 j). unfold b2z. destruct (isin j (assocs a)); lia. }
      pose proof (Rc j) as Rj. rewrite Nat.eqb_refl in Rj. cbn [b2z] in Rj.
      destruct (sa_unref_ok nsa d3 (assocs a) _ _ _ _ (rcv a) sf j Sa3) as (sf' & B4 & P4 & _).
      { lia. }
      { specialize (Rs j). unfold RMAX in *. lia. }
      { intros Y W. assert (rcv a2 j = 0) by lia. assert (0 < rcv a2 j); [|lia].
        unfold rcv, a2. cbn [qcnt assocs pols v_pols]. rewrite (proj2 (isin_in j _) W). pose proof (nb_nonneg (l1 ++ l2) j). pose proof (X11 j). unfold b2z. lia. }
      exists (sa_unref d3 (Some j)), sf'. split; [reflexivity|]. split; [exact P4|].
      apply (sa_ext nsa _ (assocs a) (qpar a) (qdis a) (fun i => isSome (qsel a i)) (qselp a) (set (rcv a) j (rcv a j - 1))); [| |exact B4].
      + intros k. unfold set. pose proof (Rc k) as Rk. destruct (Nat.eqb_spec k j) as [EK|EK]; unfold b2z in Rk; rewrite <- ?EK; lia.
      + intros k _. auto.
    - exists d3, sf. split; [reflexivity|]. split; [apply sameP_refl|].
      apply (sa_ext nsa _ (assocs a) (qpar a) (qdis a) (fun i => isSome (qsel a i)) (qselp a) (rcv a)); [| |exact Sa3].
      + intros k. pose proof (Rc k) as Rk. cbn [b2z] in Rk. lia.
      + intros k _. auto. }
  destruct S4 as (d4 & sf' & Q4 & P4 & B4). rewrite Q4.
  pose proof P4 as (P41 & P42 & P43 & P44 & P45 & P46 & P47).
  assert (Sp4 : SpBase nsp d4 (map fst l1 ++ i :: map fst l2) (ppar a) (pcnt a) lf).
  { rewrite <- EN. apply (sp_sameP nsp d3 d4 _ _ _ _ P4). apply (base_same nsp d2 d3).
    - unfold sameB. rewrite C31, C32, C35. repeat split.
    - apply (base_same nsp d1 d2 _ _ _ _ SB2 B1). }
  destruct (sp_del_ok nsp d4 (ppar a) (pcnt a) lf _ i _ fuel Sp4 P) as (d5 & Q5 & B5 & R5 & NX5).
  { destruct (Sm i). lia. }
  { exact F. }
  exists d5. split; [exact Q5|]. pose proof R5 as (R51 & R52 & R53 & R54 & R55 & R56 & R57 & R58). split.
  - constructor; cbn [pols ppar pcnt assocs qpar qdis qcnt qsel qselp pending v_pols]; try assumption.
    + exists lf. fold a2 in EN2. rewrite EN2. exact B5.
    + fold a2 in EN2. rewrite EN2. apply (lk_sameR d4 d5 _ _ R5). apply (lk_sameP d3 d4 _ _ P4). intros dir. specialize (L2 dir). unfold lk in *. rewrite C31, C33, C34. exact L2.
    + intros h c Hc. destruct (R58 h) as [_ ->]. rewrite P41, C31, SL26, S1.
      destruct (Nat.eqb_spec h i) as [->|].
      * exfalso. apply in_app_iff in Hc. destruct Hc as [W|W]; apply (in_map fst) in W; contradiction.
      * apply X3. rewrite E. apply in_app_iff in Hc. apply in_app_iff. cbn [In]. tauto.
    + exists sf'. apply (sa_sameR nsa d4 d5 _ _ _ _ _ _ _ R5). exact B4.
    + rewrite R56, P46. exact A3.
    + rewrite R57, P47, C39, SL25. exact X6.
    + intros h U. apply X7. fold a2 in EN2. rewrite EN2 in U. rewrite EN. unfold usedp in *. rewrite in_app_iff in *. cbn [In]. tauto.
    + intros h c Hc. apply (X9 h c). rewrite E. apply in_app_iff in Hc. apply in_app_iff. cbn [In]. tauto.
    + intros k Hk W. apply X10; [|exact W]. rewrite Rc. change (0 < rcv a2 k) in Hk. unfold b2z. destruct b as [j|]; [destruct (Nat.eqb k j)|]; lia.
  - rewrite NX5, P41, C31. destruct SB2 as (_ & _ & SB2). destruct (SB2 i) as (_ & -> & _). rewrite S1, Nat.eqb_refl. reflexivity.
Qed.

(* the policy flush *)
Definition v_pp (a : view) l pc := mkView l (ppar a) pc (assocs a) (qpar a) (qdis a) (qcnt a) (qsel a) (qselp a) (pending a).
Definition heldb (o : option nat) (j : nat) : Z := b2z (match o with Some k => Nat.eqb j k | None => false end).
Lemma heldb_le o j : 0 <= heldb o j <= 1.
Proof. unfold heldb, b2z. destruct o as [k|]; [destruct (Nat.eqb j k)|]; lia. Qed.

Lemma sp_flush_loop_ok nsp nsa fuel check vrf pc0 : Z.of_nat nsp <= 1073741824 -> (nsp < fuel)%nat ->
  forall rest pre a d f, Inv nsp nsa d a -> pols a = pre ++ rest -> pending a = false -> (length rest < f)%nat ->
  (forall j, pcnt a j = pc0 j + heldb (hd_error (map fst rest)) j) -> (forall j, 0 <= pc0 j < LIMIT) -> (forall j, qcnt a j < LIMIT) ->
  exists d', sp_flush_loop fuel f d check vrf (hd_error (map fst rest)) true = Ret (d', true) /\
    Inv nsp nsa d' (v_pp a (pre ++ kill rest (fun h => in_vrf check vrf (p_vrf (ppar a h)))) pc0).
Proof.
  intros Np F. induction rest as [|[i b] rest IH]; intros pre a d f H E Pe Lf Pc Lm Lq; (destruct f as [|f]; [exfalso; cbn [length] in Lf; lia|]); cbn [map fst hd_error sp_flush_loop] in *.
  - exists d. split; [reflexivity|]. apply (inv_veq nsp nsa d a); [|exact H].
    constructor; cbn [v_pp pols ppar pcnt assocs qpar qdis qcnt qsel qselp pending kill filter]; try reflexivity; [rewrite E; reflexivity|].
    intros j. rewrite Pc. unfold heldb, b2z. lia.
  - assert (Pi : 0 < pcnt a i) by (rewrite Pc; unfold heldb; rewrite Nat.eqb_refl; cbn [b2z]; specialize (Lm i); lia).
    assert (Sm : small a).
    { intros h. rewrite Pc. pose proof (heldb_le (Some i) h). specialize (Lm h). specialize (Lq h). lia. }
    pose proof (i_sp _ _ _ _ H) as [lf B].
    assert (EN : names a = map fst pre ++ i :: map fst rest) by (unfold names; rewrite E, map_app; reflexivity).
    assert (NX : n_next (sph d i) = hd_error (map fst rest)).
    { pose proof (b_chain _ _ _ _ _ _ B) as C. rewrite EN in C. apply (chain_next _ _ _ _ _ C). }
    rewrite (b_par _ _ _ _ _ _ B i (or_intror Pi)). cbn [par_ntohl p_vrf].
    set (hit := negb check || (p_vrf (ppar a i) =? vrf)).
    assert (S1 : exists d1, (if hit then sp_destroy fuel d i else Ret (d, true)) = Ret (d1, true) /\
       Inv nsp nsa d1 (v_pols a ((pre ++ if hit then [] else [(i, b)]) ++ rest)) /\ n_next (sph d1 i) = hd_error (map fst rest)).
    { destruct hit.
      - destruct (sp_destroy_ok nsp nsa d a pre i b rest fuel H E Pi Sm Pe Np F) as (d1 & Q1 & H1 & N1).
        exists d1. rewrite app_nil_r. split; [exact Q1|]. split; [exact H1|congruence].
      - exists d. split; [reflexivity|]. split; [|exact NX]. rewrite <- app_assoc. cbn [app]. apply (inv_veq nsp nsa d a); [|exact H].
        constructor; cbn [v_pols pols ppar pcnt assocs qpar qdis qcnt qsel qselp pending]; try reflexivity. exact E. }
    destruct S1 as (d1 & Q1 & H1 & N1). rewrite Q1. cbn [obind].
    set (a1 := v_pols a ((pre ++ if hit then [] else [(i, b)]) ++ rest)) in *.
    assert (EN1 : forall j, In j (map fst rest) -> In j (names a1)).
    { intros j Hj. unfold names, a1. cbn [pols v_pols]. rewrite map_app. apply in_app_iff. right. exact Hj. }
    pose proof (i_sp _ _ _ _ H1) as [lf1 B1].
    destruct (sp_next_ok nsp d1 (names a1) (ppar a1) (pcnt a1) lf1 i B1 Pi) as (lf2 & pc2 & B2 & R2 & C2).
    { intros j. destruct (Sm j). exact H0. }
    { rewrite N1. intros j Hj. apply EN1. destruct (map fst rest) as [|x r]; [discriminate|]. injection Hj as ->. left. reflexivity. }
    rewrite (surjective_pairing (sp_next d1 i)). change (snd (sp_next d1 i)) with (n_next (sph d1 i)). rewrite N1.
    rewrite N1 in C2. change (pcnt a1) with (pcnt a) in C2.
    assert (C3 : forall j, pc2 j = pc0 j + heldb (hd_error (map fst rest)) j).
    { intros j. rewrite C2, Pc. unfold heldb. lia. }
    assert (H2 : Inv nsp nsa (fst (sp_next d1 i)) (v_pp a1 (pols a1) pc2)).
    { apply (inv_sp nsp nsa d1 _ a1 pc2 lf2 H1 B2 R2). intros h Hh. rewrite C3 in Hh. change (pcnt a1 h) with (pcnt a h).
      destruct (Z_lt_le_dec 0 (pc0 h)) as [W|W]; [right; change (pcnt a1 h) with (pcnt a h); rewrite Pc; pose proof (heldb_le (Some i) h); lia|].
      left. assert (heldb (hd_error (map fst rest)) h = 1) by (pose proof (heldb_le (hd_error (map fst rest)) h); lia).
      apply EN1. destruct (map fst rest) as [|x r]; cbn [hd_error] in *; [discriminate|]. unfold heldb, b2z in H0. destruct (Nat.eqb_spec h x) as [->|]; [left; reflexivity|discriminate]. }
    destruct (IH (pre ++ if hit then [] else [(i, b)]) (v_pp a1 (pols a1) pc2) (fst (sp_next d1 i)) f H2) as (d' & Q & I).
    { reflexivity. }
    { exact Pe. }
    { cbn [length] in Lf. lia. }
    { exact C3. }
    { exact Lm. }
    { exact Lq. }
    exists d'. split; [exact Q|]. refine (inv_veq nsp nsa d' _ _ _ I).
    constructor; cbn [v_pp pols ppar pcnt assocs qpar qdis qcnt qsel qselp pending a1 v_pols]; try reflexivity.
    unfold kill at 2. cbn [filter fst]. unfold in_vrf at 2. fold hit.
    destruct hit; cbn [negb]; [rewrite app_nil_r; reflexivity|]. rewrite <- app_assoc. reflexivity.
Qed.
