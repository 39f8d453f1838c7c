(* C98, C99: theorems about the configuration of addresses. *)
From Verif Require Import Base IfcModel IfcSpec IfcProps IfcRoutes IfcInv IfcThm.
Ltac Zify.zify_post_hook ::= idtac.

Section Steps.
Variable num_vrf : Z.
Variable nv : nat.
Notation Inv := (IfcInv.Inv num_vrf).
Notation All := (IfcThm.All num_vrf nv).

Lemma add_ip_ok : forall c s k v a n, All c s -> clean num_vrf nv (AddIp k v a n) c = true ->
  exists s', add_ip ALL num_vrf k v a n s = Ret (s', Done) /\ All (apply (AddIp k v a n) c) s'.
Proof.
  intros c s k v a n (I & [N P] & V) C. cbn [clean] in C. rewrite !andb_true_iff in C. destruct C as [[[C1 C2] C3] C4].
  unfold port_ok, IF_MAX in C1. unfold addr_ok in C2. assert (B : bound a n) by (unfold bound; lia).
  destruct (look k (c_if c)) as [[v' l]|] eqn:L; [|discriminate]. rewrite !andb_true_iff in C4. destruct C4 as [[C4 C5] C6].
  apply Z.eqb_eq in C4. subst v'. assert (LE : (length l < 7)%nat) by lia.
  destruct (add_two _ c s k v l a n I L LE B) as (s5 & E5 & R5 & I5 & F5 & G5).
  assert (IA : forall y, In y (l ++ [(a, n)]) <-> y = (a, n) \/ In y l) by (intros y; rewrite in_app_iff; cbn [In]; intuition congruence).
  assert (LA : length (l ++ [(a, n)]) = S (length l)) by (rewrite app_length; cbn [length]; lia).
  destruct (add_inv _ c s k v l a n (l ++ [(a, n)]) (mkS (rt s5) (put k (mkI v (emb NIP (l ++ [(a, n)]))) (ifs s)) (ifl s5) (freev s5)) I L LE B C3 IA LA) as [NI J];
    [intros; cbn [rt]; rewrite R5; reflexivity|reflexivity|].
  pose proof (ok_nz _ _ _ (w_l _ _ (v_w _ _ _ I) _ _ _ L)) as NZ.
  unfold add_ip, IF_MAX. replace ((fst k <? 0) || (8 <=? fst k)) with false by lia.
  rewrite (inv_look _ _ _ _ _ _ I L). cbn [i_sl]. rewrite find_emb by exact NZ. rewrite (proj2 (idx_none a l) NI). rewrite mask_ok by lia. cbn [obind].
  destruct (add_route num_vrf v a 32 (Local k) s) as [s45| |] eqn:E45; cbn [obind] in E5 |- *; try discriminate. rewrite E5. cbn [obind].
  assert (SL : slots k s5 = raw l a) by (unfold slots; rewrite I5, look_put, key_eqb_refl; reflexivity). rewrite SL.
  change (Z.lor a (4294967295 - (4294967296 - 2 ^ (32 - n)))) with (bcast a n). rewrite update_raw by (try exact NZ; try exact NI; unfold bound, NIP in *; lia).
  eexists. split; [reflexivity|]. unfold set_sl. rewrite I5, look_put, key_eqb_refl. cbn [i_vrf]. rewrite put_put.
  cbn [apply]. assert (AL : addrs_of k c = l) by (unfold addrs_of; rewrite L; reflexivity). rewrite AL. fold (setc k v (l ++ [(a, n)]) c).
  split; [exact J|]. split.
  - apply (ifl_set c s k v _ _ (conj N P)); cbn [ifl]; rewrite F5; [exact N|reflexivity|].
    rewrite P, AL. split; [intros _|intros _]; [destruct l; discriminate|destruct l; [cbn [length] in C5; discriminate|discriminate]].
  - cbn [freev]. rewrite G5. change (freev s + vlans (setc k v (l ++ [(a, n)]) c) = nv)%nat. rewrite vlans_setc, L. lia.
Qed.

Lemma del_ip_ok : forall c s k a n, All c s -> clean num_vrf nv (DelIp k a n) c = true ->
  exists s', del_ip ALL num_vrf k a n s = Ret (s', Done) /\ All (apply (DelIp k a n) c) s'.
Proof.
  intros c s k a n (I & [N P] & V) C. cbn [clean] in C. apply andb_true_iff in C. destruct C as [C1 C2].
  unfold port_ok, IF_MAX in C1. destruct (look k (c_if c)) as [[v l]|] eqn:L; [|discriminate].
  apply existsb_exists in C2. destruct C2 as ([a' n'] & M & C2). assert (a' = a /\ n' = n) as [-> ->] by lia.
  pose proof (w_l _ _ (v_w _ _ _ I) _ _ _ L) as O. pose proof (ok_nz _ _ _ O) as NZ. destruct (ok_in _ _ _ _ _ O M) as [B1 B2]. destruct O as (O1 & O2 & O3 & O4).
  assert (IA : In a (map fst l)) by (apply (in_map fst) in M; exact M).
  destruct (del_two num_vrf c s k v l a n (Z.land a (4294967296 - 2 ^ (32 - n))) I L M) as [(s2 & E2 & D) _]; [rewrite land_mask by lia; apply netof_idem; lia|].
  pose proof (del_inv num_vrf c s k v l a n s2 I L M D) as J. destruct D as (D1 & D2 & D3 & D4).
  unfold del_ip, IF_MAX. replace ((fst k <? 0) || (8 <=? fst k)) with false by lia.
  rewrite (inv_look _ _ _ _ _ _ I L). cbn [i_sl i_vrf]. rewrite find_emb by exact NZ.
  destruct (idx a l) as [j|] eqn:E; [|apply idx_none in E; tauto].
  assert (NJ : s_ml (nth j (emb NIP l) zslot) = n).
  { destruct (idx_in a l j E) as [J1 J2]. unfold emb. rewrite app_nth1 by (rewrite map_length; exact J1).
    rewrite (nth_indep _ zslot (slot_of (0, 0))) by (rewrite map_length; exact J1). rewrite map_nth. cbn [slot_of s_ml].
    pose proof (nth_In l (0, 0) J1) as J3. destruct (nth j l (0, 0)) as [a2 n2]. cbn [fst snd] in *. subst a2.
    destruct (proj1 (has_look c k v l v a n L) ltac:(exists l; auto)).
    destruct (w_u _ _ (v_w _ _ _ I) k k v a n2 a n) as (_ & _ & Q); [exists l; auto|exists l; auto|left; reflexivity|exact Q]. }
  rewrite NJ, Z.eqb_refl. rewrite mask_ok by lia. cbn [obind negb].
  destruct (del_route num_vrf v (Z.land a (4294967296 - 2 ^ (32 - n))) n s) as [s1| |] eqn:E1; cbn [obind] in E2 |- *; try discriminate. rewrite E2. cbn [obind].
  pose proof (inv_slots _ _ _ _ _ _ J (look_setc _ _ _ _)) as SL. rewrite SL.
  pose proof (ok_nz _ _ _ (w_l _ _ (v_w _ _ _ J) _ _ _ (look_setc _ _ _ _))) as NZ2. rewrite find_emb by exact NZ2.
  assert (NI : ~ In a (map fst (srem a l))).
  { intros X. apply in_map_iff in X. destruct X as (y & X & Y). apply (srem_in a l y O3) in Y. tauto. }
  rewrite (proj2 (idx_none _ _) NI). eexists. split; [reflexivity|].
  cbn [apply]. rewrite L. fold (setc k v (srem a l) c).
  destruct (first_slot num_vrf k v (srem a l) _ _ J (look_setc _ _ _ _)) as [A0 _].
  assert (K : In k (ifl s)) by (apply P; unfold addrs_of; rewrite L; destruct l; [destruct M|discriminate]).
  split; [|split].
  - destruct (s_a (nth 0 (emb NIP (srem a l)) zslot) =? 0); [|exact J]. apply (inv_same _ _ s2); [exact J|reflexivity|reflexivity].
  - rewrite A0. destruct (srem a l) as [|x t] eqn:SR.
    + cbn [Z.eqb]. apply (ifl_set c s k v _ _ (conj N P)); cbn [ifl ifl_del]; rewrite D3.
      * apply NoDup_filter. exact N.
      * intros q X. rewrite filter_In. split; [tauto|]. intros Y. split; [exact Y|]. apply negb_true_iff. apply key_eqb_neq. congruence.
      * rewrite filter_In, key_eqb_refl. cbn [negb]. split; [intros [_ X]; discriminate|congruence].
    + assert (X0 : fst x <> 0) by (unfold nz in NZ2; inversion NZ2; assumption). replace (fst x =? 0) with false by lia.
      apply (ifl_set c s k v _ _ (conj N P)); rewrite D3; [exact N|reflexivity|]. split; [discriminate|]. intros _. exact K.
  - assert (F : freev (if s_a (nth 0 (emb NIP (srem a l)) zslot) =? 0 then ifl_del k s2 else s2) = freev s2) by (destruct (s_a _ =? 0); reflexivity).
    rewrite F, D4. change (freev s + vlans (setc k v (srem a l) c) = nv)%nat. rewrite vlans_setc, L. lia.
Qed.

Lemma down_all : forall c s k, All c s -> clean num_vrf nv (Down k) c = true -> exists s', down ALL num_vrf k s = Ret (s', Done) /\ All (apply (Down k) c) s'.
Proof.
  intros c s k (I & [N P] & V) C. cbn [clean] in C. apply andb_true_iff in C. destruct C as [C1 C2].
  destruct (look k (c_if c)) as [[v l]|] eqn:L; [|discriminate].
  destruct (down_ok num_vrf c s k v l I L C1) as (s' & E & J & F & G). exists s'. split; [exact E|]. split; [exact J|].
  assert (Q : forall q, q <> k -> (In q (filter (fun q => negb (key_eqb k q)) (ifl s)) <-> In q (ifl s))).
  { intros q X. rewrite filter_In. split; [tauto|]. intros Y. split; [exact Y|]. apply negb_true_iff. apply key_eqb_neq. congruence. }
  assert (QK : ~ In k (filter (fun q => negb (key_eqb k q)) (ifl s))) by (rewrite filter_In, key_eqb_refl; intros [_ X]; discriminate).
  assert (QN : NoDup (filter (fun q => negb (key_eqb k q)) (ifl s))) by (apply NoDup_filter; exact N).
  cbn [apply]. rewrite L. destruct (snd k =? 0) eqn:K0.
  - fold (setc k v [] c). split.
    + apply (ifl_set c s k v _ _ (conj N P)); rewrite F; [exact QN|exact Q|]. split; [tauto|congruence].
    + change (freev s' + vlans (setc k v [] c) = nv)%nat. rewrite vlans_setc, L. lia.
  - split.
    + split; [rewrite F; exact QN|]. intros q. rewrite F. unfold addrs_of. cbn [c_if]. rewrite look_del. destruct (key_eqb q k) eqn:X.
      * apply key_eqb_eq in X. subst q. split; [tauto|congruence].
      * apply key_eqb_neq in X. rewrite (Q q X). apply P.
    + unfold vlans in *. cbn [c_if]. pose proof (vlans_del k _ _ (w_k _ _ (v_w _ _ _ I)) L ltac:(lia)) as X.
      change (length (filter isvl (c_if c)) = S (length (filter isvl (del k (c_if c))))) in X.
      change (freev s + length (filter isvl (c_if c)) = nv)%nat in V. change (freev s' + length (filter isvl (del k (c_if c))) = nv)%nat. lia.
Qed.

Lemma route_all : forall c s v d l x, All c s -> clean num_vrf nv (Route v d l x) c = true ->
  exists s', step ALL num_vrf (Route v d l x) s = Ret (s', Done) /\ All (apply (Route v d l x) c) s'.
Proof.
  intros c s v d l x (I & [N P] & V) C. cbn [clean] in C. rewrite !andb_true_iff in C. destruct C as [[[[[[C1 C2] C3] C4] C5] C6] C7].
  apply Z.eqb_eq in C5. cbn [step]. unfold add_route. replace (num_vrf <=? v) with false by lia. rewrite C5. cbn [obind].
  eexists. split; [reflexivity|]. cbn [apply]. pose proof (v_w _ _ _ I) as W.
  assert (F : forall k a n, has c k v a n -> ~ (l = 32 /\ a = d) /\ ~ (n = l /\ netof a n = d)) by exact (fresh_has c v d l C6).
  split; [|split; [|exact V]].
  - constructor; cbn [c_if c_rt].
    + exact (v_i _ _ _ I).
    + intros v2 d2 l2 y. cbn [rt]. change (has (mkC (c_if c) ((v, d, l, x) :: c_rt c))) with (has c). destruct (key3 v d l v2 d2 l2) as [(-> & -> & ->)|K].
      * rewrite upd_eq. split.
        -- intros X. injection X as <-. apply ow_u. left. reflexivity.
        -- intros O. destruct O as [k2 n2 O X|k2 a2 O X|z O].
           ++ exfalso. apply (proj1 (F _ _ _ O)). auto.
           ++ exfalso. apply (proj2 (F _ _ _ O)). auto.
           ++ destruct O as [O|O]; [congruence|]. exfalso. exact (user_free_ok _ _ _ _ C7 _ O).
      * rewrite upd_neq by exact K. rewrite (v_t _ _ _ I v2 d2 l2 y). split; intros O; destruct O as [k2 n2 O X|k2 a2 O X|z O].
        -- apply ow_a with n2; assumption.
        -- apply ow_n with a2; assumption.
        -- apply ow_u. right. exact O.
        -- apply ow_a with n2; assumption.
        -- apply ow_n with a2; assumption.
        -- destruct O as [O|O]; [|apply ow_u; exact O]. exfalso. apply K. injection O as -> -> -> _. auto.
    + constructor; cbn [c_if c_rt]; [exact (w_k _ _ W)|exact (w_l _ _ W)|exact (w_u _ _ W)|].
      intros k v2 a n y X. change (has c k v2 a n) in X. destruct (w_a _ _ W k v2 a n y X) as [Y1 Y2]. split; intros [Z|Z]; try tauto.
      * injection Z as -> -> -> _. apply (proj1 (F _ _ _ X)). auto.
      * injection Z as -> -> -> _. apply (proj2 (F _ _ _ X)). auto.
  - split; [exact N|exact P].
Qed.

Lemma unroute_all : forall c s v d l, All c s -> clean num_vrf nv (Unroute v d l) c = true ->
  exists s', step ALL num_vrf (Unroute v d l) s = Ret (s', Done) /\ All (apply (Unroute v d l) c) s'.
Proof.
  intros c s v d l (I & [N P] & V) C. cbn [clean] in C. rewrite !andb_true_iff in C. destruct C as [[C1 C2] C3].
  apply Z.eqb_eq in C2. apply existsb_exists in C3. destruct C3 as ([[[v' d'] l'] x] & M & C3). assert (v' = v /\ d' = d /\ l' = l) as (-> & -> & ->) by lia.
  pose proof (v_w _ _ _ I) as W. assert (T : rt s v d l = Some (User x)) by (apply (v_t _ _ _ I); apply ow_u; exact M).
  cbn [step]. unfold del_route. replace (num_vrf <=? v) with false by lia. rewrite C2, T. cbn [obind].
  eexists. split; [reflexivity|]. cbn [apply].
  set (U := filter (fun '(v', d', l', _) => negb ((v' =? v) && (d' =? d) && (l' =? l))) (c_rt c)).
  assert (UI : forall v2 d2 l2 y, In (v2, d2, l2, y) U <-> In (v2, d2, l2, y) (c_rt c) /\ ~ (v2 = v /\ d2 = d /\ l2 = l)).
  { intros v2 d2 l2 y. unfold U. rewrite filter_In. split; intros [X Y]; (split; [exact X|lia]). }
  split; [|split; [|exact V]].
  - constructor; cbn [c_if c_rt].
    + exact (v_i _ _ _ I).
    + intros v2 d2 l2 y. cbn [rt]. change (has (mkC (c_if c) U)) with (has c). destruct (key3 v d l v2 d2 l2) as [(-> & -> & ->)|K].
      * rewrite upd_eq. split; [discriminate|]. intros O. exfalso. destruct O as [k2 n2 O X|k2 a2 O X|z O].
        -- subst l. exact (proj1 (w_a _ _ W _ _ _ _ _ O) M).
        -- subst d. exact (proj2 (w_a _ _ W _ _ _ _ _ O) M).
        -- apply UI in O. tauto.
      * rewrite upd_neq by exact K. rewrite (v_t _ _ _ I v2 d2 l2 y). split; intros O; destruct O as [k2 n2 O X|k2 a2 O X|z O].
        -- apply ow_a with n2; assumption.
        -- apply ow_n with a2; assumption.
        -- apply ow_u. apply UI. tauto.
        -- apply ow_a with n2; assumption.
        -- apply ow_n with a2; assumption.
        -- apply UI in O. apply ow_u. tauto.
    + constructor; cbn [c_if c_rt]; [exact (w_k _ _ W)|exact (w_l _ _ W)|exact (w_u _ _ W)|].
      intros k v2 a n y X. change (has c k v2 a n) in X. destruct (w_a _ _ W k v2 a n y X) as [Y1 Y2]. rewrite !UI. tauto.
  - split; [exact N|exact P].
Qed.

Lemma step_ok : forall c s e, All c s -> clean num_vrf nv e c = true -> exists s', step ALL num_vrf e s = Ret (s', Done) /\ All (apply e c) s'.
Proof.
  intros c s e A C. destruct e.
  - exact (up_ok num_vrf nv c s k v a n A C).
  - exact (add_ip_ok c s k v a n A C).
  - exact (del_ip_ok c s k a n A C).
  - exact (down_all c s k A C).
  - exact (route_all c s v d l x A C).
  - exact (unroute_all c s v d l A C).
Qed.
Lemma run_ok : forall h c s, All c s -> clean_all num_vrf nv h c = true ->
  exists s' rs, run ALL num_vrf h s = Ret (s', rs) /\ Forall (eq Done) rs /\ All (after h c) s'.
Proof.
  intros h. induction h as [|e h IH]; intros c s A C; cbn [run clean_all] in *.
  - exists s, []. split; [reflexivity|]. split; [constructor|exact A].
  - apply andb_true_iff in C. destruct C as [C1 C2]. destruct (step_ok c s e A C1) as (s1 & E1 & A1). rewrite E1. cbn [obind].
    destruct (IH _ s1 A1 C2) as (s2 & rs & E2 & R & A2). rewrite E2. cbn [obind]. exists s2, (Done :: rs). split; [reflexivity|]. split; [constructor; auto|exact A2].
Qed.
Lemma init_all : 0 < num_vrf -> All conf0 (init nv).
Proof.
  intros V. assert (H0 : forall k v a n, ~ has conf0 k v a n).
  { intros k v a n (l & L & M). apply look_in in L. unfold conf0 in L. cbn [c_if] in L. apply in_map_iff in L. destruct L as (p & L & _). injection L as _ _ <-. destruct M. }
  split; [|split].
  - constructor.
    + reflexivity.
    + intros v d l x. split; [discriminate|]. intros O. destruct O as [k n O|k a O|y O]; [destruct (H0 _ _ _ _ O)|destruct (H0 _ _ _ _ O)|destruct O].
    + constructor.
      * vm_compute. repeat constructor; cbn [In]; intuition congruence.
      * intros k v l L. apply look_in in L. unfold conf0 in L. cbn [c_if] in L. apply in_map_iff in L. destruct L as (p & L & _). injection L as _ <- <-.
        split; [lia|]. split; [cbn [length]; lia|]. split; constructor.
      * intros k1 k2 v a1 n1 a2 n2 X. destruct (H0 _ _ _ _ X).
      * intros k v a n x X. destruct (H0 _ _ _ _ X).
  - split; [constructor|]. intros k. cbn [init ifl]. unfold addrs_of. destruct (look k (c_if conf0)) as [[v l]|] eqn:L; [|split; [intros []|congruence]].
    apply look_in in L. unfold conf0 in L. cbn [c_if] in L. apply in_map_iff in L. destruct L as (p & L & _). injection L as _ _ <-. split; [intros []|congruence].
  - cbn [init freev]. unfold vlans, conf0. cbn [c_if map filter fst snd]. vm_compute (length _). lia.
Qed.
End Steps.

(* C98.  After every history of calls that asks for nothing impossible: all calls
   succeed; every interface holds exactly its addresses, with mask and broadcast
   address, the primary one first; every routing table holds exactly the
   addresses' host and subnet routes and the user's; the interfaces with an
   address are listed; VLAN interfaces are conserved. *)
Theorem ifc_exact : forall num_vrf nv h, 0 < num_vrf -> clean_all num_vrf nv h conf0 = true ->
  exists s rs, run 4294967295 num_vrf h (init nv) = Ret (s, rs) /\ Forall (eq Done) rs /\
    let c := after h conf0 in
    (forall k, look k (ifs s) = option_map (fun p => mkI (fst p) (emb 8 (snd p))) (look k (c_if c))) /\
    (forall v d l x, rt s v d l = Some x <-> route_of c v d l x) /\
    NoDup (ifl s) /\ (forall k, In k (ifl s) <-> addrs_of k c <> []) /\ (freev s + vlans c = nv)%nat.
Proof.
  intros num_vrf nv h V C. destruct (run_ok num_vrf nv h conf0 (init nv) (init_all num_vrf nv V) C) as (s & rs & E & R & (I & [N P] & F)).
  exists s, rs. split; [exact E|]. split; [exact R|]. cbn zeta. split.
  - intros k. rewrite (v_i _ _ _ I). apply (look_map _ _ embi).
  - split; [intros v d l x; rewrite (v_t _ _ _ I v d l x); apply owner_route|]. auto.
Qed.
Print Assumptions ifc_exact.

(* Nothing of an interface is left when it is down. *)
Theorem ifc_down_leaves_nothing : forall num_vrf nv h k, 0 < num_vrf -> clean_all num_vrf nv (h ++ [Down k]) conf0 = true ->
  exists s rs, run 4294967295 num_vrf (h ++ [Down k]) (init nv) = Ret (s, rs) /\
    (forall a, a <> 0 -> has_ip k a s = false) /\ ~ In k (ifl s) /\ (forall v d l, rt s v d l <> Some (Local k) /\ rt s v d l <> Some (Net k)) /\
    (snd k <> 0 -> look k (ifs s) = None).
Proof.
  intros num_vrf nv h k V C. destruct (ifc_exact num_vrf nv _ V C) as (s & rs & E & _ & X). exists s, rs. split; [exact E|].
  cbn zeta in X. unfold after in X. rewrite fold_left_app in X. cbn [fold_left] in X. fold (after h conf0) in X.
  assert (CD : clean num_vrf nv (Down k) (after h conf0) = true).
  { clear -C. revert C. generalize conf0. induction h as [|e h IH]; intros c C; cbn [app clean_all] in C; apply andb_true_iff in C; destruct C as [C1 C2]; [exact C1|]. exact (IH _ C2). }
  destruct X as (X1 & X2 & X3 & X4 & X5). cbn [clean] in CD. apply andb_true_iff in CD. destruct CD as [_ CD].
  set (c := after h conf0) in *. destruct (look k (c_if c)) as [[v l]|] eqn:L; [|discriminate].
  assert (LK : look k (c_if (apply (Down k) c)) = if snd k =? 0 then Some (v, []) else None).
  { cbn [apply]. rewrite L. cbn [c_if]. destruct (snd k =? 0); [rewrite look_put|rewrite look_del]; rewrite key_eqb_refl; reflexivity. }
  assert (NA : addrs_of k (apply (Down k) c) = []) by (unfold addrs_of; rewrite LK; destruct (snd k =? 0); reflexivity).
  split; [|split; [|split]].
  - intros a Ha. unfold has_ip, slots. rewrite X1, LK. destruct (snd k =? 0); reflexivity.
  - rewrite X4, NA. tauto.
  - intros v' d l'. rewrite !X2. split; intros O.
    + remember (Local k) as q. destruct O as [k2 la n L2 M _|k2 la a L2 M _|y _]; try discriminate. injection Heqq as ->. rewrite LK in L2. destruct (snd k =? 0); [|discriminate]. injection L2 as _ <-. destruct M.
    + remember (Net k) as q. destruct O as [k2 la n L2 M _|k2 la a L2 M _|y _]; try discriminate. injection Heqq as ->. rewrite LK in L2. destruct (snd k =? 0); [|discriminate]. injection L2 as _ <-. destruct M.
  - intros K. rewrite X1, LK. replace (snd k =? 0) with false by lia. reflexivity.
Qed.
Print Assumptions ifc_down_leaves_nothing.

(* A socket bound to the primary address of an interface finds it:
   ofp_ifaddr_elem_get answers an interface exactly for primary addresses. *)
Theorem ifc_elem_get_partial : forall num_vrf nv h, 0 < num_vrf -> clean_all num_vrf nv h conf0 = true ->
  exists s rs, run 4294967295 num_vrf h (init nv) = Ret (s, rs) /\
    forall v a k, 0 < a -> (elem_get v a s = Some k <-> exists n l, look k (c_if (after h conf0)) = Some (v, (a, n) :: l)).
Proof.
  intros num_vrf nv h V C. destruct (run_ok num_vrf nv h conf0 (init nv) (init_all num_vrf nv V) C) as (s & rs & E & R & (I & [N P] & F)).
  exists s, rs. split; [exact E|]. intros v a k Ha. unfold elem_get. set (c := after h conf0) in *.
  assert (T : forall k, match look k (ifs s) with Some i => (s_a (nth 0 (i_sl i) zslot) =? a) && (i_vrf i =? v) | None => false end = true <-> exists n l, look k (c_if c) = Some (v, (a, n) :: l)).
  { intros q. rewrite (v_i _ _ _ I), (look_map _ _ embi). destruct (look q (c_if c)) as [[v' l']|] eqn:L; cbn [option_map embi i_sl i_vrf fst snd].
    - destruct l' as [|[a' n'] t].
      + cbn [emb map app nth repeat length Nat.sub NIP s_a zslot]. split; [lia|]. intros (n & l & X). discriminate.
      + change (s_a (nth 0 (emb NIP ((a', n') :: t)) zslot)) with a'. split.
        * intros X. assert (a' = a /\ v' = v) as [-> ->] by lia. eauto.
        * intros (n & l & X). injection X as -> -> _ _. lia.
    - split; [discriminate|]. intros (n & l & X). discriminate. }
  split.
  - intros X. apply find_some in X. apply T. exact (proj2 X).
  - intros X. destruct (find _ (ifl s)) as [q|] eqn:Q.
    + apply find_some in Q. destruct Q as [_ Q]. apply T in Q. destruct X as (n & l & X), Q as (n2 & l2 & Q).
      destruct (w_u _ _ (v_w _ _ _ I) k q v a n a n2) as (-> & _); [exists ((a, n) :: l); split; [exact X|left; reflexivity]|exists ((a, n2) :: l2); split; [exact Q|left; reflexivity]|left; reflexivity|reflexivity].
    + assert (K : In k (ifl s)) by (apply P; destruct X as (n & l & X); unfold addrs_of; rewrite X; discriminate).
      pose proof (find_none _ _ Q k K) as Y. apply T in X. cbv beta in Y. congruence.
Qed.
Print Assumptions ifc_elem_get_partial.

(* Refused calls change nothing: an interface that does not exist, an address
   the interface already has, or does not have, another mask length. *)
Theorem ifc_refused : forall num_vrf nv h, 0 < num_vrf -> clean_all num_vrf nv h conf0 = true ->
  exists s rs, run 4294967295 num_vrf h (init nv) = Ret (s, rs) /\
    let c := after h conf0 in
    forall k v a n, 0 <= fst k < 8 -> a <> 0 ->
      (look k (c_if c) = None -> add_ip 4294967295 num_vrf k v a n s = Ret (s, NoInterface) /\ del_ip 4294967295 num_vrf k a n s = Ret (s, NoInterface) /\ down 4294967295 num_vrf k s = Ret (s, NoInterface)) /\
      (In a (map fst (addrs_of k c)) -> add_ip 4294967295 num_vrf k v a n s = Ret (s, Already)) /\
      (look k (c_if c) <> None -> ~ In a (map fst (addrs_of k c)) -> del_ip 4294967295 num_vrf k a n s = Ret (s, NotFound)) /\
      (In a (map fst (addrs_of k c)) -> ~ In (a, n) (addrs_of k c) -> del_ip 4294967295 num_vrf k a n s = Ret (s, OtherMask)).
Proof.
  intros num_vrf nv h V C. destruct (run_ok num_vrf nv h conf0 (init nv) (init_all num_vrf nv V) C) as (s & rs & E & R & (I & _ & _)).
  exists s, rs. split; [exact E|]. cbn zeta. set (c := after h conf0) in *. intros k v a n K A.
  pose proof (v_i _ _ _ I) as VI. assert (LS : look k (ifs s) = option_map (fun p => embi p) (look k (c_if c))) by (rewrite VI; apply (look_map _ _ embi)).
  unfold addrs_of. unfold add_ip, del_ip, down, IF_MAX, NUM_PORTS. replace ((fst k <? 0) || (8 <=? fst k)) with false by lia. replace ((fst k <? 0) || (11 <=? fst k)) with false by lia. rewrite LS.
  destruct (look k (c_if c)) as [[v' l]|] eqn:L; cbn [option_map].
  - pose proof (w_l _ _ (v_w _ _ _ I) _ _ _ L) as O. pose proof (ok_nz _ _ _ O) as NZ. cbn [embi i_sl i_vrf fst snd]. rewrite find_emb by exact NZ.
    split; [discriminate|]. destruct (idx a l) as [j|] eqn:J.
    + destruct (idx_in a l j J) as [J1 J2]. split; [reflexivity|]. split; [intros _ X; exfalso; apply X; rewrite <- J2; apply in_map, nth_In; exact J1|].
      intros _ X. pose proof (nth_In l (0, 0) J1) as J3. destruct (nth j l (0, 0)) as [a2 n2] eqn:Q. cbn [fst] in J2. subst a2.
      assert (NJ : s_ml (nth j (emb NIP l) zslot) = n2).
      { unfold emb. rewrite app_nth1 by (rewrite map_length; exact J1). rewrite (nth_indep _ zslot (slot_of (0, 0))) by (rewrite map_length; exact J1). rewrite map_nth, Q. reflexivity. }
      rewrite NJ. destruct (ok_in _ _ _ _ _ O J3) as [B1 B2]. rewrite mask_ok by lia. cbn [obind]. replace (n =? n2) with false; [reflexivity|].
      symmetry. apply Z.eqb_neq. intros ->. contradiction.
    + apply idx_none in J. split; [tauto|]. split; [reflexivity|tauto].
  - split; [intros _; auto|]. split; [intros []|]. split; [congruence|intros []].
Qed.
Print Assumptions ifc_refused.
