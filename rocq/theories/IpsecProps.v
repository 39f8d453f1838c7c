(* C52-C57: the IPsec databases. Each statement is over every history of legal
   calls (IpsecSpec.reach); "fits" bounds the configured table sizes. *)
From Verif Require Import Base IpsecModel IpsecSpec IpsecList IpsecSp IpsecLk IpsecSa IpsecInv IpsecInv2 IpsecStep IpsecCalls.
Ltac Zify.zify_post_hook ::= idtac.

Definition fits (fuel nsp nsa : nat) : Prop := (nsp < fuel)%nat /\ (nsa < fuel)%nat /\ Z.of_nat nsp <= 1073741824.

Lemma step_spec fuel nsp nsa sync d a c : fits fuel nsp nsa -> reach fuel nsp nsa sync d a -> legal a c ->
  exists d' x, istep fuel sync d c = Ret (d', x) /\ allowed nsp nsa a c x /\ reach fuel nsp nsa sync d' (after sync a c x).
Proof.
  intros (F1 & F2 & F3) R L. destruct (step_ok nsp nsa fuel sync F3 F1 F2 d a c (reach_inv nsp nsa fuel sync F3 F1 F2 d a R) L) as (d' & x & E & A & _).
  exists d', x. split; [exact E|]. split; [exact A|]. apply (r_step fuel nsp nsa sync d a c d' x R L E).
Qed.

(* C54: every call of a legal history returns, with an answer the specification allows *)
Theorem ipsec_calls_return_partial : forall fuel nsp nsa sync d a c, fits fuel nsp nsa -> reach fuel nsp nsa sync d a -> legal a c ->
  exists d' x, istep fuel sync d c = Ret (d', x) /\ allowed nsp nsa a c x.
Proof. intros fuel nsp nsa sync d a c F R L. destruct (step_spec fuel nsp nsa sync d a c F R L) as (d' & x & E & A & _). eauto. Qed.

(* C52: a packet to send, and a received one, are judged by the matching policy of
   best priority *)
Theorem ipsec_out_decision_partial : forall fuel nsp nsa sync d a vrf l3, fits fuel nsp nsa -> reach fuel nsp nsa sync d a -> legal a (COut vrf l3) ->
  exists d' r drop sa, istep fuel sync d (COut vrf l3) = Ret (d', AOut drop sa) /\ decides a false vrf l3 r /\ out_answer a r drop sa.
Proof.
  intros fuel nsp nsa sync d a vrf l3 F R L. destruct (step_spec fuel nsp nsa sync d a _ F R L) as (d' & x & E & (r & drop & sa & -> & D & O) & _).
  exists d', r, drop, sa. auto.
Qed.
Theorem ipsec_in_decision_partial : forall fuel nsp nsa sync d a vrf l3 ours decap, fits fuel nsp nsa -> reach fuel nsp nsa sync d a -> legal a (CIn vrf l3 ours decap) ->
  exists d' dropped, istep fuel sync d (CIn vrf l3 ours decap) = Ret (d', ABool dropped) /\
    (dropped = true <-> ~ (ours = true /\ (nth 9 l3 0 = 50 \/ nth 9 l3 0 = 51)) /\ decap = false /\
       exists h s, decides a true vrf l3 (Some (h, s)) /\ p_act (ppar a h) <> BYPASS).
Proof.
  intros fuel nsp nsa sync d a vrf l3 ours decap F R L. destruct (step_spec fuel nsp nsa sync d a _ F R L) as (d' & x & E & (b & -> & D) & _).
  exists d', b. auto.
Qed.
(* the deciding policy is unique *)
Theorem ipsec_decider_unique : forall fuel nsp nsa sync d a dir vrf l3 r r', fits fuel nsp nsa -> reach fuel nsp nsa sync d a ->
  decides a dir vrf l3 r -> decides a dir vrf l3 r' -> r = r'.
Proof.
  intros fuel nsp nsa sync d a dir vrf l3 r r' (F1 & F2 & F3) R. apply (decides_fun nsp nsa d). apply (reach_inv nsp nsa fuel sync F3 F1 F2 d a R).
Qed.

(* C53: new handles are handles nobody uses; creation fails only for a stated reason *)
Theorem ipsec_sp_create_partial : forall fuel nsp nsa sync d a p, fits fuel nsp nsa -> reach fuel nsp nsa sync d a -> legal a (CSpCreate p) ->
  exists d' o, istep fuel sync d (CSpCreate p) = Ret (d', AHandle o) /\
  match o with
  | Some h => (h < nsp)%nat /\ ~ installed a h /\ pcnt a h <= 0
  | None => ~ supported_sp p \/ (exists h, installed a h /\ p_id (ppar a h) = p_id p) \/ forall h, (h < nsp)%nat -> installed a h \/ 0 < pcnt a h
  end.
Proof.
  intros fuel nsp nsa sync d a p F R L. destruct (step_spec fuel nsp nsa sync d a _ F R L) as (d' & x & E & [(S & N & h & -> & Lh & U)|[-> W]] & _).
  - exists d', (Some h). split; [exact E|]. unfold used_sp in U. split; [exact Lh|]. split; [tauto|]. destruct (Z_lt_le_dec 0 (pcnt a h)); [tauto|assumption].
  - exists d', None. split; [exact E|]. exact W.
Qed.
Theorem ipsec_sa_create_partial : forall fuel nsp nsa sync d a q odp, fits fuel nsp nsa -> reach fuel nsp nsa sync d a -> legal a (CSaCreate q odp) ->
  exists d' o, istep fuel sync d (CSaCreate q odp) = Ret (d', AHandle o) /\
  match o with
  | Some h => (h < nsa)%nat /\ ~ used_sa a h
  | None => ~ supported_sa q \/ sa_clash a q \/ odp = false \/ forall h, (h < nsa)%nat -> used_sa a h
  end.
Proof.
  intros fuel nsp nsa sync d a q odp F R L. destruct (step_spec fuel nsp nsa sync d a _ F R L) as (d' & x & E & [(S & N & O & h & -> & Lh & U)|[-> W]] & _).
  - exists d', (Some h). split; [exact E|]. auto.
  - exists d', None. split; [exact E|]. exact W.
Qed.
(* what a handle stands for does not change while it is held or installed *)
Theorem ipsec_handle_stable_partial : forall fuel nsp nsa sync d a c d' x h, fits fuel nsp nsa -> reach fuel nsp nsa sync d a -> legal a c ->
  istep fuel sync d c = Ret (d', x) ->
  (used_sp a h -> ppar (after sync a c x) h = ppar a h) /\ (used_sa a h -> qpar (after sync a c x) h = qpar a h).
Proof.
  intros fuel nsp nsa sync d a c d' x h F R L E. destruct (step_spec fuel nsp nsa sync d a _ F R L) as (d1 & x1 & E1 & A & _). rewrite E in E1. injection E1 as <- <-.
  destruct c; cbn [after allowed] in *; try (split; reflexivity).
  - destruct A as [(_ & _ & h0 & -> & _ & U)|[-> _]]; [|split; reflexivity]. split; [|reflexivity]. intros W. cbn [new_pol ppar]. unfold set.
    destruct (Nat.eqb_spec h h0) as [->|]; [contradiction|reflexivity].
  - destruct A as (b & -> & _). destruct b; [|split; reflexivity]. destruct (p_dir (ppar a i) =? DIR_IN); split; reflexivity.
  - destruct A as [(k & -> & _)|[-> _]]; split; reflexivity.
  - rewrite A. destruct (hd_error (map fst (pols a))); split; reflexivity.
  - rewrite A. destruct (after_in i (map fst (pols a))); split; reflexivity.
  - destruct A as [(_ & _ & _ & h0 & -> & _ & U)|[-> _]]; [|split; reflexivity]. split; [reflexivity|]. intros W. cbn [new_assoc qpar]. unfold set.
    destruct (Nat.eqb_spec h h0) as [->|]; [contradiction|reflexivity].
  - destruct A as [(k & -> & _)|[-> _]]; split; reflexivity.
  - rewrite A. destruct (hd_error (assocs a)); split; reflexivity.
  - rewrite A. destruct (after_in i (assocs a)); split; reflexivity.
  - destruct A as (r & drop & sa & -> & _). destruct sa; split; reflexivity.
Qed.
(* and it can be read back *)
Theorem ipsec_sp_info_partial : forall fuel nsp nsa sync d a h, fits fuel nsp nsa -> reach fuel nsp nsa sync d a -> legal a (CSpInfo h) ->
  exists d' destroyed, istep fuel sync d (CSpInfo h) = Ret (d', ASp destroyed (ppar a h)) /\ (destroyed = false <-> installed a h).
Proof. intros fuel nsp nsa sync d a h F R L. destruct (step_spec fuel nsp nsa sync d a _ F R L) as (d' & x & E & (b & -> & W) & _). eauto. Qed.
Theorem ipsec_sa_info_partial : forall fuel nsp nsa sync d a h, fits fuel nsp nsa -> reach fuel nsp nsa sync d a -> legal a (CSaInfo h) ->
  exists d' s, istep fuel sync d (CSaInfo h) = Ret (d', ASa s (qpar a h)) /\
    (s = DESTROYED <-> ~ In h (assocs a)) /\ (In h (assocs a) -> s = if qdis a h then DISABLED else ACTIVE).
Proof. intros fuel nsp nsa sync d a h F R L. destruct (step_spec fuel nsp nsa sync d a _ F R L) as (d' & x & E & (s & -> & W) & _). eauto. Qed.

(* C57: identifiers *)
Definition ids_ok (b : view) : Prop :=
  (forall h h', installed b h -> installed b h' -> p_id (ppar b h) = p_id (ppar b h') -> h = h') /\
  (forall h h', In h (assocs b) -> In h' (assocs b) -> q_id (qpar b h) = q_id (qpar b h') -> h = h') /\
  (forall h h', In h (assocs b) -> In h' (assocs b) -> q_dir (qpar b h) = DIR_IN -> q_dir (qpar b h') = DIR_IN -> q_spi (qpar b h) = q_spi (qpar b h') -> h = h').
Lemma reach_ids fuel nsp nsa sync : fits fuel nsp nsa -> forall d a, reach fuel nsp nsa sync d a -> ids_ok a.
Proof.
  intros F d a R. induction R as [|d a c d' x R IH L E].
  { cbn. split; [|split]; intros h h' []. }
  destruct (step_spec fuel nsp nsa sync d a _ F R L) as (d1 & x1 & E1 & A & _). rewrite E in E1. injection E1 as <- <-.
  destruct IH as (I1 & I2 & I3).
  (* fewer of the same *)
  assert (K : forall b, (forall h, installed b h -> installed a h) -> (forall h, In h (assocs b) -> In h (assocs a)) -> ppar b = ppar a -> qpar b = qpar a -> ids_ok b).
  { unfold ids_ok. intros b K1 K2 -> ->. split; [|split]; intros h h' H H'; auto. }
  assert (Kk : forall f h, In h (map fst (kill (pols a) f)) -> In h (map fst (pols a))).
  { intros f h W. apply in_map_iff in W. destruct W as (u & <- & W). apply filter_In in W. apply in_map. tauto. }
  assert (Kf : forall f h, In h (filter f (assocs a)) -> In h (assocs a)) by (intros f h W; apply filter_In in W; tauto).
  destruct c; cbn [after allowed] in *; try (apply K; [solve [auto]|solve [auto]|reflexivity|reflexivity]).
  - destruct A as [(_ & N & h0 & -> & _ & U)|[-> _]]; [|apply K; auto]. unfold ids_ok. cbn [new_pol ppar qpar assocs].
    split; [|split; assumption]. intros h h' H H'. unfold installed in H, H'. cbn [new_pol pols map fst In] in H, H'. unfold set.
    assert (U' : forall k, In k (map fst (pols a)) -> k <> h0) by (intros k Hk ->; apply U; left; exact Hk).
    destruct H as [<-|H], H' as [<-|H']; rewrite ?Nat.eqb_refl.
    + reflexivity.
    + destruct (Nat.eqb_spec h' h0) as [->|]; [reflexivity|]. intros W. exfalso. apply N. exists h'. split; [exact H'|congruence].
    + destruct (Nat.eqb_spec h h0) as [->|]; [reflexivity|]. intros W. exfalso. apply N. exists h. split; [exact H|congruence].
    + destruct (Nat.eqb_spec h h0) as [->|]; [destruct (U' h0 H eq_refl)|]. destruct (Nat.eqb_spec h' h0) as [->|]; [destruct (U' h0 H' eq_refl)|]. auto.
  - apply K; [intros h W; apply (Kk _ _ W)|auto|reflexivity|reflexivity].
  - apply K; [intros h W; apply (Kk _ _ W)|auto|reflexivity|reflexivity].
  - destruct A as (b & -> & _). destruct b; [|apply K; auto]. destruct (p_dir (ppar a i) =? DIR_IN); [apply K; auto|]. apply K; auto.
    intros h W. unfold installed in *. cbn [v_pols pols] in W. unfold bindp in W. rewrite map_map in W. apply in_map_iff in W. destruct W as (u & W & V).
    destruct (Nat.eqb_spec (fst u) i); cbn [fst] in W; subst; apply in_map; exact V.
  - destruct A as [(k & -> & _)|[-> _]]; apply K; auto.
  - rewrite A. destruct (hd_error (map fst (pols a))); apply K; auto.
  - rewrite A. destruct (after_in i (map fst (pols a))); apply K; auto.
  - destruct A as [(_ & N & _ & h0 & -> & _ & U)|[-> _]]; [|apply K; auto]. unfold ids_ok. cbn [new_assoc ppar qpar assocs In].
    assert (U' : forall k, In k (assocs a) -> k <> h0) by (intros k Hk ->; apply U; left; exact Hk).
    split; [exact I1|]. split.
    + intros h h' H H'. unfold set. destruct H as [<-|H], H' as [<-|H']; rewrite ?Nat.eqb_refl.
      * reflexivity.
      * destruct (Nat.eqb_spec h' h0) as [->|]; [reflexivity|]. intros W. exfalso. apply N. exists h'. split; [exact H'|left; congruence].
      * destruct (Nat.eqb_spec h h0) as [->|]; [reflexivity|]. intros W. exfalso. apply N. exists h. split; [exact H|left; congruence].
      * destruct (Nat.eqb_spec h h0) as [->|]; [destruct (U' h0 H eq_refl)|]. destruct (Nat.eqb_spec h' h0) as [->|]; [destruct (U' h0 H' eq_refl)|]. auto.
    + intros h h' H H'. unfold set. destruct H as [<-|H], H' as [<-|H']; rewrite ?Nat.eqb_refl.
      * reflexivity.
      * destruct (Nat.eqb_spec h' h0) as [->|]; [reflexivity|]. intros W1 W2 W. exfalso. apply N. exists h'. split; [exact H'|right; auto].
      * destruct (Nat.eqb_spec h h0) as [->|]; [reflexivity|]. intros W1 W2 W. exfalso. apply N. exists h. split; [exact H|right; auto].
      * destruct (Nat.eqb_spec h h0) as [->|]; [destruct (U' h0 H eq_refl)|]. destruct (Nat.eqb_spec h' h0) as [->|]; [destruct (U' h0 H' eq_refl)|]. auto.
  - apply K; [auto|intros h W; apply (Kf _ _ W)|reflexivity|reflexivity].
  - apply K; [auto|intros h W; apply (Kf _ _ W)|reflexivity|reflexivity].
  - apply K; [auto|intros h W; apply (Kf _ _ W)|reflexivity|reflexivity].
  - destruct A as [(k & -> & _)|[-> _]]; apply K; auto.
  - rewrite A. destruct (hd_error (assocs a)); apply K; auto.
  - rewrite A. destruct (after_in i (assocs a)); apply K; auto.
  - apply K; auto; [intros h []|]. intros h W. apply (Kf _ _ W).
  - destruct A as (r & drop & sa & -> & _). destruct sa; apply K; auto.
Qed.
Theorem ipsec_ids_unique_partial : forall fuel nsp nsa sync d a h h', fits fuel nsp nsa -> reach fuel nsp nsa sync d a ->
  (installed a h -> installed a h' -> p_id (ppar a h) = p_id (ppar a h') -> h = h') /\
  (In h (assocs a) -> In h' (assocs a) ->
     q_id (qpar a h) = q_id (qpar a h') \/ (q_dir (qpar a h) = DIR_IN /\ q_dir (qpar a h') = DIR_IN /\ q_spi (qpar a h) = q_spi (qpar a h')) -> h = h').
Proof.
  intros fuel nsp nsa sync d a h h' F R. destruct (reach_ids fuel nsp nsa sync F d a R) as (I1 & I2 & I3). split; [apply I1|].
  intros H H' [W|(W1 & W2 & W3)]; auto.
Qed.
Theorem ipsec_find_partial : forall fuel nsp nsa sync d a id, fits fuel nsp nsa -> reach fuel nsp nsa sync d a -> legal a (CSpFind id) ->
  (exists d' o, istep fuel sync d (CSpFind id) = Ret (d', AHandle o) /\ forall h, o = Some h <-> installed a h /\ p_id (ppar a h) = id) /\
  (exists d' o, istep fuel sync d (CSaFind id) = Ret (d', AHandle o) /\ forall h, o = Some h <-> In h (assocs a) /\ q_id (qpar a h) = id).
Proof.
  intros fuel nsp nsa sync d a id F R L. destruct (reach_ids fuel nsp nsa sync F d a R) as (I1 & I2 & I3). split.
  - destruct (step_spec fuel nsp nsa sync d a _ F R L) as (d' & x & E & [(h & -> & A & B)|[-> A]] & _).
    + exists d', (Some h). split; [exact E|]. intros k. split; [intros W; injection W as <-; auto|]. intros [W1 W2]. f_equal. apply I1; [auto|auto|congruence].
    + exists d', None. split; [exact E|]. intros k. split; [discriminate|]. intros [W1 W2]. destruct (A k W1 W2).
  - assert (L' : legal a (CSaFind id)) by (destruct L as (L1 & L2 & _); split; [exact L1|split; [intros W; discriminate (L2 W)|exact I]]).
    destruct (step_spec fuel nsp nsa sync d a _ F R L') as (d' & x & E & [(h & -> & A & B)|[-> A]] & _).
    + exists d', (Some h). split; [exact E|]. intros k. split; [intros W; injection W as <-; auto|]. intros [W1 W2]. f_equal. apply I2; [auto|auto|congruence].
    + exists d', None. split; [exact E|]. intros k. split; [discriminate|]. intros [W1 W2]. destruct (A k W1 W2).
Qed.

(* the client's loop over all policies: first, then next until there is none *)
Fixpoint enum_from (fuel n : nat) (sync : Z -> bool) (d : db) (nxt : nat -> call) (o : option nat) : outcome (db * list nat) :=
  match n, o with
  | _, None => Ret (d, [])
  | O, Some _ => Diverge
  | S n, Some i =>
    obind (istep fuel sync d (nxt i)) (fun '(d, x) =>
    match x with AHandle o => obind (enum_from fuel n sync d nxt o) (fun '(d, l) => Ret (d, i :: l)) | _ => UB end)
  end.
Definition enum_all (fuel n : nat) (sync : Z -> bool) (d : db) (first : call) (nxt : nat -> call) : outcome (db * list nat) :=
  obind (istep fuel sync d first) (fun '(d, x) => match x with AHandle o => enum_from fuel n sync d nxt o | _ => UB end).

Lemma enum_sp fuel nsp nsa sync pc0 : fits fuel nsp nsa -> (forall h, 0 <= pc0 h /\ pc0 h + 1 < LIMIT) ->
  forall rest pre d a n, reach fuel nsp nsa sync d a -> map fst (pols a) = pre ++ rest -> pending a = false -> (length rest <= n)%nat ->
  (forall h, pcnt a h = pc0 h + heldb (hd_error rest) h) -> (forall h, qcnt a h < LIMIT) ->
  exists d' a', enum_from fuel n sync d CSpNext (hd_error rest) = Ret (d', rest) /\ reach fuel nsp nsa sync d' a' /\
    pols a' = pols a /\ assocs a' = assocs a /\ (forall h, pcnt a' h = pc0 h) /\ (forall h, qcnt a' h = qcnt a h).
Proof.
  intros F P0. induction rest as [|i rest IH]; intros pre d a n R E Pe Ln Pc Lq; cbn [hd_error] in *.
  - exists d, a. split; [destruct n; reflexivity|]. repeat (split; [assumption||reflexivity|]). split; [intros h; rewrite Pc; unfold heldb, b2z; lia|reflexivity].
  - destruct n as [|n]; [cbn [length] in Ln; lia|]. cbn [enum_from].
    destruct F as (F1 & F2 & F3). pose proof (reach_inv nsp nsa fuel sync F3 F1 F2 d a R) as Iv. destruct (i_sp _ _ _ _ Iv) as [lf B].
    pose proof (b_nd _ _ _ _ _ _ B) as ND. unfold names in ND. rewrite E in ND. destruct (nodup_split _ _ _ ND) as (N1 & _ & _).
    assert (L : legal a (CSpNext i)).
    { split; [|split].
      - intros h. rewrite Pc. pose proof (heldb_le (Some i) h). specialize (P0 h). specialize (Lq h). lia.
      - rewrite Pe. discriminate.
      - split; [unfold installed; rewrite E; apply in_app_iff; right; left; reflexivity|]. rewrite Pc. unfold heldb. rewrite Nat.eqb_refl. specialize (P0 i). cbn [b2z]. lia. }
    destruct (step_spec fuel nsp nsa sync d a _ (conj F1 (conj F2 F3)) R L) as (d1 & x & E1 & A & R1). cbn [allowed] in A. rewrite E, (after_in_app _ _ _ N1) in A. subst x.
    rewrite E1. cbn [obind]. cbn [after] in R1. set (a1 := give_p (give_p a (hd_error rest) 1) (Some i) (-1)) in *.
    assert (Q : pols a1 = pols a /\ assocs a1 = assocs a /\ pending a1 = pending a /\ (forall h, qcnt a1 h = qcnt a h) /\
      forall h, pcnt a1 h = pcnt a h + heldb (hd_error rest) h - heldb (Some i) h).
    { unfold a1. destruct (hd_error rest) as [k|]; (split; [reflexivity|]); (split; [reflexivity|]); (split; [reflexivity|]); (split; [reflexivity|]); intros h; cbn [give_p pcnt]; unfold heldb, b2z, set.
      - destruct (Nat.eqb_spec h i) as [->|]; destruct (Nat.eqb_spec i k) as [->|]; try destruct (Nat.eqb_spec h k) as [->|]; try lia.
      - destruct (Nat.eqb_spec h i) as [->|]; lia. }
    destruct Q as (Q1 & Q2 & Q3 & Q4 & Q5).
    destruct (IH (pre ++ [i]) d1 a1 n R1) as (d2 & a2 & E2 & R2 & Z1 & Z2 & Z3 & Z4).
    + rewrite Q1, E, <- app_assoc. reflexivity.
    + rewrite Q3. exact Pe.
    + cbn [length] in Ln. lia.
    + intros h. rewrite Q5, Pc. lia.
    + intros h. rewrite Q4. apply Lq.
    + exists d2, a2. rewrite E2. cbn [obind]. split; [reflexivity|]. split; [exact R2|]. split; [congruence|]. split; [congruence|]. split; [exact Z3|]. intros h. rewrite Z4. apply Q4.
Qed.
(* C57: iteration visits every installed policy once, newest first, and leaves the
   reference counts as they were *)
Theorem ipsec_sp_iterate_partial : forall fuel nsp nsa sync d a n, fits fuel nsp nsa -> reach fuel nsp nsa sync d a -> legal a CSpFirst ->
  (forall h, pcnt a h + 1 < LIMIT) -> (length (pols a) <= n)%nat ->
  exists d' a', enum_all fuel n sync d CSpFirst CSpNext = Ret (d', map fst (pols a)) /\ reach fuel nsp nsa sync d' a' /\
    pols a' = pols a /\ assocs a' = assocs a /\ (forall h, pcnt a' h = pcnt a h) /\ (forall h, qcnt a' h = qcnt a h) /\ NoDup (map fst (pols a)).
Proof.
  intros fuel nsp nsa sync d a n F R L P1 Ln. pose proof F as (F1 & F2 & F3). pose proof (reach_inv nsp nsa fuel sync F3 F1 F2 d a R) as Iv. destruct (i_sp _ _ _ _ Iv) as [lf B].
  pose proof (legal_pend _ _ L ltac:(discriminate)) as Pe.
  destruct (step_spec fuel nsp nsa sync d a _ F R L) as (d1 & x & E1 & A & R1). cbn [allowed] in A. subst x. unfold enum_all. rewrite E1. cbn [obind].
  cbn [after] in R1. set (a1 := give_p a (hd_error (map fst (pols a))) 1) in *.
  assert (Q : pols a1 = pols a /\ assocs a1 = assocs a /\ pending a1 = pending a /\ (forall h, qcnt a1 h = qcnt a h) /\
      forall h, pcnt a1 h = pcnt a h + heldb (hd_error (map fst (pols a))) h).
  { unfold a1. destruct (hd_error (map fst (pols a))) as [k|]; (split; [reflexivity|]); (split; [reflexivity|]); (split; [reflexivity|]); (split; [reflexivity|]); intros h; cbn [give_p pcnt]; unfold heldb, b2z, set; [|lia].
    destruct (Nat.eqb_spec h k) as [->|]; lia. }
  destruct Q as (Q1 & Q2 & Q3 & Q4 & Q5).
  destruct (enum_sp fuel nsp nsa sync (pcnt a) F) with (rest := map fst (pols a)) (pre := @nil nat) (d := d1) (a := a1) (n := n) as (d2 & a2 & E2 & R2 & Z1 & Z2 & Z3 & Z4).
  - intros h. split; [apply (b_pos _ _ _ _ _ _ B)|apply P1].
  - exact R1.
  - rewrite Q1. reflexivity.
  - rewrite Q3. exact Pe.
  - rewrite map_length. exact Ln.
  - exact Q5.
  - intros h. rewrite Q4. destruct L as (L & _). apply L.
  - exists d2, a2. split; [exact E2|]. split; [exact R2|]. split; [congruence|]. split; [congruence|]. split; [exact Z3|]. split; [intros h; rewrite Z4; apply Q4|]. apply (b_nd _ _ _ _ _ _ B).
Qed.

(* C55: a decapsulated packet is accepted only if it fits the selectors of the
   policy its SA was bound to (ICMP payloads left out) *)
Theorem ipsec_input_check_partial : forall fuel nsp nsa sync d a i vrf l3, fits fuel nsp nsa -> reach fuel nsp nsa sync d a -> legal a (CInput i vrf l3) ->
  exists d' b, istep fuel sync d (CInput i vrf l3) = Ret (d', ABool b) /\
    (b = true <-> qsel a i <> None /\ (sel_accepts_pkt (qselp a i) l3 \/ icmp_error_for (qselp a i) l3) /\ vrf = q_vrf (qpar a i)).
Proof. intros fuel nsp nsa sync d a i vrf l3 F R L. destruct (step_spec fuel nsp nsa sync d a _ F R L) as (d' & x & E & (b & -> & D) & _). eauto. Qed.

(* C56: after an outbound look-up the lock is held exactly when an SA was given
   out, so that whatever comes next can proceed *)
Theorem ipsec_lock_released_partial : forall fuel nsp nsa sync d a, fits fuel nsp nsa -> reach fuel nsp nsa sync d a -> rheld d = pending a.
Proof. intros fuel nsp nsa sync d a (F1 & F2 & F3) R. apply (i_held nsp nsa d a (reach_inv nsp nsa fuel sync F3 F1 F2 d a R)). Qed.
