From Verif Require Import Base LifeModel LifeSpec LifeInv LifeLocal LifeStep LifeNew LifeOps LifeOps2 LifeOps3 LifeOps4.
Ltac Zify.zify_post_hook ::= idtac.

Lemma busy_slot : forall N s i, INV N X0 s -> s_user s i = true \/ s_call s i <> CNone ->
  exists so p q, s_so s i = Some so /\ so_pcb so = Some p /\ s_pcb s p = Some q /\ p_sock q = Some i /\ 0 <= so_qlimit so /\
    LOK so q (s_user s i) (s_call s i) /\ (forall A (k : sock -> Z -> pcb -> outcome A), get_sp s i k = k so p q).
Proof.
  intros N s i IV H. destruct (s_so s i) as [so |] eqn:E.
  - destruct (slot _ _ _ _ _ IV E) as (p & q & A & B & C & D & L & G). exists so, p, q. specialize (L (fun x => x)). auto 12.
  - destruct (i_idle _ _ _ IV i E) as [A B]. destruct H; congruence.
Qed.

(* an in-place change of a socket the application holds *)
Lemma user_local : forall N s i so p q so' q' s', INV N X0 s -> s_so s i = Some so -> so_pcb so = Some p -> s_pcb s p = Some q ->
  s_user s i = true -> LOK so q true (s_call s i) ->
  changes_at s s' i so' p q' true CNone -> same_str so so' -> p_sock q' = p_sock q ->
  so_count so' = so_count so -> so_nofd so' = so_nofd so -> p_sockref q' = p_sockref q ->
  common so' q' -> (flags_ok so q -> flags_ok so' q') -> INV N X0 s'.
Proof.
  intros N s i so p q so' q' s' IV Hi Hp Hq U [C R] CA SS PS K1 K2 K3 C' FL.
  eapply (INV_local N X0 s i so p q so' q' true CNone); eauto. intros _. split; [exact C' |].
  unfold role in *. destruct SS as (S1 & _). rewrite S1, K1, K2, K3. brk. auto 10.
Qed.

Lemma user_cnone : forall so q c, LOK so q true c -> c = CNone.
Proof. intros so q c [_ R]. apply R. Qed.

Lemma connect_ok : forall N s fd ok, INV N X0 s -> s_user s fd = true ->
  exists s' r, get_sp s fd (fun so p q => Ret (lift3 s fd p (tcp_usr_connect so q ok))) = Ret (s', r) /\ good N s s'.
Proof.
  intros N s fd ok IV U. destruct (busy_slot _ _ _ IV (or_introl U)) as (so & p & q & Hi & Hp & Hq & PS & HL & L & G). rewrite U in L.
  rewrite G. pose proof (user_cnone _ _ _ L) as CN. pose proof L as [C R].
  assert (ST : exists so' q' e, tcp_usr_connect so q ok = (so', q', e) /\ kept so q so' q' /\ p_sockref q' = p_sockref q /\
     common so' q' /\ (flags_ok so q -> flags_ok so' q')).
  { unfold tcp_usr_connect.
    destruct (so_accept so) eqn:AC.
    { exists so, q, OFP_EOPNOTSUPP. destruct so, q; keptok. }
    destruct (so_conn so || so_conning so) eqn:CO.
    { exists so, q, OFP_EISCONN. destruct so, q; keptok. }
    destruct (p_tw q || p_dropped q) eqn:TD.
    { exists (set_err so 0), q, OFP_EINVAL. destruct so, q; keptok. }
    destruct (p_state q =? T_CLOSED) eqn:SC; cbn [negb].
    2:{ exists (set_err so 0), q, OFP_EISCONN. destruct so, q; keptok. }
    unfold T_CLOSED, T_SYN_SENT in *.
    destruct ok.
    - eexists; eexists; eexists. split; [reflexivity |]. destruct so, q; cbn in *; subst.
      destruct p_dropped; [rewrite orb_true_r in TD; discriminate |]. destruct p_tw; [discriminate |].
      split; [keptok |]. split; [reflexivity |]. split; [cok | flok].
    - exists (set_err so 0), q, OFP_ENOBUFS. destruct so, q; keptok. }
  destruct ST as (so' & q' & e & E & K & SR & C' & FL). rewrite E. unfold lift3.
  eexists; eexists; split; [reflexivity |]. pose proof K as (SS & K2 & K3 & K4 & K5 & K6 & K7).
  assert (CA : changes_at s (put s fd so' p q') fd so' p q' true CNone) by ext.
  split; [eapply user_local; eauto | eapply quiet_local; eauto; apply SS].
Qed.

Lemma shutdown_ok : forall N s fd, INV N X0 s -> s_user s fd = true ->
  exists s' r, get_sp s fd (fun so p q => obind (tcp_usr_shutdown so q) (fun r => Ret (lift3 s fd p r))) = Ret (s', r) /\ good N s s'.
Proof.
  intros N s fd IV U. destruct (busy_slot _ _ _ IV (or_introl U)) as (so & p & q & Hi & Hp & Hq & PS & HL & L & G). rewrite U in L.
  rewrite G. pose proof (user_cnone _ _ _ L) as CN. pose proof L as [C R].
  assert (SR : p_sockref q = false) by apply R.
  assert (ST : exists so' q' e, tcp_usr_shutdown so q = Ret (so', q', e) /\ kept so q so' q' /\ p_sockref q' = p_sockref q /\
     common so' q' /\ (flags_ok so q -> flags_ok so' q')).
  { unfold tcp_usr_shutdown. destruct (p_tw q || p_dropped q) eqn:TD.
    { exists so, q, OFP_ECONNRESET. destruct so, q; keptok. }
    apply orb_false_iff in TD. destruct TD as [TW DR].
    destruct (tcp_usrclosed_ok so q HL C SR TW DR) as (so' & q' & A1 & A2 & A3 & A4 & A5 & A6 & A7 & A8).
    rewrite A1. cbn [obind fst snd]. exists so', q', 0. split; [reflexivity |]. split; [exact A3 |]. split; [congruence | auto]. }
  destruct ST as (so' & q' & e & E & K & SR' & C' & FL). rewrite E. cbn [obind]. unfold lift3.
  eexists; eexists; split; [reflexivity |]. pose proof K as (SS & K2 & K3 & K4 & K5 & K6 & K7).
  assert (CA : changes_at s (put s fd so' p q') fd so' p q' true CNone) by ext.
  split; [eapply user_local; eauto | eapply quiet_local; eauto; apply SS].
Qed.

(* options and flags of no consequence here *)
Lemma option_ok : forall N s fd f, INV N X0 s -> s_user s fd = true ->
  (forall so q, 0 <= so_qlimit so -> kept so q (f so) q) -> (forall so q, common so q -> common (f so) q) -> (forall so q, flags_ok so q -> flags_ok (f so) q) ->
  exists s' r, get_so s fd (fun so => Ret (put_so s fd (f so), ROk)) = Ret (s', r) /\ good N s s'.
Proof.
  intros N s fd f IV U FK FC FF. destruct (busy_slot _ _ _ IV (or_introl U)) as (so & p & q & Hi & Hp & Hq & PS & HL & L & G). rewrite U in L.
  pose proof (user_cnone _ _ _ L) as CN. pose proof L as [C R].
  unfold get_so. rewrite Hi. eexists; eexists; split; [reflexivity |].
  pose proof (FK so q HL) as (SS & K2 & K3 & K4 & K5 & K6 & K7).
  assert (CA : changes_at s (put_so s fd (f so)) fd (f so) p q true CNone) by ext.
  split; [eapply user_local; eauto | eapply quiet_local; eauto; apply SS].
Qed.

(* ---- listen ---- *)
Definition clamp (M b : Z) := if (b <? 0) || (M <? b) then M else b.

Lemma listen_ok : forall N M s fd b, 0 <= M -> INV N X0 s -> s_user s fd = true ->
  (forall so, s_so s fd = Some so -> so_qinit so = true /\ so_disced so = false) ->
  exists s' r, get_sp s fd (fun so p q => Ret (lift3 s fd p (tcp_usr_listen M so q b))) = Ret (s', r) /\ INV N X0 s' /\
    forall h hs, s_so s h = Some hs -> s_user s h = true ->
    exists hs', s_so s' h = Some hs' /\ s_user s' h = true /\ so_compq hs' = so_compq hs /\ so_incq hs' = so_incq hs /\
      (so_qlimit hs' = so_qlimit hs \/ (h = fd /\ so_qlimit hs' = clamp M b)).
Proof.
  intros N M s fd b HM IV U LEG. destruct (busy_slot _ _ _ IV (or_introl U)) as (so & p & q & Hi & Hp & Hq & PS & HL & L & G). rewrite U in L.
  rewrite G. pose proof (user_cnone _ _ _ L) as CN. pose proof L as [C R].
  destruct (LEG so Hi) as [QI DI].
  assert (CL : 0 <= clamp M b). { unfold clamp. destruct ((b <? 0) || (M <? b)) eqn:E; [exact HM | lia]. }
  assert (ST : exists so' q' e, tcp_usr_listen M so q b = (so', q', e) /\ same_str so so' /\ p_sock q' = p_sock q /\
     so_count so' = so_count so /\ so_nofd so' = so_nofd so /\ p_sockref q' = p_sockref q /\
     common so' q' /\ (flags_ok so q -> flags_ok so' q') /\ (so_qlimit so' = so_qlimit so \/ so_qlimit so' = clamp M b)).
  { unfold tcp_usr_listen. fold (clamp M b).
    destruct (p_tw q || p_dropped q) eqn:TD.
    { exists so, q, OFP_EINVAL. destruct so, q; keptok. }
    destruct (so_conn so || so_conning so || so_discing so) eqn:FG.
    { exists so, q, OFP_EINVAL. destruct so, q; keptok. }
    eexists; eexists; eexists. split; [reflexivity |].
    apply orb_false_iff in TD. destruct TD as [TW DR]. apply orb_false_iff in FG. destruct FG as [FG F3]. apply orb_false_iff in FG. destruct FG as [F1 F2].
    assert (SR : p_sockref q = false) by apply R.
    unfold T_LISTEN. generalize dependent (clamp M b). intros cl CL.
    destruct so, q; cbn in *; subst. split; [keptok |]. do 4 (split; [reflexivity |]). split; [cok | split; [flok | auto]]. }
  destruct ST as (so' & q' & e & E & SS & K2 & K3 & K4 & SR & C' & FL & QL). rewrite E. unfold lift3.
  eexists; eexists; split; [reflexivity |].
  assert (CA : changes_at s (put s fd so' p q') fd so' p q' true CNone) by ext.
  split; [eapply user_local; eauto |].
  intros h hs Hh Hu. destruct (Z.eq_dec h fd) as [-> | n].
  - exists so'. split; [unfold put; cbn; apply upd_eq |]. assert (hs = so) by congruence. subst hs.
    destruct SS as (_ & _ & S3 & S4 & _). split; [exact U |]. split; [exact S4 | split; [exact S3 |]]. destruct QL; auto.
  - exists hs. split; [unfold put; cbn; rewrite upd_neq by exact n; exact Hh |]. auto 10.
Qed.

(* ---- accept ---- *)
Definition accepted (s s' : st) (h0 i : Z) : Prop :=
  forall h hs, s_so s h = Some hs -> s_user s h = true ->
  exists hs', s_so s' h = Some hs' /\ s_user s' h = true /\ so_qlimit hs' = so_qlimit hs /\ so_incq hs' = so_incq hs /\
    if h =? h0 then so_compq hs = i :: so_compq hs' else so_compq hs' = so_compq hs.

Lemma accept_take_ok : forall N s h, INV N X0 s -> s_user s h = true ->
  exists s' r, accept_take s h = Ret (s', r) /\ INV N X0 s' /\
    ((quiet s s' /\ forall i, r <> RFd i) \/ (exists i, r = RFd i /\ accepted s s' h i /\ s_call s' i = CAccept)).
Proof.
  intros N s h IV U. destruct (busy_slot _ _ _ IV (or_introl U)) as (hs & p & q & Hh & Hp & Hq & PS & HL & L & G). rewrite U in L.
  pose proof (user_cnone _ _ _ L) as CN. pose proof L as [C R].
  assert (ERR : INV N X0 (put_so s h (set_err hs 0)) /\ quiet s (put_so s h (set_err hs 0))).
  { assert (CA : changes_at s (put_so s h (set_err hs 0)) h (set_err hs 0) p q true CNone) by ext. split.
    - eapply user_local; eauto; destruct hs; try keptok; auto.
    - eapply quiet_local; eauto. }
  unfold accept_take, get_so at 1. rewrite Hh.
  destruct (so_accept hs) eqn:AC; cbn [negb].
  2:{ eexists; eexists; split; [reflexivity |]. split; [exact IV | left; split; [apply quiet_refl | discriminate]]. }
  destruct (so_compq hs) as [| i rest] eqn:CQ.
  - destruct (so_nbio hs). { eexists; eexists; split; [reflexivity |]. split; [exact IV | left; split; [apply quiet_refl | discriminate]]. }
    destruct (so_err hs =? 0); [destruct (so_cantrcv hs) |];
    (eexists; eexists; split; [reflexivity |]); try (split; [apply ERR | left; split; [apply ERR | discriminate]]).
    split; [exact IV | left; split; [apply quiet_refl | discriminate]].
  - destruct (so_err hs =? 0).
    2:{ eexists; eexists; split; [reflexivity |]. split; [apply ERR | left; split; [apply ERR | discriminate]]. }
    destruct (queued_child N X0 s h hs i IV Hh) as (so & pi & qi & D1 & D2 & D3 & D4 & D5 & D6 & D7 & D8 & D9 & D10 & D11 & D12 & D13 & D14 & D15).
    { intros x []. } { right. rewrite CQ. left; reflexivity. }
    assert (IC : In i (so_compq hs)) by (rewrite CQ; left; reflexivity).
    assert (NI : ~ In i (so_incq hs)). { intros K. apply (one_queue _ _ _ _ _ _ IV Hh K). exact IC. }
    destruct (pop_comp_dequeues N X0 s h hs i rest so pi qi IV Hh D1 D4 D5 D7 CQ NI) as (s1 & E1 & E2 & E3 & E4 & E5).
    rewrite E1. cbn [obind]. unfold get_so. rewrite E4.
    set (so' := set_nbio (set_count (set_q so QNone None) (so_count (set_q so QNone None) + 1)) (so_nbio (set_q so QNone None) || so_nbio hs)).
    eexists; exists (RFd i). split; [reflexivity |].
    match goal with |- INV N X0 ?x /\ _ => set (s2 := x) end.
    destruct E2 as (G1 & G2 & G3 & G4 & G5 & G6).
    assert (DQ : dequeues s s2 h hs i so' pi qi false CAccept).
    { unfold s2, dequeues, set_call, put_so; cbn. split; [| split; [exact G2 | split; [exact G3 | split; [exact G4 | split]]]].
      - intros x. unfold upd. destruct (Z.eqb_spec x i) as [-> | n]; [reflexivity |]. rewrite G1. destruct (Z.eqb_spec x i); [contradiction | reflexivity].
      - intros x. rewrite G5, D8. reflexivity.
      - intros x. unfold upd. destruct (Z.eqb_spec x i) as [-> | n]; [reflexivity |]. rewrite G6. destruct (Z.eqb_spec x i); [contradiction | reflexivity]. }
    split; [| right; exists i; split; [reflexivity | split]].
    + eapply (INV_dequeue N X0 s h hs i so pi qi so' qi false CAccept); eauto; try (unfold so'; destruct so; assumption || reflexivity).
      intros _. specialize (D15 IC). unfold so'. destruct so; cbn in *; subst. split; [exact D10 |].
      unfold role; cbn. unfold child_ok, flags_ok in *; cbn in *. auto 10.
    + intros g gs Hg Hu. destruct (Z.eqb_spec g h) as [-> | ng].
      * assert (gs = hs) by congruence. subst gs.
        exists (set_queues hs (so_incq hs) rest (so_incqlen hs) (so_qlen hs - 1)).
        split; [unfold s2, set_call, put_so; cbn; rewrite upd_neq by exact D7; exact E5 |].
        split; [unfold s2, set_call, put_so; cbn; rewrite G5; destruct (Z.eqb_spec h i); [contradiction | exact U] |].
        split; [reflexivity | split; [reflexivity |]]. exact CQ.
      * assert (n2 : g <> i) by congruence. exists gs.
        split; [unfold s2, set_call, put_so; cbn; rewrite upd_neq by exact n2; rewrite G1; destruct (Z.eqb_spec g i); [contradiction |]; destruct (Z.eqb_spec g h); [contradiction | exact Hg] |].
        split; [unfold s2, set_call, put_so; cbn; rewrite G5; destruct (Z.eqb_spec g i); [contradiction | exact Hu] |]. auto.
    + unfold s2, set_call; cbn. apply upd_eq.
Qed.

Lemma accept_end_ok : forall N s i, INV N X0 s -> s_call s i = CAccept ->
  exists s' r, accept_end s i = Ret (s', r) /\ good N s s' /\
    ((r = RFd i /\ s_user s' i = true) \/ (r = RErr OFP_ECONNABORTED /\ s_call s' i = CLost)).
Proof.
  intros N s i IV CC. destruct (busy_slot N s i IV) as (so & p & q & Hi & Hp & Hq & PS & HL & L & G); [right; congruence |].
  rewrite CC in L. unfold accept_end. rewrite G. destruct L as [C R]. unfold role in R.
  destruct (s_user s i) eqn:U; [brk; congruence |].
  destruct R as (R1 & R2 & R3 & R4 & R5). rewrite R2. cbn [negb].
  destruct (so_disced so || p_tw q || p_dropped q) eqn:DD.
  - eexists; eexists; split; [reflexivity |]. split; [| right; split; [reflexivity | unfold set_call; cbn; apply upd_eq]].
    assert (DR : p_dropped q = true).
    { destruct R4 as (B1 & B2 & B3 & B4 & B5 & B6). rewrite B6, B3 in DD. destruct (p_dropped q); [reflexivity | discriminate]. }
    eapply (good_local N s i so p q (set_nofd so false) q false CLost); eauto; try solve [ext]; try solve [destruct so; keptok]; try congruence.
    destruct R4 as (B1 & B2 & B3 & B4 & B5 & B6). destruct so; cbn in *; subst. split; [exact C |].
    unfold role; cbn. auto 10.
  - eexists; eexists; split; [reflexivity |]. split; [| left; split; [reflexivity | unfold set_user, set_call; cbn; apply upd_eq]].
    eapply (good_local N s i so p q (set_nofd so false) q true CNone); eauto; try solve [ext]; try solve [destruct so; keptok].
    destruct R4 as (B1 & B2 & B3 & B4 & B5 & B6). destruct so; cbn in *; subst. split; [exact C |].
    unfold role; cbn. auto 10.
Qed.

(* ---- close and abort ---- *)
Definition quiet_but (s s' : st) (fd : Z) : Prop :=
  forall h hs, s_so s h = Some hs -> s_user s h = true -> h <> fd ->
  exists hs', s_so s' h = Some hs' /\ s_user s' h = true /\ so_compq hs' = so_compq hs /\ so_incq hs' = so_incq hs /\
    so_qlimit hs' = so_qlimit hs.

Lemma close1_ok : forall N s fd, INV N X0 s -> s_user s fd = true ->
  exists s' r, close1 s fd = Ret (s', r) /\ INV N X0 s' /\ quiet_but s s' fd /\ s_call s' fd = CClose1.
Proof.
  intros N s fd IV U. destruct (busy_slot _ _ _ IV (or_introl U)) as (so & p & q & Hi & Hp & Hq & PS & HL & L & G). rewrite U in L.
  pose proof (user_cnone _ _ _ L) as CN. pose proof L as [C R].
  unfold close1. rewrite G. unfold role in R. destruct R as (_ & R1 & R2 & R3 & R4 & R5). rewrite R2.
  assert (FIN : forall so' q' s', common so' q' -> kept so q so' q' -> p_sockref q' = false ->
     changes_at s s' fd so' p q' false CClose1 -> INV N X0 s' /\ quiet_but s s' fd /\ s_call s' fd = CClose1).
  { intros so' q' s' C' (SS & K2 & K3 & K4 & K5 & K6) SR CA. split; [| split].
    - eapply (INV_local N X0 s fd so p q so' q' false CClose1); eauto. intros _. split; [exact C' |].
      unfold role. destruct SS as (S1 & _). rewrite K3, K4, S1. auto.
    - intros h hs Hh Hu n. destruct CA as (E1 & _ & _ & _ & E5 & _). exists hs. rewrite E1, E5. destruct (Z.eqb_spec h fd); [contradiction | auto].
    - destruct CA as (_ & _ & _ & _ & _ & E6). rewrite E6, Z.eqb_refl. reflexivity. }
  destruct (so_conn so && negb (so_discing so)).
  - unfold tcp_usr_disconnect. destruct (p_tw q || p_dropped q) eqn:TD.
    + cbn [obind]. eexists; eexists; split; [reflexivity |]. eapply (FIN so q); eauto; try solve [ext]; try solve [destruct so; keptok].
    + apply orb_false_iff in TD. destruct TD as [TW DR].
      destruct (tcp_disconnect_ok so q HL C R4 TW DR) as (so' & q' & A1 & A2 & A3 & A4 & A5 & A6 & A7).
      rewrite A1. cbn [obind fst snd]. eexists; eexists; split; [reflexivity |]. eapply (FIN so' q'); eauto. ext.
  - eexists; eexists; split; [reflexivity |]. eapply (FIN so q); eauto; try solve [ext]; try solve [destruct so; keptok].
Qed.

Lemma close2_ok : forall N s i, INV N X0 s -> s_call s i = CClose1 ->
  exists s' r, close2 s i = Ret (s', r) /\ good N s s' /\ s_call s' i = CClose2.
Proof.
  intros N s i IV CC. destruct (busy_slot N s i IV) as (so & p & q & Hi & Hp & Hq & PS & HL & L & G); [right; congruence |].
  rewrite CC in L. unfold close2. rewrite G. destruct L as [C R]. unfold role in R.
  destruct (s_user s i) eqn:U; [brk; congruence |].
  destruct R as (R1 & R2 & R3 & R4).
  assert (ST : exists so1 q1, (if negb (p_tw q) && negb (p_dropped q) then tcp_disconnect so q else Ret (so, q)) = Ret (so1, q1) /\
     common so1 q1 /\ kept so q so1 q1 /\ p_sockref q1 = false /\ (p_dropped q1 = true \/ (4 <= p_state q1 /\ so_accept so = false))).
  { destruct (p_tw q) eqn:TW; [| destruct (p_dropped q) eqn:DR]; cbn [negb andb].
    - exists so, q. split; [reflexivity |]. split; [exact C |]. split; [destruct so; keptok |]. split; [exact R4 |].
      unfold common in C. destruct C as (_ & _ & C3 & _ & _ & _ & C7 & _). destruct (p_dropped q); [auto | right].
      split; [specialize (C7 TW); lia |]. destruct (so_accept so); [| reflexivity]. destruct C3 as [C3 | [_ C3]]; auto; congruence.
    - exists so, q. split; [reflexivity |]. split; [exact C |]. split; [destruct so; keptok |]. auto.
    - destruct (tcp_disconnect_ok so q HL C R4 TW DR) as (so' & q' & A1 & A2 & A3 & A4 & A5 & A6 & A7).
      exists so', q'. split; [exact A1 |]. split; [exact A2 | split; [exact A3 | split; [exact A4 |]]].
      destruct (so_accept so); [left; auto |]. destruct A6; auto. }
  destruct ST as (so1 & q1 & E & C1 & K & SR & DS).
  unfold tcp_usr_close. rewrite E. cbn [obind fst snd].
  eexists; eexists; split; [reflexivity |]. split; [| unfold set_call; cbn; apply upd_eq].
  pose proof K as (SS & K2 & K3 & K4 & K5 & K6 & K7). destruct SS as (S1 & S2 & S3 & S4 & S5 & S6 & S7 & S8).
  unfold take_ref. destruct (p_dropped q1) eqn:DR1; cbn [fst snd].
  - eapply (good_local N s i so p q so1 q1 false CClose2); eauto; try solve [ext]; try solve [unfold same_str; auto 10]; try congruence.
    split; [exact C1 |]. unfold role. rewrite K3, K4, S1. auto 10.
  - destruct DS as [DS | [DS AC]]; [discriminate |].
    eapply (good_local N s i so p q (set_protoref so1 true) (p_set_sockref q1 true) false CClose2); eauto;
      try solve [ext]; try solve [destruct so1; unfold same_str; cbn in *; auto 10]; try congruence.
    assert (AC1 : so_accept so1 = false) by congruence.
    destruct so1, q1; cbn in *; subst. split; [cok |]. unfold role; cbn. repeat split; auto; congruence.
Qed.

Lemma drain_ok : forall N s h, INV N X0 s -> s_call s h = CClose2 ->
  exists s' r, drain s h = Ret (s', r) /\ good N s s'.
Proof.
  intros N s h IV CC. destruct (busy_slot N s h IV) as (hs & p & q & Hh & Hp & Hq & PS & HL & L & G); [right; congruence |].
  rewrite CC in L. destruct L as [C R]. unfold role in R.
  destruct (s_user s h) eqn:U; [brk; congruence |].
  unfold drain, get_so. rewrite Hh.
  assert (KEY : forall i so pi qi s1, s_so s i = Some so -> so_head so = Some h -> so_qs so <> QNone -> so_pcb so = Some pi -> s_pcb s pi = Some qi -> h <> i ->
    s_user s i = false -> common so qi -> child_ok so qi -> so_count so = 0 -> so_nofd so = true -> 0 <= so_qlimit so ->
    dequeues s s1 h hs i (set_q so QNone None) pi qi (s_user s i) (s_call s i) -> good N s (set_call s1 i CAbort1)).
  { intros i so pi qi s1 D1 D2 D3 D4 D5 D7 D8 D10 D11 D12 D13 D14 (G1 & G2 & G3 & G4 & G5 & G6).
    assert (DQ : dequeues s (set_call s1 i CAbort1) h hs i (set_q so QNone None) pi qi false CAbort1).
    { unfold dequeues, set_call; cbn. split; [exact G1 | split; [exact G2 | split; [exact G3 | split; [exact G4 | split]]]].
      - intros x. rewrite G5, D8. reflexivity.
      - intros x. unfold upd. destruct (Z.eqb_spec x i) as [-> | n]; [reflexivity |]. rewrite G6. destruct (Z.eqb_spec x i); [contradiction | reflexivity]. }
    split.
    - eapply (INV_dequeue N X0 s h hs i so pi qi (set_q so QNone None) qi false CAbort1); eauto.
      intros _. destruct so; cbn in *; subst. split; [exact D10 |]. unfold role; cbn. auto.
    - intros g gs Hg Hu. assert (n1 : g <> i) by congruence. assert (n2 : g <> h) by congruence. exists gs.
      destruct DQ as (F1 & _ & _ & _ & F5 & _). rewrite F1, F5.
      destruct (Z.eqb_spec g i); [contradiction |]. destruct (Z.eqb_spec g h); [contradiction |]. auto. }
  destruct (so_incq hs) as [| i rest] eqn:IQ; [destruct (so_compq hs) as [| i rest] eqn:CQ |].
  - eexists; eexists; split; [reflexivity |]. split; [exact IV | apply quiet_refl].
  - destruct (queued_child N X0 s h hs i IV Hh) as (so & pi & qi & D1 & D2 & D3 & D4 & D5 & D6 & D7 & D8 & D9 & D10 & D11 & D12 & D13 & D14 & D15).
    { intros x []. } { right. rewrite CQ. left; reflexivity. }
    destruct (pop_comp_dequeues N X0 s h hs i rest so pi qi IV Hh D1 D4 D5 D7 CQ) as (s1 & E1 & E2 & _).
    { rewrite IQ. auto. }
    rewrite E1. cbn [obind]. eexists; eexists; split; [reflexivity |]. eapply (KEY i so pi qi); eauto.
  - destruct (queued_child N X0 s h hs i IV Hh) as (so & pi & qi & D1 & D2 & D3 & D4 & D5 & D6 & D7 & D8 & D9 & D10 & D11 & D12 & D13 & D14 & D15).
    { intros x []. } { left. rewrite IQ. left; reflexivity. }
    destruct (pop_inc_dequeues N X0 s h hs i rest so pi qi IV Hh D1 D4 D5 D7 IQ) as (s1 & E1 & E2 & _).
    { eapply one_queue; eauto. rewrite IQ; left; reflexivity. }
    rewrite E1. cbn [obind]. eexists; eexists; split; [reflexivity |]. eapply (KEY i so pi qi); eauto.
Qed.

Lemma abort1_ok : forall N s i, INV N X0 s -> s_call s i = CAbort1 ->
  exists s' r, abort1 s i = Ret (s', r) /\ good N s s'.
Proof.
  intros N s i IV CC. destruct (busy_slot N s i IV) as (so & p & q & Hi & Hp & Hq & PS & HL & L & G); [right; congruence |].
  rewrite CC in L. unfold abort1. rewrite G. destruct L as [C R]. unfold role in R.
  destruct (s_user s i) eqn:U; [brk; congruence |].
  destruct R as (R1 & R2 & R3 & R4).
  assert (PR : so_protoref so = false). { destruct C as (C1 & _). destruct R4 as (_ & R4 & _). congruence. }
  rewrite R1, R2, PR. cbn [Z.eqb negb orb].
  destruct (usr_abort_child so q HL C) as (so' & q' & A1 & A2 & A3 & A4 & A5 & A6 & A7 & A8); try apply R4.
  rewrite A1. cbn [obind fst snd]. eexists; eexists; split; [reflexivity |].
  pose proof A3 as (SS & K2 & K3 & K4 & K5 & K6 & K7).
  eapply (good_local N s i so p q so' q' false CAbort2); eauto; try solve [ext]; try congruence.
  split; [exact A2 |]. unfold role. destruct SS as (S1 & _). rewrite S1, K3, K4. auto 10.
Qed.

(* giving back a socket without references, seen from the outside *)
Lemma free_last : forall N s s1 i so so' p q, INV N X0 s -> s_so s i = Some so -> so_pcb so = Some p -> s_pcb s p = Some q ->
  s_user s i = false -> so_qs so = QNone -> so_accept so = false \/ (so_incq so = [] /\ so_compq so = []) ->
  changes_at s s1 i so' p q false CNone -> same_str so so' -> common so q -> so_qlimit so' = so_qlimit so ->
  released so' -> p_sockref q = false -> (p_dropped q = true \/ p_tw q = true) ->
  exists s' o, sofree s1 i = Ret s' /\ frees s1 s' i p o /\ good N s s'.
Proof.
  intros N s s1 i so so' p q IV Hi Hp Hq U QS AC CA SS C QL REL SR DT.
  assert (IV1 : INV N (eq i) s1).
  { eapply (INV_local N (eq i) s i so p q so' q); eauto; [apply INV_eqX; exact IV |]. intros X. exfalso; apply X; reflexivity. }
  pose proof SS as (S1 & S2 & S3 & S4 & S5 & S6 & S7 & S8).
  assert (HB : so_head so = None). { pose proof (i_back _ _ _ IV i so Hi (fun x => x)) as B. rewrite QS in B. exact B. }
  assert (QE : so_incq so = [] /\ so_compq so = []). { destruct AC as [AC | AC]; [apply C; exact AC | exact AC]. }
  destruct QE as [QE1 QE2]. pose proof CA as (E1 & E2 & _ & _ & E5 & E6).
  destruct (sofree_none N (eq i) s1 i so' p q IV1) as (s' & o & F1 & F2 & F3); auto; try congruence.
  { rewrite E1, Z.eqb_refl. reflexivity. }
  { rewrite E2, Z.eqb_refl. reflexivity. }
  { rewrite E5, Z.eqb_refl. reflexivity. }
  { rewrite E6, Z.eqb_refl. reflexivity. }
  exists s', o. split; [exact F1 |]. split; [exact F2 |]. split.
  - eapply INV_shrink; [exact F3 |]. intros x <-. right. eapply frees_none; exact F2.
  - eapply quiet_trans; [| eapply quiet_frees; [| exact F2]; rewrite E5, Z.eqb_refl; reflexivity].
    eapply quiet_local; eauto; congruence.
Qed.

Lemma abort2_ok : forall N s i, INV N X0 s -> s_call s i = CAbort2 ->
  exists s' r, abort2 s i = Ret (s', r) /\ good N s s' /\ s_so s' i = None.
Proof.
  intros N s i IV CC. destruct (busy_slot N s i IV) as (so & p & q & Hi & Hp & Hq & PS & HL & L & G); [right; congruence |].
  rewrite CC in L. destruct L as [C R]. unfold role in R.
  destruct (s_user s i) eqn:U; [brk; congruence |].
  destruct R as (R1 & R2 & R3 & R4 & R5 & R6 & R7).
  unfold abort2, get_so. rewrite Hi.
  destruct (free_last N s (set_call s i CNone) i so so p q IV Hi Hp Hq U R3) as (s' & o & F1 & F2 & F3); auto.
  { ext. } { apply same_str_refl; exact HL. }
  { unfold released. destruct C as (C1 & _). repeat split; congruence. }
  rewrite F1. cbn [obind]. eexists; eexists; split; [reflexivity |]. split; [exact F3 | eapply frees_none; exact F2].
Qed.

Lemma close3_ok : forall N s i, INV N X0 s -> s_call s i = CClose2 ->
  (forall so, s_so s i = Some so -> so_accept so = true -> so_incq so = [] /\ so_compq so = []) ->
  exists s' r, close3 s i = Ret (s', r) /\ good N s s'.
Proof.
  intros N s i IV CC LEG. destruct (busy_slot N s i IV) as (so & p & q & Hi & Hp & Hq & PS & HL & L & G); [right; congruence |].
  rewrite CC in L. destruct L as [C R]. unfold role in R.
  destruct (s_user s i) eqn:U; [brk; congruence |].
  destruct R as (R1 & R2 & R3 & R4 & R5).
  unfold close3, get_so. rewrite Hi, R2, R1. cbn [Z.leb Z.compare].
  set (so' := set_count (set_nofd so true) (1 - 1)). replace (so_count so') with 0 by (destruct so; reflexivity). cbn [Z.eqb].
  set (s1 := set_call (put_so s i so') i CNone).
  assert (CA : changes_at s s1 i so' p q false CNone) by (unfold s1; ext).
  assert (SS : same_str so so') by (unfold so'; destruct so; keptok).
  assert (E1 : s_so s1 i = Some so') by (unfold s1; cbn; apply upd_eq).
  destruct (p_sockref q) eqn:SR.
  - assert (PR : so_protoref so' = true). { destruct C as (C1 & _). unfold so'; destruct so; cbn in *; congruence. }
    rewrite (sofree_refs s1 i so' E1); [| unfold sohasrefs; rewrite PR, !orb_true_r; reflexivity].
    cbn [obind]. eexists; eexists; split; [reflexivity |].
    eapply (good_local N s i so p q so' q false CNone); eauto; try congruence.
    assert (AC : so_accept so = false).
    { destruct (so_accept so) eqn:AC; [| reflexivity]. destruct C as (_ & C2 & _). rewrite (C2 SR) in R5. specialize (R5 eq_refl). discriminate. }
    unfold so'. destruct so; cbn in *; subst. split; [exact C |]. unfold role; cbn. auto.
  - destruct (free_last N s s1 i so so' p q IV Hi Hp Hq U R3) as (s' & o & F1 & F2 & F3); auto.
    { destruct (so_accept so) eqn:AC; auto. }
    { destruct C as (C1 & _). unfold released, so'; destruct so; cbn in *. repeat split; congruence. }
    { destruct R4 as [R4 | R4]; [congruence | exact R4]. }
    rewrite F1. cbn [obind]. eexists; eexists; split; [reflexivity | exact F3].
Qed.

Lemma socket_ok : forall N s aok, INV N X0 s -> good N s (fst (socket_call s aok)).
Proof.
  intros N s aok IV. unfold socket_call. destruct (s_free s) as [| i rest] eqn:FR; [split; [exact IV | apply quiet_refl] |].
  destruct aok; cbn [negb fst]; [| split; [exact IV | apply quiet_refl]].
  assert (FI : In i (s_free s)) by (rewrite FR; left; reflexivity).
  assert (Ni : s_so s i = None) by (apply (i_free _ _ _ IV i) in FI; tauto).
  split.
  - eapply (INV_alloc N X0 X0 s _ i rest (fresh_sock (s_next s)) true); auto; try reflexivity.
    + ext.
    + intros _. split; [reflexivity |]. split; [unfold common, fresh_sock, new_pcb, T_CLOSED; cbn; repeat split; auto; try congruence; lia |].
      unfold role, fresh_sock, new_pcb, flags_ok, T_CLOSED; cbn. repeat split; auto.
  - intros h hs Hh Hu. assert (h <> i) by congruence. exists hs. unfold set_user, alloc; cbn. rewrite !upd_neq by assumption. auto.
Qed.
