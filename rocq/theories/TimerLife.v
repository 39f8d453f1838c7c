(* The life of one long timer. *)
From Verif Require Import Base TimerModel TimerSpec TimerProof.
Ltac Zify.zify_post_hook ::= idtac.

Definition pend (h cb k : Z) (st : timers) : Prop :=
  1 <= k <= 8192 /\
  exists e, In e (t_tab st ((t_sec st + k) mod 8192)) /\ e_id e = h /\ e_cb e = cb.
Definition runn (h cb : Z) (st : timers) : Prop :=
  exists e, In e (run_list st) /\ e_id e = h /\ e_cb e = cb.
Definition gone (h : Z) (st : timers) : Prop :=
  (forall ix e, In e (t_tab st ix) -> e_id e <> h) /\
  (forall e, In e (run_list st) -> e_id e <> h).

(* the wheel part of the state is unchanged *)
Definition same_wheel (st st' : timers) : Prop :=
  t_tab st' = t_tab st /\ t_sec st' = t_sec st /\ run_list st' = run_list st.

Definition quiet_obs (o : tobs) : Prop :=
  match o with OTick | OFired _ _ | OStarted _ _ _ => False | _ => True end.

(* every step is one of five kinds *)
Inductive kind (st st' : timers) (ev : tevent) (o : tobs) : Prop :=
| KSame : same_wheel st st' -> quiet_obs o ->
    (forall t, ev = ECancel t -> Z.land t OFP_TIMER_MASK <> 0 ->
       o = OCancel (-1) /\ ~ In t (map e_id (t_tab st (t mod 8192)))) -> kind st st' ev o
| KIns : forall ix e, t_sec st' = t_sec st -> run_list st' = run_list st ->
    0 <= ix < 8192 -> e_id e = long_handle (t_id st) ix -> t_id st < LIM ->
    t_tab st' = upd (t_tab st) ix (e :: t_tab st ix) ->
    quiet_obs o \/ (exists sec, o = OStarted (e_id e) (e_cb e) sec /\ ix = (t_sec st + sec) mod 8192) ->
    (forall t, ev <> ECancel t) -> kind st st' ev o
| KCan : forall t a e b, t_sec st' = t_sec st -> run_list st' = run_list st ->
    ev = ECancel t -> o = OCancel 0 -> e_id e = t ->
    t_tab st (t mod 8192) = a ++ e :: b ->
    t_tab st' = upd (t_tab st) (t mod 8192) (a ++ b) -> kind st st' ev o
| KTick : run_list st = [] -> t_sec st' = (t_sec st + 1) mod 8192 ->
    run_list st' = t_tab st (t_sec st') -> t_tab st' = upd (t_tab st) (t_sec st') [] ->
    ev = ETick -> o = OTick -> kind st st' ev o
| KCall : forall e, t_sec st' = t_sec st -> t_tab st' = t_tab st ->
    run_list st = e :: run_list st' -> ev = ECall -> o = OFired (e_id e) (e_cb e) -> kind st st' ev o.

Lemma same_refl st : same_wheel st st. Proof. repeat split. Qed.

Ltac ksame := apply KSame; [try apply same_refl | exact I | try discriminate].

Lemma step_kind st ev st' o : Inv st -> t_id st + is_start o <= LIM ->
  tstep st ev = (st', o) -> kind st st' ev o.
Proof.
  intros IN L H. destruct ev; cbn [tstep] in H.
  - unfold start_long in H. destruct (u64 tmo <? OFP_TIMER_MAX_US); [injection H as <- <-; ksame|].
    destruct (t_free st); injection H as <- <-; ksame. repeat split.
  - unfold start_insert in H. destruct (nth_error (t_fly st) n) as [f|] eqn:E;
      injection H as <- <-; [|ksame].
    eapply KIns with (e := mkE (f_buf f) _ (f_cb f)); cbn [e_id e_cb t_tab t_sec]; try reflexivity.
    + apply long_ix_range.
    + cbn [is_start] in L. lia.
    + right. eexists. split; [reflexivity|]. apply long_ix_val.
    + discriminate.
  - unfold start_short in H.
    destruct (negb (u64 tmo <? OFP_TIMER_MAX_US) || negb (odp_handle_ok st h)); [injection H as <- <-; ksame|].
    destruct (t_free st); [injection H as <- <-; ksame|].
    destruct f; injection H as <- <-; ksame. repeat split.
  - unfold cancel in H. destruct (Z.eqb_spec t 0) as [->|N0].
    { injection H as <- <-. ksame. intros t E. injection E as <-. intros []. reflexivity. }
    destruct (Z.eqb_spec (Z.land t OFP_TIMER_MASK) 0) as [M|M].
    { assert (X : forall t0, ECancel t = ECancel t0 -> Z.land t0 OFP_TIMER_MASK <> 0 -> False).
      { intros t0 E. injection E as <-. auto. }
      destruct (find_short t (t_short st)) as [s|]; [destruct (s_exp s)|];
        injection H as <- <-; (apply KSame; [repeat split|exact I|intros; exfalso; eapply X; eassumption]). }
    destruct (unlink t (t_tab st (t mod TIMER_NUM_LONG_SLOTS))) as [[e l']|] eqn:U;
      injection H as <- <-.
    + apply unlink_spec in U as (a & b & E & -> & A & B).
      eapply KCan; try reflexivity; try eassumption.
    + apply KSame; [repeat split|exact I|]. intros t0 E _. injection E as <-.
      split; [reflexivity|]. exact (unlink_none _ _ U).
  - unfold tick_lock in H. destruct (t_tick st) eqn:ET; injection H as <- <-; [|ksame|ksame].
    apply KTick; try reflexivity. unfold run_list. rewrite ET. reflexivity.
  - unfold tick_call in H.
    destruct (t_tick st) as [b|b l cur|] eqn:ET; try (injection H as <- <-; ksame).
    destruct l as [|e l]; [injection H as <- <-; ksame|].
    destruct cur; injection H as <- <-; [ksame|].
    eapply KCall; try reflexivity. unfold run_list. cbn [t_tick]. rewrite ET. reflexivity.
  - unfold tick_free in H. destruct (t_tick st) as [|b l [e|]|] eqn:ET; injection H as <- <-; ksame.
    repeat split. unfold run_list. rewrite ET. reflexivity.
  - unfold tick_end in H. destruct (t_tick st) as [|b l c|] eqn:ET; try (injection H as <- <-; ksame).
    destruct l; [|injection H as <- <-; ksame]. destruct c; [injection H as <- <-; ksame|].
    destruct (t_free st), f; injection H as <- <-; ksame; repeat split; unfold run_list; rewrite ET; reflexivity.
  - unfold expire in H. destruct (find_short h (t_short st)) as [s|]; [destruct (s_exp s)|];
      injection H as <- <-; ksame. repeat split.
  - unfold handle in H. destruct (find_short h (t_short st)) as [s|]; [destruct (s_exp s)|];
      injection H as <- <-; ksame. repeat split.
Qed.

Lemma known_mod h st : Inv st -> known h st -> Z.land h OFP_TIMER_MASK <> 0.
Proof.
  intros IN (k & ix & Hk & Hx & ->). apply land_mask_long; lia.
Qed.

Lemma tab_mod h st ix e : Inv st -> In e (t_tab st ix) -> e_id e = h -> h mod 8192 = ix.
Proof.
  intros IN H E. destruct (i_tab _ IN ix e H) as (k & A & B & C). rewrite <- E, C.
  pose proof (i_id _ IN). apply handle_mod; lia.
Qed.

Lemma fresh_ne h st ix : Inv st -> known h st -> 0 <= ix < 8192 -> t_id st < LIM ->
  long_handle (t_id st) ix <> h.
Proof.
  intros IN (k & y & Hk & Hy & ->) Hx L E.
  pose proof (i_id _ IN). apply handle_inj in E; lia.
Qed.

(* ---- gone ---- *)
Lemma gone_step h st ev st' o : Inv st -> t_id st + is_start o <= LIM -> known h st ->
  gone h st -> tstep st ev = (st', o) ->
  (forall c, o <> OFired h c) /\ (ev = ECancel h -> o = OCancel (-1)) /\ gone h st'.
Proof.
  intros IN L K [G1 G2] H. pose proof (known_mod _ _ IN K) as KM.
  destruct (step_kind _ _ _ _ IN L H) as [[E1 [E2 E3]] Q C | ix e E1 E2 HX HE HL ET Q NC
    | t a e b E1 E2 -> -> ET TB TB' | R E1 E2 E3 -> -> | e E1 E2 E3 -> ->].
  - repeat split.
    + intros c ->. exact Q.
    + intros ->. apply (C h eq_refl KM).
    + rewrite E1. exact G1.
    + rewrite E3. exact G2.
  - repeat split.
    + intros c ->. destruct Q as [[]|(s & Q & _)]. discriminate.
    + intros ->. destruct (NC h eq_refl).
    + rewrite ET. intros jx x. destruct (Z.eq_dec jx ix) as [->|N].
      * rewrite upd_same. intros [<-|Hx]; [|exact (G1 _ _ Hx)]. rewrite HE. eapply fresh_ne; eassumption.
      * rewrite upd_other by assumption. apply G1.
    + rewrite E2. exact G2.
  - repeat split.
    + discriminate.
    + intros E. injection E as E. exfalso. apply (G1 (t mod 8192) e); [rewrite TB; apply in_app_iff; right; left; reflexivity|congruence].
    + rewrite TB'. intros jx x. destruct (Z.eq_dec jx (t mod 8192)) as [->|N].
      * rewrite upd_same. intros Hx. apply (G1 (t mod 8192)). rewrite TB. rewrite in_app_iff in *. cbn [In]. tauto.
      * rewrite upd_other by assumption. apply G1.
    + rewrite E2. exact G2.
  - repeat split; try discriminate.
    + rewrite E3. intros jx x. destruct (Z.eq_dec jx (t_sec st')) as [->|N].
      * rewrite upd_same. intros [].
      * rewrite upd_other by assumption. apply G1.
    + rewrite E2. apply G1.
  - repeat split; try discriminate.
    + intros c E. injection E as E _. apply (G2 e); [rewrite E3; left; reflexivity|exact E].
    + rewrite E2. exact G1.
    + intros x Hx. apply G2. rewrite E3. right. exact Hx.
Qed.

(* ---- running ---- *)
Lemma runn_step h cb st ev st' o : Inv st -> t_id st + is_start o <= LIM -> known h st ->
  runn h cb st -> tstep st ev = (st', o) ->
  (ev = ECall /\ o = OFired h cb /\ gone h st') \/
  (o <> OTick /\ (forall c, o <> OFired h c) /\ (ev = ECancel h -> o = OCancel (-1)) /\ runn h cb st').
Proof.
  intros IN L K (x & Hx & Ex & Ec) H. pose proof (known_mod _ _ IN K) as KM.
  assert (NT : forall ix e, In e (t_tab st ix) -> e_id e <> h).
  { intros ix e He E. apply (i_dis _ IN ix e He). rewrite E, <- Ex. apply in_map, Hx. }
  destruct (step_kind _ _ _ _ IN L H) as [[E1 [E2 E3]] Q C | ix e E1 E2 HX HE HL ET Q NC
    | t a e b E1 E2 -> -> ET TB TB' | R E1 E2 E3 -> -> | e E1 E2 E3 -> ->].
  - right. split; [intros ->; exact Q|]. split; [intros c ->; exact Q|]. split.
    + intros ->. apply (C h eq_refl KM).
    + exists x. rewrite E3. auto.
  - right. split; [intros ->; destruct Q as [[]|(s & Q & _)]; discriminate|].
    split; [intros c ->; destruct Q as [[]|(s & Q & _)]; discriminate|]. split.
    + intros ->. destruct (NC h eq_refl).
    + exists x. rewrite E2. auto.
  - right. split; [discriminate|]. split; [discriminate|]. split.
    + intros E. injection E as E. exfalso. apply (NT (t mod 8192) e); [rewrite TB; apply in_app_iff; right; left; reflexivity|congruence].
    + exists x. rewrite E2. auto.
  - rewrite R in Hx. destruct Hx.
  - destruct (Z.eq_dec (e_id e) h) as [Eh|Nh].
    + left. assert (x = e).
      { rewrite E3 in Hx. destruct Hx as [->|Hx]; [reflexivity|]. exfalso.
        pose proof (i_rnd _ IN) as ND. rewrite E3 in ND. cbn [map] in ND. inversion ND as [|? ? NI _]. subst.
        apply NI. rewrite Eh. apply in_map_iff. exists x. split; [congruence|assumption]. }
      subst x. rewrite Eh, Ec. split; [reflexivity|]. split; [reflexivity|]. split.
      * rewrite E2. exact NT.
      * intros y Hy E. pose proof (i_rnd _ IN) as ND. rewrite E3 in ND. cbn [map] in ND.
        inversion ND as [|? ? NI _]. apply NI. apply in_map_iff. exists y. split; [congruence|exact Hy].
    + right. split; [discriminate|]. split; [intros c E; injection E; auto|]. split; [discriminate|].
      exists x. rewrite E3 in Hx. destruct Hx as [->|Hx]; [contradiction|]. auto.
Qed.

(* ---- pending ---- *)
Lemma slot_eq s k : 0 <= s < 8192 -> 1 <= k <= 8192 ->
  (s + k) mod 8192 = (s + 1) mod 8192 -> k = 1.
Proof.
  intros Hs Hk E.
  assert (D : ((s + k) - (s + 1)) mod 8192 = 0).
  { rewrite Zminus_mod, E, Z.sub_diag. reflexivity. }
  replace (s + k - (s + 1)) with (k - 1) in D by lia.
  rewrite Z.mod_small in D; lia.
Qed.
Lemma slot_shift s k : ((s + 1) mod 8192 + (k - 1)) mod 8192 = (s + k) mod 8192.
Proof. rewrite Zplus_mod_idemp_l. f_equal. lia. Qed.

Lemma pend_step h cb k st ev st' o : Inv st -> t_id st + is_start o <= LIM -> known h st ->
  pend h cb k st -> tstep st ev = (st', o) ->
  (o = OTick /\ 1 < k /\ ev = ETick /\ pend h cb (k - 1) st') \/
  (o = OTick /\ k = 1 /\ ev = ETick /\ runn h cb st') \/
  (ev = ECancel h /\ o = OCancel 0 /\ gone h st') \/
  (o <> OTick /\ (forall c, o <> OFired h c) /\ ev <> ECancel h /\ pend h cb k st').
Proof.
  intros IN L K (Hk & x & Hx & Ex & Ec) H. pose proof (known_mod _ _ IN K) as KM.
  assert (NR : forall e, In e (run_list st) -> e_id e <> h).
  { intros e He E. apply (i_dis _ IN _ x Hx). rewrite Ex, <- E. apply in_map, He. }
  pose proof (i_sec _ IN) as HS.
  set (ix0 := (t_sec st + k) mod 8192) in *.
  assert (HM : h mod 8192 = ix0) by (eapply tab_mod; eassumption).
  destruct (step_kind _ _ _ _ IN L H) as [[E1 [E2 E3]] Q C | ix e E1 E2 HX HE HL ET Q NC
    | t a e b E1 E2 -> -> ET TB TB' | R E1 E2 E3 -> -> | e E1 E2 E3 -> ->].
  - right. right. right. split; [intros ->; exact Q|]. split; [intros c ->; exact Q|]. split.
    + intros ->. destruct (C h eq_refl KM) as [_ N]. apply N. rewrite HM, <- Ex. apply in_map, Hx.
    + split; [exact Hk|]. exists x. rewrite E1, E2. auto.
  - right. right. right. split; [intros ->; destruct Q as [[]|(s & Q & _)]; discriminate|].
    split; [intros c ->; destruct Q as [[]|(s & Q & _)]; discriminate|]. split.
    + intros ->. destruct (NC h eq_refl).
    + split; [exact Hk|]. exists x. rewrite ET, E1. fold ix0. split; [|auto].
      destruct (Z.eq_dec ix0 ix) as [<-|N]; [rewrite upd_same; right; exact Hx|rewrite upd_other by assumption; exact Hx].
  - right. right. destruct (Z.eq_dec t h) as [->|Nt].
    + left. split; [reflexivity|]. split; [reflexivity|]. split.
      * rewrite TB'. intros jx y. destruct (Z.eq_dec jx (h mod 8192)) as [->|N].
        -- rewrite upd_same. intros Hy E. pose proof (i_nd _ IN (h mod 8192)) as ND.
           rewrite TB, map_app in ND. cbn [map] in ND. apply NoDup_remove_2 in ND.
           apply ND. rewrite <- map_app, ET, <- E. apply in_map, Hy.
        -- rewrite upd_other by assumption. intros Hy E. apply N. symmetry. eapply tab_mod; eassumption.
      * rewrite E2. exact NR.
    + right. split; [discriminate|]. split; [discriminate|]. split; [intros E; injection E; auto|].
      split; [exact Hk|]. exists x. rewrite TB', E1. fold ix0. split; [|auto].
      destruct (Z.eq_dec ix0 (t mod 8192)) as [EE|N]; [|rewrite upd_other by assumption; exact Hx].
      rewrite EE, upd_same. rewrite EE, TB in Hx. rewrite in_app_iff in *. cbn [In] in Hx.
      destruct Hx as [?|[->|?]]; auto. congruence.
  - destruct (Z.eq_dec k 1) as [->|N1].
    + right. left. split; [reflexivity|]. split; [reflexivity|]. split; [reflexivity|]. exists x. rewrite E2, E1. auto.
    + left. split; [reflexivity|]. split; [lia|]. split; [reflexivity|]. split; [lia|]. exists x. rewrite E1, slot_shift. fold ix0.
      split; [|auto]. rewrite E3, upd_other; [exact Hx|]. rewrite E1. intros E.
      apply N1. eapply slot_eq; eassumption.
  - right. right. right. split; [discriminate|]. split.
    + intros c E. injection E as E _. apply (NR e); [rewrite E3; left; reflexivity|exact E].
    + split; [discriminate|]. split; [exact Hk|]. exists x. rewrite E2, E1. auto.
Qed.

(* ---- traces ---- *)
Lemma trun_cons st ev evs st2 tr : trun st (ev :: evs) = (st2, tr) ->
  exists st1 o tr', tstep st ev = (st1, o) /\ trun st1 evs = (st2, tr') /\ tr = (ev, o) :: tr'.
Proof.
  cbn [trun]. destruct (tstep st ev) as [st1 o]. destruct (trun st1 evs) as [s2 t] eqn:E.
  intros H. injection H as <- <-. exists st1, o, t. auto.
Qed.

Definition is_tick (o : tobs) : Z := match o with OTick => 1 | _ => 0 end.
Lemma ticks_cons ev o tr : ticks ((ev, o) :: tr) = is_tick o + ticks tr.
Proof. destruct o; reflexivity. Qed.
Lemma starts_cons ev o tr : starts ((ev, o) :: tr) = is_start o + starts tr.
Proof. destruct o; reflexivity. Qed.
Lemma ticks_nonneg tr : 0 <= ticks tr.
Proof. induction tr as [|[ev o] tr IH]; [cbn; lia|]. rewrite ticks_cons. destruct o; cbn [is_tick]; lia. Qed.
Lemma starts_nonneg tr : 0 <= starts tr.
Proof. induction tr as [|[ev o] tr IH]; [cbn; lia|]. rewrite starts_cons. destruct o; cbn [is_start]; lia. Qed.

Lemma fired_cons h ev o tr : fired h ((ev, o) :: tr) <-> (exists c, o = OFired h c) \/ fired h tr.
Proof.
  unfold fired. split.
  - intros (e & c & [E|E]); [injection E as -> ->; left; eauto|right; eauto].
  - intros [[c ->]|(e & c & H)]; [exists ev, c; left; reflexivity|exists e, c; right; exact H].
Qed.
Lemma cancelled_cons h ev o tr : cancelled h ((ev, o) :: tr) <-> (ev = ECancel h /\ o = OCancel 0) \/ cancelled h tr.
Proof.
  unfold cancelled. cbn [In]. split.
  - intros [E|E]; [injection E; auto|auto].
  - intros [[-> ->]|H]; auto.
Qed.
Lemma fired_nil h : ~ fired h [].
Proof. intros (e & c & []). Qed.

(* gone timers stay silent *)
Lemma gone_trace h : forall evs st st2 tr, Inv st -> known h st -> gone h st ->
  trun st evs = (st2, tr) -> t_id st + starts tr <= LIM ->
  ~ fired h tr /\ ~ cancelled h tr /\
  (forall tr1 r tr2, tr = tr1 ++ (ECancel h, OCancel r) :: tr2 -> r = -1).
Proof.
  induction evs as [|ev evs IH]; intros st st2 tr IN K G H L.
  - injection H as <- <-. split; [apply fired_nil|]. split; [intros []|]. intros [|? ?]; discriminate.
  - apply trun_cons in H as (st1 & o & tr' & S1 & S2 & ->). rewrite starts_cons in L.
    pose proof (starts_nonneg tr').
    assert (L1 : t_id st + is_start o <= LIM) by lia.
    pose proof (tstep_id _ _ _ _ IN L1 S1) as EI.
    destruct (gone_step _ _ _ _ _ IN L1 K G S1) as (A & B & C).
    assert (K1 : known h st1). { apply (known_mono _ _ _ K). destruct o; cbn [is_start] in *; lia. }
    assert (L2 : t_id st1 + starts tr' <= LIM) by lia.
    destruct (IH st1 st2 tr' (Inv_step _ _ _ _ IN L1 S1) K1 C S2 L2) as (P & Q & R).
    split; [|split].
    + rewrite fired_cons. intros [[c E]|E]; [exact (A c E)|exact (P E)].
    + rewrite cancelled_cons. intros [[E1 E2]|E]; [|exact (Q E)]. specialize (B E1). congruence.
    + intros [|[e1 o1] tr1] r tr2 E; cbn [app] in E.
      * injection E as -> -> ->. specialize (B eq_refl). congruence.
      * injection E as _ _ E. exact (R _ _ _ E).
Qed.

Definition silent (h : Z) (tr : trace) : Prop :=
  ~ fired h tr /\ ~ cancelled h tr /\
  (forall tr1 r tr2, tr = tr1 ++ (ECancel h, OCancel r) :: tr2 -> r = -1).

Lemma life_nil h cb s : 0 <= s -> life_ok h cb s [].
Proof.
  intros Hs. split; try (intros [|? ?]; discriminate).
  cbn. lia.
Qed.

(* an event that does not concern h *)
Lemma life_other h cb s ev o tr :
  (forall c, o <> OFired h c) -> (ev = ECancel h -> o = OCancel (-1) /\ s <= 0) ->
  (o = OTick -> 1 <= s) ->
  life_ok h cb (s - is_tick o) tr -> life_ok h cb s ((ev, o) :: tr).
Proof.
  intros A B T [F1 F2 F3 F4].
  assert (NC : ~ (ev = ECancel h /\ o = OCancel 0)).
  { intros [E1 E2]. destruct (B E1). congruence. }
  split.
  - intros [|[e1 o1] tr1] e c tr2 E; cbn [app] in E.
    + injection E as -> -> ->. destruct (A c eq_refl).
    + injection E as <- <- E. destruct (F1 _ _ _ _ E) as (P & Q & R1 & R2 & R3 & R4).
      rewrite ticks_cons, fired_cons, cancelled_cons.
      split; [lia|]. split; [exact Q|]. split; [intros [[c' X]|X]; [exact (A _ X)|auto]|].
      split; [auto|]. split; [intros [X|X]; auto|auto].
  - intros [|[e1 o1] tr1] tr2 E; cbn [app] in E.
    + injection E as -> -> ->. exfalso. apply NC. auto.
    + injection E as <- <- E. destruct (F2 _ _ E) as (P & R1 & R2 & R3 & R4).
      rewrite ticks_cons, fired_cons, cancelled_cons.
      split; [lia|]. split; [intros [[c' X]|X]; [exact (A _ X)|auto]|].
      split; [auto|]. split; [intros [X|X]; auto|auto].
  - intros [|[e1 o1] tr1] r tr2 E HR; cbn [app] in E.
    + injection E as -> -> ->. destruct (B eq_refl) as [E Hs]. injection E as ->. cbn [ticks]. split; [reflexivity|]. left. lia.
    + injection E as <- <- E. destruct (F3 _ _ _ E HR) as (P & Q). split; [exact P|].
      rewrite ticks_cons, cancelled_cons. destruct Q; [left; lia|auto].
  - rewrite ticks_cons, fired_cons, cancelled_cons. intros H.
    destruct F4; auto. lia.
Qed.

Lemma life_fire h cb tr : silent h tr -> life_ok h cb 0 ((ECall, OFired h cb) :: tr).
Proof.
  intros (A & B & C). split.
  - intros [|[e1 o1] tr1] e c tr2 E; cbn [app] in E.
    + injection E as <- <- <-. cbn [ticks]. split; [reflexivity|]. split; [reflexivity|].
      split; [apply fired_nil|]. split; [exact A|]. split; [intros []|exact B].
    + injection E as <- <- E. exfalso. apply A. exists e, c. rewrite E. apply in_app_iff. right. left. reflexivity.
  - intros [|[e1 o1] tr1] tr2 E; cbn [app] in E; [discriminate|].
    injection E as <- <- E. exfalso. apply B. unfold cancelled. rewrite E. apply in_app_iff. right. left. reflexivity.
  - intros [|[e1 o1] tr1] r tr2 E HR; cbn [app] in E; [discriminate|].
    injection E as <- <- E. split; [exact (C _ _ _ E)|]. left. pose proof (ticks_nonneg ((ECall, OFired h cb) :: tr1)). lia.
  - intros _. left. rewrite fired_cons. left. eauto.
Qed.

Lemma life_cancel h cb s tr : 0 < s -> silent h tr -> life_ok h cb s ((ECancel h, OCancel 0) :: tr).
Proof.
  intros Hs (A & B & C). split.
  - intros [|[e1 o1] tr1] e c tr2 E; cbn [app] in E; [discriminate|].
    injection E as <- <- E. exfalso. apply A. exists e, c. rewrite E. apply in_app_iff. right. left. reflexivity.
  - intros [|[e1 o1] tr1] tr2 E; cbn [app] in E.
    + injection E as <-. cbn [ticks]. split; [exact Hs|].
      split; [apply fired_nil|]. split; [exact A|]. split; [intros []|exact B].
    + injection E as <- <- E. exfalso. apply B. unfold cancelled. rewrite E. apply in_app_iff. right. left. reflexivity.
  - intros [|[e1 o1] tr1] r tr2 E HR; cbn [app] in E.
    + injection E as <- _. congruence.
    + injection E as <- <- E. split; [exact (C _ _ _ E)|]. right. apply cancelled_cons. auto.
  - intros _. right. apply cancelled_cons. auto.
Qed.

Lemma runn_trace h cb : forall evs st st2 tr, Inv st -> known h st -> runn h cb st ->
  trun st evs = (st2, tr) -> t_id st + starts tr <= LIM -> life_ok h cb 0 tr.
Proof.
  induction evs as [|ev evs IH]; intros st st2 tr IN K G H L.
  - injection H as <- <-. apply life_nil. lia.
  - apply trun_cons in H as (st1 & o & tr' & S1 & S2 & ->). rewrite starts_cons in L.
    pose proof (starts_nonneg tr').
    assert (L1 : t_id st + is_start o <= LIM) by lia.
    pose proof (tstep_id _ _ _ _ IN L1 S1) as EI.
    assert (K1 : known h st1). { apply (known_mono _ _ _ K). destruct o; cbn [is_start] in *; lia. }
    assert (L2 : t_id st1 + starts tr' <= LIM) by lia.
    pose proof (Inv_step _ _ _ _ IN L1 S1) as IN1.
    destruct (runn_step _ _ _ _ _ _ IN L1 K G S1) as [(-> & -> & C)|(A & B & C & D)].
    + apply life_fire. exact (gone_trace h _ _ _ _ IN1 K1 C S2 L2).
    + apply life_other; [exact B| | | ].
      * intros E. split; [auto|lia].
      * intros E. destruct (A E).
      * replace (0 - is_tick o) with 0 by (destruct o; cbn; congruence || lia).
        exact (IH st1 st2 tr' IN1 K1 D S2 L2).
Qed.

Lemma pend_trace h cb : forall evs k st st2 tr, Inv st -> known h st -> pend h cb k st ->
  trun st evs = (st2, tr) -> t_id st + starts tr <= LIM -> life_ok h cb k tr.
Proof.
  induction evs as [|ev evs IH]; intros k st st2 tr IN K G H L.
  - injection H as <- <-. apply life_nil. destruct G. lia.
  - apply trun_cons in H as (st1 & o & tr' & S1 & S2 & ->). rewrite starts_cons in L.
    pose proof (starts_nonneg tr').
    assert (L1 : t_id st + is_start o <= LIM) by lia.
    pose proof (tstep_id _ _ _ _ IN L1 S1) as EI.
    assert (K1 : known h st1). { apply (known_mono _ _ _ K). destruct o; cbn [is_start] in *; lia. }
    assert (L2 : t_id st1 + starts tr' <= LIM) by lia.
    pose proof (Inv_step _ _ _ _ IN L1 S1) as IN1.
    assert (Hk : 1 <= k <= 8192) by apply G.
    destruct (pend_step _ _ _ _ _ _ _ IN L1 K G S1) as [(-> & A & -> & C)|[(-> & -> & -> & C)|[(-> & -> & C)|(A & B & C & D)]]].
    + apply life_other; try discriminate; [lia|]. cbn [is_tick]. exact (IH _ st1 st2 tr' IN1 K1 C S2 L2).
    + apply life_other; try discriminate. change (1 - is_tick OTick) with 0. exact (runn_trace h cb _ _ _ _ IN1 K1 C S2 L2).
    + apply life_cancel; [lia|]. exact (gone_trace h _ _ _ _ IN1 K1 C S2 L2).
    + apply life_other; [exact B| | | ].
      * intros E. destruct (C E).
      * intros E. destruct (A E).
      * replace (k - is_tick o) with k by (destruct o; cbn; congruence || lia).
        exact (IH k st1 st2 tr' IN1 K1 D S2 L2).
Qed.

Lemma Inv_init n : Inv (timer_init n).
Proof.
  split; cbn; try (unfold LIM; lia); try (intros; constructor); try tauto.
Qed.

Lemma trun_inv : forall evs st st2 tr, Inv st -> trun st evs = (st2, tr) ->
  t_id st + starts tr <= LIM -> Inv st2 /\ t_id st2 = t_id st + starts tr.
Proof.
  induction evs as [|ev evs IH]; intros st st2 tr IN H L.
  - injection H as <- <-. split; [exact IN|]. cbn. lia.
  - apply trun_cons in H as (st1 & o & tr' & S1 & S2 & ->). rewrite starts_cons in *.
    pose proof (starts_nonneg tr').
    assert (L1 : t_id st + is_start o <= LIM) by lia.
    pose proof (tstep_id _ _ _ _ IN L1 S1) as EI.
    assert (L2 : t_id st1 + starts tr' <= LIM) by lia.
    destruct (IH _ _ _ (Inv_step _ _ _ _ IN L1 S1) S2 L2). split; [assumption|lia].
Qed.

Lemma trun_app st a b : trun st (a ++ b) =
  let '(s1, t1) := trun st a in let '(s2, t2) := trun s1 b in (s2, t1 ++ t2).
Proof.
  revert st. induction a as [|ev a IH]; intros st; cbn [app trun].
  - destruct (trun st b). reflexivity.
  - destruct (tstep st ev) as [s1 o]. rewrite IH. destruct (trun s1 a) as [s2 t2].
    destruct (trun s2 b). reflexivity.
Qed.

Lemma starts_app a b : starts (a ++ b) = starts a + starts b.
Proof. induction a as [|[e o] a IH]; [reflexivity|]. cbn [app]. rewrite !starts_cons, IH. lia. Qed.

Lemma trun_split : forall evs st st2 tr1 tr2, trun st evs = (st2, tr1 ++ tr2) ->
  exists e1 e2 s1, evs = e1 ++ e2 /\ trun st e1 = (s1, tr1) /\ trun s1 e2 = (st2, tr2).
Proof.
  induction evs as [|ev evs IH]; intros st st2 tr1 tr2 H.
  - injection H as <- E. symmetry in E. apply app_eq_nil in E as [-> ->]. exists [], [], st. auto.
  - destruct tr1 as [|[e o] tr1].
    + exists [], (ev :: evs), st. auto.
    + apply trun_cons in H as (s & o' & tr' & S1 & S2 & E). cbn [app] in E. injection E as -> -> <-.
      destruct (IH _ _ _ _ S2) as (e1 & e2 & s1 & -> & A & B).
      exists (ev :: e1), e2, s1. split; [reflexivity|]. split; [|exact B].
      cbn [trun]. rewrite S1, A. reflexivity.
Qed.

Theorem life n evs st tr1 ev h cb s tr2 :
  trun (timer_init n) evs = (st, tr1 ++ (ev, OStarted h cb s) :: tr2) ->
  starts (tr1 ++ (ev, OStarted h cb s) :: tr2) <= LIM ->
  1 <= s -> life_ok h cb ((s - 1) mod 8192 + 1) tr2.
Proof.
  intros H L Hs. apply trun_split in H as (e1 & e2 & s1 & -> & A & B).
  destruct e2 as [|ev' e2]; [discriminate|].
  apply trun_cons in B as (s2 & o & tr' & S1 & S2 & E). injection E as <- <- <-.
  rewrite starts_app, starts_cons in L. cbn [is_start] in L.
  pose proof (starts_nonneg tr2).
  assert (L0 : t_id (timer_init n) + starts tr1 <= LIM) by (cbn [timer_init t_id]; lia).
  destruct (trun_inv _ _ _ _ (Inv_init n) A L0) as [IN EID]. cbn [timer_init t_id] in EID.
  assert (L1 : t_id s1 + is_start (OStarted h cb s) <= LIM) by (cbn [is_start]; lia).
  pose proof (tstep_id _ _ _ _ IN L1 S1) as EI. cbn [is_start] in EI.
  pose proof (Inv_step _ _ _ _ IN L1 S1) as IN1.
  pose proof (i_id _ IN) as HI0.
  destruct (step_kind _ _ _ _ IN L1 S1) as [[E1 [E2 E3]] Q C | ix e E1 E2 HX HE HL ET Q NC
    | t a e b E1 E2 _ X ET TB TB' | R E1 E2 E3 _ X | e E1 E2 E3 _ X]; try discriminate; [destruct Q|].
  destruct Q as [[]|(sec & E & EX)]. injection E as -> -> <-.
  assert (K : known (e_id e) s2).
  { exists (t_id s1), ix. split; [lia|]. split; [exact HX|exact HE]. }
  eapply pend_trace; [exact IN1|exact K| |exact S2|lia].
  split; [pose proof (Z.mod_pos_bound (s - 1) 8192 eq_refl); lia|].
  exists e. rewrite ET, E1.
  replace ((t_sec s1 + ((s - 1) mod 8192 + 1)) mod 8192) with ((t_sec s1 + s) mod 8192).
  - rewrite <- EX, upd_same. split; [left; reflexivity|auto].
  - replace (t_sec s1 + ((s - 1) mod 8192 + 1)) with (t_sec s1 + 1 + (s - 1) mod 8192) by lia.
    rewrite Zplus_mod_idemp_r. f_equal. lia.
Qed.
