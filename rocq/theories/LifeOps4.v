From Verif Require Import Base LifeModel LifeSpec LifeInv LifeLocal LifeStep LifeNew LifeOps LifeOps2 LifeOps3.
Ltac Zify.zify_post_hook ::= idtac.

(* like [quiet], but the connection [i] of listener [h0] becomes ready *)
Definition ready (s s' : st) (h0 i : Z) : Prop :=
  forall h hs, s_so s h = Some hs -> s_user s h = true ->
  exists hs', s_so s' h = Some hs' /\ s_user s' h = true /\ so_qlimit hs' = so_qlimit hs /\
    if h =? h0 then so_compq hs' = so_compq hs ++ [i] /\ (length (so_incq hs') + 1 = length (so_incq hs))%nat
    else so_compq hs' = so_compq hs /\ so_incq hs' = so_incq hs.

Lemma connected_ok : forall N s p, INV N X0 s -> live s p (fun x => x = T_SYN_SENT \/ x = T_SYN_RECEIVED) ->
  exists s' r, p_connected s p = Ret (s', r) /\ INV N X0 s' /\
   ((r = ROk /\ quiet s s') \/
    (exists h i, r = RFd i /\ listener_of s p = Some h /\ ready s s' h i)).
Proof.
  intros N s p IV LV. destruct (live_slot _ _ _ _ IV LV) as (q & i & so & Hq & PS & TW & DR & ST & Hi & Hp & HL & L & G).
  unfold p_connected. rewrite G. pose proof L as [C R]. unfold T_SYN_SENT, T_SYN_RECEIVED, T_FIN_WAIT_1, T_ESTABLISHED in *.
  set (so1 := soisconnected_flags so). set (q1 := p_set_state q (if p_needfin q then 6 else 4)).
  assert (K : kept so q so1 q1) by (subst so1 q1; destruct so, q; keptok).
  assert (C1 : common so1 q1).
  { subst so1 q1. destruct (p_needfin q); destruct so, q; cbn in *; subst; cok. }
  assert (CH : child_ok so q -> child_ok so1 q1).
  { subst so1 q1. intros (B1 & B2 & B3 & B4 & B5 & B6). rewrite B4. destruct so, q; cbn in *; subst. unfold child_ok; cbn. repeat split; auto. right; lia. }
  assert (FL : flags_ok so1 q1) by (subst so1 q1; unfold flags_ok; destruct so; cbn; auto).
  assert (QQ : p_sockref q1 = p_sockref q /\ p_dropped q1 = p_dropped q /\ p_tw q1 = p_tw q) by (subst q1; destruct q; auto).
  destruct QQ as (QQ1 & QQ2 & QQ3).
  assert (PLACE : exists s', Ret (put s i so1 p q1, ROk) = Ret (s', ROk) /\ INV N X0 s' /\ quiet s s').
  { eexists. split; [reflexivity |].
    eapply (good_local N s i so p q so1 q1 (s_user s i) (s_call s i)); eauto; [ext | apply K |].
    eapply LOK_keep; eauto; congruence. }
  assert (H1 : so_head so1 = so_head so /\ so_qs so1 = so_qs so) by (subst so1; destruct so; auto). destruct H1 as [H1 H2].
  rewrite H1, H2.
  destruct (so_head so) as [h |] eqn:HD.
  2:{ destruct PLACE as (s' & E1 & E2 & E3). exists s', ROk. split; [exact E1 |]. split; [exact E2 | left; auto]. }
  destruct (so_qs so) eqn:QS.
  - destruct PLACE as (s' & E1 & E2 & E3). exists s', ROk. split; [exact E1 |]. split; [exact E2 | left; auto].
  - pose proof (i_back _ _ _ IV i so Hi (fun x => x)) as B. rewrite QS in B. destruct B as (h0 & hs & B1 & B2 & B3).
    assert (h0 = h) by congruence. subst h0.
    assert (CO : child_ok so q /\ s_user s i = false /\ s_call s i = CNone).
    { unfold role in R. destruct (s_user s i); [brk; congruence |]. destruct (s_call s i); try (exfalso; brk; congruence).
      rewrite QS in R. brk. auto. }
    destruct CO as (CO & U & CC).
    assert (AC : so_accept so = false) by apply CO.
    assert (NE : h <> i) by (eapply queued_neq; eauto; intros []).
    destruct (i_queue _ _ _ IV h hs B2) as (Q1 & Q2 & Q3 & Q4 & Q5 & Q6 & Q7).
    assert (NC : ~ In i (so_compq hs)) by (eapply one_queue; eauto).
    unfold get_so. replace (s_so (put s i so1 p q1) h) with (Some hs).
    2:{ unfold put, put_so, put_pcb; cbn. rewrite upd_neq by exact NE. symmetry; exact B2. }
    assert (M : mem i (so_incq hs) = true) by (apply mem_in; exact B3). rewrite M. cbn [negb].
    set (hs2 := set_queues hs (rm i (so_incq hs)) (so_compq hs ++ [i]) (so_incqlen hs - 1) (so_qlen hs + 1)).
    set (so2 := set_q so1 QComp (Some h)).
    eexists; exists (RFd i). split; [reflexivity |].
    match goal with |- INV N X0 ?x /\ _ => set (s' := x) end.
    set (s1 := mkSt (fun x => if x =? i then Some (set_q so QNone None) else if x =? h then Some (without hs i) else s_so s x)
                 (s_free s) (s_pcb s) (s_next s) (s_user s) (s_call s)).
    assert (DQ : dequeues s s1 h hs i (set_q so QNone None) p q (s_user s i) (s_call s i)).
    { unfold s1. ext. }
    assert (IV1 : INV N (eq i) s1).
    { eapply (INV_dequeue N (eq i) s h hs i so p q (set_q so QNone None) q); eauto.
      - apply INV_eqX; exact IV.
      - congruence.
      - intros Y. exfalso; apply Y; reflexivity. }
    assert (W : push true (without hs i) i = hs2).
    { unfold push, without, hs2. pose proof (rm_length i (so_incq hs) Q1 B3) as RL. rewrite (rm_notin i (so_compq hs)) by exact NC.
      unfold set_queues; cbn [LifeModel.so_incq LifeModel.so_compq LifeModel.so_incqlen LifeModel.so_qlen LifeModel.so_count LifeModel.so_nofd LifeModel.so_protoref LifeModel.so_qs LifeModel.so_head LifeModel.so_accept LifeModel.so_qlimit LifeModel.so_qinit LifeModel.so_conn LifeModel.so_conning LifeModel.so_discing LifeModel.so_disced LifeModel.so_cantrcv LifeModel.so_err LifeModel.so_nbio LifeModel.so_linger0 LifeModel.so_pcb].
      rewrite RL, Q3, Q4. reflexivity. }
    assert (EN : enqueues s1 s' true h (without hs i) i so2 p q1).
    { unfold s', s1. rewrite <- W. ext. }
    assert (AH : so_accept hs = true).
    { destruct (slot _ _ _ _ _ IV B2) as (ph & qh & _ & _ & _ & _ & LL & _). destruct (LL (fun x => x)) as [CL _].
      destruct (so_accept hs) eqn:AH; [reflexivity |]. destruct CL as (_ & _ & _ & _ & _ & CL & _).
      destruct (CL AH) as [CL1 _]. rewrite CL1 in B3. contradiction. }
    split.
    + eapply (INV_enqueue N (eq i) X0 true s1 h (without hs i) i (set_q so QNone None) p q so2 q1 s'); eauto.
      * unfold s1; cbn. destruct (Z.eqb_spec h i); [contradiction |]. rewrite Z.eqb_refl. reflexivity.
      * unfold s1; cbn. rewrite Z.eqb_refl. reflexivity.
      * intros _. unfold s1; cbn. rewrite U, CC. split.
        -- destruct (child_set_q so1 q1 QComp (Some h)) as (Y & _ & _). apply Y, C1.
        -- destruct (child_set_q so1 q1 QComp (Some h)) as (_ & Y & Z'). cbn [role].
           unfold role in R. rewrite U, CC, QS in R. destruct R as (R1 & R2 & _).
           subst so2 so1. destruct so; cbn in *. auto.
    + right. exists h, i. split; [reflexivity |]. split.
      * unfold listener_of. rewrite Hq, PS, Hi. exact HD.
      * intros g gs Hg Hu. destruct (Z.eqb_spec g h) as [-> | ng].
        -- assert (gs = hs) by congruence. subst gs. exists hs2.
           split; [unfold s'; cbn; rewrite upd_neq by exact NE; apply upd_eq |].
           split; [exact Hu |]. split; [reflexivity |]. split; [reflexivity |].
           change (so_incq hs2) with (rm i (so_incq hs)). pose proof (rm_length i (so_incq hs) Q1 B3). lia.
        -- assert (g <> i) by congruence. exists gs. unfold s'; cbn. rewrite !upd_neq by assumption. auto.
  - destruct PLACE as (s' & E1 & E2 & E3). exists s', ROk. split; [exact E1 |]. split; [exact E2 | left; auto].
Qed.
