From Verif Require Import Base LifeModel LifeSpec LifeInv LifeLocal LifeStep LifeNew LifeOps LifeOps2.
Ltac Zify.zify_post_hook ::= idtac.

Lemma live_slot : forall N s p ok, INV N X0 s -> live s p ok ->
  exists q i so, s_pcb s p = Some q /\ p_sock q = Some i /\ p_tw q = false /\ p_dropped q = false /\ ok (p_state q) /\
    s_so s i = Some so /\ so_pcb so = Some p /\ 0 <= so_qlimit so /\ LOK so q (s_user s i) (s_call s i) /\
    forall A (k : Z -> sock -> pcb -> outcome A), get_ps s p k = k i so q.
Proof.
  intros N s p ok IV (q & Hq & TW & DR & ST).
  destruct (p_sock q) as [i |] eqn:PS.
  2:{ destruct (i_sock _ _ _ IV p q Hq) as (_ & _ & K). destruct (K PS) as (K1 & _). congruence. }
  destruct (slot_p _ _ _ _ _ _ IV Hq PS) as (so & Hi & Hp & HL & L & G). specialize (L (fun x => x)).
  exists q, i, so. auto 12.
Qed.

Lemma finacked_ok : forall N s p, INV N X0 s -> live s p (fun x => x = T_FIN_WAIT_1) ->
  exists s' r, p_finacked s p = Ret (s', r) /\ good N s s'.
Proof.
  intros N s p IV LV. destruct (live_slot _ _ _ _ IV LV) as (q & i & so & Hq & PS & TW & DR & ST & Hi & Hp & HL & L & G).
  unfold p_finacked. rewrite G. unfold T_FIN_WAIT_1, T_FIN_WAIT_2 in *.
  eexists; eexists; split; [reflexivity |].
  set (so' := if so_cantrcv so then soisdisconnected so else so).
  eapply (good_local N s i so p q so' (p_set_state q 9) (s_user s i) (s_call s i)); eauto; [ext | | |].
  { subst so'. destruct (so_cantrcv so); destruct so; keptok. }
  { subst so'. destruct (so_cantrcv so); destruct so; reflexivity. }
  pose proof L as [C R]. subst so'.
  eapply LOK_keep; eauto; destruct (so_cantrcv so); destruct q, so; cbn in *; subst; first [solve [cok] | solve [keptok] | solve [chok] | solve [flok]].
Qed.

Lemma drop_ok : forall N s p e, INV N X0 s -> live s p (fun _ => True) ->
  exists s' r, p_drop s p e = Ret (s', r) /\ good N s s'.
Proof.
  intros N s p e IV LV. destruct (live_slot _ _ _ _ IV LV) as (q & i & so & Hq & PS & TW & DR & ST & Hi & Hp & HL & L & G).
  unfold p_drop. rewrite G. pose proof L as [C R].
  destruct (p_sockref q) eqn:SR.
  - destruct (tcp_drop_ref so q e HL C SR TW DR) as (so' & q' & A1 & A2 & A3 & A4 & A5 & A6 & A7). rewrite A1. cbn [obind].
    eapply (finish_rel N s i so p q); eauto. apply A3.
  - destruct (tcp_drop_noref so q e HL C SR TW DR) as (so' & q' & A1 & A2 & A3 & A4 & A5 & A6 & A7 & A8). rewrite A1. cbn [obind finish].
    eexists; eexists; split; [reflexivity |]. pose proof A3 as (S & K2 & K3 & K4 & K5 & K6 & K7).
    eapply (good_local N s i so p q so' q' (s_user s i) (s_call s i)); eauto; [ext |].
    eapply LOK_keep; eauto; try congruence.
    unfold child_ok. intros (B1 & B2 & B3 & B4 & B5 & B6). repeat split; try congruence. left. exact A4.
Qed.

Lemma twstart_ok : forall N s p ok, INV N X0 s -> live s p (fun x => x = T_FIN_WAIT_1 \/ x = T_CLOSING \/ x = T_FIN_WAIT_2) ->
  exists s' r, p_twstart s p ok = Ret (s', r) /\ good N s s'.
Proof.
  intros N s p ok IV LV. destruct (live_slot _ _ _ _ IV LV) as (q & i & so & Hq & PS & TW & DR & ST & Hi & Hp & HL & L & G).
  unfold p_twstart. rewrite G. pose proof L as [C R]. unfold T_FIN_WAIT_1, T_CLOSING, T_FIN_WAIT_2 in ST.
  destruct ok.
  - replace (p_sockref (p_set_tw q)) with (p_sockref q) by (destruct q; reflexivity).
    replace (so_protoref (soisdisconnected so)) with (so_protoref so) by (destruct so; reflexivity).
    destruct (p_sockref q) eqn:SR.
    + assert (PR : so_protoref so = true) by (destruct C as (C1 & _); congruence). rewrite PR.
      eapply (finish_rel N s i so p q); eauto; destruct so, q; cbn in *; subst; try reflexivity; try (right; reflexivity).
      * cok.
      * keptok.
    + cbn [finish]. eexists; eexists; split; [reflexivity |].
      eapply (good_local N s i so p q (soisdisconnected so) (p_set_tw q) (s_user s i) (s_call s i)); eauto; [ext | destruct so; keptok |].
      eapply LOK_keep; eauto; destruct so, q; cbn in *; subst; first [solve [cok] | solve [keptok] | solve [chok] | solve [flok]].
  - destruct (p_sockref q) eqn:SR.
    + destruct (tcp_close_ref so q HL C SR) as (A1 & A2 & A3). rewrite A1. cbn [obind].
      eapply (finish_rel N s i so p q); eauto.
    + destruct (tcp_close_noref so q HL C SR) as (A1 & A2 & A3 & A4). rewrite A1. cbn [obind finish].
      eexists; eexists; split; [reflexivity |]. pose proof A3 as (S & K2 & K3 & K4 & K5 & K6 & K7).
      eapply (good_local N s i so p q _ _ (s_user s i) (s_call s i)); eauto; [ext |].
      eapply LOK_keep; eauto; destruct so, q; cbn in *; subst; first [congruence | solve [chok] | solve [flok]].
Qed.

(* a PCB without socket ends its TIME_WAIT *)
Lemma INV_pcbgone : forall N X s p q, INV N X s -> s_pcb s p = Some q -> p_sock q = None -> INV N X (free_pcb s p).
Proof.
  intros N X s p q IV Hq PS.
  assert (NE : forall i so p1 q1, s_so s i = Some so -> so_pcb so = Some p1 -> s_pcb s p1 = Some q1 -> p_sock q1 = Some i -> p1 <> p).
  { intros i so p1 q1 A B C D ->. congruence. }
  assert (KE : forall p1 q1, s_pcb (free_pcb s p) p1 = Some q1 -> p1 <> p /\ s_pcb s p1 = Some q1).
  { intros p1 q1. unfold free_pcb, upd; cbn. destruct (Z.eqb_spec p1 p); [discriminate | auto]. }
  constructor; try solve [apply IV].
  - intros i so Hi. destruct (i_pcb _ _ _ IV i so Hi) as (p1 & q1 & A & B & C). exists p1, q1.
    split; [exact A | split; [| exact C]]. unfold free_pcb; cbn. rewrite upd_neq; [exact B |]. eapply NE; eauto.
  - intros p1 q1 H. apply KE in H. destruct H as [_ H]. apply (i_sock _ _ _ IV p1 q1 H).
  - intros i so p1 q1 Hi Hp Hq1 HX. apply KE in Hq1. destruct Hq1 as [_ Hq1]. eapply (i_local _ _ _ IV); eauto.
Qed.

Lemma twclose_ok : forall N s p, INV N X0 s -> (exists q, s_pcb s p = Some q /\ p_tw q = true /\ p_dropped q = false) ->
  exists s' r, p_twclose s p = Ret (s', r) /\ good N s s'.
Proof.
  intros N s p IV (q & Hq & TW & DR). unfold p_twclose, get_pcb. rewrite Hq, TW. cbn [negb].
  replace (p_sock (p_set_dropped q)) with (p_sock q) by (destruct q; reflexivity).
  replace (p_sockref (p_set_dropped q)) with (p_sockref q) by (destruct q; reflexivity).
  destruct (p_sock q) as [i |] eqn:PS.
  - destruct (slot_p _ _ _ _ _ _ IV Hq PS) as (so & Hi & Hp & HL & L & G). specialize (L (fun x => x)).
    unfold get_so. rewrite Hi. pose proof L as [C R]. destruct (p_sockref q) eqn:SR.
    + assert (PR : so_protoref so = true) by (destruct C as (C1 & _); congruence). rewrite PR.
      eapply (finish_rel N s i so p q); eauto; destruct so, q; cbn in *; subst; try reflexivity; try (right; reflexivity).
      * cok.
      * keptok.
    + eexists; eexists; split; [reflexivity |].
      eapply (good_local N s i so p q so (p_set_dropped q) (s_user s i) (s_call s i)); eauto; [ext | apply same_str_refl; assumption |].
      eapply LOK_keep; eauto; destruct so, q; cbn in *; subst; first [congruence | solve [cok] | solve [keptok] | solve [chok] | solve [flok]].
  - eexists; eexists; split; [reflexivity |]. split.
    + eapply INV_pcbgone; eauto.
    + intros h hs A B. exists hs. auto 10.
Qed.
