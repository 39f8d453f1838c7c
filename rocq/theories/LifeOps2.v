From Verif Require Import Base LifeModel LifeSpec LifeInv LifeLocal LifeStep LifeNew LifeOps.
Ltac Zify.zify_post_hook ::= idtac.

Ltac spec := repeat match goal with
  | H : ?P -> _ |- _ => match type of P with Prop => let X := fresh in assert (X : P) by solve [reflexivity | assumption | lia]; specialize (H X); clear X end
  end; brk.
Ltac cok := unfold common in *; cbn in *; brk; spec; spl; intros; spec; fin.
Ltac chok := unfold child_ok in *; cbn in *; brk; spl; fin.
Ltac flok := unfold flags_ok in *; cbn in *; intros; spec; fin.

(* a change that keeps what the socket layer looks at keeps the role *)
Lemma role_keep : forall so q so' q' u c, role so q u c -> kept so q so' q' ->
  p_sockref q' = p_sockref q -> (p_dropped q = true -> p_dropped q' = true) ->
  (p_dropped q = true -> p_tw q' = p_tw q) -> (p_tw q = true -> p_tw q' = true) ->
  (child_ok so q -> child_ok so' q') -> (flags_ok so q -> flags_ok so' q') -> role so' q' u c.
Proof.
  intros so q so' q' u c R ((S1 & _) & _ & K3 & K4 & K5 & K6) SR D T T2 CH FL. unfold role in *.
  destruct u; [| destruct c]; rewrite ?S1, ?K3, ?K4, ?K5, ?SR; brk; spl; auto; fin.
  all: try (destruct (so_qs so); brk; spl; auto; congruence).
  all: try (intuition congruence).
Qed.

Lemma LOK_keep : forall so q so' q' u c, LOK so q u c -> common so' q' -> kept so q so' q' ->
  p_sockref q' = p_sockref q -> (p_dropped q = true -> p_dropped q' = true) ->
  (p_dropped q = true -> p_tw q' = p_tw q) -> (p_tw q = true -> p_tw q' = true) ->
  (child_ok so q -> child_ok so' q') -> (flags_ok so q -> flags_ok so' q') -> LOK so' q' u c.
Proof. intros so q so' q' u c [C R] **. split; [assumption | eapply role_keep; eauto]. Qed.

Ltac keptok := unfold kept, same_str; cbn; spl; auto.

(* ---- events of the protocol ---- *)
Lemma fin_ok : forall N s p, INV N X0 s -> live s p (fun x => x = T_SYN_SENT \/ T_ESTABLISHED <= x) ->
  exists s' r, p_fin s p = Ret (s', r) /\ good N s s'.
Proof.
  intros N s p IV (q & Hq & TW & DR & ST).
  destruct (p_sock q) as [i |] eqn:PS.
  2:{ destruct (i_sock _ _ _ IV p q Hq) as (_ & _ & K). destruct (K PS) as (K1 & _). congruence. }
  destruct (slot_p _ _ _ _ _ _ IV Hq PS) as (so & Hi & Hp & HL & L & G). specialize (L (fun x => x)).
  unfold p_fin. rewrite G. unfold T_SYN_SENT, T_SYN_RECEIVED, T_ESTABLISHED, T_CLOSE_WAIT, T_FIN_WAIT_1, T_CLOSING in *.
  destruct (p_state q =? 2) eqn:E2.
  - eexists; eexists; split; [reflexivity |].
    eapply (good_local N s i so p q so (p_set_state q 3) (s_user s i) (s_call s i)); eauto; [ext | apply same_str_refl; assumption |].
    pose proof L as [C R]. eapply LOK_keep; eauto; destruct q; cbn in *; subst.
    + destruct so; cok.
    + destruct so; keptok.
    + chok.
    + flok.
  - set (q' := if p_state q =? 4 then p_set_state q 5 else if p_state q =? 6 then p_set_state q 7 else q).
    assert (Q : p_sock q' = p_sock q /\ p_sockref q' = p_sockref q /\ p_dropped q' = p_dropped q /\ p_tw q' = p_tw q /\
      p_needfin q' = p_needfin q /\ 4 <= p_state q' <= 9 /\ (p_state q <= 5 -> p_state q' <= 5) /\ 4 <= p_state q /\ (6 <= p_state q -> 6 <= p_state q')).
    { destruct L as [C R]. unfold common in C; brk. subst q'.
      destruct (p_state q =? 4) eqn:E4; [| destruct (p_state q =? 6) eqn:E6]; destruct q; cbn in *; spl; fin. }
    destruct Q as (Q1 & Q2 & Q3 & Q4 & Q5 & Q6 & Q7 & Q8 & Q9).
    eexists; eexists; split; [reflexivity |].
    eapply (good_local N s i so p q (set_cantrcv so) q' (s_user s i) (s_call s i)); eauto; [ext | destruct so; keptok |].
    clearbody q'. destruct q as [a b cc d e f], q' as [a' b' cc' d' e' f']; cbn in *; subst.
    pose proof L as [C R]. eapply LOK_keep; eauto.
    + destruct so; cok.
    + destruct so; keptok.
    + destruct so; chok.
    + destruct so; flok.
Qed.
