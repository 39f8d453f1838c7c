(* The protocol functions on one socket and its PCB. *)
From Verif Require Import Base LifeModel LifeSpec LifeInv.
Ltac Zify.zify_post_hook ::= idtac.

(* everything the socket layer owns is left alone *)
Definition kept so q so' q' : Prop :=
  same_str so so' /\ p_sock q' = p_sock q /\ so_count so' = so_count so /\ so_nofd so' = so_nofd so /\
  so_accept so' = so_accept so /\ so_qinit so' = so_qinit so /\ so_qlimit so' = so_qlimit so.

Lemma same_str_refl : forall so, 0 <= so_qlimit so -> same_str so so.
Proof. intros. unfold same_str. auto 10. Qed.

Ltac brk := repeat match goal with
  | H : _ /\ _ |- _ => destruct H
  | H : exists _, _ |- _ => destruct H
  end.
Ltac spl := repeat match goal with |- _ /\ _ => split end.
Ltac fin := try solve [ assumption | reflexivity | congruence | lia | tauto | intuition (congruence || lia) | let F := fresh in intros F; intros; apply F; solve [lia | assumption | reflexivity] ].

Lemma tcp_close_noref : forall so q, 0 <= so_qlimit so -> common so q -> p_sockref q = false ->
  tcp_close so q = Ret (soisdisconnected so, p_set_dropped q, false) /\
  common (soisdisconnected so) (p_set_dropped q) /\ kept so q (soisdisconnected so) (p_set_dropped q) /\
  flags_ok (soisdisconnected so) (p_set_dropped q).
Proof.
  intros so q HQ C NR. unfold tcp_close. destruct so, q; cbn in *. subst.
  unfold common in *; cbn in *; unfold kept, same_str, flags_ok; cbn. brk.
  split; [reflexivity |]. spl; fin.
Qed.

Lemma tcp_close_ref : forall so q, 0 <= so_qlimit so -> common so q -> p_sockref q = true ->
  tcp_close so q = Ret (set_protoref (soisdisconnected so) false, p_set_sockref (p_set_dropped q) false, true) /\
  common (set_protoref (soisdisconnected so) false) (p_set_sockref (p_set_dropped q) false) /\
  kept so q (set_protoref (soisdisconnected so) false) (p_set_sockref (p_set_dropped q) false).
Proof.
  intros so q HQ C NR. unfold tcp_close. destruct so, q; cbn in *. subst.
  unfold common in C; cbn in C. brk. subst.
  split; [reflexivity |]. unfold common, kept, same_str; cbn. spl; fin.
Qed.

Lemma tcp_drop_noref : forall so q err, 0 <= so_qlimit so -> common so q -> p_sockref q = false -> p_tw q = false -> p_dropped q = false ->
  exists so' q', tcp_drop so q err = Ret (so', q', false) /\ common so' q' /\ kept so q so' q' /\
    p_dropped q' = true /\ p_sockref q' = false /\ p_tw q' = false /\ p_needfin q' = p_needfin q /\ so_disced so' = true.
Proof.
  intros so q err HQ C NR TW DR. unfold tcp_drop.
  set (q0 := if 3 <=? p_state q then p_set_state q T_CLOSED else q).
  assert (P : p_sockref q0 = false /\ p_tw q0 = false /\ p_needfin q0 = p_needfin q /\ p_sock q0 = p_sock q /\ 0 <= p_state q0 <= 9).
  { subst q0. unfold common in C; brk. destruct (3 <=? p_state q); destruct q; cbn in *; unfold T_CLOSED; spl; fin. }
  destruct P as (P1 & P2 & P3 & P4 & P5). clearbody q0. unfold tcp_close.
  destruct q0 as [a b c d e f], so, q; cbn in *. subst. eexists; eexists. split; [reflexivity |].
  unfold common in *; cbn in *; unfold kept, same_str; cbn. brk. spl; fin.
Qed.

Lemma tcp_drop_ref : forall so q err, 0 <= so_qlimit so -> common so q -> p_sockref q = true -> p_tw q = false -> p_dropped q = false ->
  exists so' q', tcp_drop so q err = Ret (so', q', true) /\ common so' q' /\ kept so q so' q' /\
    p_dropped q' = true /\ p_sockref q' = false /\ p_tw q' = false /\ so_protoref so' = false.
Proof.
  intros so q err HQ C NR TW DR. unfold tcp_drop.
  set (q0 := if 3 <=? p_state q then p_set_state q T_CLOSED else q).
  assert (P : p_sockref q0 = true /\ p_tw q0 = false /\ p_sock q0 = p_sock q /\ 0 <= p_state q0 <= 9).
  { subst q0. unfold common in C; brk. destruct (3 <=? p_state q); destruct q; cbn in *; unfold T_CLOSED; spl; fin. }
  destruct P as (P1 & P2 & P4 & P5). clearbody q0. unfold tcp_close.
  destruct q0 as [a b c d e f], so, q; cbn in *. subst. unfold common in C; cbn in C; brk. subst.
  eexists; eexists. split; [reflexivity |].
  unfold common, kept, same_str; cbn. spl; fin.
Qed.

Lemma tcp_usrclosed_ok : forall so q, 0 <= so_qlimit so -> common so q -> p_sockref q = false -> p_tw q = false -> p_dropped q = false ->
  exists so' q', tcp_usrclosed so q = Ret (so', q') /\ common so' q' /\ kept so q so' q' /\
    p_sockref q' = false /\ p_tw q' = false /\ (p_dropped q' = true \/ 2 <= p_state q') /\
    (4 <= p_state q -> 4 <= p_state q') /\
    (flags_ok so q -> flags_ok so' q').
Proof.
  intros so q HQ C NR TW DR. unfold tcp_usrclosed.
  destruct ((p_state q =? T_LISTEN) || (p_state q =? T_CLOSED)) eqn:E1.
  { set (q0 := p_set_state q T_CLOSED).
    unfold tcp_close. destruct so, q; cbn in *. subst.
    eexists; eexists. split; [reflexivity |]. unfold common in C; cbn in C; brk.
    unfold common, kept, same_str, flags_ok, T_CLOSED, T_LISTEN in *; cbn. spl; fin. }
  destruct ((p_state q =? T_SYN_SENT) || (p_state q =? T_SYN_RECEIVED)) eqn:E2.
  { cbn [obind]. assert (E3 : (T_FIN_WAIT_2 <=? p_state (p_set_needfin q)) = false).
    { destruct q; cbn in *. unfold T_SYN_SENT, T_SYN_RECEIVED, T_FIN_WAIT_2 in *. lia. }
    rewrite E3. destruct so, q; cbn in *. subst. eexists; eexists. split; [reflexivity |].
    unfold common in C; cbn in C; brk. unfold T_SYN_SENT, T_SYN_RECEIVED, T_FIN_WAIT_2 in *.
    unfold common, kept, same_str, flags_ok; cbn. spl; fin. }
  destruct (p_state q =? T_ESTABLISHED) eqn:E4.
  { cbn [obind]. destruct so, q; cbn in *. subst. eexists; eexists. split; [reflexivity |].
    unfold common in C; cbn in C; brk. unfold T_ESTABLISHED, T_FIN_WAIT_1 in *.
    unfold common, kept, same_str, flags_ok; cbn. spl; fin. }
  destruct (p_state q =? T_CLOSE_WAIT) eqn:E5.
  { cbn [obind]. destruct so, q; cbn in *. subst. eexists; eexists. split; [reflexivity |].
    unfold common in C; cbn in C; brk. unfold T_CLOSE_WAIT, T_LAST_ACK in *.
    unfold common, kept, same_str, flags_ok; cbn. spl; fin. }
  cbn [obind]. unfold T_LISTEN, T_CLOSED, T_SYN_SENT, T_SYN_RECEIVED, T_ESTABLISHED, T_CLOSE_WAIT in *.
  destruct (T_FIN_WAIT_2 <=? p_state q) eqn:E6; destruct so, q; cbn in *; subst; eexists; eexists; (split; [reflexivity |]);
  unfold common in C; cbn in C; brk; unfold T_FIN_WAIT_2 in *;
  unfold common, kept, same_str, flags_ok; cbn; spl; fin.
Qed.

Lemma tcp_disconnect_ok : forall so q, 0 <= so_qlimit so -> common so q -> p_sockref q = false -> p_tw q = false -> p_dropped q = false ->
  exists so' q', tcp_disconnect so q = Ret (so', q') /\ common so' q' /\ kept so q so' q' /\
    p_sockref q' = false /\ p_tw q' = false /\ (p_dropped q' = true \/ 4 <= p_state q') /\
    (so_accept so = true -> p_dropped q' = true).
Proof.
  intros so q HQ C NR TW DR. unfold tcp_disconnect.
  destruct (p_state q <? T_ESTABLISHED) eqn:E1.
  { destruct (tcp_close_noref so q HQ C NR) as (A1 & A2 & A3 & A4). rewrite A1. cbn [noref obind].
    eexists; eexists. split; [reflexivity |]. split; [exact A2 | split; [exact A3 |]].
    destruct q; cbn in *. auto. }
  assert (AC : so_accept so = false).
  { destruct (so_accept so) eqn:AA; [| reflexivity]. unfold common in C; brk. unfold T_ESTABLISHED in E1.
    match goal with H : so_accept so = true -> p_dropped q = true \/ _ |- _ => destruct (H AA) as [K | [K _]] end; [congruence | lia]. }
  destruct (so_linger0 so) eqn:E2.
  { destruct (tcp_drop_noref so q 0 HQ C NR TW DR) as (so' & q' & A1 & A2 & A3 & A4 & A5 & A6 & A7 & A8).
    rewrite A1. cbn [noref obind]. exists so', q'. auto 10. }
  assert (C2 : common (soisdisconnecting so) q).
  { unfold T_ESTABLISHED in E1. unfold common in *. destruct so, q; cbn in *. brk. spl; fin. }
  destruct (tcp_usrclosed_ok (soisdisconnecting so) q) as (so' & q' & A1 & A2 & A3 & A4 & A5 & A6 & A7 & A8); auto.
  exists so', q'. unfold T_ESTABLISHED in *. split; [exact A1 | split; [exact A2 | split]].
  - unfold kept, same_str in *. destruct so; cbn in *. brk. spl; assumption.
  - split; [exact A4 | split; [exact A5 | split; [right; apply A7; lia | congruence]]].
Qed.
