(* Every legal operation completes and preserves the invariant. *)
From Verif Require Import Base LifeModel LifeSpec LifeInv LifeLocal LifeStep LifeNew.
Ltac Zify.zify_post_hook ::= idtac.

(* the sockets the application holds keep their queues *)
Definition quiet (s s' : st) : Prop :=
  forall h hs, s_so s h = Some hs -> s_user s h = true ->
  exists hs', s_so s' h = Some hs' /\ s_user s' h = true /\ so_compq hs' = so_compq hs /\ so_incq hs' = so_incq hs /\
    so_qlimit hs' = so_qlimit hs.

Definition good (N : nat) (s s' : st) : Prop := INV N X0 s' /\ quiet s s'.

Lemma quiet_local : forall s s' i so so' p q' u' c', s_so s i = Some so -> changes_at s s' i so' p q' u' c' ->
  so_compq so' = so_compq so -> so_incq so' = so_incq so -> so_qlimit so' = so_qlimit so -> (s_user s i = true -> u' = true) -> quiet s s'.
Proof.
  intros s s' i so so' p q' u' c' Hi (E1 & _ & _ & _ & E5 & _) A B C D h hs Hh Hu.
  destruct (Z.eqb_spec h i) as [-> | n].
  - exists so'. rewrite E1, E5, Z.eqb_refl. assert (hs = so) by congruence. subst hs. auto 10.
  - exists hs. rewrite E1, E5. destruct (Z.eqb_spec h i); [contradiction | auto 10].
Qed.

Lemma quiet_frees : forall s s' i p o, s_user s i = false -> frees s s' i p o -> quiet s s'.
Proof.
  intros s s' i p o Hu (E1 & _ & _ & _ & E5 & _) h hs Hh Hu2.
  assert (n : h <> i) by congruence. exists hs. rewrite E1, E5 by exact n. destruct (Z.eqb_spec h i); [contradiction | auto 10].
Qed.

Lemma quiet_refl : forall s, quiet s s.
Proof. intros s h hs A B. exists hs. auto 10. Qed.
Lemma quiet_trans : forall a b c, quiet a b -> quiet b c -> quiet a c.
Proof.
  intros a b c A B h hs Hh Hu. destruct (A h hs Hh Hu) as (hs1 & C1 & C2 & C3 & C4 & C5).
  destruct (B h hs1 C1 C2) as (hs2 & D1 & D2 & D3 & D4 & D5). exists hs2. repeat split; congruence.
Qed.

(* one socket changes in place *)
Lemma good_local : forall N s i so p q so' q' u' c' s',
  INV N X0 s -> s_so s i = Some so -> so_pcb so = Some p -> s_pcb s p = Some q ->
  changes_at s s' i so' p q' u' c' -> same_str so so' -> so_qlimit so' = so_qlimit so -> p_sock q' = p_sock q ->
  LOK so' q' u' c' -> (s_user s i = true -> u' = true) -> good N s s'.
Proof.
  intros N s i so p q so' q' u' c' s' IV Hi Hp Hq CA SS HL PS LO HU. split.
  - eapply (INV_local N X0 s i so p q so' q' u' c'); eauto.
  - eapply quiet_local; eauto; apply SS.
Qed.

(* the operations that give up a reference: the socket lives on *)
Lemma sofree_refs : forall s i so, s_so s i = Some so -> sohasrefs so = true -> sofree s i = Ret s.
Proof. intros s i so H R. unfold sofree, get_so. rewrite H, R. reflexivity. Qed.

Definition kept_lim so q so' q' := kept so q so' q' /\ so_qlimit so' = so_qlimit so.

(* the protocol ends with the socket and gives up its reference *)
Lemma finish_rel_strong : forall N s i so p q so' q', INV N X0 s -> s_so s i = Some so -> so_pcb so = Some p -> s_pcb s p = Some q ->
  LOK so q (s_user s i) (s_call s i) -> p_sockref q = true ->
  common so' q' -> kept so q so' q' -> so_qlimit so' = so_qlimit so -> so_protoref so' = false -> p_sockref q' = false ->
  (p_dropped q' = true \/ p_tw q' = true) ->
  exists s' r, finish s i so' p q' true = Ret (s', r) /\ good N s s' /\ (s_call s i = CNone -> s_so s' i = None).
Proof.
  intros N s i so p q so' q' IV Hi Hp Hq [C R] SR C' K QL PR SR' DT.
  destruct (slot _ _ _ _ _ IV Hi) as (p0 & q0 & P1 & P2 & P3 & P4 & _ & _).
  assert (p0 = p) by congruence. subst p0. assert (q0 = q) by congruence. subst q0.
  destruct K as (SS & K2 & K3 & K4 & K5 & K6).
  unfold finish. set (s1 := put s i so' p q').
  assert (CA : changes_at s s1 i so' p q' (s_user s i) (s_call s i)) by (unfold s1; ext).
  assert (E1 : s_so s1 i = Some so') by (unfold s1, put; cbn; apply upd_eq).
  unfold role in R. destruct (s_user s i) eqn:U; [destruct R as (_ & _ & _ & _ & R & _); congruence |].
  assert (AC : so_accept so = true -> False).
  { intros A. destruct C as (C1 & C2 & C3 & C4 & C5 & C6 & C7 & C8 & C9).
    destruct (C3 A) as [D | [D1 D2]]; [rewrite (C2 SR) in D; discriminate |].
    destruct C8 as (C8 & _); [lia | auto | congruence]. }
  destruct (s_call s i) eqn:CC; try (exfalso; brk; unfold child_ok in *; brk; congruence).
  - (* kept by the protocol alone *)
    assert (R3 : so_qs so = QNone).
    { destruct R as (_ & _ & R3). destruct (so_qs so); [reflexivity | exfalso | exfalso]; unfold child_ok in R3; brk; congruence. }
    destruct R as (R1 & R2 & _).
    assert (IV1 : INV N (eq i) s1).
    { eapply (INV_local N (eq i) s i so p q so' q'); eauto; [apply INV_eqX; exact IV |]. intros X. exfalso; apply X; reflexivity. }
    pose proof SS as (S1 & S2 & S3 & S4 & S5 & S6 & S7 & S8).
    assert (HB : so_head so = None). { pose proof (i_back _ _ _ IV i so Hi (fun x => x)) as B. rewrite R3 in B. exact B. }
    assert (QE : so_incq so' = [] /\ so_compq so' = []).
    { apply C'. rewrite K5. destruct (so_accept so); [exfalso; auto | reflexivity]. }
    destruct QE as [QE1 QE2].
    destruct (sofree_none N (eq i) s1 i so' p q' IV1 E1) as (s' & o & F1 & F2 & F3); auto.
    { congruence. }
    { unfold s1, put; cbn. apply upd_eq. }
    { unfold released. repeat split; congruence. }
    { congruence. } { congruence. }
    rewrite F1. cbn [obind]. exists s', ROk. split; [reflexivity |]. split; [| intros _; eapply frees_none; exact F2]. split.
    + eapply INV_shrink; [exact F3 |]. intros x <-. right. eapply frees_none; exact F2.
    + eapply quiet_trans; [| eapply quiet_frees; [| exact F2]; unfold s1; exact U].
      eapply quiet_local; eauto; congruence.
  - (* close() under way *)
    destruct R as (R1 & R2 & R3 & R4 & R5).
    assert (HR : sohasrefs so' = true) by (unfold sohasrefs; rewrite K4, R2; reflexivity).
    rewrite (sofree_refs s1 i so' E1 HR). cbn [obind]. exists s1, ROk. split; [reflexivity |]. split; [| discriminate].
    eapply (good_local N s i so p q so' q' false CClose2); eauto; [| congruence].
    split; [exact C' |]. unfold role. destruct SS as (S1 & _). rewrite K3, K4, S1, K5. repeat split; auto; try tauto.
Qed.

Lemma finish_rel : forall N s i so p q so' q', INV N X0 s -> s_so s i = Some so -> so_pcb so = Some p -> s_pcb s p = Some q ->
  LOK so q (s_user s i) (s_call s i) -> p_sockref q = true ->
  common so' q' -> kept so q so' q' -> so_qlimit so' = so_qlimit so -> so_protoref so' = false -> p_sockref q' = false ->
  (p_dropped q' = true \/ p_tw q' = true) ->
  exists s' r, finish s i so' p q' true = Ret (s', r) /\ good N s s' .
Proof.
  intros. destruct (finish_rel_strong N s i so p q so' q') as (s' & r & A & B & _); auto. eauto.
Qed.
