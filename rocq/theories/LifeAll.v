(* Every legal operation completes, keeps the invariant, and changes the queues
   of a listening socket only as its kind allows. *)
From Coq Require Import FinFun.
From Verif Require Import Base LifeModel LifeSpec LifeInv LifeLocal LifeStep LifeNew LifeOps LifeOps2 LifeOps3 LifeOps4 LifeOps5.
Ltac Zify.zify_post_hook ::= idtac.

Definition comp_now (s : st) (o : op) (r : res) (h : Z) : list Z :=
  match o, r with
  | PConnected p, RFd i => match listener_of s p with Some g => if g =? h then [i] else [] | None => [] end
  | _, _ => []
  end.
Definition take_now (o : op) (r : res) (h : Z) : list Z :=
  match o, r with AcceptTake fd, RFd i => if fd =? h then [i] else [] | _, _ => [] end.

Definition effect (M : Z) (s : st) (o : op) (r : res) (s' : st) : Prop :=
  forall h hs, s_so s h = Some hs -> s_user s h = true -> o <> Close1 h ->
  exists hs', s_so s' h = Some hs' /\ s_user s' h = true /\
    so_compq hs ++ comp_now s o r h = take_now o r h ++ so_compq hs' /\
    (so_qlimit hs' = so_qlimit hs \/ exists b, o = Listen h b /\ so_qlimit hs' = clamp M b) /\
    (((length (so_incq hs') <= length (so_incq hs))%nat /\
      (length (so_incq hs') + length (so_compq hs') <= length (so_incq hs) + length (so_compq hs))%nat) \/
     (Z.of_nat (length (so_incq hs')) <= so_qlimit hs + 1 /\ Z.of_nat (length (so_compq hs')) <= 3 * so_qlimit hs / 2 /\
      so_qlimit hs' = so_qlimit hs)).

Lemma effect_quiet : forall M s o r s', quiet s s' -> (forall h, comp_now s o r h = []) -> (forall h, take_now o r h = []) ->
  effect M s o r s'.
Proof.
  intros M s o r s' Q C T h hs Hh Hu _. destruct (Q h hs Hh Hu) as (hs' & A & B & D & E & F). exists hs'.
  split; [exact A |]. split; [exact B |]. rewrite C, T, app_nil_r. cbn [app]. split; [congruence |].
  split; [left; exact F |]. left. rewrite D, E. lia.
Qed.

Lemma good_step : forall N M s o s' r, step M s o = Ret (s', r) -> good N s s' ->
  (forall h, comp_now s o r h = []) -> (forall h, take_now o r h = []) ->
  exists s' r, step M s o = Ret (s', r) /\ INV N X0 s' /\ effect M s o r s'.
Proof.
  intros N M s o s' r E [G1 G2] C T. exists s', r. split; [exact E |]. split; [exact G1 |]. apply effect_quiet; auto.
Qed.

Lemma step_ok : forall N M s o, 0 <= M -> INV N X0 s -> legal s o ->
  exists s' r, step M s o = Ret (s', r) /\ INV N X0 s' /\ effect M s o r s'.
Proof.
  intros N M s o HM IV LG. destruct o; cbn [legal] in LG.
  - eapply good_step; [cbn [step]; rewrite (surjective_pairing (socket_call s aok)); reflexivity | apply socket_ok; exact IV | reflexivity | reflexivity].
  - destruct LG as [U LQ]. destruct (listen_ok N M s fd backlog HM IV U LQ) as (s' & r & E & I1 & Q).
    exists s', r. split; [exact E |]. split; [exact I1 |]. intros h hs Hh Hu _.
    destruct (Q h hs Hh Hu) as (hs' & A1 & A2 & A3 & A4 & A5). exists hs'. split; [exact A1 |]. split; [exact A2 |].
    cbn [comp_now take_now]. rewrite app_nil_r. cbn [app]. split; [congruence |].
    split; [destruct A5 as [A5 | [-> A5]]; [left; exact A5 | right; eauto] |]. left. rewrite A3, A4. lia.
  - destruct (connect_ok N s fd ok IV LG) as (s' & r & E & G). eapply good_step; [exact E | exact G | reflexivity | reflexivity].
  - destruct (shutdown_ok N s fd IV LG) as (s' & r & E & G). eapply good_step; [exact E | exact G | reflexivity | reflexivity].
  - destruct (option_ok N s fd set_cantrcv IV LG) as (s' & r & E & G).
    { intros so q HL. destruct so; keptok. } { intros so q C. destruct so; exact C. } { intros so q C. destruct so; exact C. }
    eapply good_step; [exact E | exact G | reflexivity | reflexivity].
  - destruct (option_ok N s fd (fun so => set_linger0 so b) IV LG) as (s' & r & E & G).
    { intros so q HL. destruct so; keptok. } { intros so q C. destruct so; exact C. } { intros so q C. destruct so; exact C. }
    eapply good_step; [exact E | exact G | reflexivity | reflexivity].
  - destruct (option_ok N s fd (fun so => set_nbio so b) IV LG) as (s' & r & E & G).
    { intros so q HL. destruct so; keptok. } { intros so q C. destruct so; exact C. } { intros so q C. destruct so; exact C. }
    eapply good_step; [exact E | exact G | reflexivity | reflexivity].
  - destruct (accept_take_ok N s fd IV LG) as (s' & r & E & I1 & Q). exists s', r. split; [exact E |]. split; [exact I1 |].
    destruct Q as [[Q NR] | (i & -> & Q & _)].
    + apply effect_quiet; [exact Q | reflexivity |]. intros h. destruct r; try reflexivity. exfalso. eapply NR; reflexivity.
    + intros h hs Hh Hu _. destruct (Q h hs Hh Hu) as (hs' & A1 & A2 & A3 & A4 & A5). exists hs'.
      split; [exact A1 |]. split; [exact A2 |]. cbn [comp_now take_now]. rewrite app_nil_r, (Z.eqb_sym fd h).
      destruct (h =? fd).
      * split; [exact A5 |]. split; [left; exact A3 |]. left. rewrite A4, A5. cbn [length]. lia.
      * split; [cbn [app]; congruence |]. split; [left; exact A3 |]. left. rewrite A4, A5. lia.
  - destruct (accept_end_ok N s i IV LG) as (s' & r & E & G & _). eapply good_step; [exact E | exact G | reflexivity | reflexivity].
  - destruct (close1_ok N s fd IV LG) as (s' & r & E & I1 & Q & _). exists s', r. split; [exact E |]. split; [exact I1 |].
    intros h hs Hh Hu HN. destruct (Q h hs Hh Hu) as (hs' & A1 & A2 & A3 & A4 & A5); [congruence |]. exists hs'.
    split; [exact A1 |]. split; [exact A2 |]. cbn [comp_now take_now]. rewrite app_nil_r. cbn [app]. split; [congruence |].
    split; [left; exact A5 |]. left. rewrite A3, A4. lia.
  - destruct (close2_ok N s fd IV LG) as (s' & r & E & G & _). eapply good_step; [exact E | exact G | reflexivity | reflexivity].
  - destruct (drain_ok N s fd IV LG) as (s' & r & E & G). eapply good_step; [exact E | exact G | reflexivity | reflexivity].
  - destruct (abort1_ok N s i IV LG) as (s' & r & E & G). eapply good_step; [exact E | exact G | reflexivity | reflexivity].
  - destruct (abort2_ok N s i IV LG) as (s' & r & E & G & _). eapply good_step; [exact E | exact G | reflexivity | reflexivity].
  - destruct LG as [LG1 LG2]. destruct (close3_ok N s fd IV LG1 LG2) as (s' & r & E & G). eapply good_step; [exact E | exact G | reflexivity | reflexivity].
  - destruct (newconn_ok N s fd aok ok IV LG) as (s' & r & hs0 & rest & E & I1 & H0 & U1 & U2 & OT & Q).
    exists s', r. split; [exact E |]. split; [exact I1 |]. intros h hs Hh Hu _. cbn [comp_now take_now]. rewrite app_nil_r. cbn [app].
    rewrite U1. destruct (Z.eq_dec h fd) as [-> | n].
    + assert (hs0 = hs) by congruence. subst hs0. destruct Q as [[-> ->] | (Q1 & (gone & Q2) & Q3 & i & Q4 & Q5)].
      { exists hs. split; [exact Hh |]. split; [exact Hu |]. split; [reflexivity |]. split; [auto |]. left. lia. }
      destruct (i_queue _ _ _ IV fd hs Hh) as (_ & _ & _ & B4 & B5 & _).
      assert (Q1' : Z.of_nat (length (so_compq hs)) <= 3 * so_qlimit hs / 2) by lia.
      destruct Q5 as [[-> Q5] | [-> Q5]]; eexists; (split; [exact Q5 |]); (split; [exact Hu |]); (split; [destruct hs; reflexivity |]);
        (split; [left; destruct hs; reflexivity |]); right; destruct hs; cbn [LifeModel.so_incq LifeModel.so_compq LifeModel.so_qlimit set_queues] in *;
        rewrite ?app_length; cbn [length]; lia.
    + exists hs. rewrite (OT h n Hu). split; [exact Hh |]. split; [exact Hu |]. split; [reflexivity |]. split; [auto |]. left. lia.
  - destruct (connected_ok N s p IV LG) as (s' & r & E & I1 & Q). exists s', r. split; [exact E |]. split; [exact I1 |].
    destruct Q as [[-> Q] | (h0 & i & -> & LO & Q)].
    + apply effect_quiet; [exact Q | reflexivity | reflexivity].
    + intros h hs Hh Hu _. destruct (Q h hs Hh Hu) as (hs' & A1 & A2 & A3 & A4). exists hs'.
      split; [exact A1 |]. split; [exact A2 |]. cbn [comp_now take_now]. rewrite LO, (Z.eqb_sym h0 h). cbn [app].
      destruct (h =? h0).
      * destruct A4 as [A4 A5]. split; [congruence |]. split; [left; exact A3 |]. left. rewrite A4, app_length. cbn [length]. lia.
      * destruct A4 as [A4 A5]. rewrite app_nil_r. split; [congruence |]. split; [left; exact A3 |]. left. rewrite A4, A5. lia.
  - destruct (fin_ok N s p IV LG) as (s' & r & E & G). eapply good_step; [exact E | exact G | reflexivity | reflexivity].
  - destruct (finacked_ok N s p IV LG) as (s' & r & E & G). eapply good_step; [exact E | exact G | reflexivity | reflexivity].
  - destruct (drop_ok N s p err IV LG) as (s' & r & E & G). eapply good_step; [exact E | exact G | reflexivity | reflexivity].
  - destruct (twstart_ok N s p ok IV LG) as (s' & r & E & G). eapply good_step; [exact E | exact G | reflexivity | reflexivity].
  - destruct (twclose_ok N s p IV LG) as (s' & r & E & G). eapply good_step; [exact E | exact G | reflexivity | reflexivity].
Qed.

Lemma init_INV : forall N, INV N X0 (init N).
Proof.
  intros N. constructor; cbn; try discriminate; auto.
  - apply Injective_map_NoDup; [intros a b H; lia | apply seq_NoDup].
  - intros i. split.
    + intros H. apply in_map_iff in H. destruct H as (k & <- & K). apply in_seq in K. split; [lia | reflexivity].
    + intros [H _]. apply in_map_iff. exists (Z.to_nat i). split; [lia |]. apply in_seq. lia.
Qed.

Lemma run_INV : forall N M, 0 <= M -> forall s tr s', run M s tr s' -> INV N X0 s -> INV N X0 s'.
Proof.
  intros N M HM s tr s' R. induction R as [s | s o s1 r tr s2 LG E R IH]; intros IV; [exact IV |].
  apply IH. destruct (step_ok N M s o HM IV LG) as (s1' & r' & E' & I1 & _). congruence.
Qed.

Lemma reach_INV : forall N M s, 0 <= M -> reach N M s -> INV N X0 s.
Proof. intros N M s HM [tr R]. eapply run_INV; eauto. apply init_INV. Qed.
