(* Invariant of the shared table. *)
From Verif Require Import Base Pcb6Model Pcb6Spec.
Ltac Zify.zify_post_hook ::= idtac.

Lemma aeq_iff a b : aeq a b = true <-> a = b.
Proof.
  unfold aeq. rewrite andb_true_iff, !Z.eqb_eq. destruct a, b. cbn [fst snd]. split.
  - intros [-> ->]. reflexivity.
  - intros E. injection E as -> ->. auto.
Qed.
Lemma any_iff a : is_any a = true <-> a = any.
Proof. change (is_any a) with (aeq a any). apply aeq_iff. Qed.
Lemma any_false a : is_any a = false <-> a <> any.
Proof. rewrite <- not_true_iff_false, any_iff. reflexivity. Qed.
Lemma aeq_false a b : aeq a b = false <-> a <> b.
Proof. rewrite <- not_true_iff_false, aeq_iff. reflexivity. Qed.

Record Inv (h : hfun) (d : db) : Prop := mkInv {
  i_hash : forall k i, In i (hash d k) <-> exists p, holds d i p /\ k = h (snd (fa p)) (lp p) (fp p);
  i_port : forall q i, In i (ports d q) <-> exists p, holds d i p /\ q = lp p;
  i_new : forall i p, pcbs d i = Some p -> hashed p = false -> la p = any /\ lp p = 0 /\ fa p = any /\ fp p = 0;
  i_lp : forall i p, holds d i p -> lp p <> 0;
  i_fp : forall i p, holds d i p -> fa p = any -> fp p = 0;
  i_v : forall i p, pcbs d i = Some p -> v6 p = false -> v4 p = true /\ fst (la p) = 0 /\ fst (fa p) = 0 }.

(* ---- lists ---- *)
Definition ok_list (d : db) (l : list nat) : Prop := forall i, In i l -> exists p, pcbs d i = Some p.
Lemma ok_hash h d k : Inv h d -> ok_list d (hash d k).
Proof. intros I i H. apply (i_hash _ _ I) in H. destruct H as (p & [E _] & _). eauto. Qed.
Lemma ok_port h d q : Inv h d -> ok_list d (ports d q).
Proof. intros I i H. apply (i_port _ _ I) in H. destruct H as (p & [E _] & _). eauto. Qed.
Lemma ok_cons d i l : ok_list d (i :: l) -> (exists p, pcbs d i = Some p) /\ ok_list d l.
Proof. intros H. split; [apply H; left; reflexivity|]. intros j Hj. apply H. right. exact Hj. Qed.

Lemma first_spec d f : forall l, ok_list d l -> exists r, first_pcb d f l = Ret r /\
  match r with
  | Some i => In i l /\ exists p, pcbs d i = Some p /\ f p = true
  | None => forall i p, In i l -> pcbs d i = Some p -> f p = false
  end.
Proof.
  induction l as [|i l IH]; intros O.
  - exists None. split; [reflexivity|]. intros ? ? [].
  - destruct (ok_cons _ _ _ O) as ((p & E) & O'). cbn [first_pcb]. unfold get. rewrite E. cbn [obind].
    destruct (f p) eqn:F.
    + exists (Some i). split; [reflexivity|]. split; [left; reflexivity|eauto].
    + destruct (IH O') as (r & Er & K). exists r. split; [exact Er|]. destruct r as [j|].
      * destruct K as [K1 K2]. split; [right; exact K1|exact K2].
      * intros j q [->|Hj] Eq; [congruence|eauto].
Qed.

Lemma best_spec d cost : forall l m mw, ok_list d l ->
  (forall p w, cost p = Some w -> 0 <= w < mw \/ m <> None) -> exists r, best_pcb d cost l m mw = Ret r /\
  match r with
  | Some i => m = Some i \/ (In i l /\ exists p w, pcbs d i = Some p /\ cost p = Some w)
  | None => m = None /\ forall i p, In i l -> pcbs d i = Some p -> cost p = None
  end.
Proof.
  induction l as [|i l IH]; intros m mw O C.
  - exists m. split; [reflexivity|]. destruct m as [j|]; [left; reflexivity|]. split; [reflexivity|]. intros ? ? [].
  - destruct (ok_cons _ _ _ O) as ((p & E) & O'). cbn [best_pcb]. unfold get. rewrite E. cbn [obind].
    destruct (cost p) as [w|] eqn:K.
    + destruct (w <? mw) eqn:L.
      * destruct (w =? 0) eqn:W.
        { exists (Some i). split; [reflexivity|]. right. split; [left; reflexivity|eauto]. }
        destruct (IH (Some i) w O') as (r & Er & R); [intros; right; discriminate|].
        exists r. split; [exact Er|]. destruct r as [j|]; [|destruct R as [R _]; discriminate].
        destruct R as [R|[R1 R2]]; [injection R as <-; right; split; [left; reflexivity|eauto]|].
        right. split; [right; exact R1|exact R2].
      * destruct (IH m mw O' C) as (r & Er & R). exists r. split; [exact Er|].
        destruct r as [j|]; [destruct R as [R|[R1 R2]]; [left; exact R|right; split; [right; exact R1|exact R2]]|].
        destruct R as [R _]. destruct (C p w K) as [C1|C1]; [apply Z.ltb_ge in L; lia|congruence].
    + destruct (IH m mw O' C) as (r & Er & R). exists r. split; [exact Er|]. destruct r as [j|].
      * destruct R as [R|[R1 R2]]; [left; exact R|right; split; [right; exact R1|exact R2]].
      * destruct R as [R1 R2]. split; [exact R1|]. intros j q [->|Hj] Eq; [congruence|eauto].
Qed.

Lemma wild6_spec d a q : forall l w e, ok_list d l -> exists r, wild6 d l a q w e = Ret r /\
  let spec p := v6 p = true /\ fa p = any /\ lp p = q /\ la p = a in
  let wld p := v6 p = true /\ fa p = any /\ lp p = q /\ la p = any in
  match r with
  | Some i => (e = Some i \/ exists p, In i l /\ pcbs d i = Some p /\ spec p) \/
      (e = None /\ (forall j p, In j l -> pcbs d j = Some p -> ~ spec p) /\
       (w = Some i \/ exists p, In i l /\ pcbs d i = Some p /\ wld p))
  | None => e = None /\ w = None /\ forall j p, In j l -> pcbs d j = Some p -> ~ spec p /\ ~ wld p
  end.
Proof.
  induction l as [|i l IH]; intros w e O; cbv zeta in *.
  - eexists. split; [reflexivity|]. destruct e as [x|]; [left; left; reflexivity|].
    destruct w as [x|]; [right; split; [reflexivity|]; split; [intros ? ? []|left; reflexivity]|].
    split; [reflexivity|]. split; [reflexivity|]. intros ? ? [].
  - destruct (ok_cons _ _ _ O) as ((p & E) & O'). cbn [wild6]. unfold get. rewrite E. cbn [obind].
    assert (Skip : ~ (v6 p = true /\ fa p = any /\ lp p = q /\ la p = a) ->
                   ~ (v6 p = true /\ fa p = any /\ lp p = q /\ la p = any) ->
      exists r, wild6 d l a q w e = Ret r /\
      match r with
      | Some i0 => (e = Some i0 \/ exists p, In i0 (i :: l) /\ pcbs d i0 = Some p /\ (v6 p = true /\ fa p = any /\ lp p = q /\ la p = a)) \/
          (e = None /\ (forall j p, In j (i :: l) -> pcbs d j = Some p -> ~ (v6 p = true /\ fa p = any /\ lp p = q /\ la p = a)) /\
           (w = Some i0 \/ exists p, In i0 (i :: l) /\ pcbs d i0 = Some p /\ (v6 p = true /\ fa p = any /\ lp p = q /\ la p = any)))
      | None => e = None /\ w = None /\ forall j p, In j (i :: l) -> pcbs d j = Some p ->
           ~ (v6 p = true /\ fa p = any /\ lp p = q /\ la p = a) /\ ~ (v6 p = true /\ fa p = any /\ lp p = q /\ la p = any)
      end).
    { intros N1 N2. destruct (IH w e O') as (r & Er & R). exists r. split; [exact Er|]. destruct r as [x|].
      - destruct R as [[R|(p' & R1 & R2)]|(R0 & R1 & [R2|(p' & R2 & R3)])].
        + left. left. exact R.
        + left. right. exists p'. split; [right; exact R1|exact R2].
        + right. split; [exact R0|]. split; [|left; exact R2].
          intros j p' [->|Hj] Ep; [rewrite E in Ep; injection Ep as <-; exact N1|eauto].
        + right. split; [exact R0|]. split; [|right; exists p'; split; [right; exact R2|exact R3]].
          intros j p'' [->|Hj] Ep; [rewrite E in Ep; injection Ep as <-; exact N1|eauto].
      - destruct R as (R1 & R2 & R3). split; [exact R1|]. split; [exact R2|].
        intros j p' [->|Hj] Ep; [rewrite E in Ep; injection Ep as <-; auto|eauto]. }
    destruct (v6 p) eqn:V; cbn [negb]; [|apply Skip; intros (Z1 & _); discriminate].
    destruct (is_any (fa p)) eqn:F; cbn [negb orb].
    2:{ apply any_false in F. apply Skip; tauto. }
    destruct (lp p =? q) eqn:Q; cbn [negb].
    2:{ apply Z.eqb_neq in Q. apply Skip; tauto. }
    apply any_iff in F. apply Z.eqb_eq in Q.
    destruct (aeq (la p) a) eqn:A.
    { apply aeq_iff in A. destruct (IH w (Some i) O') as (r & Er & R). exists r. split; [exact Er|].
      destruct r as [x|]; [|destruct R as [R _]; discriminate].
      destruct R as [[R|(p' & R1 & R2)]|(R0 & _)]; [|left; right; exists p'; split; [right; exact R1|exact R2]|discriminate].
      injection R as <-. left. right. exists p. split; [left; reflexivity|]. auto. }
    apply aeq_false in A. destruct (is_any (la p)) eqn:L; [|apply any_false in L; apply Skip; tauto].
    apply any_iff in L. destruct (IH (Some i) e O') as (r & Er & R). exists r. split; [exact Er|].
    destruct r as [x|]; [|destruct R as (_ & R & _); discriminate].
    destruct R as [[R|(p' & R1 & R2)]|(R0 & R1 & [R2|(p' & R2 & R3)])].
    + left. left. exact R.
    + left. right. exists p'. split; [right; exact R1|exact R2].
    + injection R2 as <-. right. split; [exact R0|]. split; [|right; exists p; split; [left; reflexivity|auto]].
      intros j p' [->|Hj] Ep; [rewrite E in Ep; injection Ep as <-; tauto|eauto].
    + right. split; [exact R0|]. split; [|right; exists p'; split; [right; exact R2|exact R3]].
      intros j p'' [->|Hj] Ep; [rewrite E in Ep; injection Ep as <-; tauto|eauto].
Qed.

(* ---- what the lookups find ---- *)
Lemma hashed_in h d k i p : Inv h d -> In i (hash d k) -> pcbs d i = Some p -> holds d i p /\ k = h (snd (fa p)) (lp p) (fp p).
Proof.
  intros I H E. apply (i_hash _ _ I) in H. destruct H as (p' & H1 & H2).
  assert (p' = p) by (destruct H1; congruence). subst. auto.
Qed.
Lemma ported_in h d q i p : Inv h d -> In i (ports d q) -> pcbs d i = Some p -> holds d i p /\ q = lp p.
Proof.
  intros I H E. apply (i_port _ _ I) in H. destruct H as (p' & H1 & H2).
  assert (p' = p) by (destruct H1; congruence). subst. auto.
Qed.

Lemma lookup6_receiver h d f fq a q : Inv h d ->
  exists r, lookup6 h d f fq a q true = Ret r /\ receiver6 d f fq a q r.
Proof.
  intros I. unfold lookup6.
  destruct (first_spec d (fun p => v6 p && (aeq (fa p) f && aeq (la p) a && (fp p =? fq) && (lp p =? q)))
              _ (ok_hash h d (h (snd f) q fq) I)) as (r & Er & K).
  rewrite Er. cbn [obind]. destruct r as [i|].
  - exists (Some i). split; [reflexivity|]. destruct K as (Hi & p & E & F).
    left. exists p. destruct (hashed_in _ _ _ _ _ I Hi E) as [H _].
    apply andb_prop in F. destruct F as [V F]. apply andb_prop in F. destruct F as [F F4].
    apply andb_prop in F. destruct F as [F F3]. apply andb_prop in F. destruct F as [F1 F2].
    apply aeq_iff in F1, F2. apply Z.eqb_eq in F3, F4. auto 10.
  - assert (Nc : forall j, ~ conn6 d f fq a q j).
    { intros j (p & H & V & F1 & F2 & F3 & F4).
      assert (Hj : In j (hash d (h (snd f) q fq))) by (apply (i_hash _ _ I); exists p; split; [exact H|congruence]).
      specialize (K j p Hj (proj1 H)). rewrite V in K.
      rewrite (proj2 (aeq_iff _ _) F1), (proj2 (aeq_iff _ _) F3), F2, F4, !Z.eqb_refl in K. discriminate. }
    destruct (wild6_spec d a q _ None None (ok_hash h d (h 0 q 0) I)) as (r & Er2 & R). cbv zeta in R.
    rewrite Er2. exists r. split; [reflexivity|].
    assert (B : forall a' j, bound6 d a' q j -> In j (hash d (h 0 q 0))).
    { intros a' j (p & H & V & F1 & F2 & F3). apply (i_hash _ _ I). exists p. split; [exact H|].
      rewrite (i_fp _ _ I j p H F1), F1, F3. reflexivity. }
    destruct r as [i|].
    + right. destruct R as [[R|(p & R1 & R2 & R3)]|(_ & R1 & [R2|(p & R2 & R3 & R4)])]; [discriminate| |discriminate|].
      * left. split; [exact Nc|]. exists p. destruct (hashed_in _ _ _ _ _ I R1 R2) as [H _]. tauto.
      * right. split; [exact Nc|]. split.
        { intros j Hb. pose proof (B _ _ Hb) as Hj. destruct Hb as (p' & H & Hb). apply (R1 j p' Hj (proj1 H)). tauto. }
        exists p. destruct (hashed_in _ _ _ _ _ I R2 R3) as [H _]. tauto.
    + destruct R as (_ & _ & R). intros j. split; [apply Nc|]. split.
      * intros Hb. pose proof (B _ _ Hb) as Hj. destruct Hb as (p' & H & Hb). apply (proj1 (R j p' Hj (proj1 H))). tauto.
      * intros Hb. pose proof (B _ _ Hb) as Hj. destruct Hb as (p' & H & Hb). apply (proj2 (R j p' Hj (proj1 H))). tauto.
Qed.

Lemma lookup6_exact h d f fq a q : Inv h d -> exists r, lookup6 h d f fq a q false = Ret r /\
  match r with Some i => conn6 d f fq a q i | None => forall j, ~ conn6 d f fq a q j end.
Proof.
  intros I. unfold lookup6.
  destruct (first_spec d (fun p => v6 p && (aeq (fa p) f && aeq (la p) a && (fp p =? fq) && (lp p =? q)))
              _ (ok_hash h d (h (snd f) q fq) I)) as (r & Er & K).
  rewrite Er. cbn [obind]. destruct r as [i|].
  - exists (Some i). split; [reflexivity|]. destruct K as (Hi & p & E & F).
    exists p. destruct (hashed_in _ _ _ _ _ I Hi E) as [H _].
    apply andb_prop in F. destruct F as [V F]. apply andb_prop in F. destruct F as [F F4].
    apply andb_prop in F. destruct F as [F F3]. apply andb_prop in F. destruct F as [F1 F2].
    apply aeq_iff in F1, F2. apply Z.eqb_eq in F3, F4. auto 10.
  - exists None. split; [reflexivity|]. intros j (p & H & V & F1 & F2 & F3 & F4).
    assert (Hj : In j (hash d (h (snd f) q fq))) by (apply (i_hash _ _ I); exists p; split; [exact H|congruence]).
    specialize (K j p Hj (proj1 H)). rewrite V in K.
    rewrite (proj2 (aeq_iff _ _) F1), (proj2 (aeq_iff _ _) F3), F2, F4, !Z.eqb_refl in K. discriminate.
Qed.

Lemma cost6_iff a p : (exists w, cost6 a p = Some w) <-> v6 p = true /\ overlap (la p) a.
Proof.
  unfold cost6, overlap. destruct (v6 p); cbn [negb]; [|split; [intros (w & H)|intros [H _]]; discriminate].
  destruct (is_any (la p)) eqn:L; cbn [negb].
  - apply any_iff in L. split; [auto|]. intros _. destruct (negb (is_any a)); eauto.
  - apply any_false in L. destruct (is_any a) eqn:A.
    + apply any_iff in A. split; [auto|eauto].
    + apply any_false in A. destruct (aeq (la p) a) eqn:Q; cbn [negb].
      * apply aeq_iff in Q. split; [auto|eauto].
      * apply aeq_false in Q. split; [intros (w & H); discriminate|tauto].
Qed.
Lemma cost6_range a p w : cost6 a p = Some w -> 0 <= w < 3.
Proof.
  unfold cost6. destruct (v6 p); cbn [negb]; [|discriminate].
  destruct (is_any (la p)), (is_any a), (is_any (fa p)), (aeq (la p) a); cbn [negb]; intros E; try discriminate E;
    injection E as <-; lia.
Qed.
Lemma cost4_range a p w : cost4 a p = Some w -> 0 <= w < 6.
Proof.
  unfold cost4. destruct (v4 p); cbn [negb]; [|discriminate].
  destruct (v6 p), (snd (la p) =? 0), (a =? 0), (snd (fa p) =? 0), (snd (la p) =? a); cbn [negb]; intros E;
    try discriminate E; injection E as <-; lia.
Qed.

Lemma local6_spec h d a q (s : bool) : Inv h d -> exists r, lookup_local6 h d a q (negb s) = Ret r /\
  (r <> None <-> if s then exists i, bound6 d a q i else taken6 d a q).
Proof.
  intros I. unfold lookup_local6. rewrite negb_involutive. destruct s; cbn [negb].
  - destruct (first_spec d (fun p => v6 p && (is_any (fa p) && aeq (la p) a && (lp p =? q))) _ (ok_hash h d (h 0 q 0) I))
      as (r & Er & K). exists r. split; [exact Er|]. destruct r as [i|].
    + split; [|discriminate]. intros _. destruct K as (Hi & p & E & F). exists i, p.
      destruct (hashed_in _ _ _ _ _ I Hi E) as [H _]. apply andb_prop in F. destruct F as [V F].
      apply andb_prop in F. destruct F as [F F3]. apply andb_prop in F. destruct F as [F1 F2].
      apply any_iff in F1. apply aeq_iff in F2. apply Z.eqb_eq in F3. auto.
    + split; [congruence|]. intros (i & p & H & V & F1 & F2 & F3).
      assert (Hi : In i (hash d (h 0 q 0))).
      { apply (i_hash _ _ I). exists p. split; [exact H|]. rewrite (i_fp _ _ I i p H F1), F1, F3. reflexivity. }
      specialize (K i p Hi (proj1 H)). rewrite V, (proj2 (any_iff _) F1), (proj2 (aeq_iff _ _) F2), F3, Z.eqb_refl in K.
      discriminate.
  - destruct (best_spec d (cost6 a) _ None 3 (ok_port h d q I)) as (r & Er & R).
    { intros p w H. left. exact (cost6_range _ _ _ H). }
    exists r. split; [exact Er|]. destruct r as [i|].
    + split; [|discriminate]. intros _. destruct R as [R|(Hi & p & w & E & C)]; [discriminate|].
      destruct (ported_in _ _ _ _ _ I Hi E) as [H Q].
      destruct (proj1 (cost6_iff a p) (ex_intro _ w C)) as [V O]. exists i, p. auto.
    + split; [congruence|]. intros (i & p & H & V & Q & O). destruct R as [_ R].
      assert (Hi : In i (ports d q)) by (apply (i_port _ _ I); exists p; auto).
      destruct (proj2 (cost6_iff a p) (conj V O)) as (w & C). rewrite (R i p Hi (proj1 H)) in C. discriminate.
Qed.

Lemma local4_some h d a q s : Inv h d -> exists r, lookup_local4 h d a q s = Ret r /\
  forall i, r = Some i -> exists p, pcbs d i = Some p.
Proof.
  intros I. unfold lookup_local4. destruct s; cbn [negb].
  - destruct (best_spec d (cost4 a) _ None 6 (ok_port h d q I)) as (r & Er & R).
    { intros p w H. left. exact (cost4_range _ _ _ H). }
    exists r. split; [exact Er|]. intros i ->. destruct R as [R|(_ & p & w & E & _)]; [discriminate|eauto].
  - match goal with |- context [first_pcb d ?f ?l] =>
      destruct (first_spec d f l (ok_hash h d (h 0 q 0) I)) as (r & Er & K) end.
    exists r. split; [exact Er|]. intros i ->. destruct K as (_ & p & E & _). eauto.
Qed.
