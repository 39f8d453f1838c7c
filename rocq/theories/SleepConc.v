(* No wake-up is lost between readers and writers of one buffer. *)
From Verif Require Import Base SleepModel SleepSpec SleepProof.
Ltac Zify.zify_post_hook ::= idtac.

Definition ids (s : sspec) : list nat := map fst (asleep s) ++ map fst (woken s).
Definition owns (p : pc) (i : nat) : Prop := match p with Poll j | Yield j | SelWait j | Other j => j = i | _ => False end.
Definition rd (p : pc) (i : nat) : Prop := match p with Poll j | Yield j => j = i | _ => False end.
Definition locked (p : pc) : Prop := match p with Look | Poll _ | Put | Wake => True | _ => False end.
Lemma rd_owns p i : rd p i -> owns p i.
Proof. destruct p; cbn; tauto. Qed.

Section C.
Variable N : nat.
Record Inv (y : sys) (s : sspec) : Prop := {
  i_R : R (y_sl y) s;
  i_n : length (nod s) = N;
  i_own : forall t i, owns (y_pc y t) i -> In i (ids s);
  i_dis : forall t t' i, owns (y_pc y t) i -> owns (y_pc y t') i -> t = t';
  i_ch : forall t i c, rd (y_pc y t) i -> In (i, c) (asleep s) -> c = rch;
  i_lk : forall t, locked (y_pc y t) -> y_lock y = Some t;
  i_flag : forall t i, rd (y_pc y t) i -> y_flag y = true;
  i_main : forall t i, rd (y_pc y t) i -> In (i, rch) (asleep s) -> (forall t', y_pc y t' <> Wake) -> y_data y = O
}.

(* the wake-ups *)
Definition wakes (s s' : sspec) : Prop := (forall x, In x (asleep s') -> In x (asleep s)) /\ (forall i, In i (ids s) -> In i (ids s')).
Lemma wakes_trans a b c : wakes a b -> wakes b c -> wakes a c.
Proof. intros (A1 & A2) (B1 & B2). split; auto. Qed.
Lemma wakes_refl a : wakes a a.
Proof. split; auto. Qed.
Lemma wake_all_wakes ch s : wakes s (wake_all ch s).
Proof.
  split; unfold wake_all, ids; cbn [asleep woken].
  - intros x Hx. apply filter_In in Hx. apply Hx.
  - intros i Hi. apply in_app_or in Hi. rewrite map_app. apply in_or_app. destruct Hi as [Hi|Hi]; [|right; apply in_or_app; right; exact Hi].
    apply in_map_iff in Hi. destruct Hi as (x & E & Hx). destruct (on ch x) eqn:O.
    + right. apply in_or_app. left. rewrite map_map. cbn [fst]. apply in_map_iff. exists x. split; [exact E|apply filter_In; split; assumption].
    + left. apply in_map_iff. exists x. split; [exact E|]. apply filter_In. rewrite O. split; [exact Hx|reflexivity].
Qed.
Lemma wake_one_wakes ch t s : wakes s (wake_one ch t s).
Proof.
  unfold wake_one. destruct (take_first (on ch) (asleep s)) as [[x r]|] eqn:T; [|apply wakes_refl]. destruct (take_first_split _ _ _ _ T) as (_ & l1 & l2 & E & -> & _).
  split; unfold ids; cbn [asleep woken]; rewrite E.
  - intros z Hz. apply in_app_or in Hz. apply in_or_app. destruct Hz; [left|right; right]; assumption.
  - intros i Hi. rewrite map_app in *. cbn [map fst] in *. rewrite !in_app_iff in *. cbn [In] in *. rewrite ?in_app_iff in *. tauto.
Qed.
Lemma selects_wakes ch s : wakes s (selects ch s).
Proof. unfold selects. destruct (ch =? 0); [apply wakes_refl|apply wake_all_wakes]. Qed.

Lemma inv_len y s : Inv y s -> (length (asleep s) <= N)%nat.
Proof. intros H. rewrite <- (i_n _ _ H). apply asleep_len. Qed.
Lemma inv_in y s t i : Inv y s -> owns (y_pc y t) i -> (s_go (y_sl y) i = true -> In i (map fst (woken s))) /\ (s_go (y_sl y) i = false -> exists c, In (i, c) (asleep s)).
Proof.
  intros H O. assert (X := i_own _ _ H t i O). unfold ids in X. apply in_app_or in X. assert (HR := i_R _ _ H). split; intros G.
  - destruct X as [X|X]; [|exact X]. apply in_map_iff in X. destruct X as ([j c] & E & X). cbn [fst] in E. subst j. destruct (r_asleep _ _ HR _ _ X) as (_ & Y & _). congruence.
  - destruct X as [X|X].
    + apply in_map_iff in X. destruct X as ([j c] & E & X). cbn [fst] in E. subst j. exists c. exact X.
    + apply in_map_iff in X. destruct X as ([j c] & E & X). cbn [fst] in E. subst j. destruct (r_woken _ _ HR _ _ X) as (Y & _). congruence.
Qed.

(* one thread changes its program counter *)
Lemma inv_upd y s t p' lk' d' f' sl' s' : Inv y s -> R sl' s' -> length (nod s') = N ->
  (forall t' i, t' <> t -> owns (y_pc y t') i -> In i (ids s')) ->
  (forall i, owns p' i -> In i (ids s') /\ forall t', t' <> t -> ~ owns (y_pc y t') i) ->
  (forall t' i c, t' <> t -> rd (y_pc y t') i -> In (i, c) (asleep s') -> In (i, c) (asleep s)) ->
  (forall i c, rd p' i -> In (i, c) (asleep s') -> c = rch) ->
  (locked p' -> lk' = Some t) -> (forall t', t' <> t -> locked (y_pc y t') -> lk' = Some t') ->
  (y_flag y = true -> f' = true) -> (forall i, rd p' i -> f' = true) ->
  (forall t0 i, (t0 = t /\ rd p' i) \/ (t0 <> t /\ rd (y_pc y t0) i) -> In (i, rch) (asleep s') -> p' <> Wake -> (forall t', t' <> t -> y_pc y t' <> Wake) -> d' = O) ->
  Inv (mkSys (setpc y t p') lk' d' f' sl') s'.
Proof.
  intros H HR HN H1 H2 H3 H4 H5 H6 H7 H8 H9. constructor; cbn [y_pc y_lock y_data y_flag y_sl]; try assumption; unfold setpc, up.
  - intros t0 i. destruct (Nat.eqb_spec t0 t); [intros O; apply (H2 i O)|apply H1; assumption].
  - intros t0 t1 i. destruct (Nat.eqb_spec t0 t) as [->|N0], (Nat.eqb_spec t1 t) as [->|N1]; intros A B; try reflexivity.
    + exfalso. apply (proj2 (H2 i A) t1 N1 B).
    + exfalso. apply (proj2 (H2 i B) t0 N0 A).
    + apply (i_dis _ _ H t0 t1 i A B).
  - intros t0 i c. destruct (Nat.eqb_spec t0 t) as [->|N0]; intros A B; [apply (H4 i c A B)|]. apply (i_ch _ _ H t0 i c A). apply (H3 t0); assumption.
  - intros t0. destruct (Nat.eqb_spec t0 t) as [->|N0]; intros A; [apply H5, A|apply H6; assumption].
  - intros t0 i. destruct (Nat.eqb_spec t0 t) as [->|N0]; intros A; [apply (H8 i A)|apply H7, (i_flag _ _ H t0 i A)].
  - intros t0 i A B C. apply (H9 t0 i); [|exact B| |].
    + destruct (Nat.eqb_spec t0 t) as [->|N0]; [left; split; [reflexivity|exact A]|right; split; [exact N0|exact A]].
    + specialize (C t). rewrite Nat.eqb_refl in C. exact C.
    + intros t' NT. specialize (C t'). apply Nat.eqb_neq in NT. rewrite NT in C. exact C.
Qed.
Lemma inv_wakes y s sl' s' : Inv y s -> R sl' s' -> length (nod s') = N -> wakes s s' -> Inv (mkSys (y_pc y) (y_lock y) (y_data y) (y_flag y) sl') s'.
Proof.
  intros H HR HN (W1 & W2). destruct H as [A1 A2 A3 A4 A5 A6 A7 A8]. constructor; cbn [y_pc y_lock y_data y_flag y_sl]; try assumption.
  - intros t i O. apply W2, (A3 t i O).
  - intros t i c O I. apply (A5 t i c O). apply W1, I.
  - intros t i O I. apply (A8 t i O). apply W1, I.
Qed.
Lemma begin_facts st s ch sl' o : R st s -> sleep_begin st ch false = (sl', o) ->
  match o with
  | None => sl' = st
  | Some i => exists s', R sl' s' /\ length (nod s') = length (nod s) /\ asleep s' = (i, ch) :: asleep s /\ woken s' = woken s /\ ~ In i (ids s)
  end.
Proof.
  intros H E. destruct (sleep_begin_ok st s ch false H) as (st' & E' & H'). rewrite E in E'. inversion E'; subst sl' o. assert (LE := sstep_len s (SSleep ch false)). cbn [sstep] in H', LE.
  destruct (spare s) as [|i r] eqn:SP.
  - unfold sleep_begin in E. assert (F := r_free _ _ H). rewrite SP in F. cbn [chain] in F. rewrite F in E. inversion E. reflexivity.
  - exists (mkS ((i, ch) :: asleep s) (woken s) r). cbn [fst] in *. split; [exact H'|]. split; [exact LE|]. split; [reflexivity|]. split; [reflexivity|].
    assert (ND := r_nodup _ _ H). rewrite SP in ND. rewrite app_assoc in ND. apply NoDup_remove_2 in ND. intros X. apply ND. apply in_or_app. left. exact X.
Qed.
Lemma end_facts st s i sl' b : R st s -> In i (map fst (woken s)) -> sleep_end st i = (sl', b) ->
  exists s', R sl' s' /\ length (nod s') = length (nod s) /\ asleep s' = asleep s /\ (forall j, j <> i -> In j (ids s) -> In j (ids s')).
Proof.
  intros H HI E. destruct (sleep_end_ok st s i H HI) as (st' & b' & E' & E2 & H'). rewrite E in E'. inversion E'; subst st' b'. exists (fst (sstep s (SReturn i))). split; [exact H'|]. split; [apply sstep_len|].
  cbn [sstep]. destruct (take_first (fun x => Nat.eqb (fst x) i) (woken s)) as [[x r]|] eqn:T; [|split; [reflexivity|intros j _ Hj; exact Hj]]. cbn [fst asleep]. split; [reflexivity|].
  destruct (take_first_split _ _ _ _ T) as (P & l1 & l2 & EW & -> & _). apply Nat.eqb_eq in P. intros j NJ Hj. unfold ids in *. cbn [asleep woken]. rewrite EW in Hj. rewrite map_app in *. cbn [map] in Hj. rewrite P in Hj.
  rewrite !in_app_iff in *. cbn [In] in Hj. rewrite ?in_app_iff in *. destruct Hj as [Hj|[Hj|[Hj|Hj]]]; auto. congruence.
Qed.

Lemma step_inv y y' : step N y y' -> (exists s, Inv y s) -> exists s, Inv y' s.
Proof.
  intros ST (s & H). assert (HR := i_R _ _ H). assert (HN := i_n _ _ H).
  assert (OWN : forall t t' i, t' <> t -> owns (y_pc y t') i -> In i (ids s)) by (intros t t' i _ O; apply (i_own _ _ H t' i O)).
  assert (LK0 : y_lock y = None -> forall t, ~ locked (y_pc y t)) by (intros E t L; apply (i_lk _ _ H) in L; congruence).
  assert (LK1 : forall t, locked (y_pc y t) -> forall t', t' <> t -> ~ locked (y_pc y t')) by (intros t L t' NT L'; apply (i_lk _ _ H) in L, L'; congruence).
  assert (NW : forall t, locked (y_pc y t) -> y_pc y t <> Wake -> forall t', y_pc y t' <> Wake).
  { intros t L NE t' E. destruct (Nat.eq_dec t' t) as [->|NT]; [contradiction|]. apply (LK1 t L t' NT). rewrite E. exact I. }
  assert (NW0 : y_lock y = None -> forall t', y_pc y t' <> Wake) by (intros E t' X; apply (LK0 E t'); rewrite X; exact I).
  destruct ST as [t P L|t P D|t sl i P D B|t sl P D B|t i P G|t i P L|t i sl b P G B|t P L|t P|t sl1 sl2 P F W1 W2|t P F|t P|t P D|t P D|t sl i P B|t i sl b P G B|t ch sl i P NC B|t i sl b P G B|ch one sl W|ch sl W].
  - (* lock *) exists s. apply inv_upd with (s := s); try assumption; cbn [owns rd locked]; try tauto; try congruence.
    + apply OWN. + intros t' NT L'. exfalso. apply (LK0 L t' L'). + intros t0 i [(_ & [])|(_ & O)] IN _ _. apply (i_main _ _ H t0 i O IN). apply NW0, L.
  - (* take *) exists s. assert (LT : locked (y_pc y t)) by (rewrite P; exact I). apply inv_upd with (s := s); try assumption; cbn [owns rd locked]; try tauto; try congruence.
    + apply OWN. + intros t' NT L'. exfalso. apply (LK1 t LT t' NT L'). + intros t0 i [(_ & [])|(_ & O)] IN _ _. assert (X := i_main _ _ H t0 i O IN (NW t LT ltac:(rewrite P; discriminate))). congruence.
  - (* wait *) assert (LT : locked (y_pc y t)) by (rewrite P; exact I). destruct (begin_facts _ _ _ _ _ HR B) as (s' & R' & N' & A' & W' & NI). exists s'.
    assert (ID : forall j, In j (ids s) -> In j (ids s')) by (intros j Hj; unfold ids in *; rewrite A', W'; cbn [map fst app]; right; exact Hj).
    apply inv_upd with (s := s); try assumption; cbn [owns rd locked]; try tauto; try congruence.
    + intros t' j NT O. apply ID, (i_own _ _ H t' j O).
    + intros j <-. split; [unfold ids; rewrite A'; left; reflexivity|]. intros t' NT O. apply NI, (i_own _ _ H t' i O).
    + intros t' j c NT O IN. rewrite A' in IN. destruct IN as [E|IN]; [|exact IN]. inversion E; subst. exfalso. apply NI, (i_own _ _ H t' j), rd_owns, O.
    + intros j c <- IN. rewrite A' in IN. destruct IN as [E|IN]; [inversion E; reflexivity|]. exfalso. apply NI. unfold ids. apply in_or_app. left. apply (in_map fst) in IN. exact IN.
    + intros _. apply (i_lk _ _ H), LT.
    + intros t' NT L'. exfalso. apply (LK1 t LT t' NT L').
  - (* no sleeper left *) assert (LT : locked (y_pc y t)) by (rewrite P; exact I). assert (E := begin_facts _ _ _ _ _ HR B). cbv iota in E. subst sl. exists s.
    apply inv_upd with (s := s); try assumption; cbn [owns rd locked]; try tauto; try congruence.
    + apply OWN. + intros t' NT L'. exfalso. apply (LK1 t LT t' NT L').
  - (* give up the lock *) exists s. assert (LT : locked (y_pc y t)) by (rewrite P; exact I). apply inv_upd with (s := s); try assumption; cbn [owns rd locked]; try tauto; try congruence.
    + apply OWN.
    + intros j <-. split; [apply (i_own _ _ H t i); rewrite P; reflexivity|]. intros t' NT O. apply NT, (i_dis _ _ H t' t i O). rewrite P. reflexivity.
    + intros j c <- IN. apply (i_ch _ _ H t i c); [rewrite P; reflexivity|exact IN].
    + intros t' NT L'. exfalso. apply (LK1 t LT t' NT L').
    + intros j <-. apply (i_flag _ _ H t i). rewrite P. reflexivity.
    + intros t0 j O IN _ _. assert (X : exists t1, rd (y_pc y t1) j) by (destruct O as [(_ & <-)|(_ & O)]; [exists t; rewrite P; reflexivity|exists t0; exact O]). destruct X as (t1 & X).
      apply (i_main _ _ H t1 j X IN). apply (NW t LT). rewrite P. discriminate.
  - (* take it back *) exists s. apply inv_upd with (s := s); try assumption; cbn [owns rd locked]; try tauto; try congruence.
    + apply OWN.
    + intros j <-. split; [apply (i_own _ _ H t i); rewrite P; reflexivity|]. intros t' NT O. apply NT, (i_dis _ _ H t' t i O). rewrite P. reflexivity.
    + intros j c <- IN. apply (i_ch _ _ H t i c); [rewrite P; reflexivity|exact IN].
    + intros t' NT L'. exfalso. apply (LK0 L t' L').
    + intros j <-. apply (i_flag _ _ H t i). rewrite P. reflexivity.
    + intros t0 j O IN _ _. assert (X : exists t1, rd (y_pc y t1) j) by (destruct O as [(_ & <-)|(_ & O)]; [exists t; rewrite P; reflexivity|exists t0; exact O]). destruct X as (t1 & X).
      apply (i_main _ _ H t1 j X IN). apply NW0, L.
  - (* wake up *) assert (LT : locked (y_pc y t)) by (rewrite P; exact I). assert (OI : owns (y_pc y t) i) by (rewrite P; reflexivity).
    destruct (end_facts _ _ _ _ _ HR (proj1 (inv_in _ _ t i H OI) G) B) as (s' & R' & N' & A' & ID). exists s'.
    apply inv_upd with (s := s); try assumption; cbn [owns rd locked]; try tauto; try congruence.
    + intros t' j NT O. apply ID; [|apply (i_own _ _ H t' j O)]. intros ->. apply NT, (i_dis _ _ H t' t i O OI).
    + intros _. apply (i_lk _ _ H), LT.
    + intros t' NT L'. exfalso. apply (LK1 t LT t' NT L').
    + intros t0 j [(_ & [])|(_ & O)] IN _ _. rewrite A' in IN. apply (i_main _ _ H t0 j O IN). apply (NW t LT). rewrite P. discriminate.
  - (* writer locks *) exists s. apply inv_upd with (s := s); try assumption; cbn [owns rd locked]; try tauto; try congruence.
    + apply OWN. + intros t' NT L'. exfalso. apply (LK0 L t' L'). + intros t0 i [(_ & [])|(_ & O)] IN _ _. apply (i_main _ _ H t0 i O IN). apply NW0, L.
  - (* append *) exists s. assert (LT : locked (y_pc y t)) by (rewrite P; exact I). apply inv_upd with (s := s); try assumption; cbn [owns rd locked]; try tauto; try congruence.
    + apply OWN. + intros _. apply (i_lk _ _ H), LT. + intros t' NT L'. exfalso. apply (LK1 t LT t' NT L').
  - (* wake all *) assert (LT : locked (y_pc y t)) by (rewrite P; exact I).
    destruct (wakeup_ok (y_sl y) s 0 false N HR (inv_len _ _ H)) as (a1 & E1 & R1). rewrite W1 in E1. inversion E1; subst a1. set (s1 := wake_all 0 (selects 0 s)) in *.
    assert (L1 : length (nod s1) = N) by (unfold s1; rewrite wake_all_len, selects_len; exact HN).
    destruct (wakeup_ok sl1 s1 rch false N R1 ltac:(rewrite <- L1; apply asleep_len)) as (a2 & E2 & R2). rewrite W2 in E2. inversion E2; subst a2. set (s2 := wake_all rch (selects rch s1)) in *.
    assert (L2 : length (nod s2) = N) by (unfold s2; rewrite wake_all_len, selects_len; exact L1).
    assert (WW : wakes s s2). { apply (wakes_trans _ (selects 0 s)); [apply selects_wakes|]. apply (wakes_trans _ s1); [apply wake_all_wakes|]. apply (wakes_trans _ (selects rch s1)); [apply selects_wakes|apply wake_all_wakes]. }
    destruct WW as (WA & WB). exists s2. apply inv_upd with (s := s); try assumption; cbn [owns rd locked]; try tauto; try congruence.
    + intros t' i NT O. apply WB, (i_own _ _ H t' i O).
    + intros t' i c NT O IN. apply WA, IN.
    + intros t' NT L'. exfalso. apply (LK1 t LT t' NT L').
    + intros t0 i _ IN _ _. exfalso. unfold s2, wake_all in IN. cbn [asleep] in IN. apply filter_In in IN. destruct IN as (_ & IN). cbn in IN. discriminate.
  - (* nobody waits *) exists s. assert (LT : locked (y_pc y t)) by (rewrite P; exact I). apply inv_upd with (s := s); try assumption; cbn [owns rd locked]; try tauto; try congruence.
    + apply OWN. + intros t' NT L'. exfalso. apply (LK1 t LT t' NT L'). + intros t0 i [(_ & [])|(_ & O)] _ _ _. apply (i_flag _ _ H) in O. congruence.
  - exists s. apply inv_upd with (s := s); try assumption; cbn [owns rd locked]; try tauto; try congruence.
    + apply OWN. + intros t' NT L'. apply (i_lk _ _ H), L'. + intros t0 i [(_ & [])|(_ & O)] IN _ NW'. apply (i_main _ _ H t0 i O IN). intros t'. destruct (Nat.eq_dec t' t) as [->|NT]; [rewrite P; discriminate|apply NW', NT].
  - exists s. apply inv_upd with (s := s); try assumption; cbn [owns rd locked]; try tauto; try congruence.
    + apply OWN. + intros t' NT L'. apply (i_lk _ _ H), L'. + intros t0 i [(_ & [])|(_ & O)] IN _ NW'. apply (i_main _ _ H t0 i O IN). intros t'. destruct (Nat.eq_dec t' t) as [->|NT]; [rewrite P; discriminate|apply NW', NT].
  - exists s. apply inv_upd with (s := s); try assumption; cbn [owns rd locked]; try tauto; try congruence.
    + apply OWN. + intros t' NT L'. apply (i_lk _ _ H), L'.
  - destruct (begin_facts _ _ _ _ _ HR B) as (s' & R' & N' & A' & W' & NI). exists s'.
    assert (ID : forall j, In j (ids s) -> In j (ids s')) by (intros j Hj; unfold ids in *; rewrite A', W'; cbn [map fst app]; right; exact Hj).
    apply inv_upd with (s := s); try assumption; cbn [owns rd locked]; try tauto; try congruence.
    + intros t' j NT O. apply ID, (i_own _ _ H t' j O).
    + intros j <-. split; [unfold ids; rewrite A'; left; reflexivity|]. intros t' NT O. apply NI, (i_own _ _ H t' i O).
    + intros t' j c NT O IN. rewrite A' in IN. destruct IN as [E|IN]; [|exact IN]. inversion E; subst. exfalso. apply NI, (i_own _ _ H t' j), rd_owns, O.
    + intros t' NT L'. apply (i_lk _ _ H), L'.
    + intros t0 j [(_ & [])|(_ & O)] IN _ NW'. rewrite A' in IN. destruct IN as [E|IN]; [discriminate|]. apply (i_main _ _ H t0 j O IN). intros t'. destruct (Nat.eq_dec t' t) as [->|NT]; [rewrite P; discriminate|apply NW', NT].
  - assert (OI : owns (y_pc y t) i) by (rewrite P; reflexivity).
    destruct (end_facts _ _ _ _ _ HR (proj1 (inv_in _ _ t i H OI) G) B) as (s' & R' & N' & A' & ID). exists s'.
    apply inv_upd with (s := s); try assumption; cbn [owns rd locked]; try tauto; try congruence.
    + intros t' j NT O. apply ID; [|apply (i_own _ _ H t' j O)]. intros ->. apply NT, (i_dis _ _ H t' t i O OI).
    + intros t' NT L'. apply (i_lk _ _ H), L'.
    + intros t0 j [(_ & [])|(_ & O)] IN _ NW'. rewrite A' in IN. apply (i_main _ _ H t0 j O IN). intros t'. destruct (Nat.eq_dec t' t) as [->|NT]; [rewrite P; discriminate|apply NW', NT].
  - destruct (begin_facts _ _ _ _ _ HR B) as (s' & R' & N' & A' & W' & NI). exists s'.
    assert (ID : forall j, In j (ids s) -> In j (ids s')) by (intros j Hj; unfold ids in *; rewrite A', W'; cbn [map fst app]; right; exact Hj).
    apply inv_upd with (s := s); try assumption; cbn [owns rd locked]; try tauto; try congruence.
    + intros t' j NT O. apply ID, (i_own _ _ H t' j O).
    + intros j <-. split; [unfold ids; rewrite A'; left; reflexivity|]. intros t' NT O. apply NI, (i_own _ _ H t' i O).
    + intros t' j c NT O IN. rewrite A' in IN. destruct IN as [E|IN]; [|exact IN]. inversion E; subst. exfalso. apply NI, (i_own _ _ H t' j), rd_owns, O.
    + intros t' NT L'. apply (i_lk _ _ H), L'.
    + intros t0 j [(_ & [])|(_ & O)] IN _ NW'. rewrite A' in IN. destruct IN as [E|IN]; [inversion E; contradiction|]. apply (i_main _ _ H t0 j O IN). intros t'. destruct (Nat.eq_dec t' t) as [->|NT]; [rewrite P; discriminate|apply NW', NT].
  - assert (OI : owns (y_pc y t) i) by (rewrite P; reflexivity).
    destruct (end_facts _ _ _ _ _ HR (proj1 (inv_in _ _ t i H OI) G) B) as (s' & R' & N' & A' & ID). exists s'.
    apply inv_upd with (s := s); try assumption; cbn [owns rd locked]; try tauto; try congruence.
    + intros t' j NT O. apply ID; [|apply (i_own _ _ H t' j O)]. intros ->. apply NT, (i_dis _ _ H t' t i O OI).
    + intros t' NT L'. apply (i_lk _ _ H), L'.
    + intros t0 j [(_ & [])|(_ & O)] IN _ NW'. rewrite A' in IN. apply (i_main _ _ H t0 j O IN). intros t'. destruct (Nat.eq_dec t' t) as [->|NT]; [rewrite P; discriminate|apply NW', NT].
  - destruct (wakeup_ok (y_sl y) s ch one N HR (inv_len _ _ H)) as (a & E & R'). rewrite W in E. inversion E; subst a. eexists. apply (inv_wakes _ _ _ _ H R').
    + destruct one; rewrite ?wake_one_len, ?wake_all_len, selects_len; exact HN.
    + apply (wakes_trans _ (selects ch s)); [apply selects_wakes|]. destruct one; [apply wake_one_wakes|apply wake_all_wakes].
  - unfold timer_fires in W. destruct (wake1_one (y_sl y) s ch true N HR (inv_len _ _ H)) as (a & E & R'). rewrite W in E. inversion E; subst a. eexists. apply (inv_wakes _ _ _ _ H R'); [rewrite wake_one_len; exact HN|apply wake_one_wakes].
Qed.
Lemma reach_inv y : reach N y -> exists s, Inv y s.
Proof.
  induction 1 as [|y y' _ IH ST]; [|apply (step_inv _ _ ST IH)]. exists (s0 N). constructor; cbn [y0 y_pc y_lock y_data y_flag y_sl owns rd locked]; try tauto.
  - apply R_init.
  - unfold nod, s0. cbn [asleep woken spare map app]. apply seq_length.
Qed.
End C.
