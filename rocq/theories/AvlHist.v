(* Any history of calls on any number of trees refines the ordered multisets. *)
From Verif Require Import Base AvlSpec AvlModel AvlRep AvlIns AvlRot AvlFun AvlRebal AvlInsert AvlClimb AvlDelete AvlLook.
From Coq Require Import Permutation.
Ltac Zify.zify_post_hook ::= idtac.

Notation occ := (count_occ Nat.eq_dec).
Lemma occ_cons x q l : occ (q :: l) x = (one x q + occ l x)%nat.
Proof. cbn [count_occ]. unfold one. destruct (Nat.eq_dec q x), (Nat.eq_dec x q); congruence || reflexivity. Qed.
Lemma occ_app x a b : occ (a ++ b) x = (occ a x + occ b x)%nat.
Proof. apply count_occ_app. Qed.
Lemma cnt_occ x t : cnt x t = occ (addrs t) x.
Proof. induction t as [|l IHl a k rk b r IHr]; [reflexivity|]. cbn [cnt addrs]. rewrite occ_app, occ_cons. lia. Qed.
Lemma height_le_size t : height t <= size t.
Proof. induction t; cbn [height size]; [lia|]. pose proof (size_nonneg t1). pose proof (size_nonneg t2). lia. Qed.

Lemma free_helper_ok : forall t fuel h fr p, rep h p t -> t <> L -> (Z.to_nat (height t) <= fuel)%nat -> (forall x, cnt x t <= 1)%nat ->
  exists h' fr', free_helper fuel h fr (root t) = Ret (h', fr', keys t) /\ (forall x, occ fr' x = (occ fr x + cnt x t)%nat) /\ (forall x, cnt x t = 0%nat -> h' x = h x).
Proof.
  induction t as [|l IHl a k rk b r IHr]; intros fuel h fr p R NL HF U; [contradiction|].
  pose proof (height_nonneg l). pose proof (height_nonneg r). cbn [height] in HF. destruct fuel as [|fuel]; [lia|]. cbn [free_helper root]. cbn [rep] in R. destruct R as (A0 & HA & RL & RR).
  apply Nat.eqb_neq in A0. rewrite A0, HA. cbn [n_left]. cbn [cnt] in U. assert (UA := U a). rewrite one_refl in UA.
  assert (EL : exists h1 fr1, (if Nat.eqb (root l) 0 then Ret (h, fr, []) else free_helper fuel h fr (root l)) = Ret (h1, fr1, keys l) /\
     (forall x, occ fr1 x = (occ fr x + cnt x l)%nat) /\ (forall x, cnt x l = 0%nat -> h1 x = h x)).
  { destruct l as [|ll la lk lr lb lrr]; [exists h, fr; split; [reflexivity|]; split; [intros; cbn [cnt]; lia|auto]|].
    assert (R0 : root (N ll la lk lr lb lrr) <> 0%nat) by (cbn [rep] in RL; apply RL). apply Nat.eqb_neq in R0. rewrite R0.
    apply (IHl fuel h fr a RL); [discriminate|lia|intros x; specialize (U x); lia]. }
  destruct EL as (h1 & fr1 & -> & C1 & O1). cbn [obind].
  assert (HA1 : h1 a = mkN k (root l) (root r) p rk b) by (rewrite O1 by lia; exact HA). rewrite HA1. cbn [n_right n_key].
  assert (RR1 : rep h1 a r) by (apply (rep_frame h); [exact RR|]; intros x Hx; apply O1; specialize (U x); lia).
  assert (ER : exists h2 fr2, (if Nat.eqb (root r) 0 then Ret (h1, fr1, []) else free_helper fuel h1 fr1 (root r)) = Ret (h2, fr2, keys r) /\
     (forall x, occ fr2 x = (occ fr1 x + cnt x r)%nat) /\ (forall x, cnt x r = 0%nat -> h2 x = h1 x)).
  { destruct r as [|ll la lk lr lb lrr]; [exists h1, fr1; split; [reflexivity|]; split; [intros; cbn [cnt]; lia|auto]|].
    assert (R0 : root (N ll la lk lr lb lrr) <> 0%nat) by (cbn [rep] in RR; apply RR). apply Nat.eqb_neq in R0. rewrite R0.
    apply (IHr fuel h1 fr1 a RR1); [discriminate|lia|intros x; specialize (U x); lia]. }
  destruct ER as (h2 & fr2 & -> & C2 & O2). cbn [obind node_free].
  eexists _, _. split; [reflexivity|]. split.
  - intros x. rewrite occ_cons, C2, C1. cbn [cnt]. lia.
  - intros x Hx. cbn [cnt] in Hx. unfold set_right. rewrite upd_ne by (intros ->; rewrite one_refl in Hx; lia). rewrite O2, O1 by lia. reflexivity.
Qed.

Section HIST.
Variables (n : nat) (cmpf : nat -> Z -> Z -> Z).
Hypothesis P : forall i, preorder (cmpf i).
Hypothesis N30 : Z.of_nat n < R30.

Notation entry := (option (atree * tr * bool)).
Definition good (h : heap) (i : nat) (e : entry) : Prop :=
  match e with
  | None => True
  | Some (ob, t, ok) => holds h (t_root ob) t /\ balanced t /\ sorted (cmpf i) (keys t) /\ t_length ob = size t /\ (ok = true -> ranked t)
  end.
Definition cnte (x : nat) (e : entry) : nat := match e with None => 0%nat | Some (ob, t, _) => (one x (t_root ob) + cnt x t)%nat end.
Fixpoint sum (x : nat) (E : list entry) : nat := match E with [] => 0%nat | e :: E => (cnte x e + sum x E)%nat end.
Definition ob_of (e : entry) : option atree := match e with None => None | Some (ob, _, _) => Some ob end.
Definition sp_of (e : entry) : stree := match e with None => None | Some (_, t, ok) => Some (keys t, ok) end.

Record Inv (w : world) (s : spec) (E : list entry) : Prop := {
  i_trees : w_trees w = map ob_of E;
  i_spec : s_trees s = map sp_of E;
  i_tfree : w_tfree w = s_tfree s;
  i_good : forall i, good (p_heap (w_pool w)) i (nth i E None);
  i_nodes : forall x, (occ (p_free (w_pool w)) x + sum x E)%nat = occ (seq 1 n) x
}.

Lemma occ_seq x : (occ (seq 1 n) x <= 1)%nat.
Proof. apply NoDup_count_occ, seq_NoDup. Qed.
Lemma sum_nth x E i : (cnte x (nth i E None) <= sum x E)%nat.
Proof. revert i. induction E as [|e E IH]; intros [|i]; cbn [nth sum]; try (cbn; lia). specialize (IH i). lia. Qed.
Lemma sum_two x E i j : i <> j -> (cnte x (nth i E None) + cnte x (nth j E None) <= sum x E)%nat.
Proof.
  revert i j. induction E as [|e E IH]; intros i j NE.
  - destruct i, j; cbn; lia.
  - destruct i as [|i], j as [|j]; cbn [nth sum].
    + congruence.
    + pose proof (sum_nth x E j). lia.
    + pose proof (sum_nth x E i). lia.
    + specialize (IH i j ltac:(congruence)). lia.
Qed.
Lemma put_length {A} i (x : A) l : length (put i x l) = length l.
Proof. revert i. induction l as [|y l IH]; intros [|i]; cbn [put length]; auto. Qed.
Lemma put_nth {A} (d x : A) l : forall i j, (i < length l)%nat -> nth j (put i x l) d = if Nat.eqb j i then x else nth j l d.
Proof. induction l as [|y l IH]; intros [|i] [|j] H; cbn [put nth length] in *; try lia; try reflexivity. cbn [Nat.eqb]. apply IH. lia. Qed.
Lemma put_map {A B} (f : A -> B) i x l : map f (put i x l) = put i (f x) (map f l).
Proof. revert i. induction l as [|y l IH]; intros [|i]; cbn [put map]; auto. rewrite IH. reflexivity. Qed.
Lemma put_same {A} (d : A) i l : put i (nth i l d) l = l.
Proof. revert i. induction l as [|y l IH]; intros [|i]; cbn [put nth]; auto. rewrite IH. reflexivity. Qed.
Lemma sum_put x e E : forall i, (i < length E)%nat -> (sum x (put i e E) + cnte x (nth i E None))%nat = (sum x E + cnte x e)%nat.
Proof. induction E as [|y E IH]; intros [|i] H; cbn [put sum nth length] in *; try lia. specialize (IH i ltac:(lia)). lia. Qed.
Lemma sum_app x E1 E2 : sum x (E1 ++ E2) = (sum x E1 + sum x E2)%nat.
Proof. induction E1 as [|e E1 IH]; cbn [app sum]; [reflexivity|]. rewrite IH. lia. Qed.

(* node count *)
Fixpoint nodes (E : list entry) : list nat := match E with [] => [] | None :: E => nodes E | Some (ob, t, _) :: E => t_root ob :: addrs t ++ nodes E end.
Lemma sum_nodes x E : sum x E = occ (nodes E) x.
Proof. induction E as [|[[[ob t] ok]|] E IH]; cbn [sum nodes cnte]; [reflexivity| |exact IH]. rewrite occ_cons, occ_app, cnt_occ, IH. lia. Qed.
Lemma nodes_used E : length (nodes E) = used (map sp_of E).
Proof.
  induction E as [|[[[ob t] ok]|] E IH]; cbn [nodes map sp_of used length]; [reflexivity| |exact IH].
  rewrite app_length, IH. pose proof (addrs_len t). pose proof (size_keys t). lia.
Qed.
Lemma inv_count w s E : Inv w s E -> (length (p_free (w_pool w)) + used (s_trees s) = n)%nat.
Proof.
  intros I. assert (PM : Permutation (p_free (w_pool w) ++ nodes E) (seq 1 n)).
  { apply (Permutation_count_occ Nat.eq_dec). intros x. rewrite occ_app, <- sum_nodes. apply (i_nodes _ _ _ I). }
  apply Permutation_length in PM. rewrite app_length, seq_length, nodes_used in PM. rewrite (i_spec _ _ _ I). exact PM.
Qed.
Lemma used_nth E i ob t ok : nth i E None = Some (ob, t, ok) -> (length (keys t) + 1 <= used (map sp_of E))%nat.
Proof. revert i. induction E as [|e E IH]; intros [|i] H; cbn [nth] in H; try discriminate.
  - subst e. cbn [map sp_of used]. lia.
  - specialize (IH i H). cbn [map used]. destruct e as [[[? ?] ?]|]; cbn [sp_of]; lia.
Qed.

Lemma live_of w s E i : Inv w s E -> nth i (w_trees w) None = ob_of (nth i E None) /\ live s i = sp_of (nth i E None).
Proof. intros I. unfold live. rewrite (i_trees _ _ _ I), (i_spec _ _ _ I). split; [apply (map_nth ob_of E None)|apply (map_nth sp_of E None)]. Qed.
Lemma some_lt (E : list entry) i e : nth i E None = Some e -> (i < length E)%nat.
Proof. intros H. destruct (Nat.lt_ge_cases i (length E)) as [|GE]; [assumption|]. rewrite nth_overflow in H by exact GE. discriminate. Qed.

(* replacing one tree and leaving the memory of the others alone *)
Lemma inv_put w s E i ob t ok p' e' tf : Inv w s E -> nth i E None = Some (ob, t, ok) ->
  good (p_heap p') i e' ->
  (forall x, (occ (p_free p') x + cnte x e' = occ (p_free (w_pool w)) x + (one x (t_root ob) + cnt x t))%nat) ->
  (forall x, (occ (p_free (w_pool w)) x + (one x (t_root ob) + cnt x t) = 0)%nat -> p_heap p' x = p_heap (w_pool w) x) ->
  Inv (mkW p' (put i (ob_of e') (w_trees w)) tf) (mkSpec (put i (sp_of e') (s_trees s)) tf) (put i e' E).
Proof.
  intros I HE G C O. assert (LT := some_lt E i _ HE). constructor; cbn [w_trees s_trees w_tfree s_tfree w_pool].
  - rewrite put_map, (i_trees _ _ _ I). reflexivity.
  - rewrite put_map, (i_spec _ _ _ I). reflexivity.
  - reflexivity.
  - intros j. rewrite put_nth by exact LT. destruct (Nat.eqb_spec j i) as [->|NE]; [exact G|].
    assert (GJ := i_good _ _ _ I j). destruct (nth j E None) as [[[ob2 t2] ok2]|] eqn:EJ; [|exact Logic.I].
    cbn [good] in *. destruct GJ as ((K & R) & G2). split; [|exact G2].
    assert (FR : forall x, (1 <= one x (t_root ob2) + cnt x t2)%nat -> p_heap p' x = p_heap (w_pool w) x).
    { intros x Hx. apply O. pose proof (sum_two x E i j ltac:(congruence)) as S2. rewrite HE, EJ in S2. cbn [cnte] in S2.
      pose proof (i_nodes _ _ _ I x). pose proof (occ_seq x). lia. }
    split; [apply (repc_frame (p_heap (w_pool w))); [exact K|]; intros x Hx; apply FR; cbn [cntc] in Hx; lia|].
    apply (rep_frame (p_heap (w_pool w))); [exact R|]. intros x Hx. apply FR. lia.
  - intros x. pose proof (sum_put x e' E i LT) as SP. rewrite HE in SP. cbn [cnte] in SP. pose proof (i_nodes _ _ _ I x). specialize (C x). lia.
Qed.

Definition fuel_for : nat := (n + 3)%nat.

Lemma wstep_ok w s E op : Inv w s E -> exists w' r s' E', wstep cmpf fuel_for w op = Ret (w', r) /\ sstep n cmpf s op r s' /\ Inv w' s' E'.
Proof.
  intros I. assert (CT := inv_count _ _ _ I). destruct op as [|i|i k|i k]; cbn [wstep sstep].
  - rewrite (i_tfree _ _ _ I). destruct (s_tfree s) as [|f] eqn:ET.
    { exists w, (RTree None), s, E. split; [reflexivity|]. split; [split; reflexivity|exact I]. }
    unfold avl_tree_new, node_new. destruct (p_free (w_pool w)) as [|q fr] eqn:EF.
    + cbn [length] in CT. destruct (Nat.ltb_spec (used (s_trees s)) n); [lia|].
      eexists _, _, _, E. split; [reflexivity|]. split; [split; reflexivity|]. destruct I. constructor; cbn [w_trees s_trees w_tfree s_tfree w_pool]; auto.
    + cbn [length] in CT. destruct (Nat.ltb_spec (used (s_trees s)) n); [|lia].
      set (ob := mkTree q 0 0). eexists _, _, _, (E ++ [Some (ob, L, true)]). split; [reflexivity|].
      split; [split; [rewrite (i_trees _ _ _ I), (i_spec _ _ _ I), !map_length; reflexivity|reflexivity]|].
      assert (Q1 := i_nodes _ _ _ I q). rewrite EF, occ_cons, one_refl in Q1. pose proof (occ_seq q) as Q2.
      assert (Q0 : q <> 0%nat).
      { intros ->. assert (X : occ (seq 1 n) 0%nat = 0%nat) by (apply count_occ_not_In; rewrite in_seq; lia). lia. }
      constructor; cbn [w_trees s_trees w_tfree s_tfree w_pool p_heap p_free].
      * rewrite map_app, (i_trees _ _ _ I). reflexivity.
      * rewrite map_app, (i_spec _ _ _ I). reflexivity.
      * reflexivity.
      * intros i. destruct (Nat.lt_ge_cases i (length E)) as [LT|GE].
        -- rewrite app_nth1 by exact LT. assert (G := i_good _ _ _ I i). destruct (nth i E None) as [[[ob2 t2] ok2]|] eqn:EJ; [|exact Logic.I].
           cbn [good] in *. destruct G as ((K & R) & G2). split; [|exact G2].
           assert (FR : forall x, (1 <= one x (t_root ob2) + cnt x t2)%nat -> x <> q).
           { intros x Hx ->. pose proof (sum_nth q E i) as S2. rewrite EJ in S2. cbn [cnte] in S2. lia. }
           split; [apply (repc_frame (p_heap (w_pool w))); [exact K|]; intros x Hx; apply upd_ne, FR; cbn [cntc] in Hx; lia|].
           apply (rep_frame (p_heap (w_pool w))); [exact R|]. intros x Hx. apply upd_ne, FR. lia.
        -- rewrite app_nth2 by exact GE. destruct (i - length E)%nat as [|m]; cbn [nth]; [|destruct m; exact Logic.I].
           cbn [good ob t_root t_length]. split; [split; cbn [repc rep root]; [|exact Logic.I]; split; [exact Q0|apply upd_eq]|].
           split; [exact Logic.I|]. split; [constructor|]. split; [reflexivity|]. intros _. exact Logic.I.
      * intros x. rewrite sum_app. cbn [sum cnte ob t_root cnt]. assert (X := i_nodes _ _ _ I x). rewrite EF, occ_cons in X. lia.
  - destruct (live_of w s E i I) as (-> & ->). destruct (nth i E None) as [[[ob t] ok]|] eqn:EI; cbn [ob_of sp_of].
    2:{ exists w, RNone, s, E. split; [reflexivity|]. split; [split; reflexivity|exact I]. }
    assert (G := i_good _ _ _ I i). rewrite EI in G. cbn [good] in G. destruct G as (H & B & SO & LE & RK).
    assert (HS := proj1 H). cbn [repc] in HS. destruct HS as (S0 & HS).
    assert (UU : forall x, (one x (t_root ob) + cnt x t <= 1)%nat).
    { intros x. pose proof (sum_nth x E i) as S2. rewrite EI in S2. cbn [cnte] in S2. pose proof (i_nodes _ _ _ I x). pose proof (occ_seq x). lia. }
    assert (US := UU (t_root ob)). rewrite one_refl in US.
    assert (SZ := used_nth E i ob t ok EI). rewrite <- (i_spec _ _ _ I) in SZ. pose proof (size_keys t) as SK. pose proof (height_le_size t) as HZ.
    assert (FH : exists h1 fr1, (if t_length ob =? 0 then Ret (p_heap (w_pool w), p_free (w_pool w), []) else free_helper fuel_for (p_heap (w_pool w)) (p_free (w_pool w)) (n_right (p_heap (w_pool w) (t_root ob)))) = Ret (h1, fr1, keys t) /\
        (forall x, occ fr1 x = (occ (p_free (w_pool w)) x + cnt x t)%nat) /\ (forall x, cnt x t = 0%nat -> h1 x = p_heap (w_pool w) x)).
    { rewrite LE, HS. cbn [n_right]. destruct t as [|tl ta tk trk tb tr0].
      - cbn [size Z.eqb keys cnt]. eexists _, _. split; [reflexivity|]. split; [intros; lia|reflexivity].
      - replace (size (N tl ta tk trk tb tr0) =? 0) with false by (symmetry; apply Z.eqb_neq; cbn [size]; pose proof (size_nonneg tl); pose proof (size_nonneg tr0); lia).
        apply (free_helper_ok (N tl ta tk trk tb tr0) fuel_for _ _ (t_root ob) (proj2 H)); [discriminate|unfold fuel_for; lia|intros x; specialize (UU x); lia]. }
    unfold avl_tree_free. destruct FH as (h1 & fr1 & -> & C1 & O1). cbn [obind node_free].
    eexists _, _, _, (put i None E). split; [reflexivity|]. split; [split; reflexivity|].
    rewrite (i_tfree _ _ _ I). apply (inv_put w s E i ob t ok (mkPool _ _) None (S (s_tfree s)) I EI); cbn [p_heap p_free good]; [exact Logic.I| |].
    + intros x. rewrite occ_cons, C1. cbn [cnte]. lia.
    + intros x Hx. unfold set_right. rewrite upd_ne by (intros ->; rewrite one_refl in Hx; lia). apply O1. lia.
  - destruct (live_of w s E i I) as (-> & ->). destruct (nth i E None) as [[[ob t] ok]|] eqn:EI; cbn [ob_of sp_of].
    2:{ exists w, RNone, s, E. split; [reflexivity|]. split; [split; reflexivity|exact I]. }
    assert (G := i_good _ _ _ I i). rewrite EI in G. cbn [good] in G. destruct G as (H & B & SO & LE & RK).
    assert (XX : forall x, (occ (p_free (w_pool w)) x + (one x (t_root ob) + cnt x t) <= occ (seq 1 n) x)%nat).
    { intros x. pose proof (sum_nth x E i) as S2. rewrite EI in S2. cbn [cnte] in S2. pose proof (i_nodes _ _ _ I x). lia. }
    assert (UU : uniq (t_root ob) t) by (intros x; specialize (XX x); pose proof (occ_seq x); lia).
    assert (SZ := used_nth E i ob t ok EI). rewrite <- (i_spec _ _ _ I) in SZ. pose proof (size_keys t) as SK. pose proof (height_le_size t) as HZ.
    destruct (avl_insert_ok (cmpf i) (P i) fuel_for (w_pool w) ob k t H UU B SO) as (p' & ob' & rc & t' & EE & T1 & H' & B' & O' & CASE).
    { unfold fuel_for. lia. }
    { intros q Hq. assert (Q1 : (1 <= occ (p_free (w_pool w)) q)%nat) by (apply (count_occ_In Nat.eq_dec) in Hq; lia).
      specialize (XX q). pose proof (occ_seq q). split; [|lia]. intros ->.
      assert (X : occ (seq 1 n) 0%nat = 0%nat) by (apply count_occ_not_In; rewrite in_seq; lia). lia. }
    rewrite EE. cbn [obind]. destruct (p_free (w_pool w)) as [|q fr] eqn:EF.
    + cbn [length] in CT. destruct (Nat.ltb_spec (used (s_trees s)) n); [lia|]. destruct CASE as (-> & F' & L' & K' & C').
      eexists _, _, _, (put i (Some (ob', t', false)) E). split; [reflexivity|]. split; [split; [reflexivity|reflexivity]|].
      unfold wput. rewrite (i_tfree _ _ _ I), <- K'. apply (inv_put w s E i ob t ok p' (Some (ob', t', false)) (s_tfree s) I EI).
      * cbn [good]. rewrite T1. split; [exact H'|]. split; [exact B'|]. split; [rewrite K'; exact SO|]. split; [|discriminate].
        rewrite L', LE, !size_keys, K'. reflexivity.
      * intros x. rewrite F', EF. cbn [cnte]. rewrite T1, C'. lia.
      * intros x Hx. rewrite EF in Hx. cbn [count_occ] in Hx. apply O'; [rewrite C'; lia|]. intros ->. rewrite one_refl in Hx. lia.
    + cbn [length] in CT. destruct (Nat.ltb_spec (used (s_trees s)) n); [|lia]. destruct CASE as (-> & F' & L' & K' & C' & R').
      eexists _, _, _, (put i (Some (ob', t', ok)) E). split; [reflexivity|]. split; [split; [reflexivity|reflexivity]|].
      unfold wput. rewrite (i_tfree _ _ _ I), <- K'. apply (inv_put w s E i ob t ok p' (Some (ob', t', ok)) (s_tfree s) I EI).
      * cbn [good]. rewrite T1. split; [exact H'|]. split; [exact B'|]. split; [rewrite K'; apply ins_sorted_sorted; [apply P|exact SO]|]. split.
        -- rewrite L', LE, !size_keys, K', ins_sorted_length. lia.
        -- intros OK. apply R'; [apply RK, OK|lia].
      * intros x. rewrite F', EF, occ_cons. cbn [cnte]. rewrite T1, C'. lia.
      * intros x Hx. rewrite EF, occ_cons in Hx. apply O'; [rewrite C'; lia|]. intros ->. rewrite one_refl in Hx. lia.
  - destruct (live_of w s E i I) as (-> & ->). destruct (nth i E None) as [[[ob t] ok]|] eqn:EI; cbn [ob_of sp_of].
    2:{ exists w, RNone, s, E. split; [reflexivity|]. split; [split; reflexivity|exact I]. }
    assert (G := i_good _ _ _ I i). rewrite EI in G. cbn [good] in G. destruct G as (H & B & SO & LE & RK).
    assert (XX : forall x, (occ (p_free (w_pool w)) x + (one x (t_root ob) + cnt x t) <= occ (seq 1 n) x)%nat).
    { intros x. pose proof (sum_nth x E i) as S2. rewrite EI in S2. cbn [cnte] in S2. pose proof (i_nodes _ _ _ I x). lia. }
    assert (UU : uniq (t_root ob) t) by (intros x; specialize (XX x); pose proof (occ_seq x); lia).
    assert (SZ := used_nth E i ob t ok EI). rewrite <- (i_spec _ _ _ I) in SZ. pose proof (size_keys t) as SK. pose proof (height_le_size t) as HZ.
    destruct (avl_delete_ok (cmpf i) (P i) fuel_for (w_pool w) ob k t H UU B SO) as (p' & ob' & res & t' & EE & T1 & H' & B' & O' & CASE).
    { unfold fuel_for. lia. }
    rewrite EE. cbn [obind]. destruct res as [kx|].
    + destruct CASE as (CK & (l1 & l2 & K1 & K2) & (x0 & F' & C') & L' & R').
      eexists _, _, _, (put i (Some (ob', t', ok)) E). split; [reflexivity|].
      split; [left; exists l1, kx, l2; split; [exact K1|]; split; [exact CK|]; split; [reflexivity|reflexivity]|].
      unfold wput. rewrite (i_tfree _ _ _ I), <- K2. apply (inv_put w s E i ob t ok p' (Some (ob', t', ok)) (s_tfree s) I EI).
      * cbn [good]. rewrite T1. split; [exact H'|]. split; [exact B'|]. split.
        { rewrite K2. rewrite K1 in SO. apply sorted_app in SO. destruct SO as (S1 & S2 & S3). apply sorted_cons in S2. destruct S2 as (S2 & S4).
          apply sorted_app. split; [exact S1|]. split; [exact S2|]. intros x y Hx Hy. apply S3; [exact Hx|right; exact Hy]. }
        split; [|intros OK; apply R'; [apply RK, OK|lia]].
        rewrite L', LE, !size_keys, K1, K2, !app_length. cbn [length]. lia.
      * intros x. rewrite F', occ_cons. cbn [cnte]. rewrite T1. specialize (C' x). lia.
      * intros x Hx. apply O'; [lia|]. intros ->. rewrite one_refl in Hx. lia.
    + destruct CASE as (NK & K' & F' & C' & ->).
      eexists _, _, _, (put i (Some (ob, t', ok && match keys t with [] => true | _ => false end)) E). split; [reflexivity|].
      split; [right; split; [exact NK|]; split; [reflexivity|reflexivity]|].
      unfold wput. rewrite (i_tfree _ _ _ I). rewrite <- K' at 1. apply (inv_put w s E i ob t ok p' (Some (ob, t', ok && match keys t with [] => true | _ => false end)) (s_tfree s) I EI).
      * cbn [good]. split; [exact H'|]. split; [exact B'|]. split; [rewrite K'; exact SO|]. split.
        -- rewrite LE, !size_keys, K'. reflexivity.
        -- intros OK. apply andb_prop in OK. destruct OK as (_ & OK). destruct (keys t) as [|z zs] eqn:EK; [|discriminate].
           destruct t'; [exact Logic.I|]. cbn [keys] in K'. destruct (keys t'1); discriminate.
      * intros x. rewrite F'. cbn [cnte]. rewrite C'. lia.
      * intros x Hx. apply O'; [lia|]. intros ->. rewrite one_refl in Hx. lia.
Qed.

Lemma winit_inv : Inv (winit n) (mkSpec [] NUM_TREES) [].
Proof.
  constructor; try reflexivity.
  - intros [|i]; exact Logic.I.
  - intros x. cbn [sum winit w_pool avl_init p_free]. lia.
Qed.

Lemma wruns_ok : forall ops w s E, Inv w s E -> exists w' rs s' E', wruns cmpf fuel_for w ops = Ret (w', rs) /\ sruns n cmpf s ops rs s' /\ Inv w' s' E'.
Proof.
  induction ops as [|op ops IH]; intros w s E I; cbn [wruns].
  - exists w, [], s, E. split; [reflexivity|]. split; [constructor|exact I].
  - destruct (wstep_ok w s E op I) as (w1 & r & s1 & E1 & -> & ST & I1). cbn [obind].
    destruct (IH w1 s1 E1 I1) as (w2 & rs & s2 & E2 & -> & RS & I2). cbn [obind].
    exists w2, (r :: rs), s2, E2. split; [reflexivity|]. split; [econstructor; eassumption|exact I2].
Qed.
End HIST.
