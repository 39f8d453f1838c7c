(* C37: the AVL tree behaves as an ordered multiset for every history of calls on any number of trees. *)
From Verif Require Import Base AvlSpec AvlModel AvlRep AvlIns AvlRot AvlFun AvlRebal AvlInsert AvlClimb AvlDelete AvlLook AvlHist AvlWalk.
From Coq Require Import Permutation.
Ltac Zify.zify_post_hook ::= idtac.

(* Q holds of the memory after the calls ops, and of ordered multisets that explain every answer given so far. *)
Definition after (n : nat) (cmpf : nat -> Z -> Z -> Z) (ops : list aop) (Q : world -> spec -> Prop) : Prop :=
  exists w rs s, wruns cmpf (n + 3) (winit n) ops = Ret (w, rs) /\ sruns n cmpf (mkSpec [] NUM_TREES) ops rs s /\ Q w s.
(* Q holds of every live tree: its memory, its number, the sequence of its keys, and whether no call on it ever failed *)
Definition each_tree (n : nat) (cmpf : nat -> Z -> Z -> Z) (ops : list aop) (Q : apool -> atree -> nat -> list Z -> bool -> Prop) : Prop :=
  after n cmpf ops (fun w s => forall i ks ok, live s i = Some (ks, ok) ->
    exists ob, nth i (w_trees w) None = Some ob /\ Q (w_pool w) ob i ks ok).
(* loop iterations allowed to a lookup: at least 2 log2 (length + 1) + 1 *)
Definition log_enough (fuel : nat) (ks : list Z) : Prop := (Z.of_nat (length ks) + 1) ^ 2 < 2 ^ Z.of_nat fuel.

Section P.
Variables (n : nat) (cmpf : nat -> Z -> Z -> Z).
Hypothesis P : forall i, preorder (cmpf i).
Hypothesis N30 : Z.of_nat n < 1073741824.

Lemma after_inv ops (Q : world -> spec -> Prop) : (forall w s E, Inv n cmpf w s E -> Q w s) -> after n cmpf ops Q.
Proof.
  intros H. destruct (wruns_ok n cmpf P N30 ops (winit n) (mkSpec [] NUM_TREES) [] (winit_inv n cmpf P)) as (w & rs & s & E & EW & ES & I).
  exists w, rs, s. split; [exact EW|]. split; [exact ES|]. apply (H w s E I).
Qed.
Lemma each_inv ops (Q : apool -> atree -> nat -> list Z -> bool -> Prop) :
  (forall p ob i t (ok : bool), holds (p_heap p) (t_root ob) t -> uniq (t_root ob) t -> balanced t -> sorted (cmpf i) (keys t) -> t_length ob = size t -> (ok = true -> ranked t) ->
     size t < 1073741824 -> Q p ob i (keys t) ok) -> each_tree n cmpf ops Q.
Proof.
  intros H. unfold each_tree. apply after_inv. intros w s E I i ks ok HL. destruct (live_of n cmpf w s E i I) as (HT & HS). rewrite HL in HS.
  destruct (nth i E None) as [[[ob t] ok2]|] eqn:EI; [|discriminate]. cbn [sp_of] in HS. injection HS as -> ->. exists ob. split; [exact HT|].
  assert (G := i_good _ _ _ _ _ I i). rewrite EI in G. cbn [good] in G. destruct G as (G1 & G2 & G3 & G4 & G5).
  assert (UU : uniq (t_root ob) t).
  { intros x. pose proof (sum_nth n cmpf P x E i) as S2. rewrite EI in S2. cbn [cnte] in S2. pose proof (i_nodes _ _ _ _ _ I x). pose proof (occ_seq n x). lia. }
  pose proof (inv_count n cmpf P w s E I) as CT. pose proof (used_nth n cmpf P E i ob t ok2 EI) as UN. rewrite <- (i_spec _ _ _ _ _ I) in UN. pose proof (size_keys t).
  apply (H _ _ _ _ ok2 G1 UU G2 G3 G4 G5). lia.
Qed.
Lemma log_height t fuel : balanced t -> log_enough fuel (keys t) -> (Z.to_nat (height t) < fuel)%nat.
Proof.
  intros B LE. unfold log_enough in LE. rewrite <- size_keys in LE. pose proof (balanced_height t B) as BH. pose proof (height_nonneg t).
  assert (LT : 2 ^ height t < 2 ^ Z.of_nat fuel) by (rewrite Z.pow_2_r in LE; lia). apply Z.pow_lt_mono_r_iff in LT; lia.
Qed.
Lemma top_root p ob t : holds (p_heap p) (t_root ob) t -> n_right (p_heap p (t_root ob)) = root t.
Proof. intros (K & _). cbn [repc] in K. destruct K as (_ & ->). reflexivity. Qed.

(* 1. Whatever the calls, none crashes or loops; each answer is the one the ordered multisets give; every tree is in
   order and its length field is its number of keys; every node is either free or used exactly by what is stored. *)
Theorem avl_any_history ops :
  after n cmpf ops (fun w s =>
    (length (p_free (w_pool w)) + used (s_trees s) = n)%nat /\
    forall i ks ok, live s i = Some (ks, ok) -> sorted (cmpf i) ks /\ exists ob, nth i (w_trees w) None = Some ob /\ t_length ob = Z.of_nat (length ks)).
Proof.
  apply after_inv. intros w s E I. split; [exact (inv_count n cmpf P w s E I)|]. intros i ks ok HL. destruct (live_of n cmpf w s E i I) as (HT & HS). rewrite HL in HS.
  destruct (nth i E None) as [[[ob t] ok2]|] eqn:EI; [|discriminate]. cbn [sp_of] in HS. injection HS as -> ->.
  assert (G := i_good _ _ _ _ _ I i). rewrite EI in G. cbn [good] in G. destruct G as (G1 & G2 & G3 & G4 & G5). split; [exact G3|].
  exists ob. split; [exact HT|]. rewrite G4. apply size_keys.
Qed.

(* 2. Lookups by key, in a number of steps logarithmic in the number of keys. *)
Theorem avl_get_by_key_any_history ops :
  each_tree n cmpf ops (fun p ob i ks ok => forall fuel k, log_enough fuel ks -> exists o, avl_get_by_key (cmpf i) fuel p ob k = Ret o /\
    match o with Some x => In x ks /\ cmpf i k x = 0 | None => forall x, In x ks -> cmpf i k x <> 0 end).
Proof.
  apply each_inv. intros p ob i t ok H U B S LE RK SZ fuel k LF. unfold avl_get_by_key. rewrite (top_root p ob t H).
  apply (by_key_ok (cmpf i) (P i) (p_heap p) k t fuel (t_root ob) (proj2 H) S). apply log_height; assumption.
Qed.
(* the greatest key not above k / the least key not below k; keys are pointers, never NULL *)
Theorem avl_most_any_history ops :
  each_tree n cmpf ops (fun p ob i ks ok => forall fuel k, log_enough fuel ks -> (forall x, In x ks -> x <> 0) ->
    exists o, avl_get_item_by_key_most (cmpf i) fuel p ob k = Ret o /\
    match o with
    | Some x => In x ks /\ cmpf i x k <= 0 /\ forall y, In y ks -> cmpf i y k <= 0 -> cmpf i y x <= 0
    | None => forall y, In y ks -> cmpf i y k > 0
    end).
Proof.
  apply each_inv. intros p ob i t ok H U B S LE RK SZ fuel k LF K0. unfold avl_get_item_by_key_most. rewrite (top_root p ob t H).
  destruct (key_most_ok (cmpf i) (P i) (p_heap p) k t fuel (t_root ob) 0 (proj2 H) S (log_height t fuel B LF)) as (v & -> & [(-> & O)|(O1 & O2 & O3)]); cbn [obind].
  - exists None. split; [reflexivity|]. intros y Hy. apply (P i). apply O, Hy.
  - assert (K1 := K0 v O1). apply Z.eqb_neq in K1. rewrite K1. exists (Some v). split; [reflexivity|]. split; [exact O1|]. split.
    + apply (cmp_flip (cmpf i) (P i) v k). exact O2.
    + intros y Hy LY. apply O3; [exact Hy|]. apply (cmp_flip (cmpf i) (P i) y k). exact LY.
Qed.
Theorem avl_least_any_history ops :
  each_tree n cmpf ops (fun p ob i ks ok => forall fuel k, log_enough fuel ks -> (forall x, In x ks -> x <> 0) ->
    exists o, avl_get_item_by_key_least (cmpf i) fuel p ob k = Ret o /\
    match o with
    | Some x => In x ks /\ cmpf i k x <= 0 /\ forall y, In y ks -> cmpf i k y <= 0 -> cmpf i x y <= 0
    | None => forall y, In y ks -> cmpf i k y > 0
    end).
Proof.
  apply each_inv. intros p ob i t ok H U B S LE RK SZ fuel k LF K0. unfold avl_get_item_by_key_least. rewrite (top_root p ob t H).
  destruct (key_least_ok (cmpf i) (P i) (p_heap p) k t fuel (t_root ob) 0 (proj2 H) S (log_height t fuel B LF)) as (v & -> & [(-> & O)|(O1 & O2 & O3)]); cbn [obind].
  - exists None. split; [reflexivity|]. exact O.
  - assert (K1 := K0 v O1). apply Z.eqb_neq in K1. rewrite K1. exists (Some v). split; [reflexivity|]. split; [exact O1|]. split; [exact O2|exact O3].
Qed.

(* 3. Iteration: in key order, every key once, stopping at the first non-zero answer. *)
Theorem avl_iterate_any_history ops :
  each_tree n cmpf ops (fun p ob i ks ok => forall fuel iter, log_enough fuel ks -> avl_iterate_inorder fuel p ob iter = Ret (visit iter ks)).
Proof.
  apply each_inv. intros p ob i t ok H U B S LE RK SZ fuel iter LF. unfold avl_iterate_inorder. rewrite (top_root p ob t H), LE.
  destruct t as [|l a k rk b r]; [reflexivity|]. replace (size (N l a k rk b r) =? 0) with false by (symmetry; apply Z.eqb_neq; cbn [size]; pose proof (size_nonneg l); pose proof (size_nonneg r); lia).
  apply (iter_inorder_ok (p_heap p) iter (N l a k rk b r) fuel (t_root ob) (proj2 H)); [discriminate|]. pose proof (log_height _ fuel B LF). lia.
Qed.
(* first, next, next, ... gives the keys in order; from the last node, previous, previous, ... gives them in reverse *)
Theorem avl_walk_any_history ops :
  each_tree n cmpf ops (fun p ob i ks ok => forall fuel, log_enough fuel ks -> (forall x, In x ks -> x <> 0) ->
    exists a z, avl_get_first fuel p ob = Ret a /\ walk_next fuel (length ks + 1) (p_heap p) a = Ret ks /\
                walk_prev fuel (length ks + 1) (p_heap p) z = Ret (rev ks)).
Proof.
  apply each_inv. intros p ob i t ok H U B S LE RK SZ fuel LF K0. assert (HF := log_height _ fuel B LF).
  exists (hd 0%nat (addrs t)), (hd 0%nat (rev (addrs t))). assert (EK := addrs_keys (p_heap p) t (t_root ob) (proj2 H)).
  assert (LK : length (keys t) = length (addrs t)) by (pose proof (addrs_len t); pose proof (size_keys t); lia). split; [|split].
  - unfold avl_get_first. rewrite (top_root p ob t H). destruct t as [|l a k rk b r]; [reflexivity|]. assert (R := proj2 H). cbn [rep] in R. destruct R as (A0 & HA & _).
    cbn [root]. apply Nat.eqb_neq in A0. rewrite A0, HA. cbn [n_key].
    assert (K1 : k <> 0) by (apply K0; cbn [keys]; apply in_or_app; right; left; reflexivity). apply Z.eqb_neq in K1. rewrite K1.
    apply (leftmost_ok (p_heap p) (N l a k rk b r) fuel (t_root ob) (proj2 H)); [discriminate|lia].
  - rewrite (walk_next_ok (p_heap p) (t_root ob) t H U K0 fuel HF (addrs t) [] (length (keys t) + 1) eq_refl ltac:(lia)), <- EK. reflexivity.
  - rewrite (walk_prev_ok (p_heap p) (t_root ob) t H U K0 fuel HF (rev (addrs t)) [] (length (keys t) + 1)), map_rev, <- EK; [reflexivity|rewrite app_nil_r, rev_involutive; reflexivity|rewrite rev_length; lia].
Qed.

(* 4. Positions. Only for trees on which no insertion ever failed and no deletion ever missed (see the refutations below). *)
Theorem avl_get_by_index_partial ops :
  each_tree n cmpf ops (fun p ob i ks ok => ok = true -> forall fuel m, log_enough fuel ks -> 0 <= m < 18446744073709551615 ->
    avl_get_by_index fuel p ob m = Ret (nth_error ks (Z.to_nat m))).
Proof.
  apply each_inv. intros p ob i t ok H U B S LE RK SZ OK fuel m LF HM. unfold avl_get_by_index. rewrite (top_root p ob t H), u64_id by lia.
  rewrite (by_index_ok (p_heap p) t fuel (t_root ob) (m + 1) (proj2 H) (RK OK) (log_height _ fuel B LF)).
  replace (m + 1 <? 1) with false by (symmetry; apply Z.ltb_ge; lia). replace (m + 1 - 1) with m by lia. reflexivity.
Qed.
Lemma addrs_at (l : list nat) m a : nth_error l m = Some a -> l = firstn m l ++ a :: skipn (S m) l.
Proof. revert m. induction l as [|x l IH]; intros [|m] E; cbn [nth_error firstn skipn app] in *; try discriminate; [injection E as ->; reflexivity|]. rewrite <- (IH m E). reflexivity. Qed.

Theorem avl_index_range_partial ops :
  each_tree n cmpf ops (fun p ob i ks ok => ok = true -> forall fuel iter lo hi, log_enough fuel ks -> (forall x, In x ks -> x <> 0) ->
    (lo < length ks)%nat -> (lo <= hi <= length ks)%nat ->
    avl_iterate_index_range fuel p ob iter (Z.of_nat lo) (Z.of_nat hi) = Ret (visit_idx iter (Z.of_nat lo) (firstn (hi - lo) (skipn lo ks)))).
Proof.
  apply each_inv. intros p ob i t ok H U B S LE RK SZ OK fuel iter lo hi LF K0 LO HI. assert (HF := log_height _ fuel B LF). pose proof (size_keys t) as SK.
  unfold avl_iterate_index_range. rewrite LE. replace (Z.of_nat hi >? size t) with false by (symmetry; rewrite Z.gtb_ltb; apply Z.ltb_ge; lia).
  rewrite (top_root p ob t H), u64_id by lia.
  destruct (seek_rank_ok (p_heap p) t fuel (t_root ob) (Z.of_nat lo + 1) (proj2 H) (RK OK) ltac:(lia) ltac:(lia)) as (a & -> & EA). cbn [obind].
  replace (Z.to_nat (Z.of_nat lo + 1 - 1)) with lo in EA by lia. rewrite u64_id by lia. replace (Z.to_nat (Z.of_nat hi - Z.of_nat lo)) with (hi - lo)%nat by lia.
  assert (EK := addrs_keys (p_heap p) t (t_root ob) (proj2 H)). assert (AL := addrs_len t). assert (SP := addrs_at _ _ _ EA).
  assert (SS : skipn lo (addrs t) = a :: skipn (Datatypes.S lo) (addrs t)).
  { rewrite SP at 1. rewrite skipn_app, skipn_all2 by (rewrite firstn_length; lia). rewrite firstn_length. replace (lo - Nat.min lo (length (addrs t)))%nat with 0%nat by lia. reflexivity. }
  replace a with (hd 0%nat (skipn lo (addrs t))) by (rewrite SS; reflexivity).
  rewrite (range_loop_ok (p_heap p) (t_root ob) t H U K0 fuel HF iter (hi - lo) (skipn lo (addrs t)) (firstn lo (addrs t)) (Z.of_nat lo)).
  - rewrite EK, skipn_map, firstn_map. reflexivity.
  - symmetry. apply firstn_skipn.
  - rewrite skipn_length. lia.
Qed.

(* the span of a key: its equals are exactly the positions low .. high - 1 *)
Theorem avl_span_partial ops :
  each_tree n cmpf ops (fun p ob i ks ok => ok = true -> ks <> [] -> forall fuel k, (2 * length ks + 3 < fuel)%nat -> (forall x, In x ks -> x <> 0) ->
    exists low high, avl_get_span_by_key (cmpf i) fuel p ob k = Ret (low, high) /\
    ((exists A B C, ks = A ++ B ++ C /\ B <> [] /\ low = Z.of_nat (length A) /\ high = Z.of_nat (length A + length B) /\
        (forall x, In x B -> cmpf i k x = 0) /\ (forall x, In x A -> cmpf i k x > 0) /\ (forall x, In x C -> cmpf i k x < 0)) \/
     ((forall x, In x ks -> cmpf i k x <> 0) /\ low = high /\ low = u64 (Z.of_nat (length (filter (fun x => cmpf i k x >? 0) ks)) - 1)))).
Proof.
  apply each_inv. intros p ob i t ok H U B S LE RK SZ OK NE fuel k HF K0. pose proof (size_keys t) as SK. pose proof (height_le_size t) as HH. pose proof (height_nonneg t) as HN.
  unfold avl_get_span_by_key, avl_get_index_by_key. rewrite (top_root p ob t H).
  assert (NT : t <> L) by (intros ->; apply NE; reflexivity).
  assert (R0 : root t <> 0%nat) by (destruct t; [contradiction|]; assert (R := proj2 H); cbn [rep] in R; apply R). apply Nat.eqb_neq in R0. rewrite R0.
  destruct (idx_key_ok (cmpf i) (P i) (p_heap p) k t fuel (t_root ob) 0 (proj2 H) NT (RK OK) S ltac:(lia) ltac:(lia) ltac:(lia)) as (a & m & E & C). rewrite !Z.add_0_l in E. rewrite E. cbn [obind].
  destruct C as [(-> & C1 & C2)|(A0 & C1 & C2 & C3)].
  - cbn [Nat.eqb]. exists (u64 m), (u64 m). split; [reflexivity|]. right. split; [exact C1|]. split; [reflexivity|]. rewrite C2. reflexivity.
  - apply Nat.eqb_neq in A0. rewrite A0. rewrite u64_id by lia. set (A := firstn (Z.to_nat m) (addrs t)). set (D := skipn (Datatypes.S (Z.to_nat m)) (addrs t)).
    assert (SP := addrs_at _ _ _ C2). fold A D in SP. assert (AL := addrs_len t).
    assert (LA : length A = Z.to_nat m) by (unfold A; rewrite firstn_length; lia).
    assert (EK := addrs_keys (p_heap p) t (t_root ob) (proj2 H)).
    assert (LD : (length A + 1 + length D = length (addrs t))%nat) by (rewrite SP, app_length; cbn [length]; lia).
    rewrite (get_prev_ok (p_heap p) (t_root ob) t H U K0 fuel A a D SP ltac:(lia)). cbn [obind].
    replace (last A 0%nat) with (hd 0%nat (rev A)) by (destruct A as [|z A'] using rev_ind; [reflexivity|rewrite rev_app_distr, last_last; reflexivity]).
    destruct (span_left_ok (cmpf i) (p_heap p) (t_root ob) t H U K0 k (rev A) (a :: D) fuel) as (j1 & E1 & J1 & F1 & Q1).
    { rewrite rev_involutive. exact SP. } { rewrite rev_length. lia. }
    rewrite rev_length in *. replace m with (Z.of_nat (length A)) by lia. rewrite E1. cbn [obind].
    rewrite (get_next_ok (p_heap p) (t_root ob) t H U K0 fuel A a D SP ltac:(lia)). cbn [obind].
    destruct (span_right_ok (cmpf i) (p_heap p) (t_root ob) t H U K0 k (t_length ob) D (A ++ [a]) fuel (Z.of_nat (length A))) as (j2 & E2 & J2 & F2 & Q2).
    { rewrite <- app_assoc. exact SP. } { lia. } { rewrite LE. lia. }
    rewrite E2. cbn [obind]. rewrite u64_id by lia. eexists _, _. split; [reflexivity|]. left.
    set (KF := fun x => n_key (p_heap p x)). set (A1 := firstn j1 A). set (A2 := skipn j1 A). set (D1 := firstn j2 D). set (D2 := skipn j2 D).
    assert (RA2 : firstn (length A - j1) (rev A) = rev A2).
    { rewrite firstn_rev. replace (length A - (length A - j1))%nat with j1 by lia. reflexivity. }
    assert (RA1 : skipn (length A - j1) (rev A) = rev A1).
    { rewrite skipn_rev. replace (length A - (length A - j1))%nat with j1 by lia. reflexivity. }
    rewrite RA2 in F1. rewrite RA1 in Q1. fold D1 in F2. fold D2 in Q2.
    assert (EA : A = A1 ++ A2) by (symmetry; apply firstn_skipn). assert (ED : D = D1 ++ D2) by (symmetry; apply firstn_skipn).
    assert (KS : keys t = map KF A1 ++ (map KF A2 ++ KF a :: map KF D1) ++ map KF D2).
    { rewrite EK, SP, EA, ED. rewrite !map_app. cbn [map]. rewrite !map_app. fold KF. rewrite <- !app_assoc. reflexivity. }
    exists (map KF A1), (map KF A2 ++ KF a :: map KF D1), (map KF D2). split; [exact KS|]. split; [destruct (map KF A2); discriminate|].
    assert (LA1 : length A1 = j1) by (unfold A1; rewrite firstn_length; lia). assert (LD1 : length D1 = j2) by (unfold D1; rewrite firstn_length; lia).
    assert (LA2 : (length A = j1 + length A2)%nat) by (rewrite EA at 1; rewrite app_length; lia).
    split; [rewrite map_length; lia|]. split; [rewrite app_length; cbn [length]; rewrite !map_length; lia|].
    rewrite KS in S. apply sorted_app in S. destruct S as (S1 & S2 & S3). apply sorted_app in S2. destruct S2 as (S4 & S5 & S6). split; [|split].
    + intros x Hx. apply in_app_or in Hx. destruct Hx as [Hx|[<-|Hx]]; [|exact C3|].
      * apply in_map_iff in Hx. destruct Hx as (y & <- & Hy). rewrite Forall_forall in F1. apply F1. apply -> in_rev. exact Hy.
      * apply in_map_iff in Hx. destruct Hx as (y & <- & Hy). rewrite Forall_forall in F2. apply F2. exact Hy.
    + assert (GE : forall x, In x (map KF A1) -> cmpf i k x >= 0).
      { intros x Hx. specialize (S3 x (KF a) Hx). assert (IA : In (KF a) ((map KF A2 ++ KF a :: map KF D1) ++ map KF D2)) by (apply in_or_app; left; apply in_or_app; right; left; reflexivity).
        specialize (S3 IA). apply (cmp_flip (cmpf i) (P i) x k). apply (cmp_trans (cmpf i) (P i) x (KF a) k); [exact S3|]. apply (cmp_flip (cmpf i) (P i) (KF a) k). unfold KF. lia. }
      destruct A1 as [|z A0'] using rev_ind; [intros x []|]. clear IHA0'. rewrite rev_app_distr in Q1. cbn [rev app] in Q1.
      rewrite map_app in *. cbn [map] in *. apply sorted_app in S1. destruct S1 as (_ & _ & S7).
      assert (GZ : cmpf i k (KF z) > 0) by (specialize (GE (KF z) ltac:(apply in_or_app; right; left; reflexivity)); fold KF in Q1; unfold KF in *; lia).
      intros x Hx. apply in_app_or in Hx. destruct Hx as [Hx|[<-|[]]]; [|exact GZ].
      assert (X : cmpf i x (KF z) <= 0) by (apply S7; [exact Hx|left; reflexivity]). assert (Z1 : cmpf i (KF z) k < 0) by (apply (P i); exact GZ).
      apply (P i). destruct (Z_lt_ge_dec (cmpf i x k) 0) as [|G]; [assumption|exfalso]. apply (cmp_flip (cmpf i) (P i) k x) in G. pose proof (cmp_trans (cmpf i) (P i) _ _ _ G X). lia.
    + assert (LE0 : forall x, In x (map KF D2) -> cmpf i k x <= 0).
      { intros x Hx. apply (cmp_trans (cmpf i) (P i) k (KF a) x); [unfold KF; lia|]. apply S6; [|exact Hx]. apply in_or_app. right. left. reflexivity. }
      destruct D2 as [|z D0']; [intros x []|]. cbn [map] in *. apply sorted_cons in S5. destruct S5 as (_ & S7).
      assert (GZ : cmpf i k (KF z) < 0) by (specialize (LE0 (KF z) (or_introl eq_refl)); unfold KF in *; lia).
      intros x [<-|Hx]; [exact GZ|]. apply (cmp_lt_le (cmpf i) (P i) k (KF z) x GZ). apply S7, Hx.
Qed.
End P.

(* ---------- concrete cases ---------- *)
Definition by_value (_ : nat) (a b : Z) : Z := a - b.
Lemma by_value_preorder i : preorder (by_value i).
Proof. unfold by_value. split; intros; lia. Qed.
Definition run_pool (n : nat) (ops : list aop) : option (apool * atree) :=
  match wruns by_value (n + 3) (winit n) ops with Ret (w, _) => match nth 0 (w_trees w) None with Some ob => Some (w_pool w, ob) | None => None end | _ => None end.
Definition answers (n : nat) (ops : list aop) : outcome (list ares) := obind (wruns by_value (n + 3) (winit n) ops) (fun '(_, rs) => Ret rs).

(* rotations, duplicates, a miss, an insertion refused for lack of nodes, and freeing: what the calls answer *)
Example avl_history_case :
  answers 8 ([ONew] ++ map (OIns 0) [10; 20; 30; 40; 50; 20; 25] ++ [OIns 0 60; ODel 0 20; ODel 0 99; OIns 0 5; OFree 0; ONew; OIns 1 7]) =
  Ret [RTree (Some 0%nat); RRc 0; RRc 0; RRc 0; RRc 0; RRc 0; RRc 0; RRc 0; RRc (-1); RDel (Some 20); RDel None; RRc 0; RKeys [5; 10; 20; 25; 30; 40; 50]; RTree (Some 1%nat); RRc 0].
Proof. vm_compute. reflexivity. Qed.
Example avl_positions_case :
  match run_pool 20 ([ONew] ++ map (OIns 0) [10; 20; 30; 40; 50; 20; 25] ++ [ODel 0 30]) with
  | Some (p, ob) => avl_get_by_index 8 p ob 2 = Ret (Some 20) /\ avl_get_by_index 8 p ob 6 = Ret None /\
      avl_get_span_by_key (by_value 0) 20 p ob 20 = Ret (1, 3) /\ avl_get_span_by_key (by_value 0) 20 p ob 27 = Ret (3, 3) /\
      avl_iterate_index_range 8 p ob (fun _ _ => 0) 1 4 = Ret ([(2, 20); (3, 20); (4, 25)], 0) /\
      avl_get_item_by_key_most (by_value 0) 8 p ob 39 = Ret (Some 25) /\ avl_get_item_by_key_least (by_value 0) 8 p ob 39 = Ret (Some 40) /\
      avl_iterate_inorder 8 p ob (fun x => if x =? 25 then 7 else 0) = Ret ([10; 20; 20; 25], 7)
  | None => False end.
Proof. vm_compute. repeat split. Qed.

(* ---------- what does not hold ---------- *)
(* Deleting a key that is not there disturbs the positions: nothing is then found at position 1. *)
Theorem avl_delete_miss_breaks_index_refuted :
  match run_pool 8 [ONew; OIns 0 10; OIns 0 20; ODel 0 25] with
  | Some (p, ob) => avl_iterate_inorder 8 p ob (fun _ => 0) = Ret ([10; 20], 0) /\ avl_get_by_index 8 p ob 1 <> Ret (Some 20)
  | None => False end.
Proof. vm_compute. split; [reflexivity|discriminate]. Qed.
(* So does an insertion refused because no node is free. *)
Theorem avl_insert_failure_breaks_index_refuted :
  match run_pool 3 [ONew; OIns 0 10; OIns 0 20; OIns 0 5] with
  | Some (p, ob) => avl_iterate_inorder 8 p ob (fun _ => 0) = Ret ([10; 20], 0) /\ avl_get_by_index 8 p ob 0 <> Ret (Some 10)
  | None => False end.
Proof. vm_compute. split; [reflexivity|discriminate]. Qed.
(* On an empty tree the span of a key is read from an uninitialised variable, and an empty index range dereferences NULL. *)
Theorem avl_span_of_empty_tree_refuted :
  match run_pool 3 [ONew] with
  | Some (p, ob) => avl_get_span_by_key (by_value 0) 8 p ob 10 = UB /\ avl_iterate_index_range 8 p ob (fun _ _ => 0) 0 0 = UB
  | None => False end.
Proof. vm_compute. split; reflexivity. Qed.
(* So does the empty range at the end of a tree, and one whose bounds are in the wrong order. *)
Theorem avl_range_at_end_refuted :
  match run_pool 5 [ONew; OIns 0 10; OIns 0 20] with
  | Some (p, ob) => avl_iterate_index_range 8 p ob (fun _ _ => 0) 2 2 = UB
  | None => False end.
Proof. vm_compute. reflexivity. Qed.
(* A tree record is lost each time a tree cannot get its root node. *)
Theorem avl_tree_record_lost_refuted :
  exists s, sruns 0 by_value (mkSpec [] NUM_TREES) [ONew] [RTree None] s /\ s_tfree s = (NUM_TREES - 1)%nat /\ answers 0 [ONew] = Ret [RTree None].
Proof. eexists. split; [eapply sr_cons; [|constructor]; cbn; split; reflexivity|]. split; reflexivity. Qed.

Print Assumptions avl_any_history.
Print Assumptions avl_get_by_key_any_history.
Print Assumptions avl_most_any_history.
Print Assumptions avl_least_any_history.
Print Assumptions avl_iterate_any_history.
Print Assumptions avl_walk_any_history.
Print Assumptions avl_get_by_index_partial.
Print Assumptions avl_index_range_partial.
Print Assumptions avl_span_partial.
Print Assumptions avl_delete_miss_breaks_index_refuted.
