(* Walking a tree with next/previous, index ranges, the index and the span of a key. *)
From Verif Require Import Base AvlSpec AvlModel AvlRep AvlIns AvlRot AvlFun AvlRebal AvlInsert AvlClimb AvlDelete AvlLook.
Ltac Zify.zify_post_hook ::= idtac.

Lemma u64_id x : 0 <= x < 18446744073709551616 -> u64 x = x.
Proof. intros H. unfold u64. apply Z.mod_small. exact H. Qed.
Lemma u64_mod x y : u64 (u64 x + y) = u64 (x + y).
Proof. unfold u64. rewrite Zplus_mod_idemp_l. reflexivity. Qed.

Ltac ueq := match goal with |- Ret (_, u64 ?x) = Ret (_, u64 ?y) => replace x with y by lia; reflexivity end.

(* avl_get_first and then avl_get_next until it answers NULL; the keys seen *)
Fixpoint walk_next (fuel n : nat) (h : heap) (a : nat) : outcome (list Z) :=
  match n with
  | O => Diverge
  | S n => if Nat.eqb a 0 then Ret [] else
           obind (avl_get_next fuel h a) (fun b => obind (walk_next fuel n h b) (fun l => Ret (n_key (h a) :: l)))
  end.
Fixpoint walk_prev (fuel n : nat) (h : heap) (a : nat) : outcome (list Z) :=
  match n with
  | O => Diverge
  | S n => if Nat.eqb a 0 then Ret [] else
           obind (avl_get_prev fuel h a) (fun b => obind (walk_prev fuel n h b) (fun l => Ret (n_key (h a) :: l)))
  end.

Section W.
Variables (h : heap) (sent : nat) (t : tr).
Hypothesis H : holds h sent t.
Hypothesis U : uniq sent t.
Hypothesis K0 : forall k, In k (keys t) -> k <> 0.
Variable fuel : nat.
Hypothesis HF : (Z.to_nat (height t) < fuel)%nat.

Lemma nz l1 a l2 : addrs t = l1 ++ a :: l2 -> a <> 0%nat.
Proof. intros E. apply (addrs_nonzero h t sent (proj2 H)). rewrite E. apply in_or_app. right. left. reflexivity. Qed.

Lemma walk_next_ok : forall l2 l1 n, addrs t = l1 ++ l2 -> (length l2 < n)%nat -> walk_next fuel n h (hd 0%nat l2) = Ret (map (fun a => n_key (h a)) l2).
Proof.
  induction l2 as [|a l2 IH]; intros l1 n E LN; (destruct n as [|n]; [cbn [length] in LN; lia|]); cbn [walk_next hd map].
  - reflexivity.
  - assert (A0 := nz _ _ _ E). apply Nat.eqb_neq in A0. rewrite A0. rewrite (get_next_ok h sent t H U K0 fuel l1 a l2 E HF). cbn [obind].
    cbn [length] in LN. rewrite (IH (l1 ++ [a]) n); [reflexivity|rewrite <- app_assoc; exact E|lia].
Qed.
Lemma walk_prev_ok : forall l1 l2 n, addrs t = rev l1 ++ l2 -> (length l1 < n)%nat -> walk_prev fuel n h (hd 0%nat l1) = Ret (map (fun a => n_key (h a)) l1).
Proof.
  induction l1 as [|a l1 IH]; intros l2 n E LN; (destruct n as [|n]; [cbn [length] in LN; lia|]); cbn [walk_prev hd map].
  - reflexivity.
  - cbn [rev] in E. rewrite <- app_assoc in E. assert (A0 := nz _ _ _ E). apply Nat.eqb_neq in A0. rewrite A0. rewrite (get_prev_ok h sent t H U K0 fuel (rev l1) a l2 E HF). cbn [obind].
    replace (last (rev l1) 0%nat) with (hd 0%nat l1) by (destruct l1; [reflexivity|cbn [rev hd]; rewrite last_last; reflexivity]).
    cbn [length] in LN. rewrite (IH (a :: l2) n); [reflexivity|exact E|lia].
Qed.

(* index ranges *)
Fixpoint visit_idx (iter : Z -> Z -> Z) (i : Z) (l : list Z) : list (Z * Z) * Z :=
  match l with
  | [] => ([], 0)
  | x :: l => if negb (iter (i + 1) x =? 0) then ([(i + 1, x)], -1)
              else ((i + 1, x) :: fst (visit_idx iter (i + 1) l), snd (visit_idx iter (i + 1) l))
  end.
Lemma range_loop_ok iter : forall n l2 l1 i, addrs t = l1 ++ l2 -> (n <= length l2)%nat ->
  range_loop fuel n h (hd 0%nat l2) i iter = Ret (visit_idx iter i (map (fun a => n_key (h a)) (firstn n l2))).
Proof.
  induction n as [|n IH]; intros l2 l1 i E LN; [reflexivity|]. destruct l2 as [|a l2]; [cbn [length] in LN; lia|].
  cbn [range_loop hd firstn map visit_idx]. assert (A0 := nz _ _ _ E). apply Nat.eqb_neq in A0. rewrite A0.
  destruct (negb (iter (i + 1) (n_key (h a)) =? 0)); [reflexivity|].
  rewrite (get_next_ok h sent t H U K0 fuel l1 a l2 E HF). cbn [obind]. cbn [length] in LN.
  rewrite (IH l2 (l1 ++ [a]) (i + 1)); [|rewrite <- app_assoc; exact E|lia]. cbn [obind].
  destruct (visit_idx iter (i + 1) (map (fun a0 => n_key (h a0)) (firstn n l2))). reflexivity.
Qed.
End W.

Section I.
Variable cmp : Z -> Z -> Z.
Hypothesis P : preorder cmp.
(* keys smaller than k *)
Definition below (k : Z) (l : list Z) : nat := length (filter (fun x => cmp k x >? 0) l).
Lemma below_app k a b : below k (a ++ b) = (below k a + below k b)%nat.
Proof. unfold below. rewrite filter_app, app_length. reflexivity. Qed.
Lemma below_all k l : (forall x, In x l -> cmp k x > 0) -> below k l = length l.
Proof. intros H. unfold below. induction l as [|x l IH]; [reflexivity|]. cbn [filter]. assert (X := H x (or_introl eq_refl)). replace (cmp k x >? 0) with true by (symmetry; apply Z.gtb_lt; lia).
  cbn [length]. rewrite IH; [reflexivity|]. intros y Hy. apply H. right. exact Hy. Qed.
Lemma below_none k l : (forall x, In x l -> cmp k x <= 0) -> below k l = 0%nat.
Proof. intros H. unfold below. induction l as [|x l IH]; [reflexivity|]. cbn [filter]. assert (X := H x (or_introl eq_refl)). replace (cmp k x >? 0) with false by (symmetry; rewrite Z.gtb_ltb; apply Z.ltb_ge; lia).
  rewrite IH; [reflexivity|]. intros y Hy. apply H. right. exact Hy. Qed.

Lemma idx_key_ok h k : forall t fuel p off, rep h p t -> t <> L -> ranked t -> sorted cmp (keys t) -> (Z.to_nat (height t) <= fuel)%nat -> 0 <= off -> off + size t < 1073741824 ->
  exists a i, idx_key cmp fuel h (root t) k (off + n_rank (h (root t))) = Ret (a, u64 (off + i)) /\
    ((a = 0%nat /\ (forall x, In x (keys t) -> cmp k x <> 0) /\ i = Z.of_nat (below k (keys t)) - 1) \/
     (a <> 0%nat /\ 0 <= i < size t /\ nth_error (addrs t) (Z.to_nat i) = Some a /\ cmp k (n_key (h a)) = 0)).
Proof.
  induction t as [|l IHl a key rk b r IHr]; intros fuel p off R NL RK S HF O1 O2; [contradiction|].
  pose proof (height_nonneg l). pose proof (height_nonneg r). pose proof (size_nonneg l). pose proof (size_nonneg r). cbn [height] in HF. destruct fuel as [|fuel]; [lia|]. cbn [idx_key root]. cbn [rep] in R. destruct R as (A0 & HA & RL & RR).
  cbn [ranked] in RK. destruct RK as (-> & RKL & RKR). rewrite HA. cbn [n_rank n_key n_left n_right addrs keys size] in *.
  apply sorted_app in S. destruct S as (SL & S & SA). apply sorted_cons in S. destruct S as (SR & SK).
  pose proof (size_keys l) as ZL. pose proof (size_keys r) as ZR.
  destruct (cmp k key <? 0) eqn:C1; [apply Z.ltb_lt in C1|apply Z.ltb_ge in C1].
  - assert (BR : below k (key :: keys r) = 0%nat).
    { apply below_none. intros x [<-|Hx]; [lia|]. pose proof (cmp_lt_le cmp P _ _ _ C1 (SK x Hx)). lia. }
    destruct l as [|ll la lk lr lb lrr].
    + cbn [root Nat.eqb negb size]. exists 0%nat, (-1). cbn [size] in *. split; [ueq|]. left. split; [reflexivity|]. cbn [keys app]. split.
      * intros x [<-|Hx]; [lia|]. pose proof (cmp_lt_le cmp P _ _ _ C1 (SK x Hx)). lia.
      * rewrite BR. reflexivity.
    + set (T := N ll la lk lr lb lrr) in *. assert (R0 : root T <> 0%nat) by (cbn [rep T] in RL; apply RL). apply Nat.eqb_neq in R0. rewrite R0. cbn [negb].
      assert (E1 : 0 <= n_rank (h (root T)) <= size T).
      { unfold T in RL, RKL |- *. cbn [root]. cbn [rep] in RL. destruct RL as (_ & -> & _). cbn [n_rank]. cbn [ranked] in RKL. destruct RKL as (-> & _). cbn [size]. pose proof (size_nonneg ll). pose proof (size_nonneg lrr). lia. }
      rewrite u64_id by lia. replace (off + (size T + 1) - (size T + 1) + n_rank (h (root T))) with (off + n_rank (h (root T))) by lia.
      destruct (IHl fuel a off RL ltac:(discriminate) RKL SL ltac:(lia) ltac:(lia) ltac:(lia)) as (x & i & E & [(X1 & X2 & X3)|(X1 & X2 & X3 & X4)]); exists x, i; (split; [exact E|]); [left|right].
      * split; [exact X1|]. split.
        -- intros y Hy. apply in_app_or in Hy. destruct Hy as [Hy|[<-|Hy]]; [apply X2, Hy|lia|]. pose proof (cmp_lt_le cmp P _ _ _ C1 (SK y Hy)). lia.
        -- rewrite below_app, BR, X3. lia.
      * split; [exact X1|]. split; [lia|]. split; [|exact X4]. rewrite nth_error_app1; [exact X3|]. pose proof (addrs_len T). lia.
  - destruct (cmp k key >? 0) eqn:C2.
    + apply Z.gtb_lt in C2. assert (BL : below k (keys l) = length (keys l)).
      { apply below_all. intros x Hx. pose proof (cmp_lt_trans cmp P k key x ltac:(lia) (SA x key Hx (or_introl eq_refl))). lia. }
      assert (BK : forall m, below k (key :: m) = (1 + below k m)%nat).
      { intros m. unfold below. cbn [filter]. replace (cmp k key >? 0) with true by (symmetry; apply Z.gtb_lt; lia). reflexivity. }
      assert (NL0 : forall x, In x (keys l) -> cmp k x <> 0).
      { intros x Hx. pose proof (cmp_lt_trans cmp P k key x ltac:(lia) (SA x key Hx (or_introl eq_refl))). lia. }
      destruct r as [|ll la lk lr lb lrr].
      * cbn [root Nat.eqb negb size]. exists 0%nat, (size l). split; [ueq|]. left. split; [reflexivity|]. cbn [keys]. split.
        -- intros x Hx. apply in_app_or in Hx. destruct Hx as [Hx|[<-|[]]]; [apply NL0, Hx|lia].
        -- rewrite below_app, BL, BK. change (below k []) with 0%nat. lia.
      * set (T := N ll la lk lr lb lrr) in *. assert (R0 : root T <> 0%nat) by (cbn [rep T] in RR; apply RR). apply Nat.eqb_neq in R0. rewrite R0. cbn [negb].
        assert (E1 : 0 <= n_rank (h (root T)) <= size T).
        { unfold T in RR, RKR |- *. cbn [root]. cbn [rep] in RR. destruct RR as (_ & -> & _). cbn [n_rank]. cbn [ranked] in RKR. destruct RKR as (-> & _). cbn [size]. pose proof (size_nonneg ll). pose proof (size_nonneg lrr). lia. }
        rewrite u64_id by lia.
        destruct (IHr fuel a (off + (size l + 1)) RR ltac:(discriminate) RKR SR ltac:(lia) ltac:(lia) ltac:(lia)) as (x & i & E & [(X1 & X2 & X3)|(X1 & X2 & X3 & X4)]); exists x, (size l + 1 + i); (split; [rewrite E; ueq|]); [left|right].
        -- split; [exact X1|]. split.
           ++ intros y Hy. apply in_app_or in Hy. destruct Hy as [Hy|[<-|Hy]]; [apply NL0, Hy|lia|apply X2, Hy].
           ++ rewrite below_app, BL, BK, X3. lia.
        -- split; [exact X1|]. split; [lia|]. split; [|exact X4]. rewrite nth_error_mid. pose proof (addrs_len l).
           destruct (Nat.ltb_spec (Z.to_nat (size l + 1 + i)) (length (addrs l))); [lia|]. destruct (Nat.eqb_spec (Z.to_nat (size l + 1 + i)) (length (addrs l))); [lia|].
           replace (Z.to_nat (size l + 1 + i) - length (addrs l) - 1)%nat with (Z.to_nat i) by lia. exact X3.
    + assert (C0 : cmp k key = 0) by (pose proof (Zgt_cases (cmp k key) 0); rewrite C2 in *; lia).
      exists a, (size l). split; [ueq|]. right. split; [exact A0|]. split; [lia|]. split; [|rewrite HA; exact C0].
      rewrite nth_error_mid. pose proof (addrs_len l). replace (Z.to_nat (size l)) with (length (addrs l)) by lia.
      rewrite Nat.ltb_irrefl, Nat.eqb_refl. reflexivity.
Qed.

(* the equal keys around the one found *)
Variables (h : heap) (sent : nat) (t : tr).
Hypothesis H : holds h sent t.
Hypothesis U : uniq sent t.
Hypothesis K0 : forall k, In k (keys t) -> k <> 0.
Hypothesis S : sorted cmp (keys t).
Notation K a := (n_key (h a)).
Lemma span_left_ok k : forall l1 l2 fuel, addrs t = rev l1 ++ l2 -> (length l1 + Z.to_nat (height t) + 1 < fuel)%nat ->
  exists j, span_left cmp fuel h (hd 0%nat l1) k (Z.of_nat (length l1)) = Ret (Z.of_nat j) /\ (j <= length l1)%nat /\
    Forall (fun a => cmp k (K a) = 0) (firstn (length l1 - j) l1) /\ match skipn (length l1 - j) l1 with [] => True | a :: _ => cmp k (K a) <> 0 end.
Proof.
  induction l1 as [|a l1 IH]; intros l2 fuel E HF; (destruct fuel as [|fuel]; [lia|]); cbn [span_left hd].
  - exists 0%nat. split; [reflexivity|]. split; [lia|]. split; [constructor|exact Logic.I].
  - cbn [rev] in E. rewrite <- app_assoc in E. assert (A0 := nz h sent t H _ _ _ E). apply Nat.eqb_neq in A0. rewrite A0. cbn [length] in HF.
    replace (Z.of_nat (length (a :: l1)) >? 0) with true by (symmetry; apply Z.gtb_lt; cbn [length]; lia). cbn [andb].
    destruct (cmp k (K a) =? 0) eqn:C; [apply Z.eqb_eq in C|apply Z.eqb_neq in C].
    + rewrite (get_prev_ok h sent t H U K0 fuel (rev l1) a l2 E) by lia. cbn [obind].
      replace (last (rev l1) 0%nat) with (hd 0%nat l1) by (destruct l1; [reflexivity|cbn [rev hd]; rewrite last_last; reflexivity]).
      replace (Z.of_nat (length (a :: l1)) - 1) with (Z.of_nat (length l1)) by (cbn [length]; lia).
      destruct (IH (a :: l2) fuel E ltac:(lia)) as (j & -> & LJ & F & Q). exists j. split; [reflexivity|]. cbn [length]. split; [lia|].
      replace (Datatypes.S (length l1) - j)%nat with (Datatypes.S (length l1 - j)) by lia. cbn [firstn skipn]. split; [constructor; assumption|exact Q].
    + exists (length (a :: l1)). split; [reflexivity|]. split; [lia|]. rewrite Nat.sub_diag. cbn [firstn skipn]. split; [constructor|exact C].
Qed.
Lemma span_right_ok k len : forall l2 l1 fuel m, addrs t = l1 ++ l2 -> (length l2 + Z.to_nat (height t) + 1 < fuel)%nat -> m + Z.of_nat (length l2) <= len ->
  exists j, span_right cmp fuel h (hd 0%nat l2) k m len = Ret (m + Z.of_nat j) /\ (j <= length l2)%nat /\
    Forall (fun a => cmp k (K a) = 0) (firstn j l2) /\ match skipn j l2 with [] => True | a :: _ => cmp k (K a) <> 0 end.
Proof.
  induction l2 as [|a l2 IH]; intros l1 fuel m E HF HM; (destruct fuel as [|fuel]; [lia|]); cbn [span_right hd].
  - exists 0%nat. cbn [Nat.eqb]. split; [f_equal; lia|]. split; [lia|]. split; [constructor|exact Logic.I].
  - assert (A0 := nz h sent t H _ _ _ E). apply Nat.eqb_neq in A0. rewrite A0. cbn [length] in HF, HM.
    replace (m <=? len) with true by (symmetry; apply Z.leb_le; lia). cbn [andb].
    destruct (cmp k (K a) =? 0) eqn:C; [apply Z.eqb_eq in C|apply Z.eqb_neq in C].
    + rewrite (get_next_ok h sent t H U K0 fuel l1 a l2 E) by lia. cbn [obind].
      destruct (IH (l1 ++ [a]) fuel (m + 1) ltac:(rewrite <- app_assoc; exact E) ltac:(lia) ltac:(lia)) as (j & -> & LJ & F & Q). exists (Datatypes.S j). split; [f_equal; lia|]. cbn [length]. split; [lia|].
      cbn [firstn skipn]. split; [constructor; assumption|exact Q].
    + exists 0%nat. split; [f_equal; lia|]. split; [lia|]. cbn [firstn skipn]. split; [constructor|exact C].
Qed.
End I.
