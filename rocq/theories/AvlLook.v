(* Lookups, iteration, neighbours and index functions. *)
From Verif Require Import Base AvlModel AvlSpec AvlRep AvlIns AvlRot AvlFun AvlRebal AvlInsert AvlClimb AvlDelete.
Ltac Zify.zify_post_hook ::= idtac.

Fixpoint addrs (t : tr) : list nat := match t with L => [] | N l a _ _ _ r => addrs l ++ a :: addrs r end.
Fixpoint addrsL (c : ctx) : list nat := match c with [] => [] | FL _ _ _ _ _ :: c => addrsL c | FR l a _ _ _ :: c => addrsL c ++ addrs l ++ [a] end.
Fixpoint addrsR (c : ctx) : list nat := match c with [] => [] | FL a _ _ _ r :: c => a :: addrs r ++ addrsR c | FR _ _ _ _ _ :: c => addrsR c end.
Lemma addrs_plug c : forall t, addrs (plug c t) = addrsL c ++ addrs t ++ addrsR c.
Proof.
  induction c as [|[a k rk b r|l a k rk b] c IH]; intros t; cbn [plug plug1 addrsL addrsR]; [rewrite app_nil_r; reflexivity| |];
    rewrite IH; cbn [addrs]; rewrite <- ?app_assoc; reflexivity.
Qed.
Lemma addrs_keys h t : forall p, rep h p t -> keys t = map (fun a => n_key (h a)) (addrs t).
Proof.
  induction t as [|l IHl a k rk b r IHr]; intros p R; [reflexivity|]. cbn [rep] in R. destruct R as (_ & HA & RL & RR).
  cbn [keys addrs]. rewrite map_app. cbn [map]. rewrite HA, <- (IHl _ RL), <- (IHr _ RR). reflexivity.
Qed.
Lemma addrs_nonzero h t : forall p, rep h p t -> forall a, In a (addrs t) -> a <> 0%nat.
Proof.
  induction t as [|l IHl a k rk b r IHr]; intros p R x Hx; [contradiction|]. cbn [rep] in R. destruct R as (A0 & HA & RL & RR).
  cbn [addrs] in Hx. apply in_app_or in Hx. destruct Hx as [Hx|[<-|Hx]]; eauto.
Qed.
Lemma addrs_len t : Z.of_nat (length (addrs t)) = size t.
Proof. induction t; cbn [addrs size]; [reflexivity|]. rewrite app_length. cbn [length]. lia. Qed.
Lemma addrs_zip t : forall c l1 a l2, addrs t = l1 ++ a :: l2 -> exists cf l k rk b r,
  plug cf (N l a k rk b r) = plug c t /\ addrsL cf ++ addrs l = addrsL c ++ l1 /\ addrs r ++ addrsR cf = l2 ++ addrsR c.
Proof.
  induction t as [|l IHl a k rk b r IHr]; intros c l1 x l2 E; [destruct l1; discriminate|]. cbn [addrs] in E.
  assert (D : (exists m, addrs l = l1 ++ x :: m /\ l2 = m ++ a :: addrs r) \/ (l1 = addrs l /\ x = a /\ l2 = addrs r) \/ (exists m, l1 = addrs l ++ a :: m /\ addrs r = m ++ x :: l2)).
  { revert E. clear. generalize (addrs l), (addrs r). intros p q. revert l1. induction p as [|y p IH]; intros l1 E; cbn [app] in E.
    - destruct l1 as [|z l1]; cbn [app] in E; injection E as E1 E2; subst; [right; left; auto|]. right; right. exists l1. auto.
    - destruct l1 as [|z l1]; cbn [app] in E; injection E as E1 E2; subst.
      + left. exists p. auto.
      + destruct (IH _ E2) as [(m & M1 & M2)|[(M1 & M2 & M3)|(m & M1 & M2)]].
        * left. exists m. split; [cbn [app]; f_equal; exact M1|exact M2].
        * right; left. split; [f_equal; exact M1|auto].
        * right; right. exists m. split; [cbn [app]; f_equal; exact M1|exact M2]. }
  destruct D as [(m & M1 & M2)|[(M1 & M2 & M3)|(m & M1 & M2)]].
  - destruct (IHl (FL a k rk b r :: c) l1 x m M1) as (cf & l' & k' & rk' & b' & r' & E1 & E2 & E3). exists cf, l', k', rk', b', r'.
    split; [exact E1|]. split; [exact E2|]. rewrite E3, M2. cbn [addrsR]. rewrite <- app_assoc. reflexivity.
  - subst. exists c, l, k, rk, b, r. auto.
  - destruct (IHr (FR l a k rk b :: c) m x l2 M2) as (cf & l' & k' & rk' & b' & r' & E1 & E2 & E3). exists cf, l', k', rk', b', r'.
    split; [exact E1|]. split; [|exact E3]. rewrite E2, M1. cbn [addrsL]. rewrite <- !app_assoc. reflexivity.
Qed.

Lemma leftmost_ok h : forall t fuel p, rep h p t -> t <> L -> (Z.to_nat (height t) <= fuel)%nat -> leftmost fuel h (root t) = Ret (hd 0%nat (addrs t)).
Proof.
  induction t as [|l IHl a k rk b r IHr]; intros fuel p R NL HF; [contradiction|].
  cbn [rep] in R. destruct R as (A0 & HA & RL & RR). pose proof (height_nonneg l). pose proof (height_nonneg r). cbn [height] in HF.
  destruct fuel as [|fuel]; [lia|]. cbn [leftmost root addrs]. rewrite HA. cbn [n_left].
  destruct l as [|rl ra rk2 rrk rb rr]; [reflexivity|].
  set (l := N rl ra rk2 rrk rb rr) in *. assert (R0 : root l <> 0%nat) by (cbn [rep l] in RL; apply RL). apply Nat.eqb_neq in R0. rewrite R0.
  rewrite (IHl fuel a RL); [|discriminate|lia]. f_equal. destruct (addrs l) eqn:EA; [|reflexivity].
  exfalso. unfold l in EA. cbn [addrs] in EA. destruct (addrs rl); discriminate.
Qed.
Lemma rightmost_last h : forall t fuel p, rep h p t -> t <> L -> (Z.to_nat (height t) <= fuel)%nat -> rightmost fuel h (root t) = Ret (last (addrs t) 0%nat).
Proof.
  induction t as [|l IHl a k rk b r IHr]; intros fuel p R NL HF; [contradiction|].
  cbn [rep] in R. destruct R as (A0 & HA & RL & RR). pose proof (height_nonneg l). pose proof (height_nonneg r). cbn [height] in HF.
  destruct fuel as [|fuel]; [lia|]. cbn [rightmost root addrs]. rewrite HA. cbn [n_right].
  destruct r as [|rl ra rk2 rrk rb rr]; [cbn [root Nat.eqb addrs]; rewrite last_last; reflexivity|].
  set (r := N rl ra rk2 rrk rb rr) in *. assert (R0 : root r <> 0%nat) by (cbn [rep r] in RR; apply RR). apply Nat.eqb_neq in R0. rewrite R0.
  rewrite (IHr fuel a RR); [|discriminate|lia]. f_equal.
  assert (EA : addrs r <> []) by (unfold r; cbn [addrs]; destruct (addrs rl); discriminate).
  destruct (exists_last EA) as (q & z & ->). rewrite last_last. rewrite (app_assoc (addrs l) (a :: q) [z] : addrs l ++ a :: q ++ [z] = _). rewrite last_last. reflexivity.
Qed.

Section UP.
Variables (h : heap) (sent : nat).
Lemma up_next_ok : forall c fuel T, holds h sent (plug c T) -> uniq sent (plug c T) -> root T <> 0%nat ->
  Forall (fun f => fkey f <> 0) c -> (length c < fuel)%nat -> up_next fuel h (root T) = Ret (hd 0%nat (addrsR c)).
Proof.
  induction c as [|f c IH]; intros fuel T H U R0 KZ HF; (destruct fuel as [|fuel]; [cbn [length] in HF; lia|]); cbn [up_next length] in *.
  - assert (PR := parent_read h sent [] T H R0). rewrite PR. cbn [par]. destruct H as ((S0 & HS) & _). apply Nat.eqb_neq in S0. rewrite S0, HS. reflexivity.
  - assert (PR := parent_read h sent (f :: c) T H R0). assert (SR := side_read h sent (f :: c) T H U R0). rewrite PR. cbn [par] in *.
    inversion_clear KZ as [|? ? KF KC]. cbn [plug] in H, U.
    destruct f as [a k rk b r|l a k rk b]; cbn [plug1 faddr side_of fkey addrsR hd] in *;
      destruct (holds_node _ _ _ _ _ _ _ _ _ H) as (A0 & HA); assert (A1 := A0); apply Nat.eqb_neq in A1; rewrite A1, HA in *; cbn [n_key n_left] in *;
      apply Z.eqb_neq in KF; rewrite KF.
    + destruct (Nat.eqb (root T) (root T)) eqn:EL; [reflexivity|discriminate].
    + destruct (Nat.eqb (root T) (root l)) eqn:EL; [discriminate|]. apply (IH fuel (N l a k rk b T)); auto. lia.
Qed.
Lemma up_prev_ok : forall c fuel T, holds h sent (plug c T) -> uniq sent (plug c T) -> root T <> 0%nat ->
  Forall (fun f => fkey f <> 0) c -> (length c < fuel)%nat -> up_prev fuel h (root T) = Ret (last (addrsL c) 0%nat).
Proof.
  induction c as [|f c IH]; intros fuel T H U R0 KZ HF; (destruct fuel as [|fuel]; [cbn [length] in HF; lia|]); cbn [up_prev length] in *.
  - assert (PR := parent_read h sent [] T H R0). rewrite PR. cbn [par]. destruct H as ((S0 & HS) & _). apply Nat.eqb_neq in S0. rewrite S0, HS. reflexivity.
  - assert (PR := parent_read h sent (f :: c) T H R0). rewrite PR. cbn [par] in *.
    inversion_clear KZ as [|? ? KF KC]. cbn [plug] in H, U.
    destruct f as [a k rk b r|l a k rk b]; cbn [plug1 faddr side_of fkey addrsL hd] in *;
      destruct (holds_node _ _ _ _ _ _ _ _ _ H) as (A0 & HA); assert (A1 := A0); apply Nat.eqb_neq in A1; rewrite A1, HA in *; cbn [n_key n_right] in *;
      apply Z.eqb_neq in KF; rewrite KF.
    + assert (NE : Nat.eqb (root T) (root r) = false).
      { apply Nat.eqb_neq. intros E. specialize (U (root T)). rewrite cnt_plug in U. cbn [cnt] in U. 
        destruct T as [|tl ta tk trk tb tr']; [contradiction|]. destruct r as [|rl ra rk2 rrk rb rr]; [cbn [root] in *; congruence|].
        cbn [root cnt] in *. subst ra. rewrite !one_refl in U. lia. }
      rewrite NE. apply (IH fuel (N T a k rk b r)); auto. lia.
    + rewrite Nat.eqb_refl. f_equal. rewrite app_assoc, last_last. reflexivity.
Qed.
Lemma forall_frames c : forall t, (forall k, In k (keys (plug c t)) -> k <> 0) -> Forall (fun f => fkey f <> 0) c.
Proof.
  induction c as [|f c IH]; intros t K; constructor.
  - apply K. cbn [plug]. rewrite keys_plug. apply in_or_app. right. apply in_or_app. left. destruct f; cbn [plug1 keys fkey]; apply in_or_app; right; left; reflexivity.
  - apply (IH (plug1 f t)). exact K.
Qed.

Variable t : tr.
Hypothesis H : holds h sent t.
Hypothesis U : uniq sent t.
Hypothesis K0 : forall k, In k (keys t) -> k <> 0.

Lemma get_next_ok fuel l1 a l2 : addrs t = l1 ++ a :: l2 -> (Z.to_nat (height t) < fuel)%nat -> avl_get_next fuel h a = Ret (hd 0%nat l2).
Proof.
  intros E HF. destruct (addrs_zip t [] l1 a l2 E) as (c & l & k & rk & b & r & EP & _ & E2). cbn [plug addrsR] in EP, E2. rewrite app_nil_r in E2. subst l2.
  assert (HS := height_sub c (N l a k rk b r)). rewrite EP in HS. cbn [height] in HS. pose proof (height_nonneg l). pose proof (height_nonneg r).
  rewrite <- EP in H, U. destruct (holds_node _ _ _ _ _ _ _ _ _ H) as (A0 & HA). unfold avl_get_next. rewrite HA. cbn [n_right].
  assert (RR : rep h a r) by (apply (holds_plug h sent c) in H; cbn [rep] in H; tauto).
  destruct r as [|rl ra rk2 rrk rb rr].
  - cbn [root Nat.eqb negb addrs app]. apply (up_next_ok c fuel (N l a k rk b L)); auto; [|lia]. apply (forall_frames c (N l a k rk b L)). rewrite EP. exact K0.
  - set (r := N rl ra rk2 rrk rb rr) in *. assert (R0 : root r <> 0%nat) by (cbn [rep r] in RR; apply RR). apply Nat.eqb_neq in R0. rewrite R0. cbn [negb].
    rewrite (leftmost_ok h r fuel a RR); [|discriminate|lia]. f_equal. destruct (addrs r) eqn:EA; [|reflexivity].
    exfalso. unfold r in EA. cbn [addrs] in EA. destruct (addrs rl); discriminate.
Qed.
Lemma get_prev_ok fuel l1 a l2 : addrs t = l1 ++ a :: l2 -> (Z.to_nat (height t) < fuel)%nat -> avl_get_prev fuel h a = Ret (last l1 0%nat).
Proof.
  intros E HF. destruct (addrs_zip t [] l1 a l2 E) as (c & l & k & rk & b & r & EP & E2 & _). cbn [plug addrsL app] in EP, E2. subst l1.
  assert (HS := height_sub c (N l a k rk b r)). rewrite EP in HS. cbn [height] in HS. pose proof (height_nonneg l). pose proof (height_nonneg r).
  rewrite <- EP in H, U. destruct (holds_node _ _ _ _ _ _ _ _ _ H) as (A0 & HA). unfold avl_get_prev. rewrite HA. cbn [n_left].
  assert (RR : rep h a l) by (apply (holds_plug h sent c) in H; cbn [rep] in H; tauto).
  destruct l as [|rl ra rk2 rrk rb rr].
  - cbn [root Nat.eqb negb addrs]. rewrite app_nil_r. apply (up_prev_ok c fuel (N L a k rk b r)); auto; [|lia]. apply (forall_frames c (N L a k rk b r)). rewrite EP. exact K0.
  - set (l := N rl ra rk2 rrk rb rr) in *. assert (R0 : root l <> 0%nat) by (cbn [rep l] in RR; apply RR). apply Nat.eqb_neq in R0. rewrite R0. cbn [negb].
    rewrite (rightmost_last h l fuel a RR); [|discriminate|lia]. f_equal. 
    assert (EA : addrs l <> []) by (unfold l; cbn [addrs]; destruct (addrs rl); discriminate).
    destruct (exists_last EA) as (q & z & ->). rewrite app_assoc, !last_last. reflexivity.
Qed.
End UP.

(* ---------- lookups ---------- *)
Section LOOK.
Variable cmp : Z -> Z -> Z.
Hypothesis P : preorder cmp.

Lemma cmp_lt_le a b c : cmp a b < 0 -> cmp b c <= 0 -> cmp a c < 0.
Proof.
  intros H1 H2. destruct (Z_lt_ge_dec (cmp a c) 0) as [|GE]; [assumption|exfalso].
  apply (cmp_flip cmp P c a) in GE. pose proof (cmp_trans cmp P _ _ _ H2 GE) as X. apply (cmp_flip cmp P b a) in X. lia.
Qed.

Lemma by_key_ok h k : forall t fuel p, rep h p t -> sorted cmp (keys t) -> (Z.to_nat (height t) < fuel)%nat ->
  exists o, by_key cmp fuel h (root t) k = Ret o /\
    match o with Some x => In x (keys t) /\ cmp k x = 0 | None => forall x, In x (keys t) -> cmp k x <> 0 end.
Proof.
  induction t as [|l IHl a key rk b r IHr]; intros fuel p R S HF; (destruct fuel as [|fuel]; [cbn [height] in HF; lia|]); cbn [by_key root].
  - exists None. split; [reflexivity|]. intros x [].
  - pose proof (height_nonneg l). pose proof (height_nonneg r). cbn [height] in HF. cbn [rep] in R. destruct R as (A0 & HA & RL & RR).
    apply Nat.eqb_neq in A0. rewrite A0, HA. cbn [n_key n_left n_right]. cbn [keys] in *. apply sorted_app in S. destruct S as (SL & S & SA).
    apply sorted_cons in S. destruct S as (SR & SK).
    destruct (cmp k key <? 0) eqn:C1; [apply Z.ltb_lt in C1|apply Z.ltb_ge in C1].
    + destruct (IHl fuel a RL SL ltac:(lia)) as (o & E & O). exists o. split; [exact E|]. destruct o as [x|].
      * destruct O as (O1 & O2). split; [apply in_or_app; left; exact O1|exact O2].
      * intros x Hx. apply in_app_or in Hx. destruct Hx as [Hx|[<-|Hx]]; [apply O, Hx|lia|]. pose proof (cmp_lt_le _ _ _ C1 (SK x Hx)). lia.
    + destruct (cmp k key >? 0) eqn:C2.
      * apply Z.gtb_lt in C2. destruct (IHr fuel a RR SR ltac:(lia)) as (o & E & O). exists o. split; [exact E|]. destruct o as [x|].
        -- destruct O as (O1 & O2). split; [apply in_or_app; right; right; exact O1|exact O2].
        -- intros x Hx. apply in_app_or in Hx. destruct Hx as [Hx|[<-|Hx]]; [|lia|apply O, Hx].
           pose proof (cmp_lt_trans cmp P k key x ltac:(lia) (SA x key Hx (or_introl eq_refl))). lia.
      * assert (C0 : cmp k key = 0) by (pose proof (Zgt_cases (cmp k key) 0); rewrite C2 in *; lia).
        exists (Some key). split; [reflexivity|]. split; [apply in_or_app; right; left; reflexivity|exact C0].
Qed.

(* greatest key not above k *)
Lemma key_most_ok h k : forall t fuel p v, rep h p t -> sorted cmp (keys t) -> (Z.to_nat (height t) < fuel)%nat ->
  exists o, key_most cmp fuel h (root t) k v = Ret o /\
    ((o = v /\ forall x, In x (keys t) -> cmp k x < 0) \/
     (In o (keys t) /\ cmp k o >= 0 /\ forall x, In x (keys t) -> cmp k x >= 0 -> cmp x o <= 0)).
Proof.
  induction t as [|l IHl a key rk b r IHr]; intros fuel p v R S HF; (destruct fuel as [|fuel]; [cbn [height] in HF; lia|]); cbn [key_most root].
  - exists v. split; [reflexivity|]. left. split; [reflexivity|]. intros x [].
  - pose proof (height_nonneg l). pose proof (height_nonneg r). cbn [height] in HF. cbn [rep] in R. destruct R as (A0 & HA & RL & RR).
    apply Nat.eqb_neq in A0. rewrite A0, HA. cbn [n_key n_left n_right]. cbn [keys] in *. apply sorted_app in S. destruct S as (SL & S & SA).
    apply sorted_cons in S. destruct S as (SR & SK).
    destruct (cmp k key =? 0) eqn:C0; [apply Z.eqb_eq in C0|apply Z.eqb_neq in C0; destruct (cmp k key <? 0) eqn:C1; [apply Z.ltb_lt in C1|apply Z.ltb_ge in C1]].
    + exists key. split; [reflexivity|]. right. split; [apply in_or_app; right; left; reflexivity|]. split; [lia|].
      intros x _ GE. apply (cmp_trans cmp P x k key); [apply (cmp_flip cmp P x k); lia|lia].
    + destruct (IHl fuel a v RL SL ltac:(lia)) as (o & E & [(O1 & O2)|(O1 & O2 & O3)]); exists o; (split; [exact E|]); [left|right].
      * split; [exact O1|]. intros x Hx. apply in_app_or in Hx. destruct Hx as [Hx|[<-|Hx]]; [apply O2, Hx|lia|exact (cmp_lt_le _ _ _ C1 (SK x Hx))].
      * split; [apply in_or_app; left; exact O1|]. split; [exact O2|]. intros x Hx GE. apply in_app_or in Hx. destruct Hx as [Hx|[<-|Hx]]; [apply O3; assumption|lia|].
        pose proof (cmp_lt_le _ _ _ C1 (SK x Hx)). lia.
    + destruct (IHr fuel a key RR SR ltac:(lia)) as (o & E & [(O1 & O2)|(O1 & O2 & O3)]); exists o; (split; [exact E|]); right.
      * subst o. split; [apply in_or_app; right; left; reflexivity|]. split; [lia|]. intros x Hx GE. apply in_app_or in Hx.
        destruct Hx as [Hx|[<-|Hx]]; [exact (SA x key Hx (or_introl eq_refl))|rewrite (cmp_refl cmp P); lia|specialize (O2 x Hx); lia].
      * split; [apply in_or_app; right; right; exact O1|]. split; [exact O2|]. intros x Hx GE. apply in_app_or in Hx.
        destruct Hx as [Hx|[<-|Hx]]; [exact (SA x o Hx (or_intror O1))|exact (SK o O1)|apply O3; assumption].
Qed.
(* least key not below k *)
Lemma key_least_ok h k : forall t fuel p v, rep h p t -> sorted cmp (keys t) -> (Z.to_nat (height t) < fuel)%nat ->
  exists o, key_least cmp fuel h (root t) k v = Ret o /\
    ((o = v /\ forall x, In x (keys t) -> cmp k x > 0) \/
     (In o (keys t) /\ cmp k o <= 0 /\ forall x, In x (keys t) -> cmp k x <= 0 -> cmp o x <= 0)).
Proof.
  induction t as [|l IHl a key rk b r IHr]; intros fuel p v R S HF; (destruct fuel as [|fuel]; [cbn [height] in HF; lia|]); cbn [key_least root].
  - exists v. split; [reflexivity|]. left. split; [reflexivity|]. intros x [].
  - pose proof (height_nonneg l). pose proof (height_nonneg r). cbn [height] in HF. cbn [rep] in R. destruct R as (A0 & HA & RL & RR).
    apply Nat.eqb_neq in A0. rewrite A0, HA. cbn [n_key n_left n_right]. cbn [keys] in *. apply sorted_app in S. destruct S as (SL & S & SA).
    apply sorted_cons in S. destruct S as (SR & SK).
    destruct (cmp k key =? 0) eqn:C0; [apply Z.eqb_eq in C0|apply Z.eqb_neq in C0; destruct (cmp k key <? 0) eqn:C1; [apply Z.ltb_lt in C1|apply Z.ltb_ge in C1]].
    + exists key. split; [reflexivity|]. right. split; [apply in_or_app; right; left; reflexivity|]. split; [lia|].
      intros x _ GE. apply (cmp_trans cmp P key k x); [apply (cmp_flip cmp P key k); lia|lia].
    + destruct (IHl fuel a key RL SL ltac:(lia)) as (o & E & [(O1 & O2)|(O1 & O2 & O3)]); exists o; (split; [exact E|]); right.
      * subst o. split; [apply in_or_app; right; left; reflexivity|]. split; [lia|]. intros x Hx GE. apply in_app_or in Hx.
        destruct Hx as [Hx|[<-|Hx]]; [specialize (O2 x Hx); lia|rewrite (cmp_refl cmp P); lia|exact (SK x Hx)].
      * split; [apply in_or_app; left; exact O1|]. split; [exact O2|]. intros x Hx GE. apply in_app_or in Hx. destruct Hx as [Hx|[<-|Hx]]; [apply O3; assumption| |].
        -- exact (SA o key O1 (or_introl eq_refl)).
        -- exact (SA o x O1 (or_intror Hx)).
    + destruct (IHr fuel a v RR SR ltac:(lia)) as (o & E & [(O1 & O2)|(O1 & O2 & O3)]); exists o; (split; [exact E|]); [left|right].
      * split; [exact O1|]. intros x Hx. apply in_app_or in Hx. destruct Hx as [Hx|[<-|Hx]]; [|lia|apply O2, Hx].
        apply (cmp_lt_trans cmp P k key x); [lia|]. exact (SA x key Hx (or_introl eq_refl)).
      * split; [apply in_or_app; right; right; exact O1|]. split; [exact O2|]. intros x Hx GE. apply in_app_or in Hx.
        destruct Hx as [Hx|[<-|Hx]]; [|lia|apply O3; assumption].
        pose proof (cmp_lt_trans cmp P k key x ltac:(lia) (SA x key Hx (or_introl eq_refl))). lia.
Qed.
End LOOK.

Lemma nth_error_mid {A} (l1 l2 : list A) x (m : nat) :
  nth_error (l1 ++ x :: l2) m = if (m <? length l1)%nat then nth_error l1 m else if (m =? length l1)%nat then Some x else nth_error l2 (m - length l1 - 1).
Proof.
  destruct (Nat.ltb_spec m (length l1)); [apply nth_error_app1; assumption|]. rewrite nth_error_app2 by assumption.
  destruct (Nat.eqb_spec m (length l1)) as [->|NE]; [rewrite Nat.sub_diag; reflexivity|].
  destruct (m - length l1)%nat eqn:E; [lia|]. cbn [nth_error]. f_equal. lia.
Qed.
Lemma by_index_ok h : forall t fuel p m, rep h p t -> ranked t -> (Z.to_nat (height t) < fuel)%nat ->
  by_index fuel h (root t) m = Ret (if m <? 1 then None else nth_error (keys t) (Z.to_nat (m - 1))).
Proof.
  induction t as [|l IHl a key rk b r IHr]; intros fuel p m R RK HF; (destruct fuel as [|fuel]; [cbn [height] in HF; lia|]); cbn [by_index root].
  - cbn [Nat.eqb keys]. destruct (m <? 1); [reflexivity|]. destruct (Z.to_nat (m - 1)); reflexivity.
  - pose proof (height_nonneg l). pose proof (height_nonneg r). cbn [height] in HF. cbn [rep] in R. destruct R as (A0 & HA & RL & RR).
    cbn [ranked] in RK. destruct RK as (-> & RKL & RKR). apply Nat.eqb_neq in A0. rewrite A0, HA. cbn [n_rank n_key n_left n_right keys].
    pose proof (size_nonneg l). pose proof (size_keys l) as SL.
    destruct (m <? size l + 1) eqn:C1; [apply Z.ltb_lt in C1|apply Z.ltb_ge in C1].
    + rewrite (IHl fuel a m RL RKL ltac:(lia)). destruct (m <? 1) eqn:M1; [reflexivity|]. apply Z.ltb_ge in M1.
      f_equal. rewrite nth_error_app1 by lia. reflexivity.
    + destruct (m >? size l + 1) eqn:C2.
      * apply Z.gtb_lt in C2. rewrite (IHr fuel a _ RR RKR ltac:(lia)). replace (m <? 1) with false by (symmetry; apply Z.ltb_ge; lia).
        replace (m - (size l + 1) <? 1) with false by (symmetry; apply Z.ltb_ge; lia). f_equal. rewrite nth_error_mid.
        destruct (Nat.ltb_spec (Z.to_nat (m - 1)) (length (keys l))); [lia|]. destruct (Nat.eqb_spec (Z.to_nat (m - 1)) (length (keys l))); [lia|]. f_equal. lia.
      * assert (m = size l + 1) by (pose proof (Zgt_cases m (size l + 1)); rewrite C2 in *; lia). subst m.
        replace (size l + 1 <? 1) with false by (symmetry; apply Z.ltb_ge; lia). f_equal. rewrite nth_error_mid.
        destruct (Nat.ltb_spec (Z.to_nat (size l + 1 - 1)) (length (keys l))); [lia|]. destruct (Nat.eqb_spec (Z.to_nat (size l + 1 - 1)) (length (keys l))); [reflexivity|lia].
Qed.
Lemma seek_rank_ok h : forall t fuel p m, rep h p t -> ranked t -> (Z.to_nat (height t) <= fuel)%nat -> 1 <= m <= size t ->
  exists a, seek_rank fuel h (root t) m = Ret a /\ nth_error (addrs t) (Z.to_nat (m - 1)) = Some a.
Proof.
  induction t as [|l IHl a key rk b r IHr]; intros fuel p m R RK HF HM; [cbn [size] in HM; lia|].
  pose proof (height_nonneg l). pose proof (height_nonneg r). cbn [height] in HF. destruct fuel as [|fuel]; [lia|]. cbn [seek_rank root]. cbn [rep] in R. destruct R as (A0 & HA & RL & RR).
  cbn [ranked] in RK. destruct RK as (-> & RKL & RKR). apply Nat.eqb_neq in A0. rewrite A0, HA. cbn [n_rank n_key n_left n_right addrs].
  pose proof (size_nonneg l). pose proof (addrs_len l) as SL. cbn [size] in HM. 
  destruct (m <? size l + 1) eqn:C1; [apply Z.ltb_lt in C1|apply Z.ltb_ge in C1].
  + destruct (IHl fuel a m RL RKL ltac:(lia) ltac:(lia)) as (x & E & NX). exists x. split; [exact E|]. rewrite nth_error_app1 by lia. exact NX.
  + destruct (m >? size l + 1) eqn:C2.
    * apply Z.gtb_lt in C2. destruct (IHr fuel a (m - (size l + 1)) RR RKR ltac:(lia) ltac:(lia)) as (x & E & NX). exists x. split; [exact E|]. rewrite nth_error_mid.
      destruct (Nat.ltb_spec (Z.to_nat (m - 1)) (length (addrs l))); [lia|]. destruct (Nat.eqb_spec (Z.to_nat (m - 1)) (length (addrs l))); [lia|].
      replace (Z.to_nat (m - 1) - length (addrs l) - 1)%nat with (Z.to_nat (m - (size l + 1) - 1)) by lia. exact NX.
    * assert (m = size l + 1) by (pose proof (Zgt_cases m (size l + 1)); rewrite C2 in *; lia). subst m. exists a. split; [reflexivity|]. rewrite nth_error_mid.
      destruct (Nat.ltb_spec (Z.to_nat (size l + 1 - 1)) (length (addrs l))); [lia|]. destruct (Nat.eqb_spec (Z.to_nat (size l + 1 - 1)) (length (addrs l))); [reflexivity|lia].
Qed.

(* ---------- in-order iteration ---------- *)
Lemma visit_app iter a b : visit iter (a ++ b) = if negb (snd (visit iter a) =? 0) then visit iter a else (fst (visit iter a) ++ fst (visit iter b), snd (visit iter b)).
Proof.
  induction a as [|x a IH]; cbn [app visit].
  - cbn [fst snd Z.eqb negb app]. destruct (visit iter b); reflexivity.
  - destruct (iter x =? 0) eqn:E; cbn [negb]; [|cbn [snd]; rewrite E; reflexivity]. cbn [fst snd]. rewrite IH.
    destruct (snd (visit iter a) =? 0); reflexivity.
Qed.
Lemma iter_inorder_ok h iter : forall t fuel p, rep h p t -> t <> L -> (Z.to_nat (height t) <= fuel)%nat -> iter_inorder fuel h (root t) iter = Ret (visit iter (keys t)).
Proof.
  induction t as [|l IHl a key rk b r IHr]; intros fuel p R NL HF; [contradiction|].
  pose proof (height_nonneg l). pose proof (height_nonneg r). cbn [height] in HF. destruct fuel as [|fuel]; [lia|]. cbn [iter_inorder root]. cbn [rep] in R. destruct R as (A0 & HA & RL & RR).
  apply Nat.eqb_neq in A0. rewrite A0, HA. cbn [n_key n_left n_right keys].
  assert (EL : (if Nat.eqb (root l) 0 then Ret ([], 0) else iter_inorder fuel h (root l) iter) = Ret (visit iter (keys l))).
  { destruct l as [|ll la lk lr lb lrr]; [reflexivity|]. assert (R0 : root (N ll la lk lr lb lrr) <> 0%nat) by (cbn [rep] in RL; apply RL).
    apply Nat.eqb_neq in R0. rewrite R0. apply (IHl fuel a RL); [discriminate|lia]. }
  assert (ER : (if Nat.eqb (root r) 0 then Ret ([], 0) else iter_inorder fuel h (root r) iter) = Ret (visit iter (keys r))).
  { destruct r as [|ll la lk lr lb lrr]; [reflexivity|]. assert (R0 : root (N ll la lk lr lb lrr) <> 0%nat) by (cbn [rep] in RR; apply RR).
    apply Nat.eqb_neq in R0. rewrite R0. apply (IHr fuel a RR); [discriminate|lia]. }
  rewrite EL, ER. cbn [obind]. rewrite visit_app. cbn [visit]. destruct (visit iter (keys l)) as [l1 r1]. cbn [fst snd].
  destruct (negb (r1 =? 0)); [reflexivity|]. destruct (negb (iter key =? 0)); [reflexivity|].
  destruct (visit iter (keys r)) as [l2 r2]. cbn [obind fst snd]. reflexivity.
Qed.
