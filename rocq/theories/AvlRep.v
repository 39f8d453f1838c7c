(* Trees with addresses, contexts, and how a heap represents them. *)
From Verif Require Import Base AvlModel AvlSpec.
Ltac Zify.zify_post_hook ::= idtac.

Inductive tr := L | N (l : tr) (a : nat) (k rk b : Z) (r : tr).
Definition root (t : tr) : nat := match t with L => 0%nat | N _ a _ _ _ _ => a end.
Fixpoint keys (t : tr) : list Z := match t with L => [] | N l _ k _ _ r => keys l ++ k :: keys r end.
Fixpoint size (t : tr) : Z := match t with L => 0 | N l _ _ _ _ r => size l + 1 + size r end.
Fixpoint height (t : tr) : Z := match t with L => 0 | N l _ _ _ _ r => 1 + Z.max (height l) (height r) end.
Definition one (x a : nat) : nat := if Nat.eq_dec x a then 1%nat else 0%nat.
(* how often address x occurs *)
Fixpoint cnt (x : nat) (t : tr) : nat := match t with L => 0%nat | N l a _ _ _ r => (cnt x l + one x a + cnt x r)%nat end.
Fixpoint balanced (t : tr) : Prop :=
  match t with
  | L => True
  | N l _ _ _ b r => b = height r - height l /\ -1 <= b <= 1 /\ balanced l /\ balanced r
  end.
Fixpoint ranked (t : tr) : Prop :=
  match t with L => True | N l _ _ rk _ r => rk = size l + 1 /\ ranked l /\ ranked r end.

Fixpoint rep (h : heap) (par : nat) (t : tr) : Prop :=
  match t with
  | L => True
  | N l a k rk b r => a <> 0%nat /\ h a = mkN k (root l) (root r) par rk b /\ rep h a l /\ rep h a r
  end.

(* contexts: FL, the hole is the left child of a; innermost frame first *)
Inductive frame := FL (a : nat) (k rk b : Z) (r : tr) | FR (l : tr) (a : nat) (k rk b : Z).
Notation ctx := (list frame).
Definition plug1 (f : frame) (t : tr) : tr :=
  match f with FL a k rk b r => N t a k rk b r | FR l a k rk b => N l a k rk b t end.
Fixpoint plug (c : ctx) (t : tr) : tr := match c with [] => t | f :: c => plug c (plug1 f t) end.
Definition faddr f := match f with FL a _ _ _ _ => a | FR _ a _ _ _ => a end.
Definition fbal f := match f with FL _ _ _ b _ => b | FR _ _ _ _ b => b end.
Definition fdir f : Z := match f with FL _ _ _ _ _ => -1 | FR _ _ _ _ _ => 1 end.
Definition fkey f := match f with FL _ k _ _ _ => k | FR _ _ k _ _ => k end.
Definition fsib f := match f with FL _ _ _ _ r => r | FR l _ _ _ _ => l end.
Definition par (sent : nat) (c : ctx) : nat := match c with [] => sent | f :: _ => faddr f end.
Fixpoint cntc (x : nat) (c : ctx) : nat :=
  match c with [] => 0%nat | f :: c => (cnt x (fsib f) + one x (faddr f) + cntc x c)%nat end.
Fixpoint keysL (c : ctx) : list Z :=
  match c with [] => [] | FL _ _ _ _ _ :: c => keysL c | FR l _ k _ _ :: c => keysL c ++ keys l ++ [k] end.
Fixpoint keysR (c : ctx) : list Z :=
  match c with [] => [] | FL _ k _ _ r :: c => k :: keys r ++ keysR c | FR _ _ _ _ _ :: c => keysR c end.

Fixpoint repc (h : heap) (sent : nat) (child : nat) (c : ctx) : Prop :=
  match c with
  | [] => sent <> 0%nat /\ h sent = mkN 0 0 child 0 1 0
  | FL a k rk b r :: c => a <> 0%nat /\ h a = mkN k child (root r) (par sent c) rk b /\ rep h a r /\ repc h sent a c
  | FR l a k rk b :: c => a <> 0%nat /\ h a = mkN k (root l) child (par sent c) rk b /\ rep h a l /\ repc h sent a c
  end.
(* the heap holds the tree t below the sentinel *)
Definition holds (h : heap) (sent : nat) (t : tr) : Prop := repc h sent (root t) [] /\ rep h sent t.
(* no address twice *)
Definition once (sent : nat) (c : ctx) (t : tr) : Prop := forall x, (one x sent + cntc x c + cnt x t <= 1)%nat.

Lemma one_refl a : one a a = 1%nat.
Proof. unfold one. destruct (Nat.eq_dec a a); congruence. Qed.
Lemma one_ne a b : a <> b -> one a b = 0%nat.
Proof. unfold one. destruct (Nat.eq_dec a b); congruence. Qed.
Lemma one_le a b : (one a b <= 1)%nat.
Proof. unfold one. destruct (Nat.eq_dec a b); lia. Qed.

Lemma cnt_plug x c : forall t, cnt x (plug c t) = (cntc x c + cnt x t)%nat.
Proof. induction c as [|[a k rk b r|l a k rk b] c IH]; intros t; cbn [plug cntc plug1 fsib faddr]; [lia| |]; rewrite IH; cbn [cnt]; lia. Qed.
Lemma keys_plug c : forall t, keys (plug c t) = keysL c ++ keys t ++ keysR c.
Proof.
  induction c as [|[a k rk b r|l a k rk b] c IH]; intros t; cbn [plug plug1 keysL keysR]; [rewrite app_nil_r; reflexivity| |];
    rewrite IH; cbn [keys]; rewrite <- ?app_assoc; reflexivity.
Qed.
Lemma holds_plug h sent c : forall t, holds h sent (plug c t) <-> repc h sent (root t) c /\ rep h (par sent c) t.
Proof.
  induction c as [|[a k rk b r|l a k rk b] c IH]; intros t; cbn [plug plug1 repc par faddr].
  - reflexivity.
  - rewrite IH. cbn [rep root]. tauto.
  - rewrite IH. cbn [rep root]. tauto.
Qed.

Lemma upd_eq h a n : upd h a n a = n.
Proof. unfold upd. rewrite Nat.eqb_refl. reflexivity. Qed.
Lemma upd_ne h a n x : x <> a -> upd h a n x = h x.
Proof. intros H. unfold upd. apply Nat.eqb_neq in H. rewrite H. reflexivity. Qed.

Lemma rep_frame h h' t : forall p, rep h p t -> (forall a, (1 <= cnt a t)%nat -> h' a = h a) -> rep h' p t.
Proof.
  induction t as [|l IHl a k rk b r IHr]; intros p H E; [exact I|].
  cbn [rep cnt] in *. destruct H as (H0 & H1 & H2 & H3). split; [exact H0|].
  split; [rewrite E; [exact H1|rewrite one_refl; lia]|].
  split; [apply IHl|apply IHr]; try assumption; intros x Hx; apply E; lia.
Qed.
Lemma repc_frame h h' sent c : forall ch, repc h sent ch c -> (forall a, (1 <= cntc a c + one a sent)%nat -> h' a = h a) -> repc h' sent ch c.
Proof.
  induction c as [|[a k rk b r|l a k rk b] c IH]; intros ch H E; cbn [repc cntc fsib faddr] in *.
  - destruct H as (H0 & H1). split; [exact H0|]. rewrite E; [exact H1|rewrite one_refl; lia].
  - destruct H as (H0 & H1 & H2 & H3). split; [exact H0|]. split; [rewrite E; [exact H1|rewrite one_refl; lia]|].
    split; [apply (rep_frame h); [exact H2|intros x Hx; apply E; lia]|apply IH; [exact H3|intros x Hx; apply E; lia]].
  - destruct H as (H0 & H1 & H2 & H3). split; [exact H0|]. split; [rewrite E; [exact H1|rewrite one_refl; lia]|].
    split; [apply (rep_frame h); [exact H2|intros x Hx; apply E; lia]|apply IH; [exact H3|intros x Hx; apply E; lia]].
Qed.
Lemma rep_root_in h p t : rep h p t -> t <> L -> (1 <= cnt (root t) t)%nat.
Proof. destruct t; [contradiction|]. intros _ _. cbn [root cnt]. rewrite one_refl. lia. Qed.

(* changing the parent pointer of the root *)
Lemma rep_reparent h h' p p' t : rep h p t ->
  (forall a, (1 <= cnt a t)%nat -> a <> root t -> h' a = h a) ->
  (t <> L -> h' (root t) = w_parent (h (root t)) p') -> (forall x, cnt x t <= 1)%nat -> rep h' p' t.
Proof.
  destruct t as [|l a k rk b r]; [intros; exact I|]. cbn [rep root cnt]. intros (H0 & H1 & H2 & H3) E ER U.
  assert (UA := U a). rewrite one_refl in UA.
  split; [exact H0|]. split.
  - rewrite ER by discriminate. rewrite H1. reflexivity.
  - split; (eapply rep_frame; [eassumption|]); intros x Hx; apply E; try lia; intros ->; lia.
Qed.

Lemma size_nonneg t : 0 <= size t.
Proof. induction t; cbn [size]; lia. Qed.
Lemma height_nonneg t : 0 <= height t.
Proof. induction t; cbn [height]; lia. Qed.
Lemma size_keys t : size t = Z.of_nat (length (keys t)).
Proof. induction t; cbn [size keys]; [reflexivity|]. rewrite app_length. cbn [length]. lia. Qed.

(* the height is logarithmic in the size *)
Lemma balanced_height t : balanced t -> 2 ^ height t <= (size t + 1) * (size t + 1).
Proof.
  assert (G : forall n t, height t <= Z.of_nat n -> balanced t -> 2 ^ height t <= (size t + 1) * (size t + 1)).
  { induction n as [|n IH]; intros t0 Hh B.
    - pose proof (height_nonneg t0). replace (height t0) with 0 by lia. pose proof (size_nonneg t0). change (2^0) with 1. nia.
    - destruct t0 as [|l a k rk b r]; [cbn; lia|]. cbn [height size balanced] in *. destruct B as (B1 & B2 & B3 & B4).
      pose proof (height_nonneg l). pose proof (height_nonneg r). pose proof (size_nonneg l). pose proof (size_nonneg r).
      assert (IL : 2 ^ height l <= (size l + 1) * (size l + 1)) by (apply IH; [lia|exact B3]).
      assert (IR : 2 ^ height r <= (size r + 1) * (size r + 1)) by (apply IH; [lia|exact B4]).
      set (m := Z.min (height l) (height r)).
      assert (Hm : 1 + Z.max (height l) (height r) <= m + 2) by lia.
      assert (PM : 2 ^ (1 + Z.max (height l) (height r)) <= 4 * 2 ^ m).
      { replace (4 * 2 ^ m) with (2 ^ (m + 2)) by (rewrite Z.pow_add_r by lia; change (2^2) with 4; lia). apply Z.pow_le_mono_r; lia. }
      assert (PL : 2 ^ m <= (size l + 1) * (size l + 1)).
      { eapply Z.le_trans; [|exact IL]. apply Z.pow_le_mono_r; lia. }
      assert (PR : 2 ^ m <= (size r + 1) * (size r + 1)).
      { eapply Z.le_trans; [|exact IR]. apply Z.pow_le_mono_r; lia. }
      assert (2 ^ m <= Z.min (size l + 1) (size r + 1) * Z.min (size l + 1) (size r + 1)).
      { destruct (Z.min_spec (size l + 1) (size r + 1)) as [(_ & ->)|(_ & ->)]; assumption. }
      assert (2 * Z.min (size l + 1) (size r + 1) <= size l + 1 + size r + 1) by lia. nia. }
  intros B. apply (G (Z.to_nat (height t))); [pose proof (height_nonneg t); lia|exact B].
Qed.

(* heights and sizes around a hole *)
Definition flat_rest (f : frame) : Prop := balanced (fsib f).
Fixpoint sizec (c : ctx) : Z := match c with [] => 0 | f :: c => size (fsib f) + 1 + sizec c end.
Lemma size_plug c : forall t, size (plug c t) = sizec c + size t.
Proof. induction c as [|[a k rk b r|l a k rk b] c IH]; intros t; cbn [plug plug1 sizec fsib]; [lia| |]; rewrite IH; cbn [size]; lia. Qed.
Lemma balanced_plug c : forall t t', balanced (plug c t) -> balanced t' -> height t' = height t -> balanced (plug c t').
Proof.
  induction c as [|[a k rk b r|l a k rk b] c IH]; intros t t' B B' E; cbn [plug plug1] in *; [exact B'| |].
  - eapply IH; [exact B| |cbn [height]; lia].
    assert (BT : balanced (N t a k rk b r)).
    { clear - B. revert B. generalize (N t a k rk b r). induction c as [|[a2 k2 rk2 b2 r2|l2 a2 k2 rk2 b2] c IH]; intros u B; cbn [plug plug1] in *; [exact B| |];
        apply IH in B; cbn [balanced] in B; tauto. }
    cbn [balanced] in *. rewrite E. tauto.
  - eapply IH; [exact B| |cbn [height]; lia].
    assert (BT : balanced (N l a k rk b t)).
    { clear - B. revert B. generalize (N l a k rk b t). induction c as [|[a2 k2 rk2 b2 r2|l2 a2 k2 rk2 b2] c IH]; intros u B; cbn [plug plug1] in *; [exact B| |];
        apply IH in B; cbn [balanced] in B; tauto. }
    cbn [balanced] in *. rewrite E. tauto.
Qed.
Lemma balanced_sub c : forall t, balanced (plug c t) -> balanced t.
Proof.
  induction c as [|[a2 k2 rk2 b2 r2|l2 a2 k2 rk2 b2] c IH]; intros u B; cbn [plug plug1] in *; [exact B| |];
    apply IH in B; cbn [balanced] in B; tauto.
Qed.
