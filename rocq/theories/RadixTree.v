(* Trees behind the route tries: pure facts, and their representation in the heap. *)
From Verif Require Import Base RadixModel.
From Coq Require Export Permutation.

Inductive tree := E | T (p : nat) (v : option Z) (l r : tree).

Fixpoint addrs (t : tree) : list nat :=
  match t with E => [] | T p _ l r => p :: addrs l ++ addrs r end.

Definition tch (t : tree) (b : bool) : tree :=
  match t with E => E | T _ _ l r => if b then r else l end.

Fixpoint sub (t : tree) (bs : list bool) : tree :=
  match bs with [] => t | b :: bs' => sub (tch t b) bs' end.

Fixpoint graft (t : tree) (bs : list bool) (s : tree) {struct bs} : tree :=
  match bs with
  | [] => s
  | b :: bs' =>
    match t with
    | E => E
    | T p v l r => if b then T p v l (graft r bs' s) else T p v (graft l bs' s) r
    end
  end.

Definition tval (t : tree) : option Z := match t with E => None | T _ v _ _ => v end.
Definition val (t : tree) (q : list bool) : option Z := tval (sub t q).
Definition tptr (t : tree) : option nat := match t with E => None | T p _ _ _ => Some p end.

Fixpoint height (t : tree) : nat :=
  match t with E => 0%nat | T _ _ l r => S (Nat.max (height l) (height r)) end.

Fixpoint trim (t : tree) : Prop :=
  match t with
  | E => True
  | T _ v l r => (v = None -> l <> E \/ r <> E) /\ trim l /\ trim r
  end.
Definition rtrim (t : tree) : Prop := match t with E => True | T _ _ l r => trim l /\ trim r end.

Fixpoint pathn (t : tree) (bs : list bool) {struct bs} : list nat :=
  match bs with
  | [] => []
  | b :: bs' => match t with E => [] | T p _ _ _ => p :: pathn (tch t b) bs' end
  end.

Lemma sub_E bs : sub E bs = E.
Proof. induction bs as [|b bs IH]; cbn; auto. Qed.

Lemma sub_app t b1 b2 : sub t (b1 ++ b2) = sub (sub t b1) b2.
Proof. revert t; induction b1 as [|b b1 IH]; intros t; cbn; auto. Qed.

Lemma sub_prefix_nonE t a b : sub t (a ++ b) <> E -> sub t a <> E.
Proof. rewrite sub_app. intros H H1. rewrite H1, sub_E in H. now apply H. Qed.

Lemma sub_graft_in t a s q : sub t a <> E -> sub (graft t a s) (a ++ q) = sub s q.
Proof.
  revert t; induction a as [|b a IH]; intros t H; cbn; [reflexivity|].
  destruct t as [|p v l r]; [cbn in H; now rewrite sub_E in H|].
  cbn in H. destruct b; cbn; apply IH; exact H.
Qed.

(* values outside the grafted subtree are unchanged *)
Lemma val_graft_out t a s q : sub t a <> E -> (forall w, q <> a ++ w) ->
  val (graft t a s) q = val t q.
Proof.
  revert t q; induction a as [|b a IH]; intros t q H Hq.
  - exfalso. apply (Hq q). reflexivity.
  - destruct t as [|p v l r]; [now rewrite sub_E in H|]. cbn [sub tch] in H.
    destruct q as [|c q].
    + cbn. destruct b; reflexivity.
    + destruct (Bool.bool_dec b c) as [<-|Hne].
      * assert (Hq' : forall w, q <> a ++ w) by (intros w Hw; apply (Hq w); cbn; congruence).
        unfold val in *. cbn. destruct b; cbn; apply IH; auto.
      * unfold val. cbn. destruct b, c; cbn; congruence.
Qed.

Lemma val_graft_in t a s q : sub t a <> E -> val (graft t a s) (a ++ q) = val s q.
Proof. intros H. unfold val. now rewrite sub_graft_in. Qed.

Lemma val_app t a q : val t (a ++ q) = val (sub t a) q.
Proof. unfold val. now rewrite sub_app. Qed.

Lemma val_E q : val E q = None.
Proof. unfold val. now rewrite sub_E. Qed.

Lemma prefix_dec (a q : list bool) : {w | q = a ++ w} + {forall w, q <> a ++ w}.
Proof.
  revert q; induction a as [|b a IH]; intros q; [left; exists q; reflexivity|].
  destruct q as [|c q]; [right; intros w H; discriminate|].
  destruct (Bool.bool_dec b c) as [<-|Hne].
  - destruct (IH q) as [[w ->]|Hn]; [left; exists w; reflexivity|right].
    intros w Hw. injection Hw as Hw. exact (Hn w Hw).
  - right. intros w Hw. injection Hw as H1 H2. congruence.
Qed.

Lemma graft_perm t a : sub t a <> E -> exists R,
  Permutation (addrs t) (addrs (sub t a) ++ R) /\
  forall s, Permutation (addrs (graft t a s)) (addrs s ++ R).
Proof.
  revert t; induction a as [|b a IH]; intros t H.
  - exists []. cbn. split; [now rewrite app_nil_r|intros s; now rewrite app_nil_r].
  - destruct t as [|p v l r]; [now rewrite sub_E in H|]. cbn [sub tch graft addrs] in *.
    destruct b.
    + destruct (IH r H) as (R & H1 & H2). exists (p :: addrs l ++ R). split.
      * rewrite H1. rewrite <- Permutation_middle. apply perm_skip.
        rewrite !app_assoc. apply Permutation_app_tail, Permutation_app_comm.
      * intros s. cbn [addrs]. rewrite H2. rewrite <- Permutation_middle. apply perm_skip.
        rewrite !app_assoc. apply Permutation_app_tail, Permutation_app_comm.
    + destruct (IH l H) as (R & H1 & H2). exists (p :: R ++ addrs r). split.
      * rewrite H1. rewrite <- Permutation_middle. apply perm_skip. now rewrite <- app_assoc.
      * intros s. cbn [addrs]. rewrite H2. rewrite <- Permutation_middle. apply perm_skip. now rewrite <- app_assoc.
Qed.

Lemma height_graft t a s n : (height t <= n)%nat -> (height s + length a <= n)%nat ->
  (height (graft t a s) <= n)%nat.
Proof.
  revert t n; induction a as [|b a IH]; intros t n H1 H2; cbn in *; [lia|].
  destruct t as [|p v l r]; [cbn; lia|]. cbn in H1. destruct n as [|n]; [lia|].
  destruct b; cbn.
  - specialize (IH r n ltac:(lia) ltac:(lia)). lia.
  - specialize (IH l n ltac:(lia) ltac:(lia)). lia.
Qed.

Lemma height_sub t a : (height (sub t a) + length a <= height t)%nat \/ sub t a = E.
Proof.
  revert t; induction a as [|b a IH]; intros t; cbn; [left; lia|].
  destruct t as [|p v l r]; [right; apply sub_E|]. cbn [tch].
  destruct (IH (if b then r else l)) as [H|H]; [left|right; exact H].
  cbn. destruct b; lia.
Qed.

Lemma graft_nonE t a s : sub t a <> E -> s <> E -> graft t a s <> E.
Proof.
  intros Hx Hn. destruct a as [|c a]; cbn; [exact Hn|].
  destruct t as [|? ? ? ?]; [now rewrite sub_E in Hx|]. destruct c; discriminate.
Qed.

Lemma trim_graft t a s : trim t -> sub t a <> E -> trim s -> s <> E -> trim (graft t a s).
Proof.
  revert t; induction a as [|b a IH]; intros t Ht Ha Hs Hn; cbn; [exact Hs|].
  destruct t as [|p v l r]; [exact I|]. cbn in Ht, Ha. destruct Ht as (H1 & H2 & H3).
  destruct b; cbn.
  - split; [intros _; right; now apply graft_nonE|]. split; [exact H2|]. apply IH; assumption.
  - split; [intros _; left; now apply graft_nonE|]. split; [|exact H3]. apply IH; assumption.
Qed.

(* the same for the root, which need not be trimmed itself *)
Lemma rtrim_graft t a s : rtrim t -> sub t a <> E -> rtrim s -> (a <> [] -> trim s) -> s <> E ->
  rtrim (graft t a s).
Proof.
  destruct a as [|b a]; intros Ht Ha Hs Hs' Hn; cbn; [exact Hs|].
  destruct t as [|p v l r]; [exact I|]. cbn in Ht, Ha. destruct Ht as (H2 & H3).
  assert (trim s) by (apply Hs'; discriminate).
  destruct b; cbn; (split; [|]); auto using trim_graft.
Qed.

Lemma trim_rtrim t : trim t -> rtrim t.
Proof. destruct t; cbn; tauto. Qed.

Lemma trim_sub t a : trim t -> trim (sub t a).
Proof.
  revert t; induction a as [|b a IH]; intros t H; cbn; [exact H|]. apply IH.
  destruct t as [|p v l r]; [exact I|]. cbn in *. destruct b; tauto.
Qed.

Lemma rtrim_sub t a : rtrim t -> a <> [] -> trim (sub t a).
Proof.
  destruct a as [|b a]; [contradiction|]. intros H _. cbn. apply trim_sub.
  destruct t as [|p v l r]; [exact I|]. cbn in *. destruct b; tauto.
Qed.

(* a trimmed tree without values is empty *)
Lemma trim_no_val t : trim t -> (forall q, val t q = None) -> t = E.
Proof.
  induction t as [|p v l IHl r IHr]; intros Ht Hv; [reflexivity|].
  cbn in Ht. destruct Ht as (H1 & H2 & H3).
  assert (l = E) by (apply IHl; [exact H2|intros q; exact (Hv (false :: q))]).
  assert (r = E) by (apply IHr; [exact H3|intros q; exact (Hv (true :: q))]).
  assert (v = None) by exact (Hv []). subst. destruct (H1 eq_refl); contradiction.
Qed.

Lemma pathn_snoc t a b : sub t a <> E ->
  exists p v l r, sub t a = T p v l r /\ pathn t (a ++ [b]) = pathn t a ++ [p].
Proof.
  revert t; induction a as [|c a IH]; intros t H.
  - cbn in *. destruct t as [|p v l r]; [contradiction|]. exists p, v, l, r. split; reflexivity.
  - destruct t as [|p v l r]; [cbn in H; now rewrite sub_E in H|]. cbn [sub] in H |- *.
    destruct (IH _ H) as (p' & v' & l' & r' & H1 & H2). exists p', v', l', r'. split; [exact H1|].
    cbn [app pathn]. rewrite H2. reflexivity.
Qed.

(* ---------------- representation in the heap ---------------- *)
Definition nval (n : node) (v : option Z) : Prop :=
  match v with Some d => flags n = VALID /\ data n = d | None => flags n = 0 end.

Fixpoint rep (h : heap) (t : tree) (o : option nat) : Prop :=
  match t with
  | E => o = None
  | T p v l r => o = Some p /\ nval (h p) v /\ rep h l (left (h p)) /\ rep h r (right (h p))
  end.

Lemma rep_ptr h t o : rep h t o -> o = tptr t.
Proof. destruct t; cbn; tauto. Qed.

Lemma rep_ext h h' t o : (forall q, In q (addrs t) -> h' q = h q) -> rep h t o -> rep h' t o.
Proof.
  revert o; induction t as [|p v l IHl r IHr]; intros o He H; cbn in *; [exact H|].
  destruct H as (H1 & H2 & H3 & H4). rewrite (He p) by auto.
  split; [exact H1|]. split; [exact H2|]. split.
  - apply IHl; [|exact H3]. intros q Hq. apply He. right. apply in_or_app. auto.
  - apply IHr; [|exact H4]. intros q Hq. apply He. right. apply in_or_app. auto.
Qed.

Lemma NoDup_app_iff {A} (l1 l2 : list A) :
  NoDup (l1 ++ l2) <-> NoDup l1 /\ NoDup l2 /\ (forall x, In x l1 -> ~ In x l2).
Proof.
  induction l1 as [|a l1 IH]; cbn.
  - split; [intros H; repeat split; [constructor|exact H|tauto]|tauto].
  - rewrite !NoDup_cons_iff, IH, in_app_iff. firstorder; subst; firstorder.
Qed.

Lemma addrs_sub t a q : In q (addrs (sub t a)) -> In q (addrs t).
Proof.
  revert t; induction a as [|b a IH]; intros t H; cbn in *; [exact H|].
  apply IH in H. destruct t as [|p v l r]; [exact H|]. cbn in *. right. apply in_or_app.
  destruct b; auto.
Qed.

(* replacing the subtree at [a] (whose pointer stays the same) *)
Lemma rep_graft h h' t o a s :
  rep h t o -> NoDup (addrs t) -> sub t a <> E -> tptr s = tptr (sub t a) ->
  rep h' s (tptr s) ->
  (forall q, In q (addrs t) -> ~ In q (addrs (sub t a)) -> h' q = h q) ->
  rep h' (graft t a s) o.
Proof.
  revert t o; induction a as [|b a IH]; intros t o Hr Hn Ha Hp Hs Hf.
  - cbn in *. apply rep_ptr in Hr. subst o. now rewrite <- Hp.
  - destruct t as [|p v l r]; [now rewrite sub_E in Ha|].
    cbn [sub tch addrs graft] in *. cbn [rep] in Hr. destruct Hr as (H1 & H2 & H3 & H4).
    apply NoDup_cons_iff in Hn. destruct Hn as [Hp0 Hn]. apply NoDup_app_iff in Hn. destruct Hn as (Hnl & Hnr & Hd).
    assert (Ep : h' p = h p).
    { apply Hf; [left; reflexivity|]. intros Hi. apply addrs_sub in Hi. apply Hp0. apply in_or_app. destruct b; auto. }
    destruct b; cbn [rep]; rewrite Ep; (split; [exact H1|]); (split; [exact H2|]).
    + split.
      * eapply rep_ext; [|exact H3]. intros q Hq. apply Hf; [right; apply in_or_app; auto|].
        intros Hi. apply addrs_sub in Hi. exact (Hd q Hq Hi).
      * apply IH; auto. intros q Hq Hq'. apply Hf; [right; apply in_or_app; auto|exact Hq'].
    + split.
      * apply IH; auto. intros q Hq Hq'. apply Hf; [right; apply in_or_app; auto|exact Hq'].
      * eapply rep_ext; [|exact H4]. intros q Hq. apply Hf; [right; apply in_or_app; auto|].
        intros Hi. apply addrs_sub in Hi. exact (Hd q Hi Hq).
Qed.

Lemma rep_sub h t o a : rep h t o -> rep h (sub t a) (tptr (sub t a)).
Proof.
  revert t o; induction a as [|b a IH]; intros t o H; cbn.
  - rewrite <- (rep_ptr _ _ _ H). exact H.
  - destruct t as [|p v l r]; [cbn; rewrite sub_E; reflexivity|]. cbn in H.
    destruct H as (_ & _ & H3 & H4). cbn [tch]. destruct b; eapply IH; eassumption.
Qed.

Lemma nval_valid n v : nval n v -> is_valid n = match v with Some _ => true | None => false end.
Proof. unfold nval, is_valid, VALID. destruct v; [intros [-> _]|intros ->]; reflexivity. Qed.

Lemma upd_same h p n : upd h p n p = n.
Proof. unfold upd. now rewrite Nat.eqb_refl. Qed.
Lemma upd_other h p n q : q <> p -> upd h p n q = h q.
Proof. intros H. unfold upd. apply Nat.eqb_neq in H. now rewrite H. Qed.
