(* C101: what inm_merge does to the counts of a group. *)
From Verif Require Import Base McastModel.
Ltac Zify.zify_post_hook ::= idtac.

Lemma meq_eq : forall a b, meq a b = true <-> a = b.
Proof. destruct a, b; cbn [meq]; split; congruence. Qed.
Lemma meq_refl : forall a, meq a a = true. Proof. destruct a; reflexivity. Qed.
Lemma meq_neq : forall a b, meq a b = false <-> a <> b.
Proof. destruct a, b; cbn [meq]; split; congruence. Qed.

Definition keys {A} (l : list (Z * A)) : list Z := map fst l.
Lemma look_none : forall A a (l : list (Z * A)), look a l = None <-> ~ In a (keys l).
Proof.
  intros A a. induction l as [|[b x] l IH]; cbn [look keys map fst In]; [tauto|].
  destruct (a =? b) eqn:E; [split; [discriminate|intros H; exfalso; apply H; left; lia]|].
  rewrite IH. unfold keys. split; [intros H [X|X]; [lia|tauto]|tauto].
Qed.
Lemma look_some : forall A a (l : list (Z * A)) x, look a l = Some x -> In (a, x) l.
Proof.
  intros A a. induction l as [|[b y] l IH]; cbn [look In]; intros x H; [discriminate|].
  destruct (a =? b) eqn:E; [left; f_equal; [lia|congruence]|right; auto].
Qed.
Lemma look_in : forall A (l : list (Z * A)) a x, NoDup (keys l) -> In (a, x) l -> look a l = Some x.
Proof.
  intros A. induction l as [|[b y] l IH]; cbn [look In keys map fst]; intros a x N H; [tauto|].
  inversion N as [|? ? N1 N2]; subst. destruct H as [H|H].
  - injection H as -> ->. rewrite Z.eqb_refl. reflexivity.
  - destruct (a =? b) eqn:E; [|auto]. exfalso. apply N1. assert (a = b) by lia. subst. apply (in_map fst) in H. exact H.
Qed.
Lemma look_put : forall A a (x : A) l b, look b (put a x l) = if b =? a then Some x else look b l.
Proof.
  intros A a x. induction l as [|[c y] l IH]; intros b; cbn [put look].
  - reflexivity.
  - destruct (a =? c) eqn:E; cbn [look].
    + destruct (b =? c) eqn:F, (b =? a) eqn:G; try reflexivity; lia.
    + rewrite IH. destruct (b =? c) eqn:F, (b =? a) eqn:G; try reflexivity; lia.
Qed.
Lemma keys_put : forall A a (x y : A) l, look a l = Some y -> keys (put a x l) = keys l.
Proof.
  intros A a x y. induction l as [|[c z] l IH]; cbn [put look keys map fst]; intros H; [discriminate|].
  destruct (a =? c) eqn:E; cbn [map fst]; [reflexivity|]. unfold keys in IH. rewrite IH by exact H. reflexivity.
Qed.
Lemma look_app : forall A a (l l2 : list (Z * A)), look a (l ++ l2) = match look a l with Some x => Some x | None => look a l2 end.
Proof. intros A a. induction l as [|[c z] l IH]; intros l2; cbn [app look]; [reflexivity|]. destruct (a =? c); auto. Qed.
Lemma keys_app : forall A (l l2 : list (Z * A)), keys (l ++ l2) = keys l ++ keys l2.
Proof. intros. unfold keys. apply map_app. Qed.
Lemma nodup_snoc : forall (l : list Z) a, NoDup l -> ~ In a l -> NoDup (l ++ [a]).
Proof.
  induction l as [|b l IH]; cbn [app In]; intros a N H; [repeat constructor; tauto|].
  inversion N; subst. constructor; [rewrite in_app_iff; cbn [In]; intuition congruence|apply IH; tauto].
Qed.
Lemma look_filter : forall A (p : Z * A -> bool) l a, NoDup (keys l) ->
  look a (filter p l) = match look a l with Some x => if p (a, x) then Some x else None | None => None end.
Proof.
  intros A p. induction l as [|[b x] l IH]; cbn [filter look keys map fst]; intros a N; [reflexivity|].
  inversion N as [|? ? N1 N2]; subst. specialize (IH a N2). destruct (p (b, x)) eqn:P; cbn [look]; destruct (a =? b) eqn:E.
  - assert (a = b) by lia. subst. rewrite P. reflexivity.
  - exact IH.
  - assert (a = b) by lia. subst. rewrite P, IH. apply look_none in N1. rewrite N1. reflexivity.
  - exact IH.
Qed.
Lemma keys_filter : forall A (p : Z * A -> bool) l, NoDup (keys l) -> NoDup (keys (filter p l)).
Proof.
  intros A p. induction l as [|[b x] l IH]; cbn [filter keys map fst]; intros N; [constructor|].
  inversion N as [|? ? N1 N2]; subst. destruct (p (b, x)); cbn [map fst]; [|auto].
  constructor; [|apply IH; exact N2]. intros H. apply N1. apply in_map_iff in H. destruct H as (y & H & H2). apply filter_In in H2. apply in_map_iff. exists y. tauto.
Qed.
Lemma incl_filter : forall A (p : Z * A -> bool) l U, incl (keys l) U -> incl (keys (filter p l)) U.
Proof. intros A p l U H a X. apply H. apply in_map_iff in X. destruct X as (y & X & Y). apply filter_In in Y. apply in_map_iff. exists y. tauto. Qed.
Lemma look_map : forall A B (f : Z -> A -> B) l a, look a (map (fun '(b, x) => (b, f b x)) l) = option_map (f a) (look a l).
Proof.
  intros A B f. induction l as [|[b x] l IH]; intros a; cbn [map look option_map]; [reflexivity|].
  destruct (a =? b) eqn:E; [|apply IH]. assert (a = b) by lia. subst. reflexivity.
Qed.
Lemma keys_map : forall A B (f : Z -> A -> B) l, keys (map (fun '(b, x) => (b, f b x)) l) = keys l.
Proof. intros A B f. induction l as [|[b x] l IH]; cbn [map keys fst]; [reflexivity|]. unfold keys in IH. rewrite IH. reflexivity. Qed.

Lemma w16_add : forall x y, w16 (w16 x + y) = w16 (x + y). Proof. intros. unfold w16. apply Zplus_mod_idemp_l. Qed.
Lemma w16_sub : forall x y, w16 (w16 x - y) = w16 (x - y). Proof. intros. unfold w16. apply Zminus_mod_idemp_l. Qed.
Lemma w16_range : forall x, 0 <= w16 x < 65536. Proof. intros. unfold w16. apply Z.mod_pos_bound. lia. Qed.
Lemma w16_small : forall x, 0 <= x < 65536 -> w16 x = x. Proof. intros. unfold w16. apply Z.mod_small. lia. Qed.

(* state of a source at t0, t1 *)
Definition view0 (f : filt) (a : Z) : mode := match look a (fs f) with Some (s, _) => s | None => Und end.
Definition view1 (f : filt) (a : Z) : mode := match look a (fs f) with Some (_, t) => t | None => Und end.
Definition is (m n : mode) : Z := if meq m n then 1 else 0.
Definition b2z (b : bool) : Z := if b then 1 else 0.
Definition emp {A} (l : list A) : bool := match l with [] => true | _ => false end.

(* what a filter contributes *)
Definition FX (a : Z) (f : filt) : Z := is (view1 f a) Exc.
Definition FN (a : Z) (f : filt) : Z := is (view1 f a) Inc.
Definition FE (f : filt) : Z := is (f1 f) Exc.
Definition FA (f : filt) : Z := b2z (meq (f1 f) Exc && emp (fs f)).
Definition FI (f : filt) : Z := b2z (meq (f1 f) Inc && negb (emp (fs f))).

Definition gx (u : multi) (a : Z) : Z := match look a (srcs u) with Some k => x1 k | None => 0 end.
Definition gn (u : multi) (a : Z) : Z := match look a (srcs u) with Some k => n1 k | None => 0 end.
Definition sgx (s : list (Z * cnt)) (a : Z) : Z := match look a s with Some k => x1 k | None => 0 end.
Definition sgn (s : list (Z * cnt)) (a : Z) : Z := match look a s with Some k => n1 k | None => 0 end.
Definition kr (p : Z * cnt) : Prop := 0 <= x1 (snd p) < 65536 /\ 0 <= n1 (snd p) < 65536.

Section M.
Variable U : list Z.
Variable maxgrp : nat.
Hypothesis HU : (length U <= maxgrp)%nat.

Definition WS (s : list (Z * cnt)) : Prop := NoDup (keys s) /\ incl (keys s) U /\ Forall kr s.
Definition fm (x i : Z) : mode := if 0 <? x then Exc else if 0 <? i then Inc else Und.
Definition W (u : multi) : Prop := WS (srcs u) /\ fmode u = fm (iex u) (iin u).

Lemma ims_merge_x : forall k s t, x1 (ims_merge k s t) = (if meq s Und && negb (meq t Exc) || meq s Inc && negb (meq t Exc) then x1 k else w16 (x1 k + is t Exc - is s Exc)) /\
  n1 (ims_merge k s t) = (if meq s Und && negb (meq t Inc) || meq s Exc && negb (meq t Inc) then n1 k else w16 (n1 k + is t Inc - is s Inc)).
Proof.
  intros k s t. destruct s, t; cbn [ims_merge meq is andb orb negb x1 n1]; rewrite ?w16_add; split; try reflexivity; f_equal; lia.
Qed.
Lemma ims_merge_w : forall k s t, kr (0, k) -> x1 (ims_merge k s t) = w16 (x1 k + is t Exc - is s Exc) /\ n1 (ims_merge k s t) = w16 (n1 k + is t Inc - is s Inc) /\ kr (0, ims_merge k s t).
Proof.
  intros k s t [H1 H2]. cbn [snd] in *. destruct (ims_merge_x k s t) as [X N].
  assert (X' : x1 (ims_merge k s t) = w16 (x1 k + is t Exc - is s Exc)).
  { rewrite X. destruct s, t; cbn [meq is andb orb negb]; try reflexivity; rewrite w16_small; lia. }
  assert (N' : n1 (ims_merge k s t) = w16 (n1 k + is t Inc - is s Inc)).
  { rewrite N. destruct s, t; cbn [meq is andb orb negb]; try reflexivity; rewrite w16_small; lia. }
  split; [exact X'|]. split; [exact N'|]. unfold kr. cbn [snd]. rewrite X', N'. split; apply w16_range.
Qed.

Lemma ws_look : forall s a k, WS s -> look a s = Some k -> kr (0, k).
Proof. intros s a k (_ & _ & F) L. apply look_some in L. rewrite Forall_forall in F. apply F in L. exact L. Qed.

Definition v0 (l : list (Z * (mode * mode))) (a : Z) : mode := match look a l with Some (s, _) => s | None => Und end.
Definition v1 (l : list (Z * (mode * mode))) (a : Z) : mode := match look a l with Some (_, t) => t | None => Und end.

Lemma merge_srcs_ok : forall l s, NoDup (keys l) -> incl (keys l) U -> WS s ->
  exists s', merge_srcs maxgrp l s = Ret s' /\ WS s' /\
    forall a, sgx s' a = w16 (sgx s a + is (v1 l a) Exc - is (v0 l a) Exc) /\ sgn s' a = w16 (sgn s a + is (v1 l a) Inc - is (v0 l a) Inc).
Proof.
  assert (RG : forall s a, WS s -> 0 <= sgx s a < 65536 /\ 0 <= sgn s a < 65536).
  { intros s a H. unfold sgx, sgn. destruct (look a s) as [k|] eqn:L; [|lia]. exact (ws_look _ _ _ H L). }
  induction l as [|[b [t0 t1]] l IH]; intros s N I Hs; cbn [merge_srcs].
  - exists s. split; [reflexivity|]. split; [exact Hs|]. intros a. unfold v0, v1. cbn [look is meq]. destruct (RG s a Hs). split; rewrite w16_small; lia.
  - cbn [keys map fst] in N, I. inversion N as [|? ? N1 N2]; subst.
    assert (I2 : incl (keys l) U) by (intros a X; apply I; right; exact X).
    assert (IB : In b U) by (apply I; left; reflexivity).
    assert (VB : v0 l b = Und /\ v1 l b = Und) by (unfold v0, v1; apply look_none in N1; rewrite N1; auto).
    assert (V : forall a, v0 ((b, (t0, t1)) :: l) a = (if a =? b then t0 else v0 l a) /\ v1 ((b, (t0, t1)) :: l) a = (if a =? b then t1 else v1 l a)).
    { intros a. unfold v0, v1. cbn [look]. destruct (a =? b); auto. }
    destruct (meq t0 t1) eqn:E.
    + apply meq_eq in E. subst t1. destruct (IH s N2 I2 Hs) as (s' & E1 & W1 & C). exists s'. split; [exact E1|]. split; [exact W1|].
      intros a. destruct (V a) as [-> ->]. destruct (C a) as [C1 C2]. destruct (a =? b) eqn:F; [|auto]. assert (a = b) by lia. subst a. destruct VB as [B0 B1].
      rewrite B0, B1 in C1, C2. rewrite C1, C2. cbn [is meq]. split; f_equal; lia.
    + assert (STEP : exists s2, (match look b s with Some k => merge_srcs maxgrp l (put b (ims_merge k t0 t1) s) | None => if (length s =? maxgrp)%nat then UB else merge_srcs maxgrp l (s ++ [(b, ims_merge kz t0 t1)]) end) = merge_srcs maxgrp l s2 /\ WS s2 /\
        forall a, (sgx s2 a = if a =? b then w16 (sgx s b + is t1 Exc - is t0 Exc) else sgx s a) /\ (sgn s2 a = if a =? b then w16 (sgn s b + is t1 Inc - is t0 Inc) else sgn s a)).
      { destruct Hs as (S1 & S2 & S3). destruct (look b s) as [k|] eqn:L.
        - pose proof (ws_look s b k (conj S1 (conj S2 S3)) L) as K. destruct (ims_merge_w k t0 t1 K) as (K1 & K2 & K3).
          eexists. split; [reflexivity|]. split.
          + unfold WS. rewrite (keys_put _ _ _ _ _ L). split; [exact S1|]. split; [exact S2|].
            apply Forall_forall. intros [c y] X. rewrite Forall_forall in S3.
            assert (X2 : look c (put b (ims_merge k t0 t1) s) = Some y) by (apply look_in; [rewrite (keys_put _ _ _ _ _ L); exact S1|exact X]).
            rewrite look_put in X2. destruct (c =? b); [injection X2 as <-; exact K3|]. apply look_some in X2. exact (S3 _ X2).
          + intros a. unfold sgx, sgn. rewrite look_put, L. destruct (a =? b); auto.
        - pose proof L as L'. apply look_none in L'. destruct (ims_merge_w kz t0 t1 ltac:(unfold kr, kz; cbn [snd x1 n1]; lia)) as (K1 & K2 & K3).
          assert (LE : (S (length s) <= length U)%nat).
          { assert (X : (length (b :: keys s) <= length U)%nat) by (apply NoDup_incl_length; [constructor; [exact L'|exact S1]|intros a [<-|X]; auto]). cbn [length] in X. unfold keys in X. rewrite map_length in X. exact X. }
          replace (length s =? maxgrp)%nat with false by (symmetry; apply Nat.eqb_neq; lia).
          eexists. split; [reflexivity|]. split.
          + unfold WS. rewrite keys_app. cbn [keys map fst]. split; [apply nodup_snoc; assumption|]. split.
            * intros a X. apply in_app_iff in X. destruct X as [X|[<-|[]]]; auto.
            * apply Forall_app. split; [exact S3|]. constructor; [exact K3|constructor].
          + intros a. unfold sgx, sgn. rewrite look_app. destruct (a =? b) eqn:F.
            * assert (a = b) by lia. subst a. rewrite L. cbn [look]. rewrite Z.eqb_refl. rewrite K1, K2. cbn [kz x1 n1]. auto.
            * destruct (look a s); [auto|]. cbn [look]. rewrite F. auto. }
      destruct STEP as (s2 & E2 & W2 & C2). rewrite E2. destruct (IH s2 N2 I2 W2) as (s' & E1 & W1 & C). exists s'. split; [exact E1|]. split; [exact W1|].
      intros a. destruct (V a) as [-> ->]. destruct (C a) as [C1 C3]. destruct (C2 a) as [D1 D2]. destruct (a =? b) eqn:F; [|rewrite C1, C3, D1, D2; auto].
      assert (a = b) by lia. subst a. destruct VB as [B0 B1]. rewrite B0, B1 in C1, C3. rewrite C1, C3, D1, D2. cbn [is meq]. rewrite !Z.sub_0_r, !Z.add_0_r.
      split; apply w16_small; apply w16_range.
Qed.

Lemma reap_ok : forall s, WS s -> WS (inm_reap s) /\ forall a, sgx (inm_reap s) a = sgx s a /\ sgn (inm_reap s) a = sgn s a.
Proof.
  intros s (S1 & S2 & S3). unfold inm_reap. split.
  - split; [apply keys_filter; exact S1|]. split; [apply incl_filter; exact S2|]. apply Forall_forall. intros p X. apply filter_In in X. rewrite Forall_forall in S3. apply S3. tauto.
  - intros a. unfold sgx, sgn. rewrite look_filter by exact S1. destruct (look a s) as [k|] eqn:L; [|auto].
    destruct (ws_look s a k (conj S1 (conj S2 S3)) L) as [K1 K2]. cbn [snd] in *.
    destruct ((0 <? x0 k) || (0 <? n0 k) || (0 <? x1 k) || (0 <? n1 k)) eqn:E; [auto|]. rewrite !orb_false_iff in E. lia.
Qed.

(* all sources in the filter's mode *)
Definition settled (f : filt) : Prop := f0 f = f1 f /\ NoDup (keys (fs f)) /\ incl (keys (fs f)) U /\ Forall (fun p => snd p = (f1 f, f1 f)) (fs f).

Lemma settled_emp : forall f, settled f -> f1 f <> Und -> emp (fs f) = true <-> forall a, view1 f a <> f1 f.
Proof.
  intros f (_ & N & _ & F) M. unfold view1. destruct (fs f) as [|[b [s t]] l] eqn:E; cbn [emp].
  - split; [intros _ a; cbn [look]; congruence|reflexivity].
  - split; [discriminate|]. intros H. exfalso. apply (H b). cbn [look]. rewrite Z.eqb_refl. inversion F as [|? ? F1 _]; subst. cbn [snd] in F1. congruence.
Qed.
Lemma count0 : forall (l : list (Z * (mode * mode))) m, NoDup (keys l) -> m <> Und ->
  ((count (fun '(a, (s, t)) => meq s m) l =? 0)%nat = true <-> forall a, v0 l a <> m) /\ ((count (fun '(a, (s, t)) => meq t m) l =? 0)%nat = true <-> forall a, v1 l a <> m).
Proof.
  intros l m N M. unfold count, v0, v1. rewrite !Nat.eqb_eq, !length_zero_iff_nil. split; split.
  - intros H a X. destruct (look a l) as [[s t]|] eqn:L; [|congruence]. apply look_some in L.
    assert (Y : In (a, (s, t)) []) by (rewrite <- H; apply filter_In; split; [exact L|apply meq_eq; exact X]). destruct Y.
  - intros H. destruct (filter _ l) as [|[a [s t]] q] eqn:E; [reflexivity|]. exfalso.
    assert (Y : In (a, (s, t)) (filter (fun '(a, (s, t)) => meq s m) l)) by (rewrite E; left; reflexivity). apply filter_In in Y. destruct Y as [Y1 Y2]. apply meq_eq in Y2.
    apply (H a). rewrite (look_in _ _ _ _ N Y1). exact Y2.
  - intros H a X. destruct (look a l) as [[s t]|] eqn:L; [|congruence]. apply look_some in L.
    assert (Y : In (a, (s, t)) []) by (rewrite <- H; apply filter_In; split; [exact L|apply meq_eq; exact X]). destruct Y.
  - intros H. destruct (filter _ l) as [|[a [s t]] q] eqn:E; [reflexivity|]. exfalso.
    assert (Y : In (a, (s, t)) (filter (fun '(a, (s, t)) => meq t m) l)) by (rewrite E; left; reflexivity). apply filter_In in Y. destruct Y as [Y1 Y2]. apply meq_eq in Y2.
    apply (H a). rewrite (look_in _ _ _ _ N Y1). exact Y2.
Qed.

(* p: a filter under change, from f to q *)
Record pend (f p q : filt) : Prop := mkP {
  p_n : NoDup (keys (fs p)); p_u : incl (keys (fs p)) U;
  p_0 : f1 f = f0 p; p_1 : f1 q = f1 p;
  p_f : settled f; p_q : settled q; p_m : f1 q <> Und; p_e : f1 f = Und -> fs f = [];
  p_v0 : forall a, view0 p a = view1 f a; p_v1 : forall a, view1 p a = view1 q a }.

Lemma merge_ok : forall u f p q, W u -> pend f p q ->
  ~ (f1 f = Exc /\ fs f = [] /\ f1 q = Exc /\ fs q = []) ->
  exists u', inm_merge maxgrp u p = Ret u' /\ W u' /\ refc u' = refc u /\
    (forall a, gx u' a = w16 (gx u a + FX a q - FX a f) /\ gn u' a = w16 (gn u a + FN a q - FN a f)) /\
    (0 <= iex u < 65536 -> iex u' = w16 (iex u + FE q - FE f)) /\
    (0 <= iasm u < 65536 -> iasm u' = w16 (iasm u + FA q - FA f)) /\
    ((f1 f = Inc -> fs f <> []) -> 0 <= iin u < 65536 -> iin u' = w16 (iin u + FI q - FI f)).
Proof.
  intros u f p q [Ws Hm] P NA. destruct P as [P1 P2 P3 P4 P5 P6 P7 P8 P9 P10]. unfold inm_merge.
  destruct (merge_srcs_ok (fs p) (srcs u) P1 P2 Ws) as (s & E & Ws' & C). rewrite E. cbn [obind].
  set (s2 := if existsb _ (fs p) then inm_reap s else s).
  assert (S2 : WS s2 /\ forall a, sgx s2 a = sgx s a /\ sgn s2 a = sgn s a).
  { unfold s2. destruct (existsb _ (fs p)); [apply reap_ok; exact Ws'|auto]. }
  destruct S2 as [WS2 S2].
  set (c0 := count (fun '(a, (s, t)) => meq s (f0 p)) (fs p)). set (c1 := count (fun '(a, (s, t)) => meq t (f1 p)) (fs p)).
  assert (C0 : f1 f <> Und -> (c0 =? 0)%nat = emp (fs f)).
  { intros M. apply eq_true_iff_eq. unfold c0. rewrite <- P3. rewrite (proj1 (count0 (fs p) (f1 f) P1 M)). rewrite (settled_emp f P5 M).
    split; intros H a; specialize (H a); specialize (P9 a); unfold view0 in P9; unfold v0 in *; congruence. }
  assert (C1 : (c1 =? 0)%nat = emp (fs q)).
  { apply eq_true_iff_eq. unfold c1. rewrite <- P4. rewrite (proj2 (count0 (fs p) (f1 q) P1 P7)). rewrite (settled_emp q P6 P7).
    split; intros H a; specialize (H a); specialize (P10 a); unfold view1 in P10 at 1; unfold v1 in *; congruence. }
  assert (L1 : (0 <? c1)%nat = negb (emp (fs q))).
  { rewrite <- C1. destruct (c1 =? 0)%nat eqn:X; cbn [negb]; lia. }
  rewrite L1, C1. rewrite <- P3, <- P4 in *.
  match goal with |- exists u', (let '(x, i) := ?E in _) = _ /\ _ => destruct E as [x i] eqn:XI' end.
  eexists. split; [reflexivity|]. split; [|split; [|split; [|split; [|split]]]].
  - split; [exact WS2|]. reflexivity.
  - reflexivity.
  - intros a. destruct (C a) as [X1 X2]. destruct (S2 a) as [Y1 Y2]. specialize (P9 a). specialize (P10 a).
    change (v0 (fs p) a) with (view0 p a) in *. change (v1 (fs p) a) with (view1 p a) in *. rewrite P9, P10 in *.
    unfold gx, gn, FX, FN. cbn [srcs]. fold (sgx s2 a) (sgn s2 a) (sgx (srcs u) a) (sgn (srcs u) a). rewrite Y1, Y2. split; congruence.
  - intros R. cbn [iex]. unfold FE. destruct (f1 f), (f1 q); cbn [meq is andb negb] in *; injection XI' as <- _; rewrite ?w16_add; try reflexivity; try congruence; try (f_equal; lia); symmetry; rewrite w16_small; lia.
  - intros R. cbn [iasm]. unfold FA. destruct (f1 f) eqn:F, (f1 q) eqn:Q; try congruence; cbn [meq andb negb orb b2z] in *;
      try (rewrite C0 by discriminate); destruct (emp (fs f)) eqn:EF, (emp (fs q)) eqn:EQ; cbn [meq andb negb orb b2z];
      rewrite ?w16_add, ?w16_sub; try reflexivity; try (f_equal; lia); try (symmetry; rewrite w16_small; lia).
    exfalso. apply NA. split; [reflexivity|]. split; [destruct (fs f); [reflexivity|discriminate]|]. split; [reflexivity|destruct (fs q); [reflexivity|discriminate]].
  - intros NE R. cbn [iin]. unfold FI.
    assert (EF : f1 f = Inc -> emp (fs f) = false) by (intros X; specialize (NE X); destruct (fs f); [congruence|reflexivity]).
    destruct (f1 f) eqn:F, (f1 q) eqn:Q; try congruence; cbn [meq andb negb orb b2z] in *; try rewrite (EF eq_refl);
      destruct (emp (fs q)) eqn:EQ; cbn [negb b2z] in *; injection XI' as _ <-; rewrite ?w16_add, ?w16_sub; try reflexivity; try (f_equal; lia); try (symmetry; rewrite w16_small; lia).
Qed.
End M.
