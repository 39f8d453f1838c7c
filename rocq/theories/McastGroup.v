(* C101: the counts of the groups are the sums over the memberships. *)
From Verif Require Import Base McastModel McastMerge.
Ltac Zify.zify_post_hook ::= idtac.

Lemma keq_eq : forall a b, keq a b = true <-> a = b.
Proof. intros [a1 a2] [b1 b2]. unfold keq. cbn [fst snd]. split; [intros H; f_equal; lia|intros H; injection H as -> ->; lia]. Qed.
Lemma keq_refl : forall a, keq a a = true. Proof. intros. apply keq_eq. reflexivity. Qed.
Lemma keq_neq : forall a b, keq a b = false <-> a <> b.
Proof. intros. rewrite <- keq_eq. destruct (keq a b); split; congruence. Qed.
Lemma glook_gput : forall k x l q, glook q (gput k x l) = if keq q k then Some x else glook q l.
Proof.
  intros k x. induction l as [|[c y] l IH]; intros q; cbn [gput glook].
  - reflexivity.
  - destruct (keq k c) eqn:E; cbn [glook].
    + apply keq_eq in E. subst c. destruct (keq q k); reflexivity.
    + rewrite IH. destruct (keq q c) eqn:F, (keq q k) eqn:G; try reflexivity. apply keq_eq in F, G. subst. rewrite keq_refl in E. discriminate.
Qed.
Lemma glook_gdel : forall k l q, glook q (gdel k l) = if keq q k then None else glook q l.
Proof.
  intros k l q. unfold gdel. induction l as [|[c y] l IH]; cbn [filter glook fst].
  - destruct (keq q k); reflexivity.
  - destruct (keq k c) eqn:E; cbn [negb glook].
    + apply keq_eq in E. subst c. rewrite IH. destruct (keq q k); reflexivity.
    + destruct (keq q c) eqn:F; [|exact IH]. apply keq_eq in F. subst q. replace (keq c k) with false; [reflexivity|].
      symmetry. apply keq_neq. apply keq_neq in E. congruence.
Qed.

Definition sumz (l : list Z) : Z := fold_right Z.add 0 l.
Definition one (k : Z * Z) (F : filt -> Z) (m : mem) : Z := if keq (key_of m) k then F (m_f m) else 0.
Definition tot (k : Z * Z) (F : filt -> Z) (l : list mem) : Z := sumz (map (one k F) l).
Definition TOT (k : Z * Z) (F : filt -> Z) (L : list (list mem)) : Z := sumz (map (tot k F) L).
Definition F1 (f : filt) : Z := 1.

Lemma sumz_app : forall l l2, sumz (l ++ l2) = sumz l + sumz l2.
Proof.
  induction l as [|a l IH]; intros l2; [reflexivity|]. change (a + sumz (l ++ l2) = a + sumz l + sumz l2). rewrite IH. lia.
Qed.
Lemma tot_app : forall k F l l2, tot k F (l ++ l2) = tot k F l + tot k F l2.
Proof. intros. unfold tot. rewrite map_app. apply sumz_app. Qed.
Lemma tot_nil : forall k F, tot k F [] = 0. Proof. reflexivity. Qed.
Lemma tot_cons : forall k F m l, tot k F (m :: l) = one k F m + tot k F l. Proof. reflexivity. Qed.
Lemma tot_upd : forall k F l j y, (j < length l)%nat -> tot k F (upd l j y) = tot k F l - one k F (nth j l dm) + one k F y.
Proof.
  intros k F. induction l as [|m l IH]; intros j y H; cbn [length] in H; [lia|]. destruct j; cbn [upd nth]; rewrite !tot_cons; [lia|]. rewrite IH by lia. lia.
Qed.
Lemma tot_remove : forall k F l j, (j < length l)%nat -> tot k F (remove l j) = tot k F l - one k F (nth j l dm).
Proof.
  intros k F. induction l as [|m l IH]; intros j H; cbn [length] in H; [lia|]. destruct j.
  - change (tot k F l = tot k F (m :: l) - one k F m). rewrite tot_cons. lia.
  - change (tot k F (m :: remove l j) = tot k F (m :: l) - one k F (nth j l dm)). rewrite (tot_cons k F m (remove l j)), (tot_cons k F m l). specialize (IH j ltac:(lia)). lia.
Qed.
Lemma TOT_cons : forall k F l L, TOT k F (l :: L) = tot k F l + TOT k F L. Proof. reflexivity. Qed.
Lemma TOT_upd : forall k F L s l l2, nth_error L s = Some l -> TOT k F (upd L s l2) = TOT k F L - tot k F l + tot k F l2.
Proof.
  intros k F. induction L as [|x L IH]; intros s l l2 H; destruct s; cbn [nth_error upd] in *; try discriminate; rewrite !TOT_cons.
  - injection H as ->. lia.
  - specialize (IH _ _ l2 H). lia.
Qed.
Lemma one_nonneg : forall k m, 0 <= one k F1 m. Proof. intros. unfold one, F1. destruct (keq _ _); lia. Qed.
Lemma tot_nonneg : forall k l, 0 <= tot k F1 l.
Proof. intros k. induction l as [|m l IH]; [cbn; lia|]. rewrite tot_cons. pose proof (one_nonneg k m). lia. Qed.
Lemma TOT_nonneg : forall k L, 0 <= TOT k F1 L.
Proof. intros k. induction L as [|l L IH]; [cbn; lia|]. rewrite TOT_cons. pose proof (tot_nonneg k l). lia. Qed.
Lemma tot_zero : forall k F l, tot k F1 l = 0 -> tot k F l = 0.
Proof.
  intros k F. induction l as [|m l IH]; intros H; [reflexivity|]. rewrite tot_cons in *. pose proof (one_nonneg k m). pose proof (tot_nonneg k l).
  rewrite IH by lia. assert (X : one k F1 m = 0) by lia. unfold one, F1 in *. destruct (keq (key_of m) k); lia.
Qed.
Lemma TOT_zero : forall k F L, TOT k F1 L = 0 -> TOT k F L = 0.
Proof.
  intros k F. induction L as [|l L IH]; intros H; [reflexivity|]. rewrite TOT_cons in *.
  pose proof (tot_nonneg k l) as A. pose proof (TOT_nonneg k L) as B. rewrite IH by lia. rewrite (tot_zero k F l) by lia. reflexivity.
Qed.
Lemma tot_ge : forall k l m, In m l -> key_of m = k -> 1 <= tot k F1 l.
Proof.
  intros k. induction l as [|x l IH]; intros m H E; [destruct H|]. rewrite tot_cons. destruct H as [->|H].
  - unfold one at 1, F1 at 1. rewrite E, keq_refl. pose proof (tot_nonneg k l). lia.
  - specialize (IH m H E). pose proof (one_nonneg k x). lia.
Qed.
Lemma TOT_ge : forall k L l m, In l L -> In m l -> key_of m = k -> 1 <= TOT k F1 L.
Proof.
  intros k. induction L as [|x L IH]; intros l m H H2 E; [destruct H|]. rewrite TOT_cons. destruct H as [->|H].
  - pose proof (tot_ge k l m H2 E). pose proof (TOT_nonneg k L) as B. lia.
  - specialize (IH l m H H2 E). pose proof (tot_nonneg k x). lia.
Qed.

Section G.
Variable U : list Z.
Variable maxgrp : nat.
Hypothesis HU : (length U <= maxgrp)%nat.
Variable fed : bool.                (* no INCLUDE list was ever emptied *)
Notation W := (W U).
Notation pend := (pend U).

Definition good (T : (filt -> Z) -> Z) (u : multi) : Prop :=
  W u /\ (forall a, gx u a = w16 (T (FX a)) /\ gn u a = w16 (T (FN a))) /\
  iex u = w16 (T FE) /\ iasm u = w16 (T FA) /\ (fed = true -> iin u = w16 (T FI)).
Definition GI (L : list (list mem)) (g : list ((Z * Z) * multi)) : Prop :=
  forall k, match glook k g with
            | Some u => good (fun F => TOT k F L) u /\ refc u = TOT k F1 L /\ 0 < refc u
            | None => TOT k F1 L = 0
            end.

Lemma good_ext : forall T T' u, (forall F, T F = T' F) -> good T u -> good T' u.
Proof. intros T T' u E (A & B & C & D & H). unfold good. rewrite <- !E. split; [exact A|]. split; [intros a; rewrite <- !E; apply B|]. auto. Qed.
Lemma commit_good : forall c T u, good T u -> good T (igmp c u).
Proof.
  intros [] T u G; [|exact G]. destruct G as (((A1 & A2 & A3) & A4) & B & C & D & E). cbn [igmp]. unfold inm_commit.
  set (g := fun (a : Z) (k : cnt) => mkK (x1 k) (n1 k) (x1 k) (n1 k)).
  assert (LK : forall a, look a (map (fun '(a, k) => (a, mkK (x1 k) (n1 k) (x1 k) (n1 k))) (srcs u)) = option_map (g a) (look a (srcs u))) by (intros a; apply (look_map _ _ g)).
  split; [|split; [|auto]].
  - split; [|exact A4]. cbn [srcs]. unfold WS. rewrite (keys_map _ _ g). split; [exact A1|]. split; [exact A2|].
    apply Forall_forall. intros p X. apply in_map_iff in X. destruct X as ([b k] & <- & X). rewrite Forall_forall in A3. apply A3 in X. exact X.
  - intros a. specialize (B a). unfold gx, gn in *. cbn [srcs]. rewrite LK. destruct (look a (srcs u)); cbn [option_map g x1 n1]; exact B.
Qed.
Lemma refc_commit : forall c u, refc (igmp c u) = refc u. Proof. intros [] u; reflexivity. Qed.

(* one membership's filter changes from f to q *)
Lemma merge_good : forall T u f p q, good T u -> pend f p q -> ~ (f1 f = Exc /\ fs f = [] /\ f1 q = Exc /\ fs q = []) ->
  (fed = true -> f1 f = Inc -> fs f <> []) ->
  exists u', inm_merge maxgrp u p = Ret u' /\ refc u' = refc u /\ good (fun F => T F + F q - F f) u'.
Proof.
  intros T u f p q (A & B & C & D & E) P NA NE. destruct (merge_ok U maxgrp HU u f p q A P NA) as (u' & M & W' & R & X & Y & Z & I).
  exists u'. split; [exact M|]. split; [exact R|]. split; [exact W'|]. rewrite C in Y. rewrite D in Z. specialize (Y (w16_range _)). specialize (Z (w16_range _)).
  split; [|split; [|split]].
  - intros a. destruct (X a) as [-> ->]. destruct (B a) as [-> ->]. split; rewrite <- Z.add_sub_assoc, w16_add; f_equal; lia.
  - rewrite Y. rewrite <- Z.add_sub_assoc, w16_add. f_equal. lia.
  - rewrite Z. rewrite <- Z.add_sub_assoc, w16_add. f_equal. lia.
  - intros FD. specialize (E FD). specialize (I (NE FD)). rewrite E in I. rewrite (I (w16_range _)). rewrite <- Z.add_sub_assoc, w16_add. f_equal. lia.
Qed.

(* a membership of a socket *)
Definition holds (L : list (list mem)) (s : nat) (l : list mem) (j : nat) : Prop := nth_error L s = Some l /\ (j < length l)%nat.

Lemma holds_look : forall L g s l j, GI L g -> holds L s l j -> exists u, glook (key_of (nth j l dm)) g = Some u.
Proof.
  intros L g s l j G [H1 H2]. specialize (G (key_of (nth j l dm))). destruct (glook _ g) as [u|]; [eauto|]. exfalso.
  pose proof (TOT_ge (key_of (nth j l dm)) L l (nth j l dm) (nth_error_In _ _ H1) (nth_In _ _ H2) eq_refl). lia.
Qed.

Lemma change_ok : forall L g s l j p q c, GI L g -> holds L s l j -> pend (m_f (nth j l dm)) p q ->
  ~ (f1 (m_f (nth j l dm)) = Exc /\ fs (m_f (nth j l dm)) = [] /\ f1 q = Exc /\ fs q = []) ->
  (fed = true -> f1 (m_f (nth j l dm)) = Inc -> fs (m_f (nth j l dm)) <> []) ->
  exists g', change maxgrp (key_of (nth j l dm)) p c g = Ret g' /\ GI (upd L s (set_f l j q)) g'.
Proof.
  intros L g s l j p q c G H P NA NE. destruct (holds_look L g s l j G H) as (u & E). set (m := nth j l dm) in *. unfold change. rewrite E.
  pose proof (G (key_of m)) as X. rewrite E in X. destruct X as (X1 & X2 & X3).
  destruct (merge_good _ u _ p q X1 P NA NE) as (u' & M & R & Y). rewrite M. cbn [obind]. eexists. split; [reflexivity|].
  destruct H as [H1 H2].
  assert (TT : forall k F, TOT k F (upd L s (set_f l j q)) = TOT k F L + (if keq (key_of m) k then F q - F (m_f m) else 0)).
  { intros k F. rewrite (TOT_upd k F L s l _ H1). unfold set_f. rewrite tot_upd by exact H2. fold m.
    change (one k F (mkM (m_if m) (m_gr m) q)) with (if keq (key_of m) k then F q else 0).
    change (one k F m) with (if keq (key_of m) k then F (m_f m) else 0). destruct (keq (key_of m) k); lia. }
  intros k. rewrite glook_gput. destruct (keq k (key_of m)) eqn:K.
  - apply keq_eq in K. subst k. rewrite refc_commit, R, X2. split; [|split; [|lia]].
    + apply commit_good. apply (good_ext (fun F => TOT (key_of m) F L + F q - F (m_f m))); [|exact Y]. intros F. cbv beta. rewrite TT, keq_refl. lia.
    + rewrite TT, keq_refl. unfold F1. lia.
  - specialize (G k). assert (K2 : keq (key_of m) k = false) by (apply keq_neq; apply keq_neq in K; congruence).
    assert (TE : forall F, TOT k F (upd L s (set_f l j q)) = TOT k F L) by (intros F; rewrite TT, K2; lia).
    destruct (glook k g) as [v|]; [|rewrite TE; exact G]. destruct G as (G1 & G2 & G3). rewrite TE. split; [|auto].
    apply (good_ext (fun F => TOT k F L)); [intros F; symmetry; apply TE|exact G1].
Qed.

Definition zf : filt := mkF Und Und [].
Lemma zf_zero : FE zf = 0 /\ FA zf = 0 /\ FI zf = 0 /\ (forall a, FX a zf = 0 /\ FN a zf = 0).
Proof. repeat split. Qed.
Definition li : filt := mkF Inc Inc [].
Lemma li_zero : FE li = 0 /\ FA li = 0 /\ FI li = 0 /\ (forall a, FX a li = 0 /\ FN a li = 0).
Proof. repeat split. Qed.

Lemma join_ok : forall L g s l i gr p q c, GI L g -> nth_error L s = Some l -> pend zf p q ->
  exists g', joingroup maxgrp (i, gr) p c g = Ret g' /\ GI (upd L s (l ++ [mkM i gr q])) g'.
Proof.
  intros L g s l i gr p q c G H P. unfold joingroup.
  assert (X : good (fun F => match glook (i, gr) g with Some _ => TOT (i, gr) F L | None => 0 end) (getmulti (i, gr) g) /\ refc (getmulti (i, gr) g) = TOT (i, gr) F1 L + 1).
  { pose proof (G (i, gr)) as X. unfold getmulti. destruct (glook (i, gr) g) as [u|].
    - destruct X as (X1 & X2 & X3). cbn [refc]. split; [|lia]. exact X1.
    - cbn [refc]. split; [|lia]. split; [split; [|reflexivity]; split; [constructor|]; split; [intros a []|constructor]|]. repeat split; reflexivity. }
  destruct X as [X1 X2].
  destruct (merge_good _ _ zf p q X1 P) as (u' & M & R & Y); [intros (Z & _); discriminate|discriminate|]. rewrite M. cbn [obind]. eexists. split; [reflexivity|].
  assert (TT : forall k F, TOT k F (upd L s (l ++ [mkM i gr q])) = TOT k F L + (if keq (i, gr) k then F q else 0)).
  { intros k F. rewrite (TOT_upd k F L s l _ H). rewrite tot_app, tot_cons, tot_nil. change (one k F (mkM i gr q)) with (if keq (i, gr) k then F q else 0). lia. }
  intros k. rewrite glook_gput. destruct (keq k (i, gr)) eqn:K.
  - apply keq_eq in K. subst k. rewrite refc_commit, R, X2. rewrite TT, keq_refl. unfold F1 at 2. pose proof (TOT_nonneg (i, gr) L). split; [|split; [reflexivity|lia]].
    apply commit_good.
    assert (B : forall F, match glook (i, gr) g with Some _ => TOT (i, gr) F L | None => 0 end = TOT (i, gr) F L).
    { intros F. pose proof (G (i, gr)) as Z. destruct (glook (i, gr) g); [reflexivity|]. rewrite (TOT_zero _ F _ Z). reflexivity. }
    destruct Y as (Y1 & Y2 & Y3 & Y4 & Y5). destruct zf_zero as (Z1 & Z2 & Z3 & Z4). rewrite B in *. rewrite Z1, Z.sub_0_r in Y3. rewrite Z2, Z.sub_0_r in Y4. rewrite Z3, Z.sub_0_r in Y5.
    unfold good. rewrite !TT, keq_refl. split; [exact Y1|]. split; [|auto]. intros a. specialize (Y2 a). destruct (Z4 a) as [Z5 Z6]. rewrite !B, Z5, Z6, !Z.sub_0_r in Y2. rewrite !TT, keq_refl. exact Y2.
  - specialize (G k). assert (K2 : keq (i, gr) k = false) by (apply keq_neq; apply keq_neq in K; congruence).
    assert (TE : forall F, TOT k F (upd L s (l ++ [mkM i gr q])) = TOT k F L) by (intros F; rewrite TT, K2; lia).
    destruct (glook k g) as [v|]; [|rewrite TE; exact G]. destruct G as (G1 & G2 & G3). rewrite TE. split; [|auto].
    apply (good_ext (fun F => TOT k F L)); [intros F; symmetry; apply TE|exact G1].
Qed.

Lemma leave_ok : forall L g s l j p c, GI L g -> holds L s l j -> pend (m_f (nth j l dm)) p li ->
  (fed = true -> f1 (m_f (nth j l dm)) = Inc -> fs (m_f (nth j l dm)) <> []) ->
  exists g', leavegroup maxgrp (key_of (nth j l dm)) p c g = Ret g' /\ GI (upd L s (remove l j)) g'.
Proof.
  intros L g s l j p c G H P NE. destruct (holds_look L g s l j G H) as (u & E). set (m := nth j l dm) in *. unfold leavegroup, change. rewrite E.
  pose proof (G (key_of m)) as X. rewrite E in X. destruct X as (X1 & X2 & X3).
  destruct (merge_good _ u _ p li X1 P) as (u' & M & R & Y); [intros (_ & _ & Z & _); discriminate|exact NE|]. rewrite M. cbn [obind].
  unfold release. rewrite glook_gput, keq_refl. destruct H as [H1 H2].
  assert (TT : forall k F, TOT k F (upd L s (remove l j)) = TOT k F L - (if keq (key_of m) k then F (m_f m) else 0)).
  { intros k F. rewrite (TOT_upd k F L s l _ H1). rewrite tot_remove by exact H2. fold m. change (one k F m) with (if keq (key_of m) k then F (m_f m) else 0). lia. }
  assert (Y' : good (fun F => TOT (key_of m) F (upd L s (remove l j))) (igmp c u')).
  { apply commit_good. destruct Y as (Y1 & Y2 & Y3 & Y4 & Y5). destruct li_zero as (Z1 & Z2 & Z3 & Z4). rewrite Z1, Z.add_0_r in Y3. rewrite Z2, Z.add_0_r in Y4. rewrite Z3, Z.add_0_r in Y5.
    unfold good. rewrite !TT, keq_refl. split; [exact Y1|]. split; [|auto]. intros a. specialize (Y2 a). destruct (Z4 a) as [Z5 Z6]. rewrite Z5, Z6, !Z.add_0_r in Y2. rewrite !TT, keq_refl. exact Y2. }
  eexists. split; [reflexivity|]. rewrite refc_commit, R, X2.
  assert (T1 : TOT (key_of m) F1 (upd L s (remove l j)) = TOT (key_of m) F1 L - 1) by (rewrite TT, keq_refl; reflexivity).
  intros k. destruct (keq k (key_of m)) eqn:K.
  - apply keq_eq in K. subst k. destruct (TOT (key_of m) F1 L - 1 >? 0) eqn:Q.
    + rewrite glook_gput, keq_refl. cbn [refc]. split; [exact Y'|]. lia.
    + rewrite glook_gdel, keq_refl. lia.
  - assert (K2 : keq (key_of m) k = false) by (apply keq_neq; apply keq_neq in K; congruence).
    assert (LK : glook k (if TOT (key_of m) F1 L - 1 >? 0 then gput (key_of m) (mkMu (TOT (key_of m) F1 L - 1) (iex (igmp c u')) (iin (igmp c u')) (iasm (igmp c u')) (fmode (igmp c u')) (srcs (igmp c u'))) (gput (key_of m) (igmp c u') g) else gdel (key_of m) (gput (key_of m) (igmp c u') g)) = glook k g).
    { destruct (TOT (key_of m) F1 L - 1 >? 0); [rewrite glook_gput, K|rewrite glook_gdel, K]; rewrite glook_gput, K; reflexivity. }
    rewrite LK. specialize (G k). assert (TE : forall F, TOT k F (upd L s (remove l j)) = TOT k F L) by (intros F; rewrite TT, K2; lia).
    destruct (glook k g) as [v|]; [|rewrite TE; exact G]. destruct G as (G1 & G2 & G3). rewrite TE. split; [|auto].
    apply (good_ext (fun F => TOT k F L)); [intros F; symmetry; apply TE|exact G1].
Qed.
End G.
