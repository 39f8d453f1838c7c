(* C100, C101: each call does to the memberships what the specification says. *)
From Verif Require Import Base McastModel McastSpec McastMerge McastGroup.
Ltac Zify.zify_post_hook ::= idtac.

Lemma isin_in : forall a l, isin a l = true <-> In a l.
Proof.
  intros a l. unfold isin. rewrite existsb_exists. split; [intros (x & H & E); assert (a = x) by lia; congruence|intros H; exists a; split; [exact H|lia]].
Qed.
Lemma isin_out : forall a l, isin a l = false <-> ~ In a l.
Proof. intros a l. rewrite <- isin_in. destruct (isin a l); split; congruence. Qed.
Lemma isin_app : forall a l b, isin a (l ++ [b]) = isin a l || (a =? b).
Proof. intros. unfold isin. rewrite existsb_app. cbn [existsb]. rewrite orb_false_r. reflexivity. Qed.
Lemma isin_del : forall a l b, isin a (filter (fun y => negb (y =? b)) l) = isin a l && negb (a =? b).
Proof.
  intros a l b. apply eq_true_iff_eq. rewrite isin_in, filter_In, andb_true_iff, isin_in. reflexivity.
Qed.
Lemma isin_nodup : forall a l, isin a (nodup Z.eq_dec l) = isin a l.
Proof. intros. apply eq_true_iff_eq. rewrite !isin_in. apply nodup_In. Qed.

Section I.
Variable U : list Z.
Variables maxsock maxgrp maxmem : nat.
Variable fed : bool.
Notation settled := (settled U).
Notation pend := (pend U).
Notation GI := (GI U fed).

Lemma view1_settled : forall f a, settled f -> view1 f a = if isin a (keys (fs f)) then f1 f else Und.
Proof.
  intros f a (_ & N & _ & F). unfold view1. destruct (look a (fs f)) as [[s t]|] eqn:L.
  - apply look_some in L. rewrite Forall_forall in F. pose proof (F _ L) as X. cbn [snd] in X. replace (isin a (keys (fs f))) with true; [congruence|].
    symmetry. apply isin_in. apply (in_map fst) in L. exact L.
  - apply look_none in L. apply isin_out in L. rewrite L. reflexivity.
Qed.

(* p: a change of f under way *)
Record okp (f p : filt) : Prop := mkO {
  o_n : NoDup (keys (fs p)); o_u : incl (keys (fs p)) U; o_0 : f1 f = f0 p; o_1 : f1 p <> Und;
  o_v : forall a, view0 p a = view1 f a; o_t : Forall (fun p' => snd (snd p') = f1 p \/ snd (snd p') = Und) (fs p) }.

Definition cg (_ : Z) (x : mode * mode) : mode * mode := (snd x, snd x).
Lemma commit_fs : forall p, fs (commit p) = map (fun '(a, x) => (a, cg a x)) (fs p).
Proof. intros p. unfold commit. cbn [fs]. apply map_ext. intros [a [s t]]. reflexivity. Qed.
Lemma okp_fs : forall f p, okp f p -> NoDup (keys (fs (commit p))) /\ NoDup (keys (fs (reap (commit p)))) /\ incl (keys (fs (reap (commit p)))) U.
Proof.
  intros f p O. destruct O as [O1 O2 O3 O4 O5 O6].
  assert (N : NoDup (keys (fs (commit p)))) by (rewrite commit_fs, keys_map; exact O1).
  split; [exact N|]. unfold reap. cbn [fs]. split; [apply keys_filter; exact N|]. apply incl_filter. rewrite commit_fs, keys_map. exact O2.
Qed.
Lemma okp_view : forall f p a, okp f p -> view1 (reap (commit p)) a = view1 p a.
Proof.
  intros f p a O. destruct (okp_fs f p O) as (N & _ & _). unfold view1. unfold reap. cbn [fs]. rewrite look_filter by exact N. rewrite commit_fs, look_map.
  destruct (look a (fs p)) as [[s t]|]; [|reflexivity]. cbn [option_map cg snd]. destruct t; reflexivity.
Qed.
Lemma okp_settled : forall f p, okp f p -> settled (reap (commit p)).
Proof.
  intros f p O. destruct (okp_fs f p O) as (N & N2 & I2). split; [reflexivity|]. split; [exact N2|]. split; [exact I2|].
  apply Forall_forall. intros [a [s t]] X. cbn [snd]. unfold reap in X. cbn [fs] in X. apply filter_In in X. destruct X as [X Y]. rewrite commit_fs in X.
  apply in_map_iff in X. destruct X as ([b [s2 t2]] & E & X). injection E as -> <- <-. pose proof (o_t f p O) as F. rewrite Forall_forall in F. apply F in X. cbn [snd] in X.
  cbn [reap commit f1]. destruct X as [X|X]; [congruence|]. cbn [snd] in Y. rewrite X in Y. discriminate.
Qed.
Lemma okp_pend : forall f p, settled f -> (f1 f = Und -> fs f = []) -> okp f p -> pend f p (reap (commit p)).
Proof.
  intros f p S E O. pose proof (okp_settled f p O) as Q. pose proof (okp_view f p) as V. destruct O as [O1 O2 O3 O4 O5 O6]. constructor; try assumption; try reflexivity.
  intros a. symmetry. apply V. constructor; assumption.
Qed.

Lemma settled_v0 : forall f a, settled f -> view0 f a = view1 f a.
Proof.
  intros f a (_ & _ & _ & F). unfold view0, view1. destruct (look a (fs f)) as [[s t]|] eqn:L; [|reflexivity].
  apply look_some in L. rewrite Forall_forall in F. apply F in L. cbn [snd] in L. congruence.
Qed.
Lemma settled_t : forall f, settled f -> Forall (fun p' => snd (snd p') = f1 f \/ snd (snd p') = Und) (fs f).
Proof. intros f (_ & _ & _ & F). rewrite Forall_forall in *. intros p X. apply F in X. rewrite X. left. reflexivity. Qed.

(* imf_graft *)
Lemma graft_step : forall f p a, okp f p -> look a (fs p) = None -> In a U -> okp f (graft p a (f1 p)) /\ forall b, view1 (graft p a (f1 p)) b = if b =? a then f1 p else view1 p b.
Proof.
  intros f p a O L I. destruct O as [O1 O2 O3 O4 O5 O6]. pose proof L as L'. apply look_none in L'.
  split; [constructor|]; unfold graft; cbn [f0 f1 fs]; try assumption.
  - rewrite keys_app. apply nodup_snoc; assumption.
  - rewrite keys_app. intros b X. apply in_app_iff in X. destruct X as [X|[<-|[]]]; auto.
  - intros b. rewrite <- O5. unfold view0. cbn [fs]. rewrite look_app. destruct (look b (fs p)) as [x|]; [reflexivity|]. cbn [look]. destruct (b =? a); reflexivity.
  - apply Forall_app. split; [exact O6|]. constructor; [left; reflexivity|constructor].
  - intros b. unfold view1. cbn [fs]. rewrite look_app. destruct (b =? a) eqn:E.
    + assert (b = a) by lia. subst b. rewrite L. cbn [look]. rewrite Z.eqb_refl. reflexivity.
    + destruct (look b (fs p)) as [x|]; [reflexivity|]. cbn [look]. rewrite E. reflexivity.
Qed.
(* an assignment of a source's new state *)
Lemma put_step : forall f p a s t t', okp f p -> look a (fs p) = Some (s, t) -> (t' = f1 p \/ t' = Und) ->
  okp f (mkF (f0 p) (f1 p) (put a (s, t') (fs p))) /\ forall b, view1 (mkF (f0 p) (f1 p) (put a (s, t') (fs p))) b = if b =? a then t' else view1 p b.
Proof.
  intros f p a s t t' O L T. destruct O as [O1 O2 O3 O4 O5 O6].
  assert (K : keys (put a (s, t') (fs p)) = keys (fs p)) by (exact (keys_put _ _ _ _ _ L)).
  split; [constructor|]; cbn [f0 f1 fs]; rewrite ?K; try assumption.
  - intros b. rewrite <- O5. unfold view0. cbn [fs]. rewrite look_put. destruct (b =? a) eqn:E; [|reflexivity]. assert (b = a) by lia. subst b. rewrite L. reflexivity.
  - apply Forall_forall. intros [c y] X. apply look_in in X; [|rewrite K; exact O1]. rewrite look_put in X. destruct (c =? a); [injection X as <-; exact T|].
    apply look_some in X. rewrite Forall_forall in O6. exact (O6 _ X).
  - intros b. unfold view1. cbn [fs]. rewrite look_put. destruct (b =? a); reflexivity.
Qed.
Lemma okp_self : forall f, settled f -> f1 f <> Und -> okp f f.
Proof.
  intros f S M. pose proof S as (S1 & S2 & S3 & S4). constructor; try assumption; [congruence| |apply settled_t; exact S]. intros a. apply settled_v0. exact S.
Qed.

(* imf_leave *)
Definition lg (_ : Z) (x : mode * mode) : mode * mode := (fst x, Und).
Lemma leave_fs : forall f, fs (imf_leave f) = map (fun '(a, x) => (a, lg a x)) (fs f).
Proof. intros f. unfold imf_leave. cbn [fs]. apply map_ext. intros [a [s t]]. reflexivity. Qed.
Lemma leave_step : forall f m, settled f -> m <> Und -> okp f (mkF (f0 f) m (fs (imf_leave f))) /\ forall a, view1 (mkF (f0 f) m (fs (imf_leave f))) a = Und.
Proof.
  intros f m S M. pose proof S as (S1 & S2 & S3 & S4). rewrite leave_fs. split; [constructor|]; cbn [f0 f1 fs]; rewrite ?keys_map; try assumption.
  - congruence.
  - intros a. rewrite <- (settled_v0 f a S). unfold view0. cbn [fs]. rewrite look_map. destruct (look a (fs f)) as [[s t]|]; reflexivity.
  - apply Forall_forall. intros p X. apply in_map_iff in X. destruct X as ([a x] & <- & _). right. reflexivity.
  - intros a. unfold view1. cbn [fs]. rewrite look_map. destruct (look a (fs f)) as [[s t]|]; reflexivity.
Qed.
Lemma leave_pend : forall f, settled f -> f1 f <> Und -> pend f (imf_leave f) li.
Proof.
  intros f S M. destruct (leave_step f Inc S ltac:(discriminate)) as [O V]. change (mkF (f0 f) Inc (fs (imf_leave f))) with (imf_leave f) in *.
  destruct O as [O1 O2 O3 O4 O5 O6]. constructor; try assumption; try reflexivity; try discriminate; try contradiction.
  - unfold McastMerge.settled, li. cbn [f0 f1 fs keys map]. split; [reflexivity|]. split; [constructor|]. split; [intros a []|constructor].
Qed.

(* the sources of a set filter call *)
Lemma get_all_ok : forall l f p, okp f p -> incl l U -> (length (fs p) + length l <= maxsock)%nat ->
  exists p', get_all maxsock p l = (p', true) /\ okp f p' /\ f1 p' = f1 p /\ forall a, view1 p' a = if isin a l then f1 p else view1 p a.
Proof.
  induction l as [|a l IH]; intros f p O I N; cbn [get_all].
  - exists p. repeat split; auto; apply O.
  - cbn [length] in N. assert (IL : incl l U) by (intros b X; apply I; right; exact X).
    assert (X : exists p1, get_set maxsock p a = Some p1 /\ okp f p1 /\ f1 p1 = f1 p /\ (length (fs p1) <= S (length (fs p)))%nat /\ forall b, view1 p1 b = if b =? a then f1 p else view1 p b).
    { unfold get_set. destruct (look a (fs p)) as [[s t]|] eqn:L.
      - destruct (put_step f p a s t (f1 p) O L (or_introl eq_refl)) as [P1 P2]. eexists. split; [reflexivity|]. split; [exact P1|]. split; [reflexivity|]. split; [|exact P2].
        cbn [fs]. assert (K : length (keys (put a (s, f1 p) (fs p))) = length (keys (fs p))) by (rewrite (keys_put _ _ _ _ _ L); reflexivity). unfold keys in K. rewrite !map_length in K. lia.
      - replace (length (fs p) =? maxsock)%nat with false by (symmetry; apply Nat.eqb_neq; lia).
        destruct (graft_step f p a O L (I a (or_introl eq_refl))) as [P1 P2]. eexists. split; [reflexivity|]. split; [exact P1|]. split; [reflexivity|]. split; [|exact P2].
        unfold graft. cbn [fs]. rewrite app_length. cbn [length]. lia. }
    destruct X as (p1 & E & O1 & F1' & LN & V). rewrite E. destruct (IH f p1 O1 IL ltac:(lia)) as (p' & E' & O' & F' & V'). exists p'. split; [exact E'|]. split; [exact O'|].
    split; [congruence|]. intros b. rewrite V', V, F1'. unfold isin. cbn [existsb]. destruct (b =? a), (existsb (Z.eqb b) l); reflexivity.
Qed.

(* a membership and its specification *)
Definition R (m : mem) (y : smem) : Prop :=
  m_if m = s_if y /\ m_gr m = s_gr y /\ settled (m_f m) /\ f1 (m_f m) = s_mode y /\ s_mode y <> Und /\
  (forall a, view1 (m_f m) a = if isin a (s_src y) then s_mode y else Und).
Definition Rst (x : st) (y : spec) : Prop := Forall2 (Forall2 R) (socks x) y /\ GI (socks x) (mus x).

Lemma R_look : forall m y a, R m y -> (look a (fs (m_f m)) = None <-> isin a (s_src y) = false) /\ (forall x, look a (fs (m_f m)) = Some x -> x = (s_mode y, s_mode y)).
Proof.
  intros m y a (_ & _ & S & M & ND & V). specialize (V a). unfold view1 in V. pose proof S as (_ & _ & _ & F). split.
  - destruct (look a (fs (m_f m))) as [[s t]|] eqn:L.
    + apply look_some in L. rewrite Forall_forall in F. apply F in L. cbn [snd] in L. injection L as _ L. split; [discriminate|]. intros X. rewrite X in V. congruence.
    + destruct (isin a (s_src y)); [congruence|]. tauto.
  - intros x L. apply look_some in L. rewrite Forall_forall in F. apply F in L. cbn [snd] in L. congruence.
Qed.
Lemma R_nil : forall m y, R m y -> (fs (m_f m) = [] <-> s_src y = []).
Proof.
  intros m y H. split.
  - intros E. destruct (s_src y) as [|a l] eqn:X; [reflexivity|]. exfalso. destruct (R_look m y a H) as [L _]. rewrite E in L. cbn [look] in L.
    assert (Y : isin a (s_src y) = false) by tauto. rewrite X in Y. unfold isin in Y. cbn [existsb] in Y. rewrite Z.eqb_refl in Y. discriminate.
  - intros E. destruct (fs (m_f m)) as [|[a x] l] eqn:X; [reflexivity|]. exfalso. destruct (R_look m y a H) as [L _]. rewrite X, E in L. cbn [look] in L. rewrite Z.eqb_refl in L.
    assert (Some x = None) by (apply L; reflexivity). discriminate.
Qed.
Lemma R_len : forall m y, R m y -> (length (fs (m_f m)) <= length (s_src y))%nat.
Proof.
  intros m y H. pose proof H as (_ & _ & (_ & N & _ & _) & _). assert (X : (length (keys (fs (m_f m))) <= length (s_src y))%nat).
  { apply NoDup_incl_length; [exact N|]. intros a X. apply isin_in. destruct (isin a (s_src y)) eqn:E; [reflexivity|]. exfalso.
    apply (proj1 (R_look m y a H)) in E. apply look_none in E. contradiction. }
  unfold keys in X. rewrite map_length in X. exact X.
Qed.

Lemma find_member : forall l sl i g, Forall2 R l sl ->
  match find_group l i g, member sl i g with
  | None, None => True
  | Some j, Some (j', y) => j' = j /\ (j < length l)%nat /\ R (nth j l dm) y /\ In y sl
  | _, _ => False
  end.
Proof.
  intros l sl i g H. induction H as [|m y l sl H1 H2 IH]; cbn [find_group member]; [exact Logic.I|].
  pose proof H1 as (E1 & E2 & _). unfold about. rewrite <- E1, <- E2. destruct (_ && (m_gr m =? g)).
  - cbn [length nth]. split; [reflexivity|]. split; [lia|]. split; [exact H1|left; reflexivity].
  - destruct (find_group l i g) as [j|], (member sl i g) as [[j' y']|]; cbn [option_map]; try contradiction; [|exact Logic.I].
    destruct IH as (-> & L & Q & J). cbn [length nth]. split; [reflexivity|]. split; [lia|]. split; [exact Q|right; exact J].
Qed.
Lemma f2_upd : forall A B (P : A -> B -> Prop) l sl j y sy, Forall2 P l sl -> P y sy -> Forall2 P (upd l j y) (upd sl j sy).
Proof. intros A B P l sl j y sy H. revert j. induction H; intros j Q; cbn [upd]; [constructor|]. destruct j; constructor; auto. Qed.
Lemma f2_remove : forall A B (P : A -> B -> Prop) l sl j, Forall2 P l sl -> Forall2 P (remove l j) (remove sl j).
Proof.
  intros A B P l sl j H. revert j. induction H as [|a b l sl H1 H2 IH]; intros j; [destruct j; constructor|]. destruct j; [exact H2|].
  change (Forall2 P (a :: remove l j) (b :: remove sl j)). constructor; auto.
Qed.
Lemma f2_nth : forall A B (P : A -> B -> Prop) l sl s, Forall2 P l sl ->
  match nth_error l s, nth_error sl s with Some a, Some b => P a b | None, None => True | _, _ => False end.
Proof. intros A B P l sl s H. revert s. induction H; intros s; destruct s; cbn [nth_error]; auto. apply IHForall2. Qed.
Lemma f2_same : forall A (l : list A) s x, nth_error l s = Some x -> upd l s x = l.
Proof. intros A. induction l as [|b l IH]; intros s x H; destruct s; cbn [nth_error upd] in *; try discriminate; [congruence|]. rewrite IH by exact H. reflexivity. Qed.
Lemma upd_upd : forall A (l : list A) s x y, upd (upd l s x) s y = upd l s y.
Proof. intros A. induction l as [|b l IH]; intros s x y; destruct s; cbn [upd]; try reflexivity. rewrite IH. reflexivity. Qed.
Lemma nth_upd : forall A (l : list A) s x y, nth_error l s = Some y -> nth_error (upd l s x) s = Some x.
Proof. intros A. induction l as [|b l IH]; intros s x y H; destruct s; cbn [nth_error upd] in *; try discriminate; eauto. Qed.
End I.
