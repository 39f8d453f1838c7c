(* C28: the big reader lock. *)
From Coq Require Import List Bool Arith Lia.
From Verif Require Import BrlockModel.
Import ListNotations.

(* thread t owns spinlock k *)
Definition owns (n : nat) (p : pc) (t k : nat) : Prop :=
  match p with
  | Idle | RWait => False
  | RHold => k = t
  | WAcq j => k < j
  | WHold => True
  | WRel j => j <= k
  end.
Definition in_rng (n : nat) (p : pc) : Prop :=
  match p with WAcq j | WRel j => j <= n | _ => True end.

Record BInv (n : nat) (st : bst) : Prop := {
  bi_rng : forall t, t < n -> in_rng n (pcs st t);
  bi_lk : forall k, k < n -> lk st k = true -> exists t, t < n /\ owns n (pcs st t) t k;
  bi_own : forall k t, k < n -> t < n -> owns n (pcs st t) t k -> lk st k = true;
  bi_excl : forall k t u, k < n -> t < n -> u < n -> owns n (pcs st t) t k -> owns n (pcs st u) u k -> t = u
}.

Lemma upd_same {A} (f : nat -> A) i x : upd f i x i = x.
Proof. unfold upd. rewrite Nat.eqb_refl. reflexivity. Qed.
Lemma upd_other {A} (f : nat -> A) i j x : j <> i -> upd f i x j = f j.
Proof. intros H. unfold upd. destruct (Nat.eqb_spec j i); [contradiction|reflexivity]. Qed.
Lemma upd_case {A} (f : nat -> A) i j x : (j = i /\ upd f i x j = x) \/ (j <> i /\ upd f i x j = f j).
Proof. destruct (Nat.eq_dec j i) as [->|H]; [left; split; [reflexivity|apply upd_same]|right; split; [exact H|apply upd_other; exact H]]. Qed.

(* a step that changes the owned set of t by nothing *)
Lemma inv_same n st t p : BInv n st -> t < n -> in_rng n p ->
  (forall k, k < n -> owns n p t k <-> owns n (pcs st t) t k) -> BInv n (mkB (upd (pcs st) t p) (lk st)).
Proof.
  intros [R L O X] Ht Hr Hk. split; cbn [pcs lk].
  - intros u Hu. destruct (upd_case (pcs st) t u p) as [[-> ->]|[_ ->]]; auto.
  - intros k Hk' E. destruct (L k Hk' E) as (u & Hu & Ou). exists u. split; [exact Hu|].
    destruct (upd_case (pcs st) t u p) as [[-> ->]|[_ ->]]; [apply Hk; assumption|exact Ou].
  - intros k u Hk' Hu. destruct (upd_case (pcs st) t u p) as [[-> ->]|[_ ->]]; intros Ou; [apply (O k t); try assumption; apply Hk; assumption|apply (O k u); assumption].
  - intros k u v Hk' Hu Hv. destruct (upd_case (pcs st) t u p) as [[-> ->]|[_ ->]], (upd_case (pcs st) t v p) as [[-> ->]|[_ ->]]; intros A B;
      try reflexivity; apply (X k); try assumption; apply Hk; assumption.
Qed.
(* t takes the free lock j *)
Lemma inv_take n st t p j : BInv n st -> t < n -> j < n -> lk st j = false -> in_rng n p ->
  (forall k, k < n -> owns n p t k <-> (k = j \/ owns n (pcs st t) t k)) -> BInv n (mkB (upd (pcs st) t p) (upd (lk st) j true)).
Proof.
  intros [R L O X] Ht Hj F Hr Hk.
  assert (NO : forall u, u < n -> ~ owns n (pcs st u) u j).
  { intros u Hu Ou. rewrite (O j u Hj Hu Ou) in F. discriminate. }
  split; cbn [pcs lk].
  - intros u Hu. destruct (upd_case (pcs st) t u p) as [[-> ->]|[_ ->]]; auto.
  - intros k Hk' E. destruct (upd_case (lk st) j k true) as [[-> E']|[N E']].
    + exists t. split; [exact Ht|]. rewrite upd_same. apply Hk; [exact Hj|auto].
    + rewrite E' in E. destruct (L k Hk' E) as (u & Hu & Ou). exists u. split; [exact Hu|].
      destruct (upd_case (pcs st) t u p) as [[-> ->]|[_ ->]]; [apply Hk; auto|exact Ou].
  - intros k u Hk' Hu Ou. destruct (upd_case (lk st) j k true) as [[-> ->]|[N ->]]; [reflexivity|].
    destruct (upd_case (pcs st) t u p) as [[-> E]|[_ E]]; rewrite E in Ou.
    + apply Hk in Ou; [|exact Hk']. destruct Ou as [->|Ou]; [contradiction|]. apply (O k t); assumption.
    + apply (O k u); assumption.
  - intros k u v Hk' Hu Hv. destruct (upd_case (pcs st) t u p) as [[-> ->]|[Nu ->]], (upd_case (pcs st) t v p) as [[-> ->]|[Nv ->]]; intros A B;
      try reflexivity.
    + apply Hk in A; [|exact Hk']. destruct A as [->|A]; [destruct (NO v Hv B)|exact (X k t v Hk' Hu Hv A B)].
    + apply Hk in B; [|exact Hk']. destruct B as [->|B]; [destruct (NO u Hu A)|exact (X k u t Hk' Hu Hv A B)].
    + apply (X k); assumption.
Qed.
(* t gives back the lock j it owns *)
Lemma inv_give n st t p j : BInv n st -> t < n -> j < n -> owns n (pcs st t) t j -> in_rng n p ->
  (forall k, k < n -> owns n p t k <-> (k <> j /\ owns n (pcs st t) t k)) -> BInv n (mkB (upd (pcs st) t p) (upd (lk st) j false)).
Proof.
  intros [R L O X] Ht Hj Hown Hr Hk. split; cbn [pcs lk].
  - intros u Hu. destruct (upd_case (pcs st) t u p) as [[-> ->]|[_ ->]]; auto.
  - intros k Hk' E. destruct (upd_case (lk st) j k false) as [[-> E']|[N E']]; rewrite E' in E; [discriminate|].
    destruct (L k Hk' E) as (u & Hu & Ou). exists u. split; [exact Hu|].
    destruct (upd_case (pcs st) t u p) as [[-> ->]|[_ ->]]; [apply Hk; auto|exact Ou].
  - intros k u Hk' Hu Ou. destruct (upd_case (pcs st) t u p) as [[-> E]|[Nu E]]; rewrite E in Ou.
    + apply Hk in Ou; [|exact Hk']. destruct Ou as [N Ou]. rewrite upd_other by exact N. apply (O k t); assumption.
    + destruct (upd_case (lk st) j k false) as [[-> _]|[N ->]]; [|apply (O k u); assumption].
      destruct (Nu (X j u t Hj Hu Ht Ou Hown)).
  - intros k u v Hk' Hu Hv. destruct (upd_case (pcs st) t u p) as [[-> ->]|[Nu ->]], (upd_case (pcs st) t v p) as [[-> ->]|[Nv ->]]; intros A B;
      try reflexivity; try (apply Hk in A; [|exact Hk']); try (apply Hk in B; [|exact Hk']); apply (X k); tauto.
Qed.

Lemma step_inv n st t wr st' : BInv n st -> t < n -> bstep n t wr st = Some st' -> BInv n st'.
Proof.
  intros I Ht. unfold bstep. pose proof (bi_rng n st I t Ht) as HR.
  destruct (pcs st t) as [| | |k| |k] eqn:E; cbn [in_rng] in HR.
  - intros Q. injection Q as <-. apply inv_same; try assumption; [destruct wr; cbn; [lia|exact Logic.I]|].
    intros j _. rewrite E. destruct wr; cbn; [lia|tauto].
  - destruct (lk st t) eqn:F; [discriminate|]. intros Q. injection Q as <-. apply inv_take; try assumption.
    intros j _. rewrite E. cbn. tauto.
  - intros Q. injection Q as <-. apply inv_give; try assumption; [rewrite E; reflexivity|].
    intros j _. rewrite E. cbn. tauto.
  - destruct (Nat.ltb_spec k n).
    + destruct (lk st k) eqn:F; [discriminate|]. intros Q. injection Q as <-. apply inv_take; try assumption.
      intros j _. rewrite E. cbn. lia.
    + intros Q. injection Q as <-. apply inv_same; try assumption; try exact Logic.I. intros j Hj. rewrite E. cbn. lia.
  - intros Q. injection Q as <-. apply inv_same; try assumption; [cbn; lia|]. intros j Hj. rewrite E. cbn. lia.
  - destruct (Nat.ltb_spec k n); intros Q; injection Q as <-.
    + apply inv_give; try assumption; [rewrite E; cbn; lia|]. intros j _. rewrite E. cbn. lia.
    + apply inv_same; try assumption; try exact Logic.I. intros j Hj. rewrite E. cbn. lia.
Qed.
Lemma reach_inv n st : breach n st -> BInv n st.
Proof.
  induction 1 as [|st t wr st' _ IH Ht E].
  - split; cbn; intros; try exact I; try discriminate; contradiction.
  - exact (step_inv n st t wr st' IH Ht E).
Qed.

(* While a thread holds the lock for writing nobody else holds it. *)
Theorem brlock_exclusion :
  forall n st t u, breach n st -> t < n -> u < n -> t <> u -> pcs st t = WHold ->
  pcs st u <> WHold /\ pcs st u <> RHold.
Proof.
  intros n st t u R Ht Hu N E. apply reach_inv in R. split; intros E2; apply N.
  - apply (bi_excl n st R t); try assumption; [rewrite E|rewrite E2]; exact I.
  - apply (bi_excl n st R u); try assumption; [rewrite E; exact I|rewrite E2; reflexivity].
Qed.

(* Readers never wait for readers: if no thread has begun to write, a reader
   gets the lock at once. *)
Theorem brlock_readers_share :
  forall n st t wr, breach n st -> t < n -> pcs st t = RWait ->
  (forall u, u < n -> pcs st u = Idle \/ pcs st u = RWait \/ pcs st u = RHold \/ pcs st u = WAcq 0) ->
  exists st', bstep n t wr st = Some st' /\ pcs st' t = RHold.
Proof.
  intros n st t wr R Ht E H. apply reach_inv in R. unfold bstep. rewrite E.
  destruct (lk st t) eqn:F.
  - exfalso. destruct (bi_lk n st R t Ht F) as (u & Hu & O).
    destruct (H u Hu) as [X|[X|[X|X]]]; rewrite X in O; cbn in O; try contradiction; [|lia].
    subst u. rewrite E in X. discriminate.
  - eexists. split; [reflexivity|]. cbn. apply upd_same.
Qed.

(* All released: every spinlock is free again. *)
Theorem brlock_no_leak :
  forall n st, breach n st -> (forall t, t < n -> pcs st t = Idle) -> forall k, k < n -> lk st k = false.
Proof.
  intros n st R H k Hk. apply reach_inv in R. destruct (lk st k) eqn:F; [|reflexivity].
  destruct (bi_lk n st R k Hk F) as (t & Ht & O). rewrite (H t Ht) in O. destruct O.
Qed.

(* ---- no deadlock ---- *)
Definition waits (p : pc) (t k : nat) : Prop := (p = RWait /\ k = t) \/ p = WAcq k.
Lemma enabled_or_waits n st t wr : t < n -> (exists st', bstep n t wr st = Some st') \/
  (exists k, k < n /\ lk st k = true /\ waits (pcs st t) t k).
Proof.
  intros Ht. unfold bstep. destruct (pcs st t) as [| | |k| |k] eqn:E; try (left; eexists; reflexivity).
  - destruct (lk st t) eqn:F; [right; exists t; unfold waits; auto|left; eexists; reflexivity].
  - destruct (Nat.ltb_spec k n); [|left; eexists; reflexivity].
    destruct (lk st k) eqn:F; [right; exists k; unfold waits; auto|left; eexists; reflexivity].
  - destruct (k <? n); left; eexists; reflexivity.
Qed.

Lemma chase n st wr : BInv n st -> forall d t k, t < n -> k < n -> n - k <= d -> lk st k = true -> waits (pcs st t) t k ->
  exists u st', u < n /\ pcs st u <> Idle /\ bstep n u wr st = Some st'.
Proof.
  intros I. induction d as [|d IH]; intros t k Ht Hk Hd F Hw; [lia|].
  destruct (bi_lk n st I k Hk F) as (u & Hu & O).
  assert (NI : pcs st u <> Idle) by (intros X; rewrite X in O; destruct O).
  destruct (enabled_or_waits n st u wr Hu) as [[st' E]|(j & Hj & Fj & Wj)]; [exists u, st'; auto|].
  assert (k < j).
  { destruct Wj as [[X ->]|X]; rewrite X in O; cbn in O; [destruct O|exact O]. }
  apply (IH u j); try assumption. lia.
Qed.

Theorem brlock_no_deadlock :
  forall n st t, breach n st -> t < n -> pcs st t <> Idle ->
  exists u st', u < n /\ pcs st u <> Idle /\ bstep n u false st = Some st'.
Proof.
  intros n st t R Ht NI. apply reach_inv in R.
  destruct (enabled_or_waits n st t false Ht) as [[st' E]|(k & Hk & F & W)]; [exists t, st'; auto|].
  exact (chase n st false R n t k Ht Hk ltac:(lia) F W).
Qed.

(* ---- every call is eventually served when no new calls are made ---- *)
Definition cost (n : nat) (p : pc) : nat :=
  match p with
  | Idle => 0 | RHold => 1 | RWait => 2
  | WRel k => 1 + (n - k) | WHold => 2 + n | WAcq k => 3 + n + (n - k)
  end.
Fixpoint total (n : nat) (f : nat -> nat) (m : nat) : nat := match m with 0 => 0 | S m' => f m' + total n f m' end.
Lemma total_upd n f t x : forall m, t < m -> total n (upd f t x) m + f t = total n f m + x.
Proof.
  induction m as [|m IH]; intros H; [lia|]. cbn [total].
  destruct (Nat.eq_dec t m) as [->|N].
  - rewrite upd_same. clear IH H. assert (forall k, k <= m -> total n (upd f m x) k = total n f k) as Q.
    { induction k as [|k IH]; intros L; [reflexivity|]. cbn [total]. rewrite IH, upd_other by lia. reflexivity. }
    rewrite Q by lia. lia.
  - rewrite upd_other by lia. specialize (IH ltac:(lia)). lia.
Qed.
Lemma total_ext n f g m : (forall i, f i = g i) -> total n f m = total n g m.
Proof. intros H. induction m; cbn [total]; [reflexivity|]. rewrite H, IHm. reflexivity. Qed.
Definition work (n : nat) (st : bst) : nat := total n (fun t => cost n (pcs st t)) n.

Lemma step_cost n st t wr st' : BInv n st -> t < n -> pcs st t <> Idle -> bstep n t wr st = Some st' ->
  exists p l, st' = mkB (upd (pcs st) t p) l /\ S (cost n p) = cost n (pcs st t).
Proof.
  intros I Ht NI. unfold bstep. pose proof (bi_rng n st I t Ht) as HR.
  destruct (pcs st t) as [| | |k| |k] eqn:E; cbn [in_rng] in HR; try contradiction.
  - destruct (lk st t); [discriminate|]. intros Q. injection Q as <-. do 2 eexists. split; reflexivity.
  - intros Q. injection Q as <-. do 2 eexists. split; reflexivity.
  - destruct (Nat.ltb_spec k n).
    + destruct (lk st k); [discriminate|]. intros Q. injection Q as <-. do 2 eexists. split; [reflexivity|]. cbn. lia.
    + intros Q. injection Q as <-. do 2 eexists. split; [reflexivity|]. cbn. lia.
  - intros Q. injection Q as <-. do 2 eexists. split; [reflexivity|]. cbn. lia.
  - destruct (Nat.ltb_spec k n); intros Q; injection Q as <-; do 2 eexists; (split; [reflexivity|]); cbn; lia.
Qed.

Lemma finish_reach n st k st' : breach n st -> bfinish n st k st' -> breach n st'.
Proof.
  intros R F. revert R. induction F as [st|st t wr st1 k st' Ht NI E F IH]; intros R; [exact R|].
  apply IH. exact (br_step n st t wr st1 R Ht E).
Qed.

(* Without new calls every schedule takes at most work n st steps, and it can
   only stop when every thread has got and released the lock. *)
Theorem brlock_all_served :
  forall n st k st', breach n st -> bfinish n st k st' ->
  k <= work n st /\
  ((forall t wr, t < n -> pcs st' t <> Idle -> bstep n t wr st' = None) -> forall t, t < n -> pcs st' t = Idle).
Proof.
  intros n st k st' R F. split.
  - revert R. induction F as [st|st t wr st1 k st' Ht NI E F IH]; intros R; [lia|].
    assert (R1 : breach n st1) by (econstructor; eassumption). specialize (IH R1).
    apply reach_inv in R. destruct (step_cost n st t wr st1 R Ht NI E) as (p & l & -> & C).
    unfold work in *. cbn [pcs] in IH.
    pose proof (total_upd n (fun u => cost n (pcs st u)) t (cost n p) n Ht) as T.
    assert (X : total n (fun u => cost n (upd (pcs st) t p u)) n = total n (upd (fun u => cost n (pcs st u)) t (cost n p)) n).
    { apply total_ext. intros i. unfold upd. destruct (i =? t); reflexivity. }
    cbn beta in T. lia.
  - intros ST t Ht. assert (R' : breach n st').
    { exact (finish_reach n st k st' R F). }
    assert (D : pcs st' t = Idle \/ pcs st' t <> Idle) by (destruct (pcs st' t); [left; reflexivity|right; discriminate ..]).
    destruct D as [D|D]; [exact D|].
    destruct (brlock_no_deadlock n st' t R' Ht D) as (u & s2 & Hu & NI & S2).
    rewrite (ST u false Hu NI) in S2. discriminate.
Qed.

(* Holding the lock for reading and asking for it again (nested read_lock, or
   write_lock while reading) is a request on a spinlock the thread itself
   holds: in the model a thread only calls from Idle, as the code requires. *)

(* ---- examples: the hypotheses are met ---- *)
Fixpoint bexec (n : nat) (l : list (nat * bool)) (st : bst) : option bst :=
  match l with
  | [] => Some st
  | (t, w) :: r => if t <? n then match bstep n t w st with Some s => bexec n r s | None => None end else None
  end.
Lemma bexec_reach n l st st' : breach n st -> bexec n l st = Some st' -> breach n st'.
Proof.
  revert st. induction l as [|[t w] l IH]; intros st R E; cbn [bexec] in E; [injection E as <-; exact R|].
  destruct (Nat.ltb_spec t n); [|discriminate]. destruct (bstep n t w st) eqn:S; [|discriminate].
  apply (IH b); [econstructor; eassumption|exact E].
Qed.
(* three threads: 0 and 2 read at the same time *)
Example two_readers : exists st, breach 3 st /\ pcs st 0 = RHold /\ pcs st 2 = RHold.
Proof.
  eexists. split; [exact (bexec_reach 3 [(0, false); (2, false); (0, false); (2, false)] binit _ (br_init 3) eq_refl)|].
  split; reflexivity.
Qed.
(* thread 1 writes while thread 0 waits to read and thread 2 to write *)
Example a_writer : exists st, breach 3 st /\ pcs st 1 = WHold /\ pcs st 0 = RWait /\ pcs st 2 = WAcq 0.
Proof.
  eexists. split; [exact (bexec_reach 3 [(1, true); (2, true); (0, false); (1, true); (1, true); (1, true); (1, true)] binit _ (br_init 3) eq_refl)|].
  repeat split; reflexivity.
Qed.

Print Assumptions brlock_exclusion.
Print Assumptions brlock_readers_share.
Print Assumptions brlock_no_leak.
Print Assumptions brlock_no_deadlock.
Print Assumptions brlock_all_served.
