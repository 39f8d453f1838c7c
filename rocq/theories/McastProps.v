(* C100, C101: multicast memberships of sockets and the counts of the groups. *)
From Verif Require Import Base McastModel McastSpec McastMerge McastGroup McastInv McastStep.
Ltac Zify.zify_post_hook ::= idtac.

(* what getsourcefilter returns for a membership, and what a reader of the spec expects *)
Definition reads_as (r : option (mode * list Z)) (m : option (nat * smem)) : Prop :=
  match r, m with
  | None, None => True
  | Some (md, l), Some (_, m) => md = s_mode m /\ NoDup l /\ forall a, In a l <-> In a (s_src m)
  | _, _ => False
  end.
Definition num {A} (p : A -> bool) (l : list A) : Z := Z.of_nat (length (filter p l)).
Definition excl (m : smem) : bool := meq (s_mode m) Exc.
Definition incl_ (m : smem) : bool := meq (s_mode m) Inc.
Definition any_source (m : smem) : bool := meq (s_mode m) Exc && emp (s_src m).

Section P.
Variables maxsock maxgrp maxmem : nat.
Variable U : list Z.

Lemma run_ok : forall fed h x y, (length U <= maxgrp)%nat -> Rst U fed x y -> Forall (fun e => incl (names e) U) h -> clean_all maxsock maxmem h y ->
  (fed = true -> Forall (Forall full) y /\ never_emptied maxsock maxmem h y) ->
  exists x', run maxsock maxgrp maxmem h x = Ret (x', snd (srun maxsock maxmem h y)) /\ Rst U fed x' (fst (srun maxsock maxmem h y)).
Proof.
  intros fed. induction h as [|e h IH]; intros x y LU H IN CL NE; cbn [run srun].
  - exists x. split; [reflexivity|exact H].
  - inversion IN as [|? ? I1 I2]; subst. cbn [clean_all never_emptied] in *. destruct CL as [C1 C2].
    destruct (step_ok U maxsock maxgrp maxmem LU fed e x y H (fun F => proj1 (NE F)) C1 I1) as (x1 & E & H1). rewrite E. cbn [obind].
    destruct (sstep maxsock maxmem e y) as [y1 r] eqn:S. cbn [fst snd] in *.
    destruct (IH x1 y1 LU H1 I2 C2 (fun F => proj2 (NE F))) as (x2 & E2 & H2). rewrite E2. cbn [obind].
    destruct (srun maxsock maxmem h y1) as [y2 rs]. exists x2. split; [reflexivity|exact H2].
Qed.
Lemma init_ok : forall fed n, Rst U fed (init n) (repeat [] n).
Proof.
  intros fed n. split; cbn [init socks mus].
  - induction n; cbn [repeat]; constructor; auto.
  - intros k. cbn [glook]. induction n as [|n IH]; [reflexivity|]. cbn [repeat]. rewrite TOT_cons, IH. reflexivity.
Qed.
Lemma init_full : forall n, Forall (Forall full) (repeat [] n).
Proof. induction n; cbn [repeat]; constructor; auto. Qed.

Lemma R_reads : forall l sl i g, Forall2 (R U) l sl -> reads_as (get_filter l i g) (member sl (Some i) g).
Proof.
  intros l sl i g H. pose proof (find_member U l sl (Some i) g H) as FM. unfold reads_as, get_filter.
  destruct (find_group l (Some i) g) as [j|], (member sl (Some i) g) as [[j' m]|]; try contradiction; [|exact Logic.I].
  destruct FM as (-> & J & HR & _). pose proof HR as (R1 & R2 & R3 & R4 & R5 & R6). pose proof R3 as (S1 & S2 & S3 & S4).
  cbv zeta. set (f := m_f (nth j l dm)) in *. split; [exact R4|].
  assert (FE : filter (fun '(a, (s, t)) => negb (meq s Und) && meq s (f0 f)) (fs f) = fs f).
  { rewrite S1, R4. rewrite R4 in S4. clear - S4 R5. induction (fs f) as [|[b [s t]] q IH]; [reflexivity|]. inversion S4 as [|? ? A B]; subst. cbn [snd] in A. injection A as -> ->.
    cbn [filter]. rewrite meq_refl. rewrite IH by exact B. destruct (s_mode m); [congruence|reflexivity|reflexivity]. }
  rewrite FE. split; [exact S2|]. intros a. destruct (R_look U _ _ a HR) as [L _]. fold f in L. rewrite look_none, isin_out in L. unfold keys in L. split.
  - intros X. destruct (In_dec Z.eq_dec a (s_src m)) as [Y|Y]; [exact Y|]. exfalso. tauto.
  - intros X. destruct (In_dec Z.eq_dec a (map fst (fs f))) as [Y|Y]; [exact Y|]. exfalso. tauto.
Qed.
Lemma R_filter : forall l sl i g a, Forall2 (R U) l sl ->
  multi_filter l i g a = match member sl (Some i) g with
                         | Some (_, m) => if meq (s_mode m) Exc && isin a (s_src m) then Pass else wanted sl i g a
                         | None => NotGroup
                         end.
Proof.
  intros l sl i g a H. pose proof (find_member U l sl (Some i) g H) as FM. unfold multi_filter, wanted.
  destruct (find_group l (Some i) g) as [j|], (member sl (Some i) g) as [[j' m]|]; try contradiction; [|reflexivity].
  destruct FM as (-> & J & HR & _). pose proof HR as (R1 & R2 & R3 & R4 & R5 & R6). destruct (R_look U _ _ a HR) as [L LS]. cbv zeta. rewrite R4.
  destruct (look a (fs (m_f (nth j l dm)))) as [z|] eqn:E.
  - rewrite (LS z eq_refl). rewrite meq_refl. destruct (isin a (s_src m)); [|exfalso; assert (X : Some z = None) by (apply L; reflexivity); discriminate].
    destruct (s_mode m); [congruence|reflexivity|reflexivity].
  - rewrite (proj1 L eq_refl). destruct (s_mode m); [congruence|reflexivity|reflexivity].
Qed.

Lemma num_app : forall A (p : A -> bool) l l2, num p (l ++ l2) = num p l + num p l2.
Proof. intros. unfold num. rewrite filter_app, app_length. lia. Qed.
Lemma members_cons : forall sl y i g, members (sl :: y) i g = filter (about (Some i) g) sl ++ members y i g.
Proof. intros. unfold members. cbn [concat]. apply filter_app. Qed.
Lemma tot_num : forall F p i g, (forall m sm, R U m sm -> F (m_f m) = b2z (p sm)) -> forall l sl, Forall2 (R U) l sl -> tot (i, g) F l = num p (filter (about (Some i) g) sl).
Proof.
  intros F p i g HF l sl H. induction H as [|m sm l sl H1 H2 IH]; [reflexivity|]. rewrite tot_cons, IH. unfold one. rewrite (HF m sm H1). cbn [filter].
  assert (E : keq (key_of m) (i, g) = about (Some i) g sm) by (destruct H1 as (E1 & E2 & _); unfold keq, key_of, about; cbn [fst snd]; rewrite E1, E2; reflexivity).
  rewrite E. destruct (about (Some i) g sm); [|lia]. unfold num. cbn [filter]. destruct (p sm); cbn [b2z length]; lia.
Qed.
Lemma TOT_num : forall F p i g, (forall m sm, R U m sm -> F (m_f m) = b2z (p sm)) -> forall x y, Forall2 (Forall2 (R U)) x y -> TOT (i, g) F x = num p (members y i g).
Proof.
  intros F p i g HF x y H. induction H as [|l sl x y H1 H2 IH]; [reflexivity|]. rewrite TOT_cons, members_cons, num_app, IH. rewrite (tot_num F p i g HF l sl H1). reflexivity.
Qed.
Lemma c_all : forall m sm, R U m sm -> F1 (m_f m) = b2z ((fun _ => true) sm). Proof. reflexivity. Qed.
Lemma c_fe : forall m sm, R U m sm -> FE (m_f m) = b2z (excl sm).
Proof. intros m sm (_ & _ & _ & M & _). unfold FE, is, excl. rewrite M. reflexivity. Qed.
Lemma c_fa : forall m sm, R U m sm -> FA (m_f m) = b2z (any_source sm).
Proof.
  intros m sm H. pose proof (R_nil U m sm H) as N. destruct H as (_ & _ & _ & M & _). unfold FA, any_source. rewrite M. f_equal. f_equal.
  destruct (fs (m_f m)) eqn:A, (s_src sm) eqn:B; cbn [emp]; try reflexivity; exfalso; destruct N as [N1 N2]; [specialize (N1 eq_refl)|specialize (N2 eq_refl)]; discriminate.
Qed.
Lemma c_fi : forall m sm, R U m sm -> FI (m_f m) = b2z (incl_ sm && negb (emp (s_src sm))).
Proof.
  intros m sm H. pose proof (R_nil U m sm H) as N. destruct H as (_ & _ & _ & M & _). unfold FI, incl_. rewrite M. f_equal. f_equal. f_equal.
  destruct (fs (m_f m)) eqn:A, (s_src sm) eqn:B; cbn [emp]; try reflexivity; exfalso; destruct N as [N1 N2]; [specialize (N1 eq_refl)|specialize (N2 eq_refl)]; discriminate.
Qed.
Lemma c_fx : forall a m sm, R U m sm -> FX a (m_f m) = b2z (excluding a sm).
Proof. intros a m sm (_ & _ & _ & _ & M & V). unfold FX, is, excluding. rewrite V. destruct (isin a (s_src sm)), (s_mode sm); try reflexivity; congruence. Qed.
Lemma c_fn : forall a m sm, R U m sm -> FN a (m_f m) = b2z (including a sm).
Proof. intros a m sm (_ & _ & _ & _ & M & V). unfold FN, is, including. rewrite V. destruct (isin a (s_src sm)), (s_mode sm); try reflexivity; congruence. Qed.
End P.

(* the calls name sources of U; the group limit leaves room for U *)
Definition fits (maxsock maxgrp maxmem : nat) (U : list Z) (n : nat) (h : list ev) : Prop :=
  (length U <= maxgrp)%nat /\ Forall (fun e => incl (names e) U) h /\ clean_all maxsock maxmem h (repeat [] n).

(* C100: results and memberships *)
Theorem mcast_api : forall maxsock maxgrp maxmem U n h, fits maxsock maxgrp maxmem U n h ->
  exists x, run maxsock maxgrp maxmem h (init n) = Ret (x, snd (srun maxsock maxmem h (repeat [] n))) /\
    forall s i g, match nth_error (socks x) s, nth_error (fst (srun maxsock maxmem h (repeat [] n))) s with
                  | Some l, Some sl => reads_as (get_filter l i g) (member sl (Some i) g)
                  | None, None => True
                  | _, _ => False
                  end.
Proof.
  intros maxsock maxgrp maxmem U n h (F1' & F2 & F3).
  destruct (run_ok maxsock maxgrp maxmem U false h (init n) (repeat [] n) F1' (init_ok U false n) F2 F3 ltac:(discriminate)) as (x & E & H & _).
  exists x. split; [exact E|]. intros s i g. pose proof (f2_nth _ _ _ _ _ s H) as X. destruct (nth_error (socks x) s), (nth_error _ s); try exact X. exact (R_reads U _ _ i g X).
Qed.
Print Assumptions mcast_api.

(* C100: delivery, but for the sources a socket blocks, which pass *)
Theorem mcast_filter_partial : forall maxsock maxgrp maxmem U n h, fits maxsock maxgrp maxmem U n h ->
  exists x, run maxsock maxgrp maxmem h (init n) = Ret (x, snd (srun maxsock maxmem h (repeat [] n))) /\
    forall s l sl i g a, nth_error (socks x) s = Some l -> nth_error (fst (srun maxsock maxmem h (repeat [] n))) s = Some sl ->
      (forall j m, member sl (Some i) g = Some (j, m) -> excluding a m = false) -> multi_filter l i g a = wanted sl i g a.
Proof.
  intros maxsock maxgrp maxmem U n h (F1' & F2 & F3).
  destruct (run_ok maxsock maxgrp maxmem U false h (init n) (repeat [] n) F1' (init_ok U false n) F2 F3 ltac:(discriminate)) as (x & E & H & _).
  exists x. split; [exact E|]. intros s l sl i g a N1 N2 NB. pose proof (f2_nth _ _ _ _ _ s H) as X. rewrite N1, N2 in X. rewrite (R_filter U _ _ i g a X).
  unfold wanted at 2. unfold wanted. destruct (member sl (Some i) g) as [[j m]|]; [|reflexivity]. specialize (NB j m eq_refl). unfold excluding in NB. rewrite NB. reflexivity.
Qed.
Print Assumptions mcast_filter_partial.
(* after every history, a source that a membership blocks passes its filter *)
Theorem mcast_blocked_passes_refuted : forall maxsock maxgrp maxmem U n h, fits maxsock maxgrp maxmem U n h ->
  exists x, run maxsock maxgrp maxmem h (init n) = Ret (x, snd (srun maxsock maxmem h (repeat [] n))) /\
    forall s l sl i g a j m, nth_error (socks x) s = Some l -> nth_error (fst (srun maxsock maxmem h (repeat [] n))) s = Some sl ->
      member sl (Some i) g = Some (j, m) -> excluding a m = true -> wanted sl i g a = NotSource /\ multi_filter l i g a = Pass.
Proof.
  intros maxsock maxgrp maxmem U n h (F1' & F2 & F3).
  destruct (run_ok maxsock maxgrp maxmem U false h (init n) (repeat [] n) F1' (init_ok U false n) F2 F3 ltac:(discriminate)) as (x & E & H & _).
  exists x. split; [exact E|]. intros s l sl i g a j m N1 N2 M EX. pose proof (f2_nth _ _ _ _ _ s H) as X. rewrite N1, N2 in X. rewrite (R_filter U _ _ i g a X).
  unfold excluding in EX. unfold wanted. rewrite M, EX. apply andb_true_iff in EX. destruct EX as [EX ->]. split; [|reflexivity]. destruct (s_mode m); [discriminate|discriminate|reflexivity].
Qed.
Print Assumptions mcast_blocked_passes_refuted.

(* C101: the groups of the interfaces *)
Theorem mcast_group_counts : forall maxsock maxgrp maxmem U n h, fits maxsock maxgrp maxmem U n h ->
  exists x, run maxsock maxgrp maxmem h (init n) = Ret (x, snd (srun maxsock maxmem h (repeat [] n))) /\
    forall i g, let mb := members (fst (srun maxsock maxmem h (repeat [] n))) i g in
      match glook (i, g) (mus x) with
      | None => mb = []
      | Some u => mb <> [] /\ refc u = Z.of_nat (length mb) /\ iex u = num excl mb mod 65536 /\ iasm u = num any_source mb mod 65536 /\
          forall a, gx u a = num (excluding a) mb mod 65536 /\ gn u a = num (including a) mb mod 65536
      end.
Proof.
  intros maxsock maxgrp maxmem U n h (F1' & F2 & F3).
  destruct (run_ok maxsock maxgrp maxmem U false h (init n) (repeat [] n) F1' (init_ok U false n) F2 F3 ltac:(discriminate)) as (x & E & H & G).
  exists x. split; [exact E|]. intros i g mb. specialize (G (i, g)). set (y := fst (srun maxsock maxmem h (repeat [] n))) in *.
  assert (T : TOT (i, g) F1 (socks x) = Z.of_nat (length mb)).
  { rewrite (TOT_num U _ _ i g (c_all U) _ _ H). unfold num. fold mb. f_equal. f_equal. clear. induction mb as [|a l IH]; [reflexivity|]. cbn [filter]. rewrite IH. reflexivity. }
  destruct (glook (i, g) (mus x)) as [u|].
  - destruct G as ((_ & A & B & C & _) & D & P). rewrite T in D. split; [intros X; rewrite X in D; cbn [length] in D; lia|]. split; [exact D|].
    rewrite (TOT_num U _ _ i g (c_fe U) _ _ H) in B. rewrite (TOT_num U _ _ i g (c_fa U) _ _ H) in C. split; [exact B|]. split; [exact C|].
    intros a. specialize (A a). rewrite (TOT_num U _ _ i g (c_fx U a) _ _ H), (TOT_num U _ _ i g (c_fn U a) _ _ H) in A. exact A.
  - rewrite T in G. destruct mb; [reflexivity|cbn [length] in G; lia].
Qed.
Print Assumptions mcast_group_counts.

(* C101: the filter mode of the group, while no INCLUDE list is emptied by leaving its last source *)
Theorem mcast_group_mode_partial : forall maxsock maxgrp maxmem U n h, fits maxsock maxgrp maxmem U n h -> never_emptied maxsock maxmem h (repeat [] n) ->
  exists x, run maxsock maxgrp maxmem h (init n) = Ret (x, snd (srun maxsock maxmem h (repeat [] n))) /\
    forall i g u, let mb := members (fst (srun maxsock maxmem h (repeat [] n))) i g in
      glook (i, g) (mus x) = Some u -> Z.of_nat (length mb) < 65536 ->
      iin u = num incl_ mb /\ fmode u = if existsb excl mb then Exc else Inc.
Proof.
  intros maxsock maxgrp maxmem U n h (F1' & F2 & F3) NE.
  destruct (run_ok maxsock maxgrp maxmem U true h (init n) (repeat [] n) F1' (init_ok U true n) F2 F3 (fun _ => conj (init_full n) NE)) as (x & E & H & G).
  exists x. split; [exact E|]. intros i g u mb L LN. specialize (G (i, g)). rewrite L in G. destruct G as (((_ & M) & _ & B & _ & I) & D & P).
  set (y := fst (srun maxsock maxmem h (repeat [] n))) in *. specialize (I eq_refl).
  rewrite (TOT_num U _ _ i g (c_fe U) _ _ H) in B. rewrite (TOT_num U _ _ i g (c_fi U) _ _ H) in I. rewrite (TOT_num U _ _ i g (c_all U) _ _ H) in D. fold mb in B, I, D.
  assert (FY : Forall (Forall full) y).
  { unfold y. clear - NE. assert (Q : Forall (Forall full) (repeat [] n)) by apply init_full. revert Q NE. generalize (repeat (@nil smem) n). induction h as [|e h IH]; intros z Q NE; cbn [srun never_emptied] in *; [exact Q|].
    destruct NE as [A B]. destruct (sstep maxsock maxmem e z) as [z1 r]. cbn [fst] in *. specialize (IH z1 A B). destruct (srun maxsock maxmem h z1). exact IH. }
  assert (FM : Forall (fun m => full m /\ s_mode m <> Und) mb).
  { apply Forall_forall. intros m X. unfold mb, members in X. apply filter_In in X. destruct X as [X _]. apply in_concat in X. destruct X as (sl & X1 & X2). split.
    - rewrite Forall_forall in FY. specialize (FY sl X1). rewrite Forall_forall in FY. exact (FY m X2).
    - clear - H X1 X2. induction H as [|l sl' p q A B IH]; [destruct X1|]. destruct X1 as [->|X1]; [|auto]. clear - A X2. induction A as [|c d p q A B IH]; [destruct X2|]. destruct X2 as [->|X2]; [|auto]. apply A. }
  assert (LE : forall p : smem -> bool, 0 <= num p mb <= Z.of_nat (length mb)).
  { intros p. unfold num. split; [lia|]. clear. induction mb as [|a l IH]; [cbn; lia|]. cbn [filter]. destruct (p a); cbn [length]; lia. }
  assert (N2 : num (fun sm => incl_ sm && negb (emp (s_src sm))) mb = num incl_ mb).
  { unfold num. f_equal. f_equal. apply filter_ext_in. intros m X. rewrite Forall_forall in FM. destruct (FM m X) as [Y _]. unfold incl_. destruct (meq (s_mode m) Inc) eqn:Q; [|reflexivity].
    apply meq_eq in Q. specialize (Y Q). destruct (s_src m); [congruence|reflexivity]. }
  rewrite N2 in I. rewrite w16_small in I by (pose proof (LE incl_); lia). rewrite w16_small in B by (pose proof (LE excl); lia). split; [exact I|].
  rewrite M. unfold fm. rewrite B, I. destruct (existsb excl mb) eqn:X.
  - apply existsb_exists in X. destruct X as (m & X1 & X2). assert (Y : In m (filter excl mb)) by (apply filter_In; auto). unfold num. destruct (filter excl mb); [destruct Y|]. reflexivity.
  - assert (Z0 : filter excl mb = []).
    { clear - X. induction mb as [|a l IH]; [reflexivity|]. cbn [existsb filter] in *. destruct (excl a); [discriminate|]. auto. }
    unfold num at 1. rewrite Z0. cbn [length]. replace (0 <? num incl_ mb) with true; [reflexivity|]. symmetry. apply Z.ltb_lt.
    destruct mb as [|m l] eqn:Q; [unfold num in D; cbn [filter length Z.of_nat] in D; lia|]. unfold num. cbn [filter existsb] in *. inversion FM as [|? ? [_ A] _]; subst. unfold excl in X. unfold incl_ at 1.
    destruct (s_mode m); [congruence| |discriminate]. cbn [meq length]. lia.
Qed.
Print Assumptions mcast_group_mode_partial.
