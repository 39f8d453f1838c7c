(* C29, C30, C45: epoll and select. *)
From Coq Require Import Permutation.
From Verif Require Import Base EpollModel EpollSpec.
Ltac Zify.zify_post_hook ::= idtac.

(* ---------- the slots as a map ---------- *)
Definition used (l : list slot) : list slot := filter (fun s => negb (sl_fd s =? -1)) l.
Definition pairs (l : list slot) : emap := map (fun s => (sl_fd s, sl_ev s)) (used l).
Record EI (l : list slot) (m : emap) : Prop := {
  ei_len : length l = 16%nat;
  ei_perm : Permutation (pairs l) m;
  ei_nd : NoDup (map fst m) }.

Lemma find_none l fd : find_fd l fd = None <-> (forall s, In s l -> sl_fd s <> fd).
Proof.
  induction l as [|s l IH]; cbn [find_fd].
  - split; [intros _ x []|reflexivity].
  - destruct (Z.eqb_spec (sl_fd s) fd) as [E|E].
    + split; [discriminate|]. intros H. destruct (H s (or_introl eq_refl) E).
    + destruct (find_fd l fd); cbn; split; try discriminate.
      * intros H. assert (X : Some n = None) by (apply IH; intros x Hx; apply H; right; exact Hx). discriminate X.
      * intros _ x [<-|Hx]; [exact E|]. apply IH; auto.
      * reflexivity.
Qed.
Lemma find_some l fd i : find_fd l fd = Some i -> exists a s b, l = a ++ s :: b /\ length a = i /\ sl_fd s = fd.
Proof.
  revert i. induction l as [|s l IH]; intros i; cbn [find_fd]; [discriminate|].
  destruct (Z.eqb_spec (sl_fd s) fd) as [E|E].
  - intros Q. injection Q as <-. exists [], s, l. auto.
  - destruct (find_fd l fd) as [j|]; [|discriminate]. cbn. intros Q. injection Q as <-.
    destruct (IH j eq_refl) as (a & x & b & -> & <- & F). exists (s :: a), x, b. auto.
Qed.
Lemma set_nth_split {A} (a : list A) x y b : set_nth (length a) y (a ++ x :: b) = a ++ y :: b.
Proof. induction a as [|z a IH]; cbn; [reflexivity|]. rewrite IH. reflexivity. Qed.

Lemma used_app a b : used (a ++ b) = used a ++ used b.
Proof. apply filter_app. Qed.
Lemma pairs_split a s b : Permutation (pairs (a ++ s :: b)) (pairs [s] ++ pairs (a ++ b)).
Proof.
  unfold pairs. rewrite !used_app, !map_app. cbn [used filter]. fold (used b).
  destruct (sl_fd s =? -1); cbn [negb map app]; [reflexivity|]. symmetry. apply Permutation_middle.
Qed.
Lemma used_len_free l : find_fd l (-1) <> None <-> (length (used l) < length l)%nat.
Proof.
  induction l as [|s l IH]; cbn [find_fd used filter length]; [split; [congruence|lia]|]. fold (used l).
  assert (L : (length (used l) <= length l)%nat).
  { clear. unfold used. induction l as [|x l IH]; cbn; [lia|]. destruct (sl_fd x =? -1); cbn; lia. }
  destruct (Z.eqb_spec (sl_fd s) (-1)); cbn [negb length].
  - split; [lia|discriminate].
  - destruct (find_fd l (-1)); cbn; split; intros H; try discriminate; try congruence.
    + assert (Some n0 <> @None nat) as X by discriminate. apply IH in X. lia.
    + assert (length (used l) < length l)%nat as X by lia. apply IH in X. congruence.
Qed.

Lemma mem_in fd m : mem fd m = true <-> In fd (map fst m).
Proof.
  unfold mem. rewrite existsb_exists, in_map_iff. split.
  - intros (x & H & E). apply Z.eqb_eq in E. exists x. auto.
  - intros (x & E & H). exists x. split; [exact H|apply Z.eqb_eq; exact E].
Qed.
Lemma pairs_in l fd e : In (fd, e) (pairs l) <-> fd <> -1 /\ In (mkSlot fd e) l.
Proof.
  unfold pairs, used. rewrite in_map_iff. split.
  - intros ([f x] & E & H). injection E as -> ->. apply filter_In in H. destruct H as [H N]. cbn in N.
    apply negb_true_iff in N. apply Z.eqb_neq in N. auto.
  - intros [N H]. exists (mkSlot fd e). split; [reflexivity|]. apply filter_In. split; [exact H|]. cbn.
    apply negb_true_iff, Z.eqb_neq. exact N.
Qed.
Lemma reg_mem l m fd : EI l m -> fd <> -1 -> is_registered l fd = mem fd m.
Proof.
  intros [L P N] Hf. unfold is_registered. destruct (find_fd l fd) as [i|] eqn:E.
  - destruct (find_some _ _ _ E) as (a & [f x] & b & -> & _ & F). cbn in F. subst f. symmetry. apply mem_in.
    apply in_map_iff. exists (fd, x). split; [reflexivity|]. rewrite <- P. apply pairs_in. split; [exact Hf|].
    apply in_app_iff. right. left. reflexivity.
  - destruct (mem fd m) eqn:M; [|reflexivity]. apply mem_in, in_map_iff in M. destruct M as ([f x] & Ef & H). cbn in Ef. subst f.
    rewrite <- P in H. apply pairs_in in H. destruct H as [_ H]. apply find_none with (s := mkSlot fd x) in E; [|exact H]. destruct E. reflexivity.
Qed.
Lemma remove_notin fd m : ~ In fd (map fst m) -> remove fd m = m.
Proof.
  intros H. unfold remove. induction m as [|x m IH]; [reflexivity|]. cbn [filter map] in *.
  destruct (Z.eqb_spec (fst x) fd) as [E|E]; [destruct H; left; exact E|]. cbn. rewrite IH; [reflexivity|]. intros X. apply H. right. exact X.
Qed.
Lemma remove_perm fd e m l : NoDup (map fst m) -> Permutation ((fd, e) :: l) m -> Permutation l (remove fd m).
Proof.
  intros ND P. assert (ND' : NoDup (map fst ((fd, e) :: l))) by (apply (Permutation_NoDup (l := map fst m)); [apply Permutation_map; symmetry; exact P|exact ND]).
  cbn [map fst] in ND'. inversion ND' as [|? ? H1 H2]; subst.
  assert (Q : Permutation (remove fd ((fd, e) :: l)) (remove fd m)).
  { clear -P. unfold remove. induction P; cbn [filter]; try reflexivity.
    - destruct (negb (fst x =? fd)); [apply perm_skip|]; assumption.
    - destruct (negb (fst y =? fd)), (negb (fst x =? fd)); try reflexivity. apply perm_swap.
    - etransitivity; eassumption. }
  rewrite <- Q. unfold remove. cbn [filter fst]. rewrite Z.eqb_refl. cbn [negb]. fold (remove fd l). rewrite remove_notin by exact H1. reflexivity.
Qed.
Lemma remove_keys fd m : NoDup (map fst m) -> NoDup (map fst (remove fd m)) /\ ~ In fd (map fst (remove fd m)).
Proof.
  intros H. induction m as [|x m IH]; [split; [constructor|intros []]|]. cbn [map] in H. inversion H as [|? ? H1 H2]; subst.
  destruct (IH H2) as [I1 I2]. unfold remove. cbn [filter]. fold (remove fd m).
  destruct (Z.eqb_spec (fst x) fd) as [E|E]; cbn [negb]; [auto|]. cbn [map]. split.
  - constructor; [|exact I1]. intros X. apply H1. apply in_map_iff in X. destruct X as (y & Ey & Hy). apply in_map_iff. exists y.
    split; [exact Ey|]. unfold remove in Hy. apply filter_In in Hy. tauto.
  - intros [X|X]; [exact (E X)|exact (I2 X)].
Qed.

Lemma op_step epfd s m o : es_epoll s = true -> EI (es_set s) m -> op_fd o <> -1 -> op_fd o <> epfd ->
  exists s' , do_op epfd s o = Ret (s', snd (spec_ctl m o)) /\ es_epoll s' = true /\ EI (es_set s') (fst (spec_ctl m o)).
Proof.
  intros HE HI HF HP. pose proof (reg_mem _ _ (op_fd o) HI HF) as HR. pose proof HI as [L P N].
  assert (EP : (epfd =? op_fd o) = false) by (apply Z.eqb_neq; congruence).
  assert (LU : length (used (es_set s)) = length m).
  { apply Permutation_length in P. unfold pairs in P. rewrite map_length in P. exact P. }
  destruct o as [fd e|fd|fd e]; cbn [op_fd do_op spec_ctl] in *; unfold epoll_ctl; rewrite EP, HE; cbn [negb].
  - change (CTL_ADD =? CTL_ADD) with true. cbn iota. rewrite HR. destruct (mem fd m) eqn:M.
    { exists s. auto. }
    destruct (find_fd (es_set s) (-1)) as [i|] eqn:F.
    + assert (LT : (length m <? 16)%nat = true).
      { apply Nat.ltb_lt. rewrite <- LU, <- L. apply used_len_free. congruence. }
      rewrite LT. cbn [fst snd]. unfold modify. rewrite F. cbn [fst snd].
      eexists. split; [reflexivity|]. split; [reflexivity|]. cbn [es_set].
      destruct (find_some _ _ _ F) as (a & x & b & El & <- & Fx). rewrite El, set_nth_split. split.
      * rewrite <- L, El, !app_length. reflexivity.
      * rewrite pairs_split. rewrite El, pairs_split in P. unfold pairs at 1 in P. cbn [used filter] in P. rewrite Fx in P. cbn in P.
        unfold pairs at 1. cbn [used filter sl_fd]. destruct (Z.eqb_spec fd (-1)); [contradiction|]. cbn [negb map app sl_fd sl_ev].
        apply perm_skip. exact P.
      * cbn [map fst]. constructor; [|exact N]. intros X. apply mem_in in X. congruence.
    + assert (LT : (length m <? 16)%nat = false).
      { apply Nat.ltb_ge. rewrite <- LU, <- L. destruct (Nat.lt_ge_cases (length (used (es_set s))) (length (es_set s))) as [X|X]; [|exact X].
        apply used_len_free in X. congruence. }
      rewrite LT. unfold modify. rewrite F. cbn [fst snd]. eexists. split; [reflexivity|]. auto.
  - change (CTL_DEL =? CTL_ADD) with false. change (CTL_DEL =? CTL_DEL) with true. cbn iota. rewrite HR. destruct (mem fd m) eqn:M; cbn [negb].
    2:{ exists s. auto. }
    unfold modify. destruct (find_fd (es_set s) fd) as [i|] eqn:F.
    2:{ unfold is_registered in HR. rewrite F in HR. discriminate. }
    cbn [fst snd]. eexists. split; [reflexivity|]. split; [reflexivity|]. cbn [es_set].
    destruct (find_some _ _ _ F) as (a & x & b & El & <- & Fx). rewrite El, set_nth_split. split.
    + rewrite <- L, El, !app_length. reflexivity.
    + rewrite pairs_split. unfold pairs at 1. cbn [used filter sl_fd]. change (-1 =? -1) with true. cbn [negb map app].
      rewrite El, pairs_split in P. unfold pairs at 1 in P. cbn [used filter] in P. rewrite Fx in P.
      destruct (Z.eqb_spec fd (-1)); [contradiction|]. cbn [negb map app] in P. rewrite Fx in P.
      exact (remove_perm _ _ _ _ N P).
    + apply remove_keys. exact N.
  - change (CTL_MOD =? CTL_ADD) with false. change (CTL_MOD =? CTL_DEL) with false. change (CTL_MOD =? CTL_MOD) with true. cbn iota. rewrite HR. destruct (mem fd m) eqn:M; cbn [negb].
    2:{ exists s. auto. }
    unfold modify. destruct (find_fd (es_set s) fd) as [i|] eqn:F.
    2:{ unfold is_registered in HR. rewrite F in HR. discriminate. }
    cbn [fst snd]. eexists. split; [reflexivity|]. split; [reflexivity|]. cbn [es_set].
    destruct (find_some _ _ _ F) as (a & x & b & El & <- & Fx). rewrite El, set_nth_split. split.
    + rewrite <- L, El, !app_length. reflexivity.
    + rewrite pairs_split. unfold pairs at 1. cbn [used filter sl_fd]. destruct (Z.eqb_spec fd (-1)); [contradiction|]. cbn [negb map app sl_fd sl_ev].
      rewrite El, pairs_split in P. unfold pairs at 1 in P. cbn [used filter] in P. rewrite Fx in P.
      destruct (Z.eqb_spec fd (-1)); [contradiction|]. cbn [negb map app] in P. rewrite Fx in P.
      apply perm_skip. exact (remove_perm _ _ _ _ N P).
    + cbn [map fst]. destruct (remove_keys fd m N) as [K1 K2]. constructor; assumption.
Qed.

Lemma ops_run epfd : forall h s m, es_epoll s = true -> EI (es_set s) m ->
  Forall (fun o => op_fd o <> -1 /\ op_fd o <> epfd) h ->
  exists s', do_ops epfd s h = Ret (s', snd (spec_run m h)) /\ es_epoll s' = true /\ EI (es_set s') (fst (spec_run m h)).
Proof.
  induction h as [|o h IH]; intros s m HE HI HF; [exists s; auto|].
  inversion HF as [|? ? [F1 F2] F3]; subst. destruct (op_step epfd s m o HE HI F1 F2) as (s1 & E1 & E2 & E3).
  cbn [do_ops spec_run]. rewrite E1. destruct (spec_ctl m o) as [m1 x]. cbn [fst snd] in *. cbn [obind].
  destruct (IH s1 m1 E2 E3 F3) as (s2 & Q1 & Q2 & Q3). rewrite Q1. destruct (spec_run m1 h) as [m2 xs]. cbn [fst snd] in *. cbn [obind].
  exists s2. auto.
Qed.
Lemma EI_new junk : length junk = 16%nat -> EI (es_set (epoll_new junk)) [].
Proof.
  intros H. split; cbn [es_set epoll_new].
  - rewrite map_length. exact H.
  - unfold pairs, used. clear H. induction junk as [|x j IH]; [reflexivity|]. exact IH.
  - constructor.
Qed.

(* ---------- C29 ---------- *)
(* Every history of calls for descriptors other than the epoll descriptor
   behaves as the bounded map. Partial: see epoll_bad_fd_refuted. *)
Theorem epoll_set_is_map_partial :
  forall epfd junk h, length junk = EPOLL_SET_SIZE ->
  Forall (fun o => op_fd o <> -1 /\ op_fd o <> epfd) h ->
  exists s, do_ops epfd (epoll_new junk) h = Ret (s, snd (spec_run [] h)) /\
            same_map s (fst (spec_run [] h)) /\ (length (fst (spec_run [] h)) <= 16)%nat.
Proof.
  intros epfd junk h HJ HF.
  destruct (ops_run epfd h (epoll_new junk) [] eq_refl (EI_new junk HJ) HF) as (s & E & _ & [L P N]).
  exists s. split; [exact E|]. split.
  - intros fd e. unfold registered. rewrite <- pairs_in. split; apply Permutation_in; [exact P|symmetry; exact P].
  - apply Permutation_length in P. unfold pairs in P. rewrite map_length in P. rewrite <- P, <- L.
    clear. unfold used. induction (es_set s) as [|x l IH]; cbn [filter length]; [lia|]. destruct (negb _); cbn [length]; lia.
Qed.
(* the remaining results of ofp_epoll_ctl *)
Theorem epoll_ctl_errors :
  forall epfd s op fd e,
  (epfd = fd -> epoll_ctl epfd s op fd e = Ret (s, inr OFP_EINVAL)) /\
  (es_epoll s = false -> epoll_ctl epfd s op fd e = Ret (s, inr OFP_EINVAL)) /\
  (op <> CTL_ADD -> op <> CTL_DEL -> op <> CTL_MOD -> epoll_ctl epfd s op fd e = Ret (s, inr OFP_EINVAL)).
Proof.
  intros. unfold epoll_ctl. split; [|split].
  - intros ->. rewrite Z.eqb_refl. reflexivity.
  - intros ->. destruct (epfd =? fd); reflexivity.
  - intros A B C. destruct (Z.eqb_spec op CTL_ADD), (Z.eqb_spec op CTL_DEL), (Z.eqb_spec op CTL_MOD); try contradiction.
    destruct (epfd =? fd), (es_epoll s); reflexivity.
Qed.
(* Descriptor -1 is not refused (the socket look-up never fails): deleting it
   from an empty set succeeds, adding it fails as if it were registered. *)
Theorem epoll_bad_fd_refuted :
  exists s, do_ops 1024 (epoll_new (repeat (mkEv 0 0) 16)) [Del (-1); Add (-1) (mkEv 1 7)] = Ret (s, [inl 0; inr OFP_EEXIST]) /\
            same_map s [].
Proof.
  eexists. split; [reflexivity|]. intros fd e. split; [|intros []]. intros [N H]. cbn [es_set] in H.
  repeat (destruct H as [H|H]; [injection H as <- <-; congruence|]). destruct H.
Qed.

(* ---------- C30 ---------- *)
Lemma is_ready_spec rd s : is_ready rd s = true <-> sl_fd s <> -1 /\ Z.odd (ev_events (sl_ev s)) = true /\ rd (sl_fd s) = true.
Proof.
  unfold is_ready, OFP_EPOLLIN. rewrite !andb_true_iff, !negb_true_iff, !Z.eqb_neq.
  assert (X : Z.land (ev_events (sl_ev s)) 1 <> 0 <-> Z.odd (ev_events (sl_ev s)) = true).
  { change 1 with (Z.ones 1). rewrite Z.land_ones by lia. change (2 ^ 1) with 2. rewrite Zmod_odd.
    destruct (Z.odd _); split; try congruence; lia. }
  tauto.
Qed.
Lemma available_firstn rd : forall l mx n, 0 <= n ->
  available rd l mx n = map sl_ev (firstn (Z.to_nat (mx - n)) (filter (is_ready rd) l)).
Proof.
  induction l as [|s l IH]; intros mx n Hn; cbn [available filter]; [rewrite firstn_nil; reflexivity|].
  destruct (is_ready rd s).
  - destruct (Z.ltb_spec n mx); cbn [andb].
    + replace (Z.to_nat (mx - n)) with (S (Z.to_nat (mx - (n + 1)))) by lia. cbn [firstn map]. rewrite IH by lia. reflexivity.
    + rewrite IH by lia. replace (Z.to_nat (mx - n)) with 0%nat by lia. reflexivity.
  - rewrite andb_false_r. apply IH. lia.
Qed.
Lemma nodup_firstn {A} n (l : list A) : NoDup l -> NoDup (firstn n l).
Proof.
  intros H. revert n. induction H as [|x l Hx H IH]; intros [|n]; cbn; try constructor; [|apply IH].
  intros X. apply Hx. clear -X. revert n X. induction l as [|y l IH]; intros [|n]; cbn; try tauto. intros [E|E]; [left; exact E|right; exact (IH n E)].
Qed.
Lemma in_firstn' {A} n (l : list A) x : In x (firstn n l) -> In x l.
Proof. revert n. induction l as [|y l IH]; intros [|n]; cbn; try tauto. intros [E|E]; [left; exact E|right; exact (IH n E)]. Qed.

(* After any history, a successful ofp_epoll_wait returns at most maxevents
   events, those of distinct registered, ready descriptors: all of them if they
   fit, at least one if there is one. It sleeps only when asked and when
   nothing was ready; readiness is then what it is after the sleep. *)
Theorem epoll_wait_reports_ready :
  forall epfd junk h s xs maxevents timeout rd0 rd1 slept evs,
  length junk = EPOLL_SET_SIZE -> Forall (fun o => op_fd o <> -1 /\ op_fd o <> epfd) h ->
  do_ops epfd (epoll_new junk) h = Ret (s, xs) ->
  epoll_wait s true maxevents timeout rd0 rd1 = (slept, inl evs) ->
  let rd := match slept with None => rd0 | Some _ => rd1 end in
  Z.of_nat (length evs) <= maxevents /\
  (exists fds, length fds = length evs /\ NoDup fds /\
     (forall fd e, In (fd, e) (combine fds evs) -> ready rd s fd e) /\
     ((forall fd e, ready rd s fd e -> In (fd, e) (combine fds evs)) \/ Z.of_nat (length evs) = maxevents)) /\
  ((exists fd e, ready rd s fd e) -> evs <> []) /\
  (slept <> None <-> timeout <> 0 /\ forall fd e, ~ ready rd0 s fd e).
Proof.
  intros epfd junk h s xs mx timeout rd0 rd1 slept evs HJ HF HD HW.
  destruct (ops_run epfd h (epoll_new junk) [] eq_refl (EI_new junk HJ) HF) as (s' & E & EE & EIs).
  rewrite HD in E. injection E as <- _. destruct EIs as [L P N].
  assert (RD : forall rd fd e, ready rd s fd e <-> In (mkSlot fd e) (filter (is_ready rd) (es_set s))).
  { intros rd fd e. rewrite filter_In, is_ready_spec. cbn [sl_fd sl_ev]. unfold ready, registered. tauto. }
  assert (NDs : NoDup (map sl_fd (used (es_set s)))).
  { apply (Permutation_NoDup (l := map fst (fst (spec_run [] h)))); [|exact N].
    rewrite <- P. unfold pairs. rewrite map_map. reflexivity. }
  assert (SUB : forall rd, filter (is_ready rd) (es_set s) = filter (is_ready rd) (used (es_set s))).
  { intros rd. unfold used. clear. induction (es_set s) as [|x l IH]; [reflexivity|]. cbn [filter].
    destruct (sl_fd x =? -1) eqn:E; cbn [negb].
    - assert (X : is_ready rd x = false) by (unfold is_ready; rewrite E; reflexivity). rewrite X. exact IH.
    - cbn [filter]. destruct (is_ready rd x); rewrite IH; reflexivity. }
  assert (MAIN : forall rd, 0 < mx -> evs = available rd (es_set s) mx 0 ->
    Z.of_nat (length evs) <= mx /\
    (exists fds, length fds = length evs /\ NoDup fds /\
     (forall fd e, In (fd, e) (combine fds evs) -> ready rd s fd e) /\
     ((forall fd e, ready rd s fd e -> In (fd, e) (combine fds evs)) \/ Z.of_nat (length evs) = mx)) /\
    ((exists fd e, ready rd s fd e) -> evs <> [])).
  { intros rd Hm Ev. rewrite available_firstn in Ev by lia. rewrite Z.sub_0_r in Ev.
    set (F := filter (is_ready rd) (es_set s)) in *. set (T := firstn (Z.to_nat mx) F) in *.
    assert (CB : combine (map sl_fd T) evs = map (fun x => (sl_fd x, sl_ev x)) T).
    { rewrite Ev. clear. induction T; cbn; [reflexivity|]. rewrite IHT. reflexivity. }
    assert (LT : length evs = length T) by (rewrite Ev; apply map_length).
    assert (LT2 : length T = Nat.min (Z.to_nat mx) (length F)) by apply firstn_length.
    split; [lia|]. split.
    - exists (map sl_fd T). split; [rewrite map_length; lia|]. split.
      { unfold T. rewrite <- firstn_map. apply nodup_firstn. unfold F. rewrite SUB. clear -NDs.
        induction (used (es_set s)) as [|x l IH]; [constructor|]. cbn [map] in NDs. inversion NDs as [|? ? H1 H2]; subst.
        cbn [filter]. destruct (is_ready rd x); [|exact (IH H2)]. cbn [map]. constructor; [|exact (IH H2)].
        intros X. apply H1. apply in_map_iff in X. destruct X as (y & Ey & Hy). apply filter_In in Hy. apply in_map_iff. exists y. tauto. }
      rewrite CB. split.
      + intros fd e H. apply in_map_iff in H. destruct H as ([f x] & Q & H). injection Q as -> ->.
        apply RD. fold F. exact (in_firstn' _ _ _ H).
      + destruct (Z.le_gt_cases (Z.of_nat (length F)) mx) as [G|G].
        * left. intros fd e H. apply RD in H. fold F in H. unfold T. rewrite firstn_all2 by lia.
          apply in_map_iff. exists (mkSlot fd e). auto.
        * right. lia.
    - intros (fd & e & H). apply RD in H. fold F in H. intros X. rewrite X in LT. cbn [length] in LT.
      destruct F as [|y F']; [destruct H|]. cbn [length] in LT2. lia. }
  unfold epoll_wait in HW. rewrite EE in HW. cbn [negb orb] in HW.
  destruct (Z.ltb_spec mx 1); [discriminate|].
  destruct ((timeout <? 0) && negb (timeout =? -1)) eqn:ET; [discriminate|].
  assert (NR : none_of_ready rd0 (es_set s) = true <-> forall fd e, ~ ready rd0 s fd e).
  { unfold none_of_ready. rewrite negb_true_iff. split.
    - intros X fd e R. apply RD, filter_In in R. destruct R as [R1 R2].
      assert (existsb (is_ready rd0) (es_set s) = true) by (apply existsb_exists; eauto). congruence.
    - intros X. destruct (existsb _ _) eqn:EX; [|reflexivity]. apply existsb_exists in EX. destruct EX as ([f x] & H1 & H2).
      destruct (X f x). apply RD, filter_In. auto. }
  destruct (negb (timeout =? 0) && none_of_ready rd0 (es_set s)) eqn:EB; injection HW as <- <-; cbn zeta iota.
  - apply andb_true_iff in EB. destruct EB as [B1 B2].
    destruct (MAIN rd1 ltac:(lia) eq_refl) as (M1 & M2 & M3). split; [exact M1|]. split; [exact M2|]. split; [exact M3|].
    split; [intros _; split; [lia|apply NR; exact B2]|intros _; discriminate].
  - destruct (MAIN rd0 ltac:(lia) eq_refl) as (M1 & M2 & M3). split; [exact M1|]. split; [exact M2|]. split; [exact M3|].
    split; [congruence|]. intros [T1 T2]. apply NR in T2. rewrite T2, andb_true_r in EB. lia.
Qed.

Theorem epoll_wait_errors :
  forall s ok mx timeout rd0 rd1,
  (es_epoll s = false \/ mx < 1 -> snd (epoll_wait s ok mx timeout rd0 rd1) = inr OFP_EINVAL) /\
  (es_epoll s = true -> 1 <= mx -> ok = false -> snd (epoll_wait s ok mx timeout rd0 rd1) = inr OFP_EFAULT) /\
  (es_epoll s = true -> 1 <= mx -> ok = true -> timeout < -1 -> snd (epoll_wait s ok mx timeout rd0 rd1) = inr OFP_EINVAL) /\
  (es_epoll s = true -> 1 <= mx -> ok = true -> -1 <= timeout -> exists evs, snd (epoll_wait s ok mx timeout rd0 rd1) = inl evs).
Proof.
  intros. unfold epoll_wait. repeat split.
  - intros [->|H]; [reflexivity|]. destruct (Z.ltb_spec mx 1); [|lia]. rewrite orb_true_r. reflexivity.
  - intros -> H ->. destruct (Z.ltb_spec mx 1); [lia|reflexivity].
  - intros -> H -> T. destruct (Z.ltb_spec mx 1); [lia|]. cbn [negb orb].
    destruct (Z.ltb_spec timeout 0); [|lia]. destruct (Z.eqb_spec timeout (-1)); [lia|reflexivity].
  - intros -> H -> T. destruct (Z.ltb_spec mx 1); [lia|]. cbn [negb orb].
    destruct ((timeout <? 0) && negb (timeout =? -1)) eqn:E; [lia|].
    destruct (negb (timeout =? 0) && none_of_ready rd0 (es_set s)); eexists; reflexivity.
Qed.

Example epoll_example :
  exists s, do_ops 1024 (epoll_new (repeat (mkEv 0 0) 16)) [Add 1025 (mkEv 1 10); Add 1026 (mkEv 1 11); Mod 1025 (mkEv 1 12); Del 1026; Add 1025 (mkEv 0 0)]
    = Ret (s, [inl 0; inl 0; inl 0; inl 0; inr OFP_EEXIST]) /\
  epoll_wait s true 3 (-1) (fun _ => false) (fun _ => true) = (Some 0, inl [mkEv 1 12]).
Proof. eexists. split; reflexivity. Qed.

(* ---------- C45: descriptor sets and select ---------- *)
Section FdSet.
Variables (OFF MAXS : Z).
Hypothesis HM : 0 < MAXS.

Lemma access_ok s fd : fd_ok OFF MAXS fd -> buf_ok MAXS s ->
  exists b, fd_access OFF s fd = Ret (Z.to_nat ((fd - OFF) / 8), b, 2 ^ ((fd - OFF) mod 8)) /\
            nth_error s (Z.to_nat ((fd - OFF) / 8)) = Some b /\ is_byte b /\ 0 <= (fd - OFF) mod 8 < 8.
Proof.
  intros [H1 H2] [L B]. unfold fd_access, bit_index, bit_shift.
  pose proof (Z.mod_pos_bound (fd - OFF) 8 ltac:(lia)) as MB. pose proof (Z.div_pos (fd - OFF) 8 ltac:(lia) ltac:(lia)) as DP.
  rewrite Z.quot_div_nonneg, Z.rem_mod_nonneg by lia.
  destruct (Z.ltb_spec ((fd - OFF) / 8) 0); [lia|]. destruct (Z.ltb_spec ((fd - OFF) mod 8) 0); [lia|]. cbn [orb].
  assert (X : (Z.to_nat ((fd - OFF) / 8) < length s)%nat).
  { rewrite L. apply Z2Nat.inj_lt; [lia| |].
    - pose proof (Z.div_pos MAXS 8 ltac:(lia) ltac:(lia)). lia.
    - pose proof (Z.div_le_mono (fd - OFF) MAXS 8 ltac:(lia) ltac:(lia)). lia. }
  destruct (nth_error s (Z.to_nat ((fd - OFF) / 8))) as [b|] eqn:E; [|apply nth_error_None in E; lia].
  exists b. rewrite Z.shiftl_1_l. unfold u8. rewrite Z.mod_small.
  - split; [reflexivity|]. split; [reflexivity|]. split; [|lia]. unfold bytes_ok in B. rewrite Forall_forall in B. apply B. exact (nth_error_In _ _ E).
  - split; [apply Z.pow_nonneg; lia|]. change 256 with (2 ^ 8). apply Z.pow_lt_mono_r; lia.
Qed.

Lemma nth_set_nth {A} (l : list A) i j x : (i < length l)%nat -> nth_error (set_nth i x l) j = if (j =? i)%nat then Some x else nth_error l j.
Proof.
  revert i j. induction l as [|y l IH]; intros i j H; cbn [length] in H; [lia|].
  destruct i as [|i], j as [|j]; cbn [set_nth nth_error Nat.eqb]; try reflexivity. apply IH. lia.
Qed.
Lemma set_nth_length {A} (l : list A) i x : length (set_nth i x l) = length l.
Proof. revert i. induction l as [|y l IH]; intros [|i]; cbn; auto. Qed.
Lemma set_nth_Forall {A} (P : A -> Prop) (l : list A) i x : Forall P l -> P x -> Forall P (set_nth i x l).
Proof. intros H Hx. revert i. induction H; intros [|i]; cbn; constructor; auto. Qed.

Lemma pos_inj x y : OFF <= x -> OFF <= y -> Z.to_nat ((x - OFF) / 8) = Z.to_nat ((y - OFF) / 8) -> (x - OFF) mod 8 = (y - OFF) mod 8 -> x = y.
Proof.
  intros Hx Hy E F. pose proof (Z.div_pos (x - OFF) 8 ltac:(lia) ltac:(lia)). pose proof (Z.div_pos (y - OFF) 8 ltac:(lia) ltac:(lia)).
  apply Z2Nat.inj in E; [|assumption|assumption].
  pose proof (Z.div_mod (x - OFF) 8 ltac:(lia)). pose proof (Z.div_mod (y - OFF) 8 ltac:(lia)). lia.
Qed.

Lemma change_bit s fd b b' (v : bool) : fd_ok OFF MAXS fd -> buf_ok MAXS s ->
  nth_error s (Z.to_nat ((fd - OFF) / 8)) = Some b -> is_byte b' ->
  (forall k, 0 <= k < 8 -> Z.testbit b' k = if k =? (fd - OFF) mod 8 then v else Z.testbit b k) ->
  let s' := set_nth (Z.to_nat ((fd - OFF) / 8)) b' s in
  buf_ok MAXS s' /\ forall x, OFF <= x -> in_fdset OFF s' x <-> (if x =? fd then v = true else in_fdset OFF s x).
Proof.
  intros HF HB E Hb Hk s'. destruct HB as [L B]. split.
  { split; [unfold s'; rewrite set_nth_length; exact L|]. apply set_nth_Forall; assumption. }
  intros x Hx. unfold in_fdset, s'.
  assert (LT : (Z.to_nat ((fd - OFF) / 8) < length s)%nat) by (apply nth_error_Some; congruence).
  rewrite nth_set_nth by exact LT. pose proof (Z.mod_pos_bound (x - OFF) 8 ltac:(lia)) as MB.
  destruct HF as [F1 F2]. destruct (Z.eqb_spec x fd) as [->|N].
  - rewrite Nat.eqb_refl. split.
    + intros (c & Q & T). injection Q as <-. rewrite Hk, Z.eqb_refl in T by exact MB. exact T.
    + intros ->. exists b'. split; [reflexivity|]. rewrite Hk, Z.eqb_refl by exact MB. reflexivity.
  - destruct (Nat.eqb_spec (Z.to_nat ((x - OFF) / 8)) (Z.to_nat ((fd - OFF) / 8))) as [EQ|NE].
    + rewrite EQ, E. assert (ND : ((x - OFF) mod 8 =? (fd - OFF) mod 8) = false).
      { apply Z.eqb_neq. intros X. apply N. apply pos_inj; assumption. }
      split; intros (c & Q & T); injection Q as <-; eexists; (split; [reflexivity|]); rewrite Hk, ND in * by exact MB; exact T.
    + reflexivity.
Qed.

Lemma byte_of_bits b : 0 <= b -> (forall k, 8 <= k -> Z.testbit b k = false) -> is_byte b.
Proof.
  intros H K. unfold is_byte. split; [exact H|].
  destruct (Z.lt_ge_cases b 256) as [L|L]; [exact L|]. exfalso.
  pose proof (Z.bit_log2 b ltac:(lia)) as X. rewrite K in X; [discriminate|].
  apply Z.log2_le_pow2; [lia|]. exact L.
Qed.
Lemma byte_high b k : is_byte b -> 8 <= k -> Z.testbit b k = false.
Proof.
  intros [H1 H2] Hk. destruct (Z.eq_dec b 0) as [->|N]; [apply Z.bits_0|].
  apply Z.bits_above_log2; [lia|]. apply Z.log2_lt_pow2; [lia|].
  apply (Z.lt_le_trans _ 256); [lia|]. change 256 with (2 ^ 8). apply Z.pow_le_mono_r; lia.
Qed.

Theorem fd_set_ok : forall s fd, fd_ok OFF MAXS fd -> buf_ok MAXS s ->
  exists s', FD_SET OFF fd s = Ret s' /\ buf_ok MAXS s' /\
    forall x, OFF <= x -> in_fdset OFF s' x <-> (x = fd \/ in_fdset OFF s x).
Proof.
  intros s fd HF HB. destruct (access_ok s fd HF HB) as (b & E & Eb & Bb & Rk). unfold FD_SET. rewrite E. cbn [obind].
  eexists. split; [reflexivity|].
  destruct (change_bit s fd b (Z.lor b (2 ^ ((fd - OFF) mod 8))) true HF HB Eb) as [C1 C2].
  - apply byte_of_bits.
    + apply Z.lor_nonneg. destruct Bb. split; [assumption|apply Z.pow_nonneg; lia].
    + intros k Hk. rewrite Z.lor_spec, (byte_high b k Bb Hk), Z.pow2_bits_false by lia. reflexivity.
  - intros k Hk. rewrite Z.lor_spec, Z.pow2_bits_eqb by lia. rewrite (Z.eqb_sym ((fd - OFF) mod 8) k).
    destruct (k =? (fd - OFF) mod 8); [apply orb_true_r|apply orb_false_r].
  - split; [exact C1|]. intros x Hx. rewrite (C2 x Hx). destruct (Z.eqb_spec x fd); tauto.
Qed.
Theorem fd_clr_ok : forall s fd, fd_ok OFF MAXS fd -> buf_ok MAXS s ->
  exists s', FD_CLR OFF fd s = Ret s' /\ buf_ok MAXS s' /\
    forall x, OFF <= x -> in_fdset OFF s' x <-> (x <> fd /\ in_fdset OFF s x).
Proof.
  intros s fd HF HB. destruct (access_ok s fd HF HB) as (b & E & Eb & Bb & Rk). unfold FD_CLR. rewrite E. cbn [obind].
  eexists. split; [reflexivity|].
  assert (BT : forall k, Z.testbit (Z.land b (Z.lnot (2 ^ ((fd - OFF) mod 8)))) k =
                         Z.testbit b k && negb (if Z.ltb k 0 then false else k =? (fd - OFF) mod 8)).
  { intros k. rewrite Z.land_spec. destruct (Z.ltb_spec k 0) as [L|L]; [rewrite Z.testbit_neg_r by exact L; reflexivity|].
    rewrite Z.lnot_spec, Z.pow2_bits_eqb by lia. rewrite (Z.eqb_sym ((fd - OFF) mod 8) k). reflexivity. }
  assert (BY : is_byte (Z.land b (Z.lnot (2 ^ ((fd - OFF) mod 8))))).
  { apply byte_of_bits.
    - apply Z.land_nonneg. left. apply Bb.
    - intros k Hk. rewrite BT, (byte_high b k Bb Hk). reflexivity. }
  assert (U : u8 (Z.land b (Z.lnot (2 ^ ((fd - OFF) mod 8)))) = Z.land b (Z.lnot (2 ^ ((fd - OFF) mod 8)))) by (unfold u8; apply Z.mod_small; exact BY).
  rewrite U.
  destruct (change_bit s fd b (Z.land b (Z.lnot (2 ^ ((fd - OFF) mod 8)))) false HF HB Eb BY) as [C1 C2].
  - intros k Hk. rewrite BT. destruct (Z.ltb_spec k 0); [lia|].
    destruct (k =? (fd - OFF) mod 8); [apply andb_false_r|apply andb_true_r].
  - split; [exact C1|]. intros x Hx. rewrite (C2 x Hx). destruct (Z.eqb_spec x fd); intuition discriminate.
Qed.
Theorem fd_isset_ok : forall s fd, fd_ok OFF MAXS fd -> buf_ok MAXS s ->
  exists b, FD_ISSET OFF fd s = Ret b /\ (b = true <-> in_fdset OFF s fd).
Proof.
  intros s fd HF HB. destruct (access_ok s fd HF HB) as (b & E & Eb & Bb & Rk). unfold FD_ISSET. rewrite E. cbn [obind].
  eexists. split; [reflexivity|]. unfold in_fdset. rewrite Eb, negb_true_iff, Z.eqb_neq.
  assert (X : Z.land b (2 ^ ((fd - OFF) mod 8)) <> 0 <-> Z.testbit b ((fd - OFF) mod 8) = true).
  { split.
    - intros N. destruct (Z.testbit b ((fd - OFF) mod 8)) eqn:T; [reflexivity|]. destruct N. apply Z.bits_inj'. intros k Hk.
      rewrite Z.land_spec, Z.pow2_bits_eqb, Z.bits_0 by lia. destruct (Z.eqb_spec ((fd - OFF) mod 8) k) as [<-|]; [rewrite T; reflexivity|apply andb_false_r].
    - intros T Z0. apply (f_equal (fun z => Z.testbit z ((fd - OFF) mod 8))) in Z0.
      rewrite Z.land_spec, Z.pow2_bits_true, T, Z.bits_0 in Z0 by lia. discriminate. }
  rewrite X. split; [intros T; exists b; auto|intros (c & Q & T); injection Q as <-; exact T].
Qed.
Theorem fd_zero_ok : buf_ok MAXS (FD_ZERO MAXS) /\ forall x, ~ in_fdset OFF (FD_ZERO MAXS) x.
Proof.
  unfold FD_ZERO, fdbuf_len. split.
  - split; [apply repeat_length|]. unfold bytes_ok. apply Forall_forall. intros y Hy. apply repeat_spec in Hy. subst y. unfold is_byte. lia.
  - intros x (b & E & T). apply nth_error_In, repeat_spec in E. subst b. rewrite Z.bits_0 in T. discriminate.
Qed.

Lemma ready_loop_ok rd : forall n fd s r, buf_ok MAXS s -> OFF <= fd -> fd + Z.of_nat n <= OFF + MAXS ->
  exists s' l, set_ready_loop OFF rd n fd s r = Ret (s', r + Z.of_nat (length l)) /\ buf_ok MAXS s' /\ NoDup l /\
    (forall x, In x l <-> fd <= x < fd + Z.of_nat n /\ in_fdset OFF s x /\ rd x = true) /\
    (forall x, OFF <= x -> in_fdset OFF s' x <-> in_fdset OFF s x /\ (fd <= x < fd + Z.of_nat n -> rd x = true)).
Proof.
  induction n as [|n IH]; intros fd s r HB Hf Hn.
  { exists s, []. cbn [set_ready_loop length]. rewrite Z.add_0_r. split; [reflexivity|]. split; [exact HB|]. split; [constructor|].
    split; [intros x; split; [intros []|intros (A & _); lia]|]. intros x Hx. split; [intros H; split; [exact H|lia]|tauto]. }
  cbn [set_ready_loop]. unfold set_ready_fd.
  assert (FO : fd_ok OFF MAXS fd) by (unfold fd_ok; lia).
  destruct (fd_isset_ok s fd FO HB) as (b & Eb & Sb). rewrite Eb. cbn [obind].
  destruct (b && rd fd) eqn:C; cbn [obind].
  - apply andb_true_iff in C. destruct C as [-> C]. assert (IF : in_fdset OFF s fd) by (apply Sb; reflexivity).
    destruct (IH (fd + 1) s (r + 1) HB ltac:(lia) ltac:(lia)) as (s' & l & E & B' & N & P & Q). rewrite E.
    exists s', (fd :: l). split; [f_equal; f_equal; cbn [length]; lia|]. split; [exact B'|].
    split; [constructor; [intros X; apply P in X; lia|exact N]|]. split.
    + intros x. cbn [In]. rewrite P. split.
      * intros [<-|(A & D & F)]; [split; [lia|auto]|split; [lia|auto]].
      * intros (A & D & F). destruct (Z.eq_dec fd x); [left; assumption|right; split; [lia|auto]].
    + intros x Hx. rewrite (Q x Hx). split; intros [A D]; (split; [exact A|]); intros R.
      * destruct (Z.eq_dec x fd) as [->|]; [exact C|apply D; lia].
      * apply D. lia.
  - destruct (fd_clr_ok s fd FO HB) as (s1 & E1 & B1 & C1). rewrite E1. cbn [obind].
    destruct (IH (fd + 1) s1 (r + 0) B1 ltac:(lia) ltac:(lia)) as (s' & l & E & B' & N & P & Q). rewrite E.
    assert (NF : ~ (in_fdset OFF s fd /\ rd fd = true)).
    { intros [A D]. apply Sb in A. rewrite A, D in C. discriminate. }
    exists s', l. split; [f_equal; f_equal; lia|]. split; [exact B'|]. split; [exact N|]. split.
    + intros x. rewrite P. split.
      * intros (A & D & F). apply C1 in D; [|lia]. split; [lia|tauto].
      * intros (A & D & F). destruct (Z.eq_dec x fd) as [->|X]; [tauto|]. split; [lia|]. split; [apply C1; [lia|tauto]|exact F].
    + intros x Hx. rewrite (Q x Hx), (C1 x Hx). split.
      * intros [[A D] F]. split; [exact D|]. intros R. apply F. lia.
      * intros [A D]. destruct (Z.eq_dec x fd) as [->|X]; [destruct NF; split; [exact A|apply D; lia]|]. split; [tauto|]. intros R. apply D. lia.
Qed.
Lemma none_loop_ok rd : forall n fd s, buf_ok MAXS s -> OFF <= fd -> fd + Z.of_nat n <= OFF + MAXS ->
  exists b, none_ready_loop OFF rd n fd s = Ret b /\
    (b = true <-> forall x, fd <= x < fd + Z.of_nat n -> in_fdset OFF s x -> rd x = false).
Proof.
  induction n as [|n IH]; intros fd s HB Hf Hn; cbn [none_ready_loop].
  { exists true. split; [reflexivity|]. split; [intros _ x H; lia|reflexivity]. }
  destruct (fd_isset_ok s fd ltac:(unfold fd_ok; lia) HB) as (b & Eb & Sb). rewrite Eb. cbn [obind].
  destruct (b && rd fd) eqn:C.
  - apply andb_true_iff in C. destruct C as [-> C]. exists false. split; [reflexivity|]. split; [discriminate|].
    intros H. rewrite (H fd) in C; [discriminate|lia|apply Sb; reflexivity].
  - destruct (IH (fd + 1) s HB ltac:(lia) ltac:(lia)) as (b' & E & S'). exists b'. split; [exact E|]. rewrite S'. split.
    + intros H x Hx I. destruct (Z.eq_dec x fd) as [->|X]; [|apply H; [lia|exact I]].
      apply Sb in I. rewrite I in C. exact C.
    + intros H x Hx I. apply H; [lia|exact I].
Qed.

(* ofp_select with nfds inside the descriptor range: the set is cut down to the
   readable descriptors below nfds (those from nfds on are left alone), the
   result is their number, and it sleeps only if the timeout allows and none
   was readable. *)
Theorem select_ok : forall nfds s timeout rd0 rd1, buf_ok MAXS s -> nfds <= OFF + MAXS ->
  exists slept s' l,
    select OFF nfds s timeout rd0 rd1 = Ret (slept, s', Z.of_nat (length l)) /\ buf_ok MAXS s' /\
    (let rd := match slept with None => rd0 | Some _ => rd1 end in
     NoDup l /\ (forall x, In x l <-> OFF <= x < nfds /\ in_fdset OFF s x /\ rd x = true) /\
     (forall x, OFF <= x -> in_fdset OFF s' x <-> in_fdset OFF s x /\ (x < nfds -> rd x = true))) /\
    (slept <> None -> forall x, OFF <= x < nfds -> in_fdset OFF s x -> rd0 x = false) /\
    (timeout = None -> (forall x, OFF <= x < nfds -> in_fdset OFF s x -> rd0 x = false) -> slept = Some 0).
Proof.
  intros nfds s timeout rd0 rd1 HB HN. unfold select.
  set (n := Z.to_nat (nfds - OFF)).
  assert (HR : forall x, OFF <= x < OFF + Z.of_nat n <-> OFF <= x < nfds) by (intros x; unfold n; lia).
  assert (HL : OFF + Z.of_nat n <= OFF + MAXS) by (unfold n; lia).
  set (blk := match timeout with None => true | Some _ => to_usec timeout >? 0 end).
  assert (FIN : forall sleep : bool,
    exists s' l, set_ready_loop OFF (if sleep then rd1 else rd0) n OFF s 0 = Ret (s', Z.of_nat (length l)) /\ buf_ok MAXS s' /\
    (let rd := if sleep then rd1 else rd0 in
     NoDup l /\ (forall x, In x l <-> OFF <= x < nfds /\ in_fdset OFF s x /\ rd x = true) /\
     (forall x, OFF <= x -> in_fdset OFF s' x <-> in_fdset OFF s x /\ (x < nfds -> rd x = true)))).
  { intros sleep. destruct (ready_loop_ok (if sleep then rd1 else rd0) n OFF s 0 HB ltac:(lia) HL) as (s' & l & E & B' & N & P & Q).
    exists s', l. rewrite E. split; [reflexivity|]. split; [exact B'|]. cbv zeta. split; [exact N|]. split.
    - intros x. rewrite P, HR. reflexivity.
    - intros x Hx. rewrite (Q x Hx). split; intros [A D]; (split; [exact A|]); intros R; apply D; [apply HR; lia|apply HR in R; lia]. }
  destruct blk eqn:EB.
  - destruct (none_loop_ok rd0 n OFF s HB ltac:(lia) HL) as (b & E & S'). rewrite E. cbn [obind].
    destruct (FIN b) as (s' & l & E2 & B2 & P2). rewrite E2. cbn [obind].
    exists (if b then Some (to_usec timeout) else None), s', l. split; [reflexivity|]. split; [exact B2|].
    split; [destruct b; exact P2|]. split.
    + intros NN x Hx I. destruct b; [|congruence]. apply S'; [reflexivity|apply HR; exact Hx|exact I].
    + intros -> H. assert (b = true) as -> by (apply S'; intros x Hx; apply H, HR; exact Hx). reflexivity.
  - cbn [obind]. destruct (FIN false) as (s' & l & E2 & B2 & P2). rewrite E2. cbn [obind].
    exists None, s', l. split; [reflexivity|]. split; [exact B2|]. split; [exact P2|]. split; [congruence|].
    intros ->. unfold blk in EB. discriminate.
Qed.
End FdSet.

(* Descriptors outside the range are not refused: below it the shift count is
   negative, above it the buffer is left; nfds beyond the range leaves it too. *)
Theorem fd_range_refuted :
  FD_SET 1024 1023 (FD_ZERO 1024) = UB /\ FD_SET 1024 3 (FD_ZERO 1024) = UB /\
  FD_ISSET 1024 2056 (FD_ZERO 1024) = UB /\
  select 1024 2057 (FD_ZERO 1024) None (fun _ => false) (fun _ => false) = UB.
Proof. repeat split; vm_compute; reflexivity. Qed.
(* A timeout of 2^32 microseconds (71.6 minutes) does not block at all. *)
Theorem select_long_timeout_refuted :
  forall s rd0 rd1 nfds, buf_ok 1024 s -> nfds <= 2048 ->
  exists s' r, select 1024 nfds s (Some (4294, 967296)) rd0 rd1 = Ret (None, s', r).
Proof.
  intros s rd0 rd1 nfds HB HN.
  destruct (select_ok 1024 1024 ltac:(lia) nfds s (Some (4294, 967296)) rd0 rd1 HB HN) as (slept & s' & l & E & _).
  exists s', (Z.of_nat (length l)). rewrite E. unfold select in E. change (to_usec (Some (4294, 967296)) >? 0) with false in E. cbn [obind] in E.
  destruct (set_ready_loop _ _ _ _ _ _) as [[? ?]| |]; cbn [obind] in E; try discriminate. injection E as <- _ _. reflexivity.
Qed.

Example fd_example :
  obind (FD_SET 1024 1030 (FD_ZERO 1024)) (fun s => obind (FD_SET 1024 1031 s) (fun s =>
    select 1024 1032 s None (fun fd => fd =? 1031) (fun _ => true))) =
  Ret (None, set_nth 0 128 (FD_ZERO 1024), 1).
Proof. vm_compute. reflexivity. Qed.

Print Assumptions epoll_set_is_map_partial.
Print Assumptions epoll_ctl_errors.
Print Assumptions epoll_bad_fd_refuted.
Print Assumptions epoll_wait_reports_ready.
Print Assumptions epoll_wait_errors.
Print Assumptions fd_set_ok.
Print Assumptions fd_clr_ok.
Print Assumptions fd_isset_ok.
Print Assumptions fd_zero_ok.
Print Assumptions select_ok.
Print Assumptions fd_range_refuted.
Print Assumptions select_long_timeout_refuted.
