(* The two look-up lists. *)
From Verif Require Import Base IpsecModel IpsecSpec IpsecList IpsecSp.
Ltac Zify.zify_post_hook ::= idtac.

Definition prio (pp : nat -> spar) (i : nat) : Z := p_prio (pp i).
Definition side (pp : nat -> spar) (dir : Z) (i : nat) : bool := Bool.eqb (p_dir (pp i) =? DIR_IN) (dir =? DIR_IN).
Definition lkl (pp : nat -> spar) (dir : Z) (hs : list nat) : list nat := srt (prio pp) (filter (side pp dir) hs).
Definition LkInv (d : db) (hs : list nat) (pp : nat -> spar) : Prop :=
  forall dir, chain (fun i => n_nl (sph d i)) (lk d dir) (lkl pp dir hs).
Definition sameL (d d' : db) : Prop :=
  sah d' = sah d /\ sal d' = sal d /\ saf d' = saf d /\ active d' = active d /\ rheld d' = rheld d /\
  forall i, n_sa (sph d' i) = n_sa (sph d i).

Lemma lkl_in pp dir hs i : In i (lkl pp dir hs) <-> In i hs /\ side pp dir i = true.
Proof. unfold lkl. rewrite srt_in, filter_In. reflexivity. Qed.
Lemma lkl_nodup pp dir hs : NoDup hs -> NoDup (lkl pp dir hs).
Proof. intros N. apply srt_nodup. apply NoDup_filter. exact N. Qed.
Lemma filter_le {A} (f : A -> bool) l : (length (filter f l) <= length l)%nat.
Proof. induction l as [|x r IH]; cbn [filter length]; [lia|]. destruct (f x); cbn [length]; lia. Qed.
Lemma lkl_length pp dir hs : (length (lkl pp dir hs) <= length hs)%nat.
Proof. unfold lkl. rewrite srt_length. apply filter_le. Qed.
Lemma lk_w_same d dir x dir' : (dir =? DIR_IN) = (dir' =? DIR_IN) -> lk (w_lk d dir x) dir' = x.
Proof. intros E. unfold lk, w_lk. rewrite <- E. destruct (dir =? DIR_IN); reflexivity. Qed.
Lemma lk_w_other d dir x dir' : (dir =? DIR_IN) <> (dir' =? DIR_IN) -> lk (w_lk d dir x) dir' = lk d dir'.
Proof. intros E. unfold lk, w_lk. destruct (dir =? DIR_IN), (dir' =? DIR_IN); try congruence; reflexivity. Qed.
Lemma lk_dir d dir dir' : (dir =? DIR_IN) = (dir' =? DIR_IN) -> lk d dir = lk d dir'.
Proof. intros E. unfold lk. rewrite E. reflexivity. Qed.
Lemma side_ext pp dir dir' i : (dir =? DIR_IN) = (dir' =? DIR_IN) -> side pp dir i = side pp dir' i.
Proof. intros E. unfold side. rewrite E. reflexivity. Qed.
Lemma sph_w_lk d dir x : sph (w_lk d dir x) = sph d.
Proof. unfold w_lk. destruct (dir =? DIR_IN); reflexivity. Qed.

Lemma lookup_add_ok fuel d hs pp i : LkInv d hs pp -> ~ In i hs -> NoDup hs ->
  (forall j, In j (i :: hs) -> n_par (sph d j) = par_ntohl (pp j)) -> (length hs < fuel)%nat ->
  exists d', lookup_add_sp fuel d i = Ret d' /\ LkInv d' (i :: hs) pp /\ sameB d d' /\ sameL d d'.
Proof.
  intros H NI ND HP F. unfold lookup_add_sp.
  rewrite (HP i (or_introl eq_refl)). cbn [par_ntohl p_dir p_prio].
  set (dir := p_dir (pp i)).
  assert (Dn : forall j, In j (lkl pp dir hs) -> In j hs) by (intros j Hj; apply lkl_in in Hj; tauto).
  assert (NIl : ~ In i (lkl pp dir hs)) by (intros X; auto).
  destruct (sp_place_ok (sph d) (prio pp) i (lkl pp dir hs) fuel None (lk d dir) (H dir)) as (l1 & l2 & E1 & E2 & E3).
  { pose proof (lkl_length pp dir hs). lia. }
  { intros y Hy. rewrite (HP y (or_intror (Dn y Hy))). reflexivity. }
  unfold prio in E3 at 1. rewrite E3. cbn [obind].
  assert (Lin : forall j, In j l1 \/ In j l2 -> j <> i /\ In j hs).
  { intros j Hj. assert (X : In j (lkl pp dir hs)) by (rewrite E1; apply in_app_iff; exact Hj). split; [congruence|auto]. }
  pose proof (lkl_nodup pp dir hs ND) as NDl. rewrite E1 in NDl.
  set (d1 := w_sp d i (f_nl (sph d i) (hd_error l2))).
  assert (S1 : forall k, sph d1 k = if Nat.eqb k i then f_nl (sph d i) (hd_error l2) else sph d k) by reflexivity.
  pose proof (H dir) as C. rewrite E1 in C.
  (* lists of the other side do not touch i nor the predecessor *)
  assert (New : lkl pp dir (i :: hs) = l1 ++ i :: l2).
  { unfold lkl. cbn [filter]. unfold side at 1. fold dir. rewrite Bool.eqb_reflx. cbn [srt fold_right]. exact E2. }
  assert (NewS : forall dir', (dir =? DIR_IN) = (dir' =? DIR_IN) -> lkl pp dir' (i :: hs) = l1 ++ i :: l2).
  { intros dir' E. rewrite <- New. unfold lkl. f_equal. apply filter_ext. intros j. apply side_ext. congruence. }
  assert (NewO : forall dir', (dir =? DIR_IN) <> (dir' =? DIR_IN) -> lkl pp dir' (i :: hs) = lkl pp dir' hs).
  { intros dir' E. unfold lkl. cbn [filter]. replace (side pp dir' i) with false; [reflexivity|].
    unfold side. fold dir. destruct (dir =? DIR_IN), (dir' =? DIR_IN); try congruence; reflexivity. }
  assert (Oth : forall dir' j, (dir =? DIR_IN) <> (dir' =? DIR_IN) -> In j (lkl pp dir' hs) -> j <> i /\ ~ In j l1 /\ ~ In j l2).
  { intros dir' j E Hj. apply lkl_in in Hj. destruct Hj as [Hj Sj]. split; [congruence|].
    assert (X : ~ In j (lkl pp dir hs)).
    { intros X. apply lkl_in in X. destruct X as [_ X]. unfold side in X, Sj. apply eqb_prop in X, Sj. congruence. }
    rewrite E1, in_app_iff in X. tauto. }
  destruct (list_end l1) as [->|(l' & j & ->)].
  - cbn [lastopt fold_left]. cbn [app] in *. exists (w_lk d1 dir (Some i)). split; [reflexivity|]. split; [|split].
    + intros dir'. destruct (Bool.bool_dec (dir =? DIR_IN) (dir' =? DIR_IN)) as [E|E].
      * rewrite (lk_w_same _ _ _ _ E), (NewS dir' E). cbn [chain]. split; [reflexivity|]. rewrite sph_w_lk, S1, Nat.eqb_refl. cbn [n_nl f_nl].
        rewrite <- (chain_hd _ _ _ C). apply (chain_ext (fun k => n_nl (sph d k))); [|exact C].
        intros k Hk. cbv beta. rewrite ?sph_w_lk, S1. destruct (Nat.eqb_spec k i) as [->|]; [destruct (Lin i (or_intror Hk)); congruence|reflexivity].
      * rewrite (lk_w_other _ _ _ _ E), (NewO dir' E). apply (chain_ext (fun k => n_nl (sph d k))); [|apply (H dir')].
        intros k Hk. cbv beta. rewrite ?sph_w_lk, S1. destruct (Nat.eqb_spec k i) as [->|]; [destruct (Oth dir' i E Hk); congruence|reflexivity].
    + unfold w_lk. destruct (dir =? DIR_IN); (split; [reflexivity|split; [reflexivity|]]); intros k; cbn [w_inl w_outl sph]; rewrite S1; (destruct (Nat.eqb_spec k i) as [->|]; repeat split).
    + unfold w_lk. destruct (dir =? DIR_IN); unfold sameL; repeat (split; [reflexivity|]); intros k; cbn [w_inl w_outl sph]; rewrite S1; (destruct (Nat.eqb_spec k i) as [->|]; reflexivity).
  - rewrite lastopt_app. cbv iota. destruct (Lin j) as [Nj Hj]; [left; apply in_app_iff; right; left; reflexivity|].
    exists (w_sp d1 j (f_nl (sph d1 j) (Some i))). split; [reflexivity|].
    assert (S2 : forall k, sph (w_sp d1 j (f_nl (sph d1 j) (Some i))) k = if Nat.eqb k j then f_nl (sph d j) (Some i) else if Nat.eqb k i then f_nl (sph d i) (hd_error l2) else sph d k).
    { intros k. change (sph (w_sp d1 j (f_nl (sph d1 j) (Some i))) k) with (if Nat.eqb k j then f_nl (sph d1 j) (Some i) else sph d1 k).
      rewrite !S1. destruct (Nat.eqb_spec j i); [congruence|reflexivity]. }
    assert (L2 : forall dir', lk (w_sp d1 j (f_nl (sph d1 j) (Some i))) dir' = lk d dir') by reflexivity.
    rewrite <- app_assoc in *. cbn [app] in *. destruct (nodup_split _ _ _ NDl) as (M1 & M2 & M3).
    split; [|split].
    + intros dir'. rewrite L2. destruct (Bool.bool_dec (dir =? DIR_IN) (dir' =? DIR_IN)) as [E|E].
      * rewrite (NewS dir' E), <- (lk_dir d dir dir' E). rewrite <- ?app_assoc. cbn [app].
        apply (chain_splice (fun k => n_nl (sph d k)) _ j l2 (i :: l2) l' _ C).
        -- intros k Hk. rewrite S2. destruct (Nat.eqb_spec k j) as [->|]; [contradiction|].
           destruct (Nat.eqb_spec k i) as [->|]; [|reflexivity]. destruct (Lin i); [left; apply in_app_iff; left; exact Hk|congruence].
        -- rewrite S2, Nat.eqb_refl. cbn [n_nl f_nl]. split; [reflexivity|]. rewrite S2. destruct (Nat.eqb_spec i j); [congruence|].
           rewrite Nat.eqb_refl. cbn [n_nl f_nl]. pose proof (chain_tail _ _ _ _ _ C) as T. cbv beta in T.
           rewrite <- (chain_hd _ _ _ T). apply (chain_ext (fun k => n_nl (sph d k))); [|exact T].
           intros k Hk. rewrite S2. destruct (Nat.eqb_spec k j) as [->|]; [contradiction|].
           destruct (Nat.eqb_spec k i) as [->|]; [destruct (Lin i (or_intror Hk)); congruence|reflexivity].
      * rewrite (NewO dir' E). apply (chain_ext (fun k => n_nl (sph d k))); [|apply (H dir')].
        intros k Hk. destruct (Oth dir' k E Hk) as (O1 & O2 & O3). rewrite S2. destruct (Nat.eqb_spec k j) as [->|].
        -- exfalso. apply O2. apply in_app_iff. right. left. reflexivity.
        -- destruct (Nat.eqb_spec k i); [congruence|reflexivity].
    + split; [reflexivity|split; [reflexivity|]]. intros k. rewrite S2. destruct (Nat.eqb_spec k j) as [->|]; [repeat split|].
      destruct (Nat.eqb_spec k i) as [->|]; repeat split.
    + unfold sameL. repeat (split; [reflexivity|]). intros k. rewrite S2. destruct (Nat.eqb_spec k j) as [->|]; [reflexivity|].
      destruct (Nat.eqb_spec k i) as [->|]; reflexivity.
Qed.

Lemma filter_rm (f : nat -> bool) i l : filter (fun h => negb (Nat.eqb i h)) (filter f l) = filter f (filter (fun h => negb (Nat.eqb i h)) l).
Proof.
  induction l as [|x r IH]; cbn [filter]; [reflexivity|]. destruct (f x) eqn:E1, (negb (Nat.eqb i x)) eqn:E2; cbn [filter]; rewrite ?E1, ?E2, IH; reflexivity.
Qed.

Lemma lookup_del_ok fuel d pp l1 i l2 : LkInv d (l1 ++ i :: l2) pp -> NoDup (l1 ++ i :: l2) ->
  n_par (sph d i) = par_ntohl (pp i) -> (length (l1 ++ i :: l2) < fuel)%nat ->
  exists d', lookup_del_sp fuel d i = Ret (d', match l1 ++ l2 with [] => true | _ => false end) /\
    LkInv d' (l1 ++ l2) pp /\ sameB d d' /\ sameL d d'.
Proof.
  intros H ND HP F. unfold lookup_del_sp. rewrite HP. cbn [par_ntohl p_dir].
  set (dir := p_dir (pp i)). destruct (nodup_split _ _ _ ND) as (N1 & N2 & ND').
  assert (Hs : filter (fun h => negb (Nat.eqb i h)) (l1 ++ i :: l2) = l1 ++ l2) by (apply filter_split_ne; assumption).
  assert (Ii : In i (lkl pp dir (l1 ++ i :: l2))).
  { apply lkl_in. split; [apply in_app_iff; right; left; reflexivity|]. unfold side. fold dir. apply Bool.eqb_reflx. }
  pose proof (lkl_nodup pp dir _ ND) as NDl. destruct (in_split _ _ Ii) as (m1 & m2 & Em). rewrite Em in NDl.
  destruct (nodup_split _ _ _ NDl) as (M1 & M2 & _).
  pose proof (H dir) as C. rewrite Em in C.
  rewrite (lk_pred_ok (sph d) i m2 m1 fuel None (lk d dir) C M1).
  2:{ pose proof (lkl_length pp dir (l1 ++ i :: l2)) as X. rewrite Em, app_length in X. lia. }
  cbn [obind].
  assert (Rm : forall dir', lkl pp dir' (l1 ++ l2) = filter (fun h => negb (Nat.eqb i h)) (lkl pp dir' (l1 ++ i :: l2))).
  { intros dir'. unfold lkl. rewrite filter_srt, filter_rm, Hs. reflexivity. }
  assert (NewS : forall dir', (dir =? DIR_IN) = (dir' =? DIR_IN) -> lkl pp dir' (l1 ++ l2) = m1 ++ m2).
  { intros dir' E. rewrite Rm. replace (lkl pp dir' (l1 ++ i :: l2)) with (m1 ++ i :: m2).
    - apply filter_split_ne; assumption.
    - rewrite <- Em. unfold lkl. f_equal. apply filter_ext. intros j. apply side_ext. exact E. }
  assert (Oth : forall dir' j, (dir =? DIR_IN) <> (dir' =? DIR_IN) -> In j (lkl pp dir' (l1 ++ i :: l2)) -> j <> i /\ ~ In j m1).
  { intros dir' j E Hj. apply lkl_in in Hj. destruct Hj as [Hj Sj].
    assert (X : ~ In j (lkl pp dir (l1 ++ i :: l2))).
    { intros X. apply lkl_in in X. destruct X as [_ X]. unfold side in X, Sj. apply eqb_prop in X, Sj. congruence. }
    rewrite Em, in_app_iff in X. cbn [In] in X. split; [intros ->; tauto|tauto]. }
  assert (NewO : forall dir', (dir =? DIR_IN) <> (dir' =? DIR_IN) -> lkl pp dir' (l1 ++ l2) = lkl pp dir' (l1 ++ i :: l2)).
  { intros dir' E. rewrite Rm. assert (Q : forall l : list nat, ~ In i l -> filter (fun h => negb (Nat.eqb i h)) l = l).
    { induction l as [|x r IH]; intros N; cbn [filter]; [reflexivity|].
      destruct (Nat.eqb_spec i x) as [->|_]; [exfalso; apply N; left; reflexivity|]. cbn [negb]. f_equal. apply IH.
      intros X. apply N. right. exact X. }
    apply Q. intros X. destruct (Oth dir' i E X) as [O _]. congruence. }
  set (d' := match lastopt None m1 with
             | None => w_lk d dir (n_nl (sph d i))
             | Some j => w_sp d j (f_nl (sph d j) (n_nl (sph d i)))
             end).
  assert (A : LkInv d' (l1 ++ l2) pp /\ sameB d d' /\ sameL d d').
  { unfold d'. destruct (list_end m1) as [->|(m' & j & ->)].
    - cbn [lastopt fold_left]. cbn [app] in *. split; [|split].
      + intros dir'. destruct (Bool.bool_dec (dir =? DIR_IN) (dir' =? DIR_IN)) as [E|E].
        * rewrite (lk_w_same _ _ _ _ E), (NewS dir' E), sph_w_lk. pose proof (chain_tail _ _ [] _ _ C) as T. exact T.
        * rewrite (lk_w_other _ _ _ _ E), (NewO dir' E), sph_w_lk. apply (H dir').
      + unfold w_lk. destruct (dir =? DIR_IN); (split; [reflexivity|split; [reflexivity|]]); intros k; repeat split.
      + unfold w_lk. destruct (dir =? DIR_IN); unfold sameL; repeat (split; [reflexivity|]); intros k; reflexivity.
    - rewrite lastopt_app. cbv iota.
      assert (S2 : forall k, sph (w_sp d j (f_nl (sph d j) (n_nl (sph d i)))) k = if Nat.eqb k j then f_nl (sph d j) (n_nl (sph d i)) else sph d k) by reflexivity.
      assert (L2 : forall dir', lk (w_sp d j (f_nl (sph d j) (n_nl (sph d i)))) dir' = lk d dir') by reflexivity.
      assert (Mj : ~ In j m' /\ ~ In j (i :: m2)).
      { rewrite <- app_assoc in NDl. cbn [app] in NDl. destruct (nodup_split _ _ _ NDl) as (Q1 & Q2 & _). auto. }
      destruct Mj as [Mj1 Mj2]. split; [|split].
      + intros dir'. rewrite L2. destruct (Bool.bool_dec (dir =? DIR_IN) (dir' =? DIR_IN)) as [E|E].
        * rewrite (NewS dir' E), <- (lk_dir d dir dir' E). pose proof (chain_tail _ _ _ _ _ C) as T. cbv beta in T.
          rewrite <- app_assoc in *. cbn [app] in *.
          apply (chain_splice (fun k => n_nl (sph d k)) _ j (i :: m2) m2 m' _ C).
          -- intros k Hk. rewrite S2. destruct (Nat.eqb_spec k j) as [->|]; [contradiction|reflexivity].
          -- rewrite S2, Nat.eqb_refl. cbn [n_nl f_nl]. apply (chain_ext (fun k => n_nl (sph d k))); [|exact T].
             intros k Hk. rewrite S2. destruct (Nat.eqb_spec k j) as [->|]; [exfalso; apply Mj2; right; exact Hk|reflexivity].
        * rewrite (NewO dir' E). apply (chain_ext (fun k => n_nl (sph d k))); [|apply (H dir')].
          intros k Hk. destruct (Oth dir' k E Hk) as (O1 & O2). rewrite S2. destruct (Nat.eqb_spec k j) as [->|]; [|reflexivity].
          exfalso. apply O2. apply in_app_iff. right. left. reflexivity.
      + split; [reflexivity|split; [reflexivity|]]. intros k. rewrite S2. destruct (Nat.eqb_spec k j) as [->|]; repeat split.
      + unfold sameL. repeat (split; [reflexivity|]). intros k. rewrite S2. destruct (Nat.eqb_spec k j) as [->|]; reflexivity. }
  exists d'. split; [|exact A]. do 2 f_equal. destruct A as (A & _ & _).
  pose proof (chain_hd _ _ _ (A DIR_IN)) as Q1. pose proof (chain_hd _ _ _ (A 1)) as Q2.
  change (lk d' DIR_IN) with (inl d') in Q1. change (lk d' 1) with (outl d') in Q2. rewrite Q1, Q2.
  destruct (l1 ++ l2) as [|x r] eqn:E; [reflexivity|].
  assert (X : In x (lkl pp (p_dir (pp x)) (x :: r))).
  { apply lkl_in. split; [left; reflexivity|]. unfold side. apply Bool.eqb_reflx. }
  assert (Y : In x (lkl pp DIR_IN (x :: r)) \/ In x (lkl pp 1 (x :: r))).
  { rewrite !lkl_in in *. unfold side. change (DIR_IN =? DIR_IN) with true. change (1 =? DIR_IN) with false.
    destruct (p_dir (pp x) =? DIR_IN); [left|right]; split; try reflexivity; left; reflexivity. }
  destruct (lkl pp DIR_IN (x :: r)) as [|u v]; [|reflexivity]. destruct (lkl pp 1 (x :: r)) as [|u v]; [|reflexivity].
  destruct Y as [[]|[]].
Qed.
