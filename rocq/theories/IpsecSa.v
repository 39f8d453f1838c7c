(* The association side: records, reference counts, free list. *)
From Verif Require Import Base IpsecModel IpsecSpec IpsecList IpsecSp.
Ltac Zify.zify_post_hook ::= idtac.

(* rc: all references to a record; hs: installed, newest first *)
Record SaBase (n : nat) (d : db) (hs : list nat) (qp : nat -> sapar) (qd ss : nat -> bool) (sl : nat -> sel)
    (rc : nat -> Z) (lf : list nat) : Prop := {
  c_chain : chain (fun i => a_next (sah d i)) (sal d) hs;
  c_free : chain (fun i => a_next (sah d i)) (saf d) lf;
  c_nd : NoDup hs; c_ndf : NoDup lf;
  c_lf : forall i, In i lf <-> (i < n)%nat /\ ~ 0 < rc i;
  c_lt : forall i, 0 < rc i -> (i < n)%nat;
  c_in : forall i, In i hs -> 0 < rc i;
  c_par : forall i, 0 < rc i -> a_par (sah d i) = qp i;
  c_dis : forall i, 0 < rc i -> a_dis (sah d i) = qd i;
  c_destr : forall i, 0 < rc i -> a_destr (sah d i) = negb (isin i hs);
  c_sel : forall i, 0 < rc i -> a_selset (sah d i) = ss i /\ (ss i = true -> a_sel (sah d i) = sel_ntohl (sl i));
  c_ref : forall i, 0 < rc i -> a_ref (sah d i) = rc i;
  c_pos : forall i, 0 <= rc i }.

(* the policy side is untouched *)
Definition sameP (d d' : db) : Prop :=
  sph d' = sph d /\ spl d' = spl d /\ outl d' = outl d /\ inl d' = inl d /\ spf d' = spf d /\ active d' = active d /\ rheld d' = rheld d.
Lemma sameP_refl d : sameP d d.
Proof. unfold sameP. intuition. Qed.
Ltac spok := solve [unfold sameP; repeat split; reflexivity].
Lemma sameP_trans a b c : sameP a b -> sameP b c -> sameP a c.
Proof. unfold sameP. intuition congruence. Qed.

Lemma sa_same n d d' hs qp qd ss sl rc lf : sah d' = sah d -> sal d' = sal d -> saf d' = saf d ->
  SaBase n d hs qp qd ss sl rc lf -> SaBase n d' hs qp qd ss sl rc lf.
Proof. intros E1 E2 E3 B. destruct B. constructor; rewrite ?E1, ?E2, ?E3; assumption. Qed.
Lemma sa_ext n d hs qp qd ss sl rc qp' qd' ss' sl' rc' lf : (forall i, rc' i = rc i) ->
  (forall i, 0 < rc i -> qp' i = qp i /\ qd' i = qd i /\ ss' i = ss i /\ (ss i = true -> sl' i = sl i)) ->
  SaBase n d hs qp qd ss sl rc lf -> SaBase n d hs qp' qd' ss' sl' rc' lf.
Proof.
  intros E1 E2 B. destruct B. constructor; try assumption.
  - intros i. rewrite E1. apply c_lf0.
  - intros i. rewrite E1. apply c_lt0.
  - intros i. rewrite E1. apply c_in0.
  - intros i. rewrite E1. intros H. destruct (E2 i H) as (-> & _). auto.
  - intros i. rewrite E1. intros H. destruct (E2 i H) as (_ & -> & _). auto.
  - intros i. rewrite E1. auto.
  - intros i. rewrite E1. intros H. destruct (E2 i H) as (_ & _ & -> & E). destruct (c_sel0 i H) as [X Y]. split; [exact X|].
    intros Z0. rewrite (E Z0). auto.
  - intros i. rewrite E1. auto.
  - intros i. rewrite E1. auto.
Qed.
Lemma sa_length n d hs qp qd ss sl rc lf : SaBase n d hs qp qd ss sl rc lf -> (length hs <= n)%nat.
Proof. intros B. destruct B. apply nodup_lt_length; auto. Qed.

(* one record of a used SA is rewritten, its link kept *)
Lemma sa_write n d hs qp qd ss sl rc lf i x qd' ss' sl' rc' : SaBase n d hs qp qd ss sl rc lf -> 0 < rc i -> 0 < rc' i ->
  (forall j, j <> i -> qd' j = qd j /\ ss' j = ss j /\ sl' j = sl j /\ rc' j = rc j) ->
  a_par x = qp i -> a_dis x = qd' i -> a_destr x = a_destr (sah d i) -> a_selset x = ss' i -> (ss' i = true -> a_sel x = sel_ntohl (sl' i)) ->
  a_ref x = rc' i -> a_next x = a_next (sah d i) ->
  SaBase n (w_sa d i x) hs qp qd' ss' sl' rc' lf.
Proof.
  intros B P P' O X1 X2 X3 X4 X5 X6 X7.
  assert (Sh : forall k, sah (w_sa d i x) k = if Nat.eqb k i then x else sah d k) by reflexivity.
  assert (NX : forall k, a_next (sah (w_sa d i x) k) = a_next (sah d k)).
  { intros k. rewrite Sh. destruct (Nat.eqb_spec k i) as [->|]; [exact X7|reflexivity]. }
  assert (UU : forall k, 0 < rc' k <-> 0 < rc k).
  { intros k. destruct (Nat.eq_dec k i) as [->|Nk]; [tauto|]. destruct (O k Nk) as (_ & _ & _ & ->). reflexivity. }
  destruct B. constructor; try assumption.
  - change (sal (w_sa d i x)) with (sal d). apply (chain_ext (fun k => a_next (sah d k))); [intros k _; apply NX|assumption].
  - change (saf (w_sa d i x)) with (saf d). apply (chain_ext (fun k => a_next (sah d k))); [intros k _; apply NX|assumption].
  - intros k. rewrite UU. apply c_lf0.
  - intros k. rewrite UU. apply c_lt0.
  - intros k. rewrite UU. apply c_in0.
  - intros k H. apply UU in H. rewrite Sh. destruct (Nat.eqb_spec k i) as [->|]; auto.
  - intros k H. apply UU in H. rewrite Sh. destruct (Nat.eqb_spec k i) as [->|Nk]; [exact X2|]. destruct (O k Nk) as (-> & _). auto.
  - intros k H. apply UU in H. rewrite Sh. destruct (Nat.eqb_spec k i) as [->|Nk]; [rewrite X3|]; auto.
  - intros k H. apply UU in H. rewrite Sh. destruct (Nat.eqb_spec k i) as [->|Nk]; [auto|]. destruct (O k Nk) as (_ & -> & -> & _). auto.
  - intros k H. apply UU in H. rewrite Sh. destruct (Nat.eqb_spec k i) as [->|Nk]; [exact X6|]. destruct (O k Nk) as (_ & _ & _ & ->). auto.
  - intros k. destruct (Nat.eq_dec k i) as [->|Nk]; [lia|]. destruct (O k Nk) as (_ & _ & _ & ->). auto.
Qed.

Definition RMAX := 4294967296.
Lemma sa_ref_ok n d hs qp qd ss sl rc lf i : SaBase n d hs qp qd ss sl rc lf -> 0 < rc i -> rc i + 1 < RMAX ->
  SaBase n (sa_ref d (Some i)) hs qp qd ss sl (set rc i (rc i + 1)) lf /\ sameP d (sa_ref d (Some i)) /\
  (forall j, a_next (sah (sa_ref d (Some i)) j) = a_next (sah d j)).
Proof.
  intros B P Lm. unfold RMAX in Lm. split; [|split; [spok|]].
  - cbn [sa_ref]. pose proof (c_sel _ _ _ _ _ _ _ _ _ B i P) as [S1 S2].
    apply (sa_write n d hs qp qd ss sl rc lf i _ qd ss sl _ B P).
    + rewrite set_eq. lia.
    + intros j Nj. rewrite set_ne by exact Nj. auto.
    + apply (c_par _ _ _ _ _ _ _ _ _ B i P).
    + apply (c_dis _ _ _ _ _ _ _ _ _ B i P).
    + reflexivity.
    + exact S1.
    + exact S2.
    + cbn [g_ref a_ref]. rewrite (c_ref _ _ _ _ _ _ _ _ _ B i P), set_eq. apply u32_id. lia.
    + reflexivity.
  - intros j. cbn [sa_ref sah w_sa]. unfold iupd. destruct (Nat.eqb_spec j i) as [->|]; reflexivity.
Qed.
Lemma sa_ref_ok' n d hs qp qd ss sl rc lf o : SaBase n d hs qp qd ss sl rc lf -> (forall i, o = Some i -> 0 < rc i /\ rc i + 1 < RMAX) ->
  exists rc', (forall i, rc' i = rc i + b2z (match o with Some j => Nat.eqb i j | None => false end)) /\
  SaBase n (sa_ref d o) hs qp qd ss sl rc' lf /\ sameP d (sa_ref d o) /\ (forall j, a_next (sah (sa_ref d o) j) = a_next (sah d j)).
Proof.
  intros B I. destruct o as [i|].
  - destruct (I i eq_refl) as [P Lm]. destruct (sa_ref_ok n d hs qp qd ss sl rc lf i B P Lm) as (B' & R & X).
    exists (set rc i (rc i + 1)). split; [|auto]. intros j. unfold set. destruct (Nat.eqb_spec j i) as [->|]; cbn [b2z]; lia.
  - exists rc. split; [intros; cbn [b2z]; lia|]. split; [exact B|]. split; [spok|reflexivity].
Qed.

(* a reference is dropped; not the last one of an installed SA *)
Lemma sa_unref_ok n d hs qp qd ss sl rc lf i : SaBase n d hs qp qd ss sl rc lf -> 0 < rc i -> rc i < RMAX ->
  (rc i = 1 -> ~ In i hs) ->
  exists lf', SaBase n (sa_unref d (Some i)) hs qp qd ss sl (set rc i (rc i - 1)) lf' /\ sameP d (sa_unref d (Some i)) /\
    (1 < rc i -> lf' = lf /\ forall j, a_next (sah (sa_unref d (Some i)) j) = a_next (sah d j)).
Proof.
  intros B P Lm HI. unfold RMAX in Lm.
  set (d1 := w_sa d i (g_ref (sah d i) (u32 (a_ref (sah d i) - 1)))).
  assert (R : u32 (a_ref (sah d i) - 1) = rc i - 1) by (rewrite (c_ref _ _ _ _ _ _ _ _ _ B i P); apply u32_id; lia).
  assert (E1 : forall j, sah d1 j = if Nat.eqb j i then g_ref (sah d i) (rc i - 1) else sah d j) by (intros j; unfold d1; rewrite R; reflexivity).
  assert (Ei : sah d1 i = g_ref (sah d i) (rc i - 1)) by (rewrite E1, Nat.eqb_refl; reflexivity).
  assert (NX : forall j, a_next (sah d1 j) = a_next (sah d j)) by (intros j; rewrite E1; destruct (Nat.eqb_spec j i) as [->|]; reflexivity).
  unfold sa_unref. fold d1. rewrite Ei. cbn [a_ref g_ref]. destruct (Z.eqb_spec (rc i - 1) 0) as [Z0|Z0].
  - assert (P1 : rc i = 1) by lia. specialize (HI P1). exists (i :: lf).
    assert (NF : ~ In i lf) by (intros X; apply (c_lf _ _ _ _ _ _ _ _ _ B) in X; tauto).
    assert (E2 : forall j, sah (sa_free d1 i) j = if Nat.eqb j i then g_next (sah d1 i) (saf d1) else sah d1 j) by reflexivity.
    assert (UU : forall j, 0 < set rc i (rc i - 1) j <-> 0 < rc j /\ j <> i).
    { intros j. unfold set. destruct (Nat.eqb_spec j i) as [->|Nj]; [split; [intros X; exfalso; lia|intros [_ X]; congruence]|tauto]. }
    split; [|split; [spok|intros X; exfalso; lia]].
    destruct B. constructor.
    + change (sal (sa_free d1 i)) with (sal d). apply (chain_ext (fun i => a_next (sah d i))); [|assumption].
      intros j Hj. rewrite E2. destruct (Nat.eqb_spec j i) as [->|]; [contradiction|apply NX].
    + change (saf (sa_free d1 i)) with (Some i). split; [reflexivity|]. rewrite E2, Nat.eqb_refl. cbn [a_next g_next].
      change (saf d1) with (saf d). apply (chain_ext (fun i => a_next (sah d i))); [|assumption].
      intros j Hj. rewrite E2. destruct (Nat.eqb_spec j i) as [->|]; [contradiction|apply NX].
    + assumption.
    + constructor; assumption.
    + intros j. rewrite UU. cbn [In]. rewrite c_lf0. split.
      * intros [<-|[X Y]]; [split; [apply c_lt0; exact P|tauto]|split; [exact X|tauto]].
      * intros [X Y]. destruct (Nat.eq_dec i j); [left; assumption|right; split; [exact X|]]. intros W. apply Y. split; [exact W|congruence].
    + intros j H. apply c_lt0, UU, H.
    + intros j H. apply UU. split; [auto|intros ->; contradiction].
    + intros j H. apply UU in H. destruct H as [H Nj]. rewrite E2, (E1 j). destruct (Nat.eqb_spec j i); [congruence|auto].
    + intros j H. apply UU in H. destruct H as [H Nj]. rewrite E2, (E1 j). destruct (Nat.eqb_spec j i); [congruence|auto].
    + intros j H. apply UU in H. destruct H as [H Nj]. rewrite E2, (E1 j). destruct (Nat.eqb_spec j i); [congruence|auto].
    + intros j H. apply UU in H. destruct H as [H Nj]. rewrite E2, (E1 j). destruct (Nat.eqb_spec j i); [congruence|auto].
    + intros j H. apply UU in H. destruct H as [H Nj]. rewrite E2, (E1 j). unfold set. destruct (Nat.eqb_spec j i); [congruence|auto].
    + intros j. unfold set. destruct (Nat.eqb_spec j i); [lia|auto].
  - exists lf. split; [|split; [spok|split; [reflexivity|exact NX]]]. unfold d1. rewrite R.
    pose proof (c_sel _ _ _ _ _ _ _ _ _ B i P) as [S1 S2].
    apply (sa_write n d hs qp qd ss sl rc lf i _ qd ss sl _ B P).
    + rewrite set_eq. lia.
    + intros j Nj. rewrite set_ne by exact Nj. auto.
    + apply (c_par _ _ _ _ _ _ _ _ _ B i P).
    + apply (c_dis _ _ _ _ _ _ _ _ _ B i P).
    + reflexivity.
    + exact S1.
    + exact S2.
    + rewrite set_eq. reflexivity.
    + reflexivity.
Qed.

(* iteration *)
Lemma sa_next_ok n d hs qp qd ss sl rc lf i : SaBase n d hs qp qd ss sl rc lf -> 0 < rc i -> (rc i = 1 -> ~ In i hs) -> (forall j, rc j + 1 < RMAX) ->
  (forall j, a_next (sah d i) = Some j -> In j hs) ->
  exists lf' rc', SaBase n (fst (sa_next d i)) hs qp qd ss sl rc' lf' /\ sameP d (fst (sa_next d i)) /\
    (forall j, rc' j = rc j + b2z (match a_next (sah d i) with Some k => Nat.eqb j k | None => false end) - b2z (Nat.eqb j i)).
Proof.
  intros B P HI Lm I. destruct (sa_ref_ok' n d hs qp qd ss sl rc lf (a_next (sah d i)) B) as (rc1 & E1 & B1 & R1 & _).
  { intros j Hj. split; [apply (c_in _ _ _ _ _ _ _ _ _ B), I, Hj|apply Lm]. }
  assert (P1 : rc i <= rc1 i <= rc i + 1).
  { rewrite E1. unfold b2z. destruct (a_next (sah d i)) as [k|]; [destruct (Nat.eqb i k)|]; lia. }
  destruct (sa_unref_ok n _ hs qp qd ss sl rc1 lf i B1) as (lf' & B2 & R2 & _).
  { lia. }
  { specialize (Lm i). lia. }
  { intros X. apply HI. lia. }
  exists lf', (set rc1 i (rc1 i - 1)). split; [exact B2|]. split; [apply (sameP_trans _ _ _ R1 R2)|].
  intros j. unfold set. destruct (Nat.eqb_spec j i) as [->|].
  - rewrite E1. unfold b2z at 3. lia.
  - rewrite E1. unfold b2z at 3. lia.
Qed.

(* creation *)
Lemma sa_alloc_none n d hs qp qd ss sl rc lf : SaBase n d hs qp qd ss sl rc lf -> saf d = None -> forall h, (h < n)%nat -> 0 < rc h.
Proof.
  intros B E h Hh. pose proof (chain_hd _ _ _ (c_free _ _ _ _ _ _ _ _ _ B)) as X. rewrite E in X.
  destruct lf as [|x r]; [|discriminate]. destruct (Z_lt_le_dec 0 (rc h)); [assumption|]. exfalso.
  apply (proj2 (c_lf _ _ _ _ _ _ _ _ _ B h)). split; [exact Hh|lia].
Qed.
Lemma sa_scratch n d d' hs qp qd ss sl rc lf i : SaBase n d hs qp qd ss sl rc lf -> saf d = Some i ->
  sal d' = sal d -> saf d' = saf d -> (forall j, j <> i -> sah d' j = sah d j) -> a_next (sah d' i) = a_next (sah d i) ->
  SaBase n d' hs qp qd ss sl rc lf.
Proof.
  intros B E E1 E2 E3 E4. pose proof (chain_hd _ _ _ (c_free _ _ _ _ _ _ _ _ _ B)) as X. rewrite E in X.
  assert (Hi : In i lf) by (destruct lf; [discriminate|injection X as ->; left; reflexivity]).
  apply (c_lf _ _ _ _ _ _ _ _ _ B) in Hi. destruct Hi as [_ Hi].
  assert (E5 : forall j, 0 < rc j -> sah d' j = sah d j) by (intros j Hj; apply E3; intros ->; contradiction).
  assert (NX : forall j, a_next (sah d' j) = a_next (sah d j)) by (intros j; destruct (Nat.eq_dec j i) as [->|]; [exact E4|rewrite E3; auto]).
  destruct B. constructor; try assumption; try (intros j Hj; rewrite (E5 j Hj); auto; fail).
  - rewrite E1. apply (chain_ext (fun i => a_next (sah d i))); [intros j _; apply NX|assumption].
  - rewrite E2. apply (chain_ext (fun i => a_next (sah d i))); [intros j _; apply NX|assumption].
Qed.

Lemma find_ext_in {A} (f g : A -> bool) l : (forall x, In x l -> f x = g x) -> find f l = find g l.
Proof.
  induction l as [|x r IH]; intros E; cbn [find]; [reflexivity|]. rewrite (E x (or_introl eq_refl)). destruct (g x); [reflexivity|].
  apply IH. intros y Hy. apply E. right. exact Hy.
Qed.

Definition sa_ok (hs : list nat) (qp : nat -> sapar) (q : sapar) (odp : bool) : bool :=
  negb (q_udp q || q_flabel q || ((q_mode q =? MODE_TUNNEL) && negb (q_tun q =? TUN_IPV4))) &&
  match find (fun h => q_id (qp h) =? q_id q) hs with Some _ => false | None => true end &&
  match find (fun h => (q_dir q =? DIR_IN) && ((q_dir (qp h) =? DIR_IN) && (q_spi (qp h) =? q_spi q))) hs with Some _ => false | None => true end && odp.

Lemma sa_create_ok n d hs qp qd ss sl rc lf q odp fuel : SaBase n d hs qp qd ss sl rc lf -> (n < fuel)%nat ->
  exists d' o, sa_create fuel d q odp = Ret (d', o) /\ sameP d d' /\
  match o with
  | None => SaBase n d' hs qp qd ss sl rc lf /\ (sa_ok hs qp q odp = false \/ forall h, (h < n)%nat -> 0 < rc h)
  | Some i => sa_ok hs qp q odp = true /\ (i < n)%nat /\ ~ 0 < rc i /\
      exists lf', SaBase n d' (i :: hs) (set qp i q) (set qd i false) (set ss i false) sl (set rc i 2) lf'
  end.
Proof.
  intros B F. unfold sa_create, sa_alloc. destruct (saf d) as [i|] eqn:E.
  2:{ exists d, None. split; [reflexivity|]. split; [spok|]. split; [exact B|]. right. apply (sa_alloc_none _ _ _ _ _ _ _ _ _ B E). }
  pose proof (c_free _ _ _ _ _ _ _ _ _ B) as Fr. rewrite E in Fr. destruct lf as [|x lf']; [discriminate Fr|].
  destruct Fr as [Fx Fr]. injection Fx as <-.
  destruct (proj1 (c_lf _ _ _ _ _ _ _ _ _ B i) (or_introl eq_refl)) as [Li NU].
  set (d1 := w_sa (w_saf d (a_next (sah d i))) i (g_ref (sah d i) 1)).
  assert (H1 : forall j, sah d1 j = if Nat.eqb j i then g_ref (sah d i) 1 else sah d j) by reflexivity.
  assert (NIh : ~ In i hs) by (intros X; apply NU, (c_in _ _ _ _ _ _ _ _ _ B), X).
  (* giving the record back restores the list *)
  assert (Back : forall d2, sal d2 = sal d -> saf d2 = a_next (sah d i) -> (forall j, j <> i -> sah d2 j = sah d j) ->
     a_ref (sah d2 i) = 1 -> sameP d d2 -> exists d', sa_unref d2 (Some i) = d' /\ sameP d d' /\ SaBase n d' hs qp qd ss sl rc (i :: lf')).
  { intros d2 Y1 Y2 Y3 Y4 Y5. exists (sa_unref d2 (Some i)). split; [reflexivity|].
    assert (U : sa_unref d2 (Some i) = sa_free (w_sa d2 i (g_ref (sah d2 i) 0)) i).
    { unfold sa_unref. rewrite Y4. change (u32 (1 - 1)) with 0. cbn [w_sa sah]. rewrite iupd_eq. reflexivity. }
    rewrite U. split; [apply (sameP_trans _ _ _ Y5); spok|].
    apply (sa_scratch n d _ hs qp qd ss sl rc _ i B E).
    - exact Y1.
    - symmetry. exact E.
    - intros j Nj. cbn [sa_free w_saf w_sa sah]. rewrite !iupd_ne by exact Nj. auto.
    - cbn [sa_free w_saf w_sa sah saf]. rewrite iupd_eq. cbn [a_next g_next]. exact Y2. }
  assert (Len : (length hs < fuel)%nat) by (pose proof (sa_length _ _ _ _ _ _ _ _ _ B); lia).
  assert (Ch1 : chain (fun j => a_next (sah d1 j)) (sal d1) hs).
  { apply (chain_ext (fun j => a_next (sah d j))); [|apply (c_chain _ _ _ _ _ _ _ _ _ B)]. intros j Hj. rewrite H1.
    destruct (Nat.eqb_spec j i) as [->|]; [contradiction|reflexivity]. }
  assert (Par1 : forall j, In j hs -> a_par (sah d1 j) = qp j).
  { intros j Hj. rewrite H1. destruct (Nat.eqb_spec j i) as [->|]; [contradiction|].
    apply (c_par _ _ _ _ _ _ _ _ _ B), (c_in _ _ _ _ _ _ _ _ _ B), Hj. }
  unfold sa_init.
  destruct (q_udp q || q_flabel q || ((q_mode q =? MODE_TUNNEL) && negb (q_tun q =? TUN_IPV4))) eqn:G1.
  { cbn [obind]. destruct (Back d1) as (d' & -> & X1 & X2); try reflexivity.
    - intros j Nj. rewrite H1. destruct (Nat.eqb_spec j i); [congruence|reflexivity].
    - rewrite H1, Nat.eqb_refl. reflexivity.
    - spok.
    - exists d', None. split; [reflexivity|]. split; [exact X1|]. split; [exact X2|]. left. unfold sa_ok. rewrite G1. reflexivity. }
  rewrite (sa_find_ok (sah d1) (by_id (q_id q)) hs fuel (sal d1) Ch1 Len).
  rewrite (find_ext_in (fun i0 => by_id (q_id q) (a_par (sah d1 i0))) (fun h => q_id (qp h) =? q_id q)).
  2:{ intros j Hj. rewrite (Par1 j Hj). reflexivity. }
  cbn [obind]. destruct (find (fun h => q_id (qp h) =? q_id q) hs) as [h1|] eqn:G2.
  { cbn [obind]. destruct (Back d1) as (d' & -> & X1 & X2); try reflexivity.
    - intros j Nj. rewrite H1. destruct (Nat.eqb_spec j i); [congruence|reflexivity].
    - rewrite H1, Nat.eqb_refl. reflexivity.
    - spok.
    - exists d', None. split; [reflexivity|]. split; [exact X1|]. split; [exact X2|]. left. unfold sa_ok. rewrite G1, G2. reflexivity. }
  assert (G3 : (if q_dir q =? DIR_IN then sa_find fuel (sah d1) (in_spi (q_spi q)) (sal d1) else Ret None) =
    Ret (find (fun h => (q_dir q =? DIR_IN) && ((q_dir (qp h) =? DIR_IN) && (q_spi (qp h) =? q_spi q))) hs)).
  { destruct (q_dir q =? DIR_IN).
    - rewrite (sa_find_ok (sah d1) (in_spi (q_spi q)) hs fuel (sal d1) Ch1 Len). f_equal. apply find_ext_in.
      intros j Hj. rewrite (Par1 j Hj). reflexivity.
    - f_equal. symmetry. apply find_none_iff. intros; reflexivity. }
  rewrite G3. cbn [obind]. clear G3.
  destruct (find (fun h => (q_dir q =? DIR_IN) && ((q_dir (qp h) =? DIR_IN) && (q_spi (qp h) =? q_spi q))) hs) as [h2|] eqn:G3.
  { cbn [obind]. destruct (Back d1) as (d' & -> & X1 & X2); try reflexivity.
    - intros j Nj. rewrite H1. destruct (Nat.eqb_spec j i); [congruence|reflexivity].
    - rewrite H1, Nat.eqb_refl. reflexivity.
    - spok.
    - exists d', None. split; [reflexivity|]. split; [exact X1|]. split; [exact X2|]. left. unfold sa_ok. rewrite G1, G2, G3. reflexivity. }
  rewrite (H1 i), Nat.eqb_refl. cbn [a_sel a_ref a_next g_ref].
  set (d2 := w_sa d1 i (mkSa q false false (a_sel (sah d i)) 1 false (a_next (sah d i)))).
  assert (H2 : forall j, sah d2 j = if Nat.eqb j i then mkSa q false false (a_sel (sah d i)) 1 false (a_next (sah d i)) else sah d j).
  { intros j. unfold d2. cbn [w_sa sah]. unfold iupd. destruct (Nat.eqb_spec j i); [reflexivity|]. rewrite H1. destruct (Nat.eqb_spec j i); [congruence|reflexivity]. }
  destruct odp; cbn [negb].
  2:{ cbn [obind]. destruct (Back d2) as (d' & -> & X1 & X2); try reflexivity.
    - intros j Nj. rewrite H2. destruct (Nat.eqb_spec j i); [congruence|reflexivity].
    - rewrite H2, Nat.eqb_refl. reflexivity.
    - spok.
    - exists d', None. split; [reflexivity|]. split; [exact X1|]. split; [exact X2|]. left. unfold sa_ok. rewrite G1, G2, G3. reflexivity. }
  cbn [obind]. exists (sa_ref (w_sal (w_sa d2 i (g_next (sah d2 i) (sal d2))) (Some i)) (Some i)), (Some i).
  split; [reflexivity|]. split; [spok|]. split; [unfold sa_ok; rewrite G1, G2, G3; reflexivity|].
  split; [exact Li|]. split; [exact NU|]. exists lf'.
  set (d3 := sa_ref (w_sal (w_sa d2 i (g_next (sah d2 i) (sal d2))) (Some i)) (Some i)).
  assert (H3 : forall j, sah d3 j = if Nat.eqb j i then mkSa q false false (a_sel (sah d i)) 2 false (sal d) else sah d j).
  { intros j. unfold d3. cbn [sa_ref w_sa w_sal sah]. unfold iupd. rewrite Nat.eqb_refl.
    destruct (Nat.eqb_spec j i); [|rewrite H2; destruct (Nat.eqb_spec j i); [congruence|reflexivity]].
    rewrite (H2 i), Nat.eqb_refl. reflexivity. }
  pose proof (c_ndf _ _ _ _ _ _ _ _ _ B) as NDF. inversion NDF as [|? ? NF NDF']; subst.
  assert (UU : forall j, 0 < set rc i 2 j <-> j = i \/ 0 < rc j).
  { intros j. unfold set. destruct (Nat.eqb_spec j i) as [->|]; [split; [auto|intros _; lia]|tauto]. }
  assert (L3 : sal d3 = Some i) by reflexivity. assert (F3 : saf d3 = a_next (sah d i)) by reflexivity.
  clearbody d3. destruct B. constructor.
  + rewrite L3. split; [reflexivity|]. rewrite H3, Nat.eqb_refl. cbn [a_next].
    apply (chain_ext (fun i => a_next (sah d i))); [|assumption]. intros j Hj. rewrite H3.
    destruct (Nat.eqb_spec j i) as [->|]; [contradiction|reflexivity].
  + rewrite F3. apply (chain_ext (fun i => a_next (sah d i))); [|exact Fr].
    intros j Hj. rewrite H3. destruct (Nat.eqb_spec j i) as [->|]; [contradiction|reflexivity].
  + constructor; assumption.
  + assumption.
  + intros j. rewrite UU. specialize (c_lf0 j). cbn [In] in c_lf0. split.
    * intros Hj. destruct (proj1 c_lf0 (or_intror Hj)) as [X Y]. split; [exact X|]. intros [->|W]; [contradiction|tauto].
    * intros [X Y]. destruct (proj2 c_lf0 (conj X (fun W => Y (or_intror W)))) as [<-|W]; [exfalso; apply Y; left; reflexivity|exact W].
  + intros j H. apply UU in H. destruct H as [->|H]; [exact Li|auto].
  + intros j H. apply UU. destruct H as [->|H]; [left; reflexivity|right; auto].
  + intros j H. apply UU in H. rewrite H3. unfold set. destruct (Nat.eqb_spec j i) as [->|Nj]; [reflexivity|]. destruct H; [congruence|auto].
  + intros j H. apply UU in H. rewrite H3. unfold set. destruct (Nat.eqb_spec j i) as [->|Nj]; [reflexivity|]. destruct H; [congruence|auto].
  + intros j H. apply UU in H. rewrite H3, isin_cons. destruct (Nat.eqb_spec j i) as [->|Nj]; [reflexivity|]. destruct H; [congruence|]. cbn [orb]. auto.
  + intros j H. apply UU in H. rewrite H3. unfold set. destruct (Nat.eqb_spec j i) as [->|Nj]; [split; [reflexivity|discriminate]|]. destruct H; [congruence|auto].
  + intros j H. apply UU in H. rewrite H3. unfold set. destruct (Nat.eqb_spec j i) as [->|Nj]; [reflexivity|]. destruct H; [congruence|auto].
  + intros j. unfold set. destruct (Nat.eqb_spec j i); [lia|auto].
Qed.

(* unlinking an SA *)
Lemma sa_fin_ok n d qp qd ss sl rc lf l1 i l2 fuel : SaBase n d (l1 ++ i :: l2) qp qd ss sl rc lf -> rc i < RMAX -> (n < fuel)%nat ->
  exists d' lf', sa_destroy_finish fuel d i true = Ret (d', true) /\
    SaBase n d' (l1 ++ l2) qp qd ss sl (set rc i (rc i - 1)) lf' /\ sameP d d' /\
    (1 < rc i -> a_next (sah d' i) = a_next (sah d i)).
Proof.
  intros B Lm F. pose proof (c_nd _ _ _ _ _ _ _ _ _ B) as ND. destruct (nodup_split _ _ _ ND) as (N1 & N2 & ND').
  assert (Fl : (length l1 < fuel)%nat) by (pose proof (sa_length _ _ _ _ _ _ _ _ _ B) as X; rewrite app_length in X; lia).
  assert (Pi : 0 < rc i) by (apply (c_in _ _ _ _ _ _ _ _ _ B), in_app_iff; right; left; reflexivity).
  unfold sa_destroy_finish. rewrite (sp_pred_ok _ i l2 l1 fuel None (sal d) (c_chain _ _ _ _ _ _ _ _ _ B) N1 Fl). cbn [obind negb].
  set (da := match lastopt None l1 with
             | None => w_sal d (a_next (sah d i))
             | Some j => w_sa d j (g_next (sah d j) (a_next (sah d i)))
             end).
  assert (A : chain (fun k => a_next (sah da k)) (sal da) (l1 ++ l2) /\ saf da = saf d /\
     (forall k, sah da k = if match lastopt None l1 with Some j => Nat.eqb k j | None => false end then g_next (sah d k) (a_next (sah d i)) else sah d k) /\
     sameP d da).
  { destruct (list_end l1) as [->|(l' & j & ->)].
    - unfold da. cbn [lastopt fold_left app]. pose proof (chain_tail _ _ _ _ _ (c_chain _ _ _ _ _ _ _ _ _ B)) as T. cbv beta in T.
      split; [exact T|]. split; [reflexivity|]. split; [reflexivity|]. spok.
    - unfold da. rewrite lastopt_app. cbv iota.
      assert (Sj : forall k, sah (w_sa d j (g_next (sah d j) (a_next (sah d i)))) k = if Nat.eqb k j then g_next (sah d j) (a_next (sah d i)) else sah d k) by reflexivity.
      assert (NX : forall k, a_next (sah (w_sa d j (g_next (sah d j) (a_next (sah d i)))) k) = if Nat.eqb k j then a_next (sah d i) else a_next (sah d k)).
      { intros k. rewrite Sj. destruct (Nat.eqb_spec k j) as [->|]; reflexivity. }
      split; [|split; [reflexivity|split; [|spok]]].
      + rewrite <- app_assoc in *. cbn [app] in *. pose proof (c_chain _ _ _ _ _ _ _ _ _ B) as C.
        destruct (nodup_split _ _ _ ND) as (M1 & M2 & _).
        apply (chain_splice _ _ j (i :: l2) l2 l' _ C).
        * intros k Hk. cbv beta. rewrite NX. destruct (Nat.eqb_spec k j) as [->|]; [contradiction|reflexivity].
        * cbv beta. rewrite NX, Nat.eqb_refl. change (l' ++ j :: i :: l2) with (l' ++ [j] ++ i :: l2) in C. rewrite app_assoc in C.
          pose proof (chain_tail _ _ _ _ _ C) as T. cbv beta in T. apply (chain_ext (fun k => a_next (sah d k))); [|exact T].
          intros k Hk. rewrite NX. destruct (Nat.eqb_spec k j) as [->|]; [exfalso; apply M2; right; exact Hk|reflexivity].
      + intros k. rewrite Sj. destruct (Nat.eqb_spec k j) as [->|]; reflexivity. }
  destruct A as (A1 & A2 & A3 & A5). fold da.
  set (d2 := w_sa da i (g_destr (sah da i) true)).
  assert (Li : forall k, match lastopt None l1 with Some j => Nat.eqb k j | None => false end = true -> In k l1).
  { intros k. destruct (list_end l1) as [->|(l' & j & ->)]; [discriminate|]. rewrite lastopt_app. intros X. apply Nat.eqb_eq in X. subst.
    apply in_app_iff. right. left. reflexivity. }
  assert (Ai : sah da i = sah d i).
  { rewrite A3. destruct (match lastopt None l1 with Some j => Nat.eqb i j | None => false end) eqn:Q; [|reflexivity].
    exfalso. apply N1, Li, Q. }
  assert (Sb : forall k, sah d2 k = if Nat.eqb k i then g_destr (sah d i) true else sah da k).
  { intros k. unfold d2. rewrite Ai. reflexivity. }
  assert (Fld : forall k, k <> i -> a_par (sah d2 k) = a_par (sah d k) /\ a_dis (sah d2 k) = a_dis (sah d k) /\ a_selset (sah d2 k) = a_selset (sah d k) /\
     a_sel (sah d2 k) = a_sel (sah d k) /\ a_ref (sah d2 k) = a_ref (sah d k) /\ a_destr (sah d2 k) = a_destr (sah d k)).
  { intros k Nk. rewrite Sb. destruct (Nat.eqb_spec k i); [congruence|]. rewrite A3.
    destruct (match lastopt None l1 with Some j => Nat.eqb k j | None => false end); repeat split. }
  assert (NXb : forall k, a_next (sah d2 k) = a_next (sah da k)).
  { intros k. rewrite Sb. destruct (Nat.eqb_spec k i) as [->|Nk]; [rewrite Ai; reflexivity|reflexivity]. }
  assert (B2 : SaBase n d2 (l1 ++ l2) qp qd ss sl rc lf).
  { destruct B. constructor.
    + change (sal d2) with (sal da). apply (chain_ext (fun k => a_next (sah da k))); [intros k _; apply NXb|exact A1].
    + change (saf d2) with (saf da). rewrite A2. apply (chain_ext (fun k => a_next (sah d k))); [|assumption].
      intros k Hk. rewrite NXb, A3. destruct (match lastopt None l1 with Some j => Nat.eqb k j | None => false end) eqn:Q; [|reflexivity].
      exfalso. apply c_lf0 in Hk. apply (proj2 Hk), c_in0, in_app_iff. left. apply Li. exact Q.
    + exact ND'.
    + assumption.
    + assumption.
    + assumption.
    + intros k H. apply c_in0. apply in_app_iff in H. apply in_app_iff. cbn [In]. tauto.
    + intros k H. destruct (Nat.eq_dec k i) as [->|Nk]; [rewrite Sb, Nat.eqb_refl; apply c_par0; exact H|]. destruct (Fld k Nk) as (-> & _). auto.
    + intros k H. destruct (Nat.eq_dec k i) as [->|Nk]; [rewrite Sb, Nat.eqb_refl; apply c_dis0; exact H|]. destruct (Fld k Nk) as (_ & -> & _). auto.
    + intros k H. destruct (Nat.eq_dec k i) as [->|Nk].
      * rewrite Sb, Nat.eqb_refl. cbn [a_destr g_destr]. symmetry. apply negb_true_iff. apply isin_not.
        intros W. apply in_app_iff in W. tauto.
      * destruct (Fld k Nk) as (_ & _ & _ & _ & _ & ->). rewrite (c_destr0 k H). f_equal.
        apply eq_true_iff_eq. rewrite !isin_in, !in_app_iff. cbn [In]. intuition congruence.
    + intros k H. destruct (Nat.eq_dec k i) as [->|Nk]; [rewrite Sb, Nat.eqb_refl; apply c_sel0; exact H|]. destruct (Fld k Nk) as (_ & _ & -> & -> & _). auto.
    + intros k H. destruct (Nat.eq_dec k i) as [->|Nk]; [rewrite Sb, Nat.eqb_refl; apply c_ref0; exact H|]. destruct (Fld k Nk) as (_ & _ & _ & _ & -> & _). auto.
    + assumption. }
  destruct (sa_unref_ok n d2 (l1 ++ l2) qp qd ss sl rc lf i B2 Pi Lm) as (lf' & B3 & P3 & NX3).
  { intros _ W. apply in_app_iff in W. tauto. }
  exists (sa_unref d2 (Some i)), lf'. split; [reflexivity|]. split; [exact B3|].
  split; [apply (sameP_trans _ _ _ A5 P3)|]. intros H1. destruct (NX3 H1) as [_ X]. rewrite X, NXb, Ai. reflexivity.
Qed.
