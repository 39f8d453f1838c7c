(* The policy side: records, reference counts, free list and look-up lists. *)
From Verif Require Import Base IpsecModel IpsecSpec IpsecList.
Ltac Zify.zify_post_hook ::= idtac.

Definition isin (i : nat) (l : list nat) : bool := existsb (Nat.eqb i) l.
Definition b2z (b : bool) : Z := if b then 1 else 0.
Lemma isin_in i l : isin i l = true <-> In i l.
Proof.
  unfold isin. rewrite existsb_exists. split; [intros (x & H & E); apply Nat.eqb_eq in E; subst; exact H|].
  intros H. exists i. split; [exact H|apply Nat.eqb_refl].
Qed.
Lemma isin_not i l : isin i l = false <-> ~ In i l.
Proof. rewrite <- isin_in. destruct (isin i l); split; congruence. Qed.
Lemma isin_cons i x l : isin i (x :: l) = Nat.eqb i x || isin i l.
Proof. reflexivity. Qed.

Definition usedp (hs : list nat) (pc : nat -> Z) (i : nat) : Prop := In i hs \/ 0 < pc i.
Record SpBase (n : nat) (d : db) (hs : list nat) (pp : nat -> spar) (pc : nat -> Z) (lf : list nat) : Prop := {
  b_chain : chain (fun i => n_next (sph d i)) (spl d) hs;
  b_free : chain (fun i => n_next (sph d i)) (spf d) lf;
  b_nd : NoDup hs; b_ndf : NoDup lf;
  b_lf : forall i, In i lf <-> (i < n)%nat /\ ~ usedp hs pc i;
  b_lt : forall i, usedp hs pc i -> (i < n)%nat;
  b_par : forall i, usedp hs pc i -> n_par (sph d i) = par_ntohl (pp i);
  b_destr : forall i, usedp hs pc i -> n_destr (sph d i) = negb (isin i hs);
  b_ref : forall i, usedp hs pc i -> n_ref (sph d i) = pc i + b2z (isin i hs);
  b_pos : forall i, 0 <= pc i }.

(* nothing SpBase looks at changed *)
Definition sameB (d d' : db) : Prop :=
  spl d' = spl d /\ spf d' = spf d /\
  forall i, n_par (sph d' i) = n_par (sph d i) /\ n_next (sph d' i) = n_next (sph d i) /\
            n_ref (sph d' i) = n_ref (sph d i) /\ n_destr (sph d' i) = n_destr (sph d i).
(* only policy reference counts and links changed *)
Definition sameR (d d' : db) : Prop :=
  inl d' = inl d /\ outl d' = outl d /\ sah d' = sah d /\ sal d' = sal d /\ saf d' = saf d /\
  active d' = active d /\ rheld d' = rheld d /\
  forall i, n_nl (sph d' i) = n_nl (sph d i) /\ n_sa (sph d' i) = n_sa (sph d i).
Lemma sameR_refl d : sameR d d.
Proof. unfold sameR. intuition. Qed.
Lemma sameR_trans a b c : sameR a b -> sameR b c -> sameR a c.
Proof.
  intros (A1 & A2 & A3 & A4 & A5 & A6 & A7 & A8) (B1 & B2 & B3 & B4 & B5 & B6 & B7 & B8). unfold sameR.
  rewrite B1, B2, B3, B4, B5, B6, B7. repeat (split; [assumption|]). intros i. destruct (A8 i), (B8 i). split; congruence.
Qed.

Lemma base_same n d d' hs pp pc lf : sameB d d' -> SpBase n d hs pp pc lf -> SpBase n d' hs pp pc lf.
Proof.
  intros (E1 & E2 & E) B. destruct B. constructor; try assumption.
  - rewrite E1. apply (chain_ext (fun i => n_next (sph d i))); [|assumption]. intros i _. apply (E i).
  - rewrite E2. apply (chain_ext (fun i => n_next (sph d i))); [|assumption]. intros i _. apply (E i).
  - intros i H. destruct (E i) as (-> & _). auto.
  - intros i H. destruct (E i) as (_ & _ & _ & ->). auto.
  - intros i H. destruct (E i) as (_ & _ & -> & _). auto.
Qed.
Lemma base_ext n d hs pp pc pp' pc' lf : (forall i, pc' i = pc i) -> (forall i, usedp hs pc i -> pp' i = pp i) ->
  SpBase n d hs pp pc lf -> SpBase n d hs pp' pc' lf.
Proof.
  intros E1 E2 B. assert (U : forall i, usedp hs pc' i <-> usedp hs pc i) by (intros i; unfold usedp; rewrite E1; reflexivity).
  destruct B. constructor; try assumption.
  - intros i. rewrite U. apply b_lf0.
  - intros i H. apply b_lt0, U, H.
  - intros i H. rewrite E2 by (apply U; exact H). apply b_par0, U, H.
  - intros i H. apply b_destr0, U, H.
  - intros i H. rewrite E1. apply b_ref0, U, H.
  - intros i. rewrite E1. apply b_pos0.
Qed.
Lemma base_length n d hs pp pc lf : SpBase n d hs pp pc lf -> (length hs <= n)%nat.
Proof. intros B. apply nodup_lt_length; [apply (b_nd _ _ _ _ _ _ B)|]. intros i Hi. apply (b_lt _ _ _ _ _ _ B). left. exact Hi. Qed.

Lemma set_eq {A} (f : nat -> A) i x : set f i x i = x.
Proof. unfold set. rewrite Nat.eqb_refl. reflexivity. Qed.
Lemma set_ne {A} (f : nat -> A) i x j : j <> i -> set f i x j = f j.
Proof. unfold set. intros N. destruct (Nat.eqb_spec j i); congruence. Qed.
Lemma u32_id x : 0 <= x < 4294967296 -> u32 x = x.
Proof. intros H. unfold u32. apply Z.mod_small. exact H. Qed.

Lemma lf_disjoint n d hs pp pc lf i : SpBase n d hs pp pc lf -> usedp hs pc i -> ~ In i lf.
Proof. intros B U X. apply (b_lf _ _ _ _ _ _ B) in X. tauto. Qed.

Lemma sp_ref_ok n d hs pp pc lf i : SpBase n d hs pp pc lf -> usedp hs pc i -> pc i < LIMIT + 8 ->
  SpBase n (sp_ref d (Some i)) hs pp (set pc i (pc i + 1)) lf /\ sameR d (sp_ref d (Some i)) /\
  (forall j, n_next (sph (sp_ref d (Some i)) j) = n_next (sph d j)).
Proof.
  intros B U Lm. pose proof (b_pos _ _ _ _ _ _ B i) as P. unfold LIMIT in Lm.
  assert (R : u32 (n_ref (sph d i) + 1) = pc i + 1 + b2z (isin i hs)).
  { rewrite (b_ref _ _ _ _ _ _ B i U). rewrite u32_id; [lia|]. unfold b2z. destruct (isin i hs); lia. }
  assert (UU : forall j, usedp hs (set pc i (pc i + 1)) j <-> usedp hs pc j).
  { intros j. destruct (Nat.eq_dec j i) as [->|Nj]; unfold usedp in *; [rewrite set_eq; split; [auto|intros _; right; lia]|rewrite set_ne by exact Nj; reflexivity]. }
  assert (NX : forall j, n_next (sph (sp_ref d (Some i)) j) = n_next (sph d j)).
  { intros j. cbn [sp_ref sph w_sp]. unfold iupd. destruct (Nat.eqb_spec j i) as [->|]; reflexivity. }
  split; [|split; [|exact NX]].
  - destruct B. constructor; try assumption.
    + cbn [sp_ref spl w_sp]. apply (chain_ext (fun i => n_next (sph d i))); [intros j _; apply NX|assumption].
    + cbn [sp_ref spf w_sp]. apply (chain_ext (fun i => n_next (sph d i))); [intros j _; apply NX|assumption].
    + intros j. rewrite UU. apply b_lf0.
    + intros j H. apply b_lt0, UU, H.
    + intros j H. rewrite <- b_par0 by (apply UU; exact H). cbn [sp_ref sph w_sp]. unfold iupd. destruct (Nat.eqb_spec j i) as [->|]; reflexivity.
    + intros j H. rewrite <- b_destr0 by (apply UU; exact H). cbn [sp_ref sph w_sp]. unfold iupd. destruct (Nat.eqb_spec j i) as [->|]; reflexivity.
    + intros j H. apply UU in H. cbn [sp_ref sph w_sp]. unfold iupd, set. destruct (Nat.eqb_spec j i) as [->|]; [cbn [n_ref f_ref]; exact R|auto].
    + intros j. unfold set. destruct (Nat.eqb_spec j i) as [->|]; [lia|auto].
  - unfold sameR. cbn [sp_ref sph w_sp inl outl sah sal saf active rheld]. repeat (split; [reflexivity|]).
    intros j. unfold iupd. destruct (Nat.eqb_spec j i) as [->|]; split; reflexivity.
Qed.
Lemma sp_ref_ok' n d hs pp pc lf o : SpBase n d hs pp pc lf -> (forall i, o = Some i -> In i hs) -> (forall i, pc i < LIMIT + 8) ->
  exists pc', (forall i, pc' i = pc i + b2z (match o with Some j => Nat.eqb i j | None => false end)) /\
  SpBase n (sp_ref d o) hs pp pc' lf /\ sameR d (sp_ref d o) /\ (forall j, n_next (sph (sp_ref d o) j) = n_next (sph d j)).
Proof.
  intros B I Lm. destruct o as [i|].
  - destruct (sp_ref_ok n d hs pp pc lf i B (or_introl (I i eq_refl)) (Lm i)) as (B' & R & X). exists (set pc i (pc i + 1)).
    split; [|auto]. intros j. unfold set. destruct (Nat.eqb_spec j i) as [->|]; cbn [b2z]; lia.
  - exists pc. split; [intros; cbn [b2z]; lia|]. split; [exact B|]. split; [apply sameR_refl|reflexivity].
Qed.

Lemma sp_unref_ok n d hs pp pc lf i : SpBase n d hs pp pc lf -> 0 < pc i -> pc i < LIMIT + 8 ->
  exists lf', SpBase n (sp_unref d (Some i)) hs pp (set pc i (pc i - 1)) lf' /\ sameR d (sp_unref d (Some i)).
Proof.
  intros B P Lm. unfold LIMIT in Lm.
  assert (U : usedp hs pc i) by (right; exact P).
  assert (R : u32 (n_ref (sph d i) - 1) = pc i - 1 + b2z (isin i hs)).
  { rewrite (b_ref _ _ _ _ _ _ B i U). rewrite u32_id; [lia|]. unfold b2z. destruct (isin i hs); lia. }
  set (d1 := w_sp d i (f_ref (sph d i) (u32 (n_ref (sph d i) - 1)))).
  assert (E1 : forall j, sph d1 j = if Nat.eqb j i then f_ref (sph d i) (u32 (n_ref (sph d i) - 1)) else sph d j) by reflexivity.
  assert (Ei : sph d1 i = f_ref (sph d i) (u32 (n_ref (sph d i) - 1))) by (rewrite E1, Nat.eqb_refl; reflexivity).
  assert (S1 : sameR d d1).
  { unfold sameR, d1. cbn [w_sp inl outl sah sal saf active rheld]. repeat (split; [reflexivity|]).
    intros j. fold d1. rewrite E1. destruct (Nat.eqb_spec j i) as [->|]; split; reflexivity. }
  assert (NX : forall j, n_next (sph d1 j) = n_next (sph d j)) by (intros j; rewrite E1; destruct (Nat.eqb_spec j i) as [->|]; reflexivity).
  unfold sp_unref. fold d1. destruct (Z.eqb_spec (n_ref (sph d1 i)) 0) as [Z0|Z0].
  - (* last reference: freed *)
    rewrite Ei in Z0. cbn [n_ref f_ref] in Z0. rewrite R in Z0.
    assert (NI : isin i hs = false) by (destruct (isin i hs); [unfold b2z in Z0; exfalso; lia|reflexivity]).
    assert (P1 : pc i = 1) by (rewrite NI in Z0; unfold b2z in Z0; lia).
    apply isin_not in NI.
    assert (NF : ~ In i lf) by (apply (lf_disjoint _ _ _ _ _ _ _ B U)).
    exists (i :: lf).
    assert (E2 : forall j, sph (sp_free d1 i) j = if Nat.eqb j i then f_next (sph d1 i) (spf d1) else sph d1 j) by reflexivity.
    assert (UU : forall j, usedp hs (set pc i (pc i - 1)) j <-> usedp hs pc j /\ j <> i).
    { intros j. unfold usedp, set. destruct (Nat.eqb_spec j i) as [->|Nj].
      - split; [intros [X|X]; [contradiction|exfalso; lia]|intros [_ X]; congruence].
      - split; [intros X; split; [exact X|exact Nj]|intros [X _]; exact X]. }
    split.
    + destruct B. constructor.
      * change (spl (sp_free d1 i)) with (spl d). apply (chain_ext (fun i => n_next (sph d i))); [|assumption].
        intros j Hj. rewrite E2. destruct (Nat.eqb_spec j i) as [->|]; [contradiction|apply NX].
      * change (spf (sp_free d1 i)) with (Some i). split; [reflexivity|]. rewrite E2, Nat.eqb_refl. cbn [n_next f_next].
        change (spf d1) with (spf d). apply (chain_ext (fun i => n_next (sph d i))); [|assumption].
        intros j Hj. rewrite E2. destruct (Nat.eqb_spec j i) as [->|]; [contradiction|apply NX].
      * assumption.
      * constructor; assumption.
      * intros j. rewrite UU. cbn [In]. rewrite b_lf0. split.
        -- intros [<-|[X Y]]; [split; [apply b_lt0; exact U|tauto]|split; [exact X|tauto]].
        -- intros [X Y]. destruct (Nat.eq_dec i j); [left; assumption|right; split; [exact X|]]. intros W. apply Y. split; [exact W|congruence].
      * intros j H. apply b_lt0, UU, H.
      * intros j H. apply UU in H. destruct H as [H Nj]. rewrite E2, (E1 j). destruct (Nat.eqb_spec j i); [congruence|auto].
      * intros j H. apply UU in H. destruct H as [H Nj]. rewrite E2, (E1 j). destruct (Nat.eqb_spec j i); [congruence|auto].
      * intros j H. apply UU in H. destruct H as [H Nj]. rewrite E2, (E1 j). unfold set. destruct (Nat.eqb_spec j i); [congruence|auto].
      * intros j. unfold set. destruct (Nat.eqb_spec j i); [lia|auto].
    + apply (sameR_trans _ d1); [exact S1|]. unfold sameR.
      repeat (split; [reflexivity|]). intros j. rewrite E2. destruct (Nat.eqb_spec j i) as [->|]; split; reflexivity.
  - exists lf. split; [|exact S1]. rewrite Ei in Z0. cbn [n_ref f_ref] in Z0. rewrite R in Z0.
    assert (UU : forall j, usedp hs (set pc i (pc i - 1)) j <-> usedp hs pc j).
    { intros j. unfold usedp, set. destruct (Nat.eqb_spec j i) as [->|Nj]; [|reflexivity].
      split; [intros _; right; exact P|]. intros _. destruct (isin i hs) eqn:Q; [left; apply isin_in; exact Q|]. right. unfold b2z in Z0. lia. }
    destruct B. constructor; try assumption.
    + change (spl d1) with (spl d). apply (chain_ext (fun i => n_next (sph d i))); [intros j _; apply NX|assumption].
    + change (spf d1) with (spf d). apply (chain_ext (fun i => n_next (sph d i))); [intros j _; apply NX|assumption].
    + intros j. rewrite UU. apply b_lf0.
    + intros j H. apply b_lt0, UU, H.
    + intros j H. rewrite <- b_par0 by (apply UU; exact H). rewrite E1. destruct (Nat.eqb_spec j i) as [->|]; reflexivity.
    + intros j H. rewrite <- b_destr0 by (apply UU; exact H). rewrite E1. destruct (Nat.eqb_spec j i) as [->|]; reflexivity.
    + intros j H. apply UU in H. rewrite E1. unfold set. destruct (Nat.eqb_spec j i) as [->|]; [cbn [n_ref f_ref]; exact R|auto].
    + intros j. unfold set. destruct (Nat.eqb_spec j i) as [->|]; [lia|auto].
Qed.

(* iteration: nx is what follows i *)
Lemma sp_next_ok n d hs pp pc lf i : SpBase n d hs pp pc lf -> 0 < pc i -> (forall j, pc j < LIMIT + 4) ->
  (forall j, n_next (sph d i) = Some j -> In j hs) ->
  exists lf' pc', SpBase n (fst (sp_next d i)) hs pp pc' lf' /\ sameR d (fst (sp_next d i)) /\
    (forall j, pc' j = pc j + b2z (match n_next (sph d i) with Some k => Nat.eqb j k | None => false end) - b2z (Nat.eqb j i)).
Proof.
  intros B P Lm I. destruct (sp_ref_ok' n d hs pp pc lf (n_next (sph d i)) B I) as (pc1 & E1 & B1 & R1 & _).
  { intros j. specialize (Lm j). unfold LIMIT in *. lia. }
  assert (P1 : 0 < pc1 i).
  { rewrite E1. unfold b2z. destruct (n_next (sph d i)) as [k|]; [destruct (Nat.eqb i k)|]; lia. }
  assert (L1 : pc1 i < LIMIT + 8).
  { rewrite E1. specialize (Lm i). unfold b2z, LIMIT in *. destruct (n_next (sph d i)) as [k|]; [destruct (Nat.eqb i k)|]; lia. }
  destruct (sp_unref_ok n _ hs pp pc1 lf i B1 P1 L1) as (lf' & B2 & R2).
  exists lf', (set pc1 i (pc1 i - 1)). split; [exact B2|]. split; [apply (sameR_trans _ _ _ R1 R2)|].
  intros j. unfold set. destruct (Nat.eqb_spec j i) as [->|].
  - rewrite E1. unfold b2z at 3. lia.
  - rewrite E1. unfold b2z at 3. lia.
Qed.

(* creation *)
Lemma sp_alloc_none n d hs pp pc lf : SpBase n d hs pp pc lf -> spf d = None -> forall h, (h < n)%nat -> usedp hs pc h.
Proof.
  intros B E h Hh. pose proof (chain_hd _ _ _ (b_free _ _ _ _ _ _ B)) as X. rewrite E in X.
  destruct lf as [|x r]; [|discriminate]. destruct (isin h hs) eqn:Q; [left; apply isin_in; exact Q|].
  apply isin_not in Q. destruct (Z_lt_le_dec 0 (pc h)); [right; assumption|]. exfalso.
  apply (proj2 (b_lf _ _ _ _ _ _ B h)). split; [exact Hh|]. intros [W|W]; [contradiction|lia].
Qed.

Definition newrec (d : db) (i : nat) (p : spar) : db :=
  let d := w_sp (w_spf d (n_next (sph d i))) i (f_ref (sph d i) 1) in
  let n := sph d i in
  let d := w_sp d i (mkSp (par_ntohl p) (n_nl n) None (n_ref n) false (spl d)) in
  sp_ref (w_spl d (Some i)) (Some i).
Lemma newrec_ok n d hs pp pc lf i : SpBase n d hs pp pc lf -> spf d = Some i -> forall p,
  (i < n)%nat /\ ~ usedp hs pc i /\
  exists lf', SpBase n (newrec d i p) (i :: hs) (set pp i p) (set pc i 1) lf' /\
  n_sa (sph (newrec d i p) i) = None /\
  (forall j, j <> i -> n_nl (sph (newrec d i p) j) = n_nl (sph d j) /\ n_sa (sph (newrec d i p) j) = n_sa (sph d j)) /\
  inl (newrec d i p) = inl d /\ outl (newrec d i p) = outl d /\ sah (newrec d i p) = sah d /\ sal (newrec d i p) = sal d /\
  saf (newrec d i p) = saf d /\ active (newrec d i p) = active d /\ rheld (newrec d i p) = rheld d.
Proof.
  intros B E p. pose proof (b_free _ _ _ _ _ _ B) as F. rewrite E in F. destruct lf as [|x lf']; [discriminate F|].
  destruct F as [Fx F]. injection Fx as <-.
  pose proof (b_ndf _ _ _ _ _ _ B) as NDF. inversion NDF as [|? ? NF NDF']; subst.
  destruct (proj1 (b_lf _ _ _ _ _ _ B i) (or_introl eq_refl)) as [Li NU].
  split; [exact Li|]. split; [exact NU|]. exists lf'.
  assert (Ph : forall j, sph (newrec d i p) j = if Nat.eqb j i then mkSp (par_ntohl p) (n_nl (sph d i)) None 2 false (spl d) else sph d j).
  { intros j. unfold newrec. cbn [sp_ref w_spl w_sp w_spf sph spl]. unfold iupd. rewrite !Nat.eqb_refl. cbn [n_nl n_ref f_ref].
    destruct (Nat.eqb j i); [|reflexivity]. cbn [n_par n_nl n_sa n_ref n_destr n_next f_ref]. reflexivity. }
  assert (UU : forall j, usedp (i :: hs) (set pc i 1) j <-> j = i \/ usedp hs pc j).
  { intros j. unfold usedp, set. cbn [In]. destruct (Nat.eqb_spec j i) as [->|Nj]; [split; intros _; left; auto|]. intuition congruence. }
  split; [|split; [|split]].
  - destruct B. constructor.
    + change (spl (newrec d i p)) with (Some i). split; [reflexivity|]. rewrite Ph, Nat.eqb_refl. cbn [n_next].
      apply (chain_ext (fun i => n_next (sph d i))); [|assumption]. intros j Hj. rewrite Ph.
      destruct (Nat.eqb_spec j i) as [->|]; [exfalso; apply NU; left; exact Hj|reflexivity].
    + change (spf (newrec d i p)) with (n_next (sph d i)). apply (chain_ext (fun i => n_next (sph d i))); [|exact F].
      intros j Hj. rewrite Ph. destruct (Nat.eqb_spec j i) as [->|]; [contradiction|reflexivity].
    + constructor; [|assumption]. intros X. apply NU. left. exact X.
    + assumption.
    + intros j. rewrite UU. specialize (b_lf0 j). cbn [In] in b_lf0. split.
      * intros Hj. destruct (proj1 b_lf0 (or_intror Hj)) as [X Y]. split; [exact X|]. intros [->|W]; [contradiction|tauto].
      * intros [X Y]. destruct (proj2 b_lf0 (conj X (fun W => Y (or_intror W)))) as [<-|W]; [exfalso; apply Y; left; reflexivity|exact W].
    + intros j H. apply UU in H. destruct H as [->|H]; [exact Li|auto].
    + intros j H. apply UU in H. rewrite Ph. unfold set. destruct (Nat.eqb_spec j i) as [->|Nj]; [reflexivity|]. destruct H; [congruence|auto].
    + intros j H. apply UU in H. rewrite Ph, isin_cons. destruct (Nat.eqb_spec j i) as [->|Nj]; [reflexivity|]. destruct H; [congruence|]. cbn [orb]. auto.
    + intros j H. apply UU in H. rewrite Ph, isin_cons. unfold set. destruct (Nat.eqb_spec j i) as [->|Nj]; [reflexivity|]. destruct H; [congruence|]. cbn [orb]. auto.
    + intros j. unfold set. destruct (Nat.eqb_spec j i); [lia|auto].
  - rewrite Ph, Nat.eqb_refl. reflexivity.
  - intros j Nj. rewrite Ph. destruct (Nat.eqb_spec j i); [congruence|split; reflexivity].
  - repeat split.
Qed.

(* unlinking a policy whose handle the client holds *)
Lemma sp_del_ok n d pp pc lf l1 i l2 fuel : SpBase n d (l1 ++ i :: l2) pp pc lf -> 0 < pc i -> pc i < LIMIT + 4 -> (n < fuel)%nat ->
  exists d', sp_del fuel d i = Ret (d', true) /\ SpBase n d' (l1 ++ l2) pp pc lf /\ sameR d d' /\
    n_next (sph d' i) = n_next (sph d i).
Proof.
  intros B P Lm F. pose proof (b_nd _ _ _ _ _ _ B) as ND. destruct (nodup_split _ _ _ ND) as (N1 & N2 & ND').
  assert (Fl : (length l1 < fuel)%nat) by (pose proof (base_length _ _ _ _ _ _ B) as X; rewrite app_length in X; lia).
  unfold sp_del. rewrite (sp_pred_ok _ i l2 l1 fuel None (spl d) (b_chain _ _ _ _ _ _ B) N1 Fl). cbn [obind].
  pose proof (chain_next _ _ _ _ _ (b_chain _ _ _ _ _ _ B)) as NXi. cbv beta in NXi.
  set (da := match lastopt None l1 with
             | None => w_spl d (n_next (sph d i))
             | Some j => w_sp d j (f_next (sph d j) (n_next (sph d i)))
             end).
  (* the list is right, everything else but the count of i *)
  assert (A : chain (fun k => n_next (sph da k)) (spl da) (l1 ++ l2) /\ spf da = spf d /\
     (forall k, n_next (sph da k) = if match lastopt None l1 with Some j => Nat.eqb k j | None => false end then n_next (sph d i) else n_next (sph d k)) /\
     (forall k, n_par (sph da k) = n_par (sph d k) /\ n_ref (sph da k) = n_ref (sph d k) /\ n_destr (sph da k) = n_destr (sph d k)) /\
     sameR d da).
  { destruct (list_end l1) as [->|(l' & j & ->)].
    - unfold da. cbn [lastopt fold_left app]. pose proof (chain_tail _ _ _ _ _ (b_chain _ _ _ _ _ _ B)) as T. cbv beta in T.
      split; [exact T|]. split; [reflexivity|]. split; [reflexivity|]. split; [repeat split|]. unfold sameR. cbn. intuition.
    - unfold da. rewrite lastopt_app. cbv iota.
      assert (Sj : forall k, sph (w_sp d j (f_next (sph d j) (n_next (sph d i)))) k = if Nat.eqb k j then f_next (sph d j) (n_next (sph d i)) else sph d k) by reflexivity.
      assert (NX : forall k, n_next (sph (w_sp d j (f_next (sph d j) (n_next (sph d i)))) k) = if Nat.eqb k j then n_next (sph d i) else n_next (sph d k)).
      { intros k. rewrite Sj. destruct (Nat.eqb_spec k j) as [->|]; reflexivity. }
      split; [|split; [reflexivity|split; [exact NX|split]]].
      + rewrite <- app_assoc in *. cbn [app] in *. pose proof (b_chain _ _ _ _ _ _ B) as C.
        destruct (nodup_split _ _ _ ND) as (M1 & M2 & _).
        apply (chain_splice _ _ j (i :: l2) l2 l' _ C).
        * intros k Hk. cbv beta. rewrite NX. destruct (Nat.eqb_spec k j) as [->|]; [contradiction|reflexivity].
        * cbv beta. rewrite NX, Nat.eqb_refl. change (l' ++ j :: i :: l2) with (l' ++ [j] ++ i :: l2) in C. rewrite app_assoc in C.
          pose proof (chain_tail _ _ _ _ _ C) as T. cbv beta in T. apply (chain_ext (fun k => n_next (sph d k))); [|exact T].
          intros k Hk. rewrite NX. destruct (Nat.eqb_spec k j) as [->|]; [exfalso; apply M2; right; exact Hk|reflexivity].
      + intros k. rewrite Sj. destruct (Nat.eqb_spec k j) as [->|]; repeat split.
      + unfold sameR. repeat (split; [reflexivity|]). intros k. rewrite Sj. destruct (Nat.eqb_spec k j) as [->|]; split; reflexivity. }
  destruct A as (A1 & A2 & A3 & A4 & A5). fold da.
  set (db1 := w_sp da i (f_destr (sph da i) true)).
  assert (Li : forall k, match lastopt None l1 with Some j => Nat.eqb k j | None => false end = true -> In k l1).
  { intros k. destruct (list_end l1) as [->|(l' & j & ->)]; [discriminate|]. rewrite lastopt_app. intros X. apply Nat.eqb_eq in X. subst.
    apply in_app_iff. right. left. reflexivity. }
  assert (NXi' : n_next (sph da i) = n_next (sph d i)).
  { rewrite A3. destruct (match lastopt None l1 with Some j => Nat.eqb i j | None => false end) eqn:Q; [reflexivity|reflexivity]. }
  assert (Sb : forall k, sph db1 k = if Nat.eqb k i then f_destr (sph da i) true else sph da k) by reflexivity.
  assert (R1 : n_ref (sph d i) = pc i + 1).
  { rewrite (b_ref _ _ _ _ _ _ B i (or_intror P)). rewrite (proj2 (isin_in i _)); [reflexivity|]. apply in_app_iff. right. left. reflexivity. }
  pose proof (b_pos _ _ _ _ _ _ B i) as Pp.
  assert (R2 : u32 (n_ref (sph db1 i) - 1) = pc i).
  { rewrite Sb, Nat.eqb_refl. cbn [n_ref f_destr]. destruct (A4 i) as (_ & -> & _). rewrite R1. unfold LIMIT in Lm. rewrite u32_id; lia. }
  set (dc := w_sp db1 i (f_ref (sph db1 i) (u32 (n_ref (sph db1 i) - 1)))).
  assert (Sc : forall k, sph dc k = if Nat.eqb k i then f_ref (sph db1 i) (pc i) else sph db1 k).
  { intros k. unfold dc. rewrite R2. reflexivity. }
  assert (UR : sp_unref db1 (Some i) = dc).
  { unfold sp_unref. fold dc. rewrite Sc, Nat.eqb_refl. cbn [n_ref f_ref]. destruct (Z.eqb_spec (pc i) 0); [exfalso; lia|reflexivity]. }
  rewrite UR. exists dc. split; [reflexivity|].
  assert (NXc : forall k, n_next (sph dc k) = n_next (sph da k)).
  { intros k. rewrite Sc. destruct (Nat.eqb_spec k i) as [->|Nk]; [cbn [n_next f_ref]; rewrite Sb, Nat.eqb_refl; reflexivity|].
    rewrite Sb. destruct (Nat.eqb_spec k i); [congruence|reflexivity]. }
  assert (UU : forall k, usedp (l1 ++ l2) pc k <-> usedp (l1 ++ i :: l2) pc k).
  { intros k. unfold usedp. rewrite !in_app_iff. cbn [In]. split; [tauto|]. intros [[X|[X|X]]|X]; try tauto. subst. tauto. }
  split; [|split].
  - destruct B. constructor.
    + change (spl dc) with (spl da). apply (chain_ext (fun k => n_next (sph da k))); [intros k _; apply NXc|exact A1].
    + change (spf dc) with (spf da). rewrite A2. apply (chain_ext (fun k => n_next (sph d k))); [|assumption].
      intros k Hk. rewrite NXc, A3. destruct (match lastopt None l1 with Some j => Nat.eqb k j | None => false end) eqn:Q; [|reflexivity].
      exfalso. apply b_lf0 in Hk. apply (proj2 Hk). left. apply in_app_iff. left. apply Li. exact Q.
    + exact ND'.
    + assumption.
    + intros k. rewrite UU. apply b_lf0.
    + intros k H. apply b_lt0, UU, H.
    + intros k H. apply UU in H. rewrite <- (b_par0 k H). rewrite Sc. destruct (A4 k) as (X & _).
      destruct (Nat.eqb_spec k i) as [->|Nk]; cbn [n_par f_ref]; rewrite Sb; [rewrite Nat.eqb_refl; exact X|]. destruct (Nat.eqb_spec k i); [congruence|exact X].
    + intros k H. apply UU in H. destruct (A4 k) as (_ & _ & X). rewrite Sc. destruct (Nat.eqb_spec k i) as [->|Nk].
      * cbn [n_destr f_ref]. rewrite Sb, Nat.eqb_refl. cbn [n_destr f_destr]. symmetry. apply negb_true_iff. apply isin_not.
        intros W. apply in_app_iff in W. tauto.
      * rewrite Sb. destruct (Nat.eqb_spec k i); [congruence|]. rewrite X, (b_destr0 k H). f_equal.
        apply eq_true_iff_eq. rewrite !isin_in, !in_app_iff. cbn [In]. intuition congruence.
    + intros k H. apply UU in H. destruct (A4 k) as (_ & X & _). rewrite Sc. destruct (Nat.eqb_spec k i) as [->|Nk].
      * cbn [n_ref f_ref]. rewrite (proj2 (isin_not i (l1 ++ l2))); [unfold b2z; lia|]. intros W. apply in_app_iff in W. tauto.
      * rewrite Sb. destruct (Nat.eqb_spec k i); [congruence|]. rewrite X, (b_ref0 k H). do 2 f_equal.
        apply eq_true_iff_eq. rewrite !isin_in, !in_app_iff. cbn [In]. intuition congruence.
    + assumption.
  - apply (sameR_trans _ da); [exact A5|]. unfold sameR.
    repeat (split; [reflexivity|]). intros k. rewrite Sc. destruct (Nat.eqb_spec k i) as [->|Nk]; cbn [n_nl n_sa f_ref]; rewrite Sb.
    + rewrite Nat.eqb_refl. split; reflexivity.
    + destruct (Nat.eqb_spec k i); [congruence|split; reflexivity].
  - rewrite NXc. exact NXi'.
Qed.
