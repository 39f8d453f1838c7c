(* Lemmas about the reassembly model. *)
From Coq Require Import Permutation.
From Verif Require Import Base CksumModel CksumSpec CksumProof CksumProof2 CksumProof3 ReassModel ReassSpec.
Ltac Zify.zify_post_hook ::= idtac.

Lemma zlen_nonneg l : 0 <= zlen l. Proof. unfold zlen. lia. Qed.
Lemma zlen_app a b : zlen (a ++ b) = zlen a + zlen b.
Proof. unfold zlen. rewrite app_length. lia. Qed.
Lemma zlen_ztake n l : 0 <= n <= zlen l -> zlen (ztake n l) = n.
Proof. unfold zlen, ztake. intros H. rewrite firstn_length. lia. Qed.
Lemma zlen_zdrop n l : 0 <= n <= zlen l -> zlen (zdrop n l) = zlen l - n.
Proof. unfold zlen, zdrop. intros H. rewrite skipn_length. lia. Qed.
Lemma ztake_zdrop n l : ztake n l ++ zdrop n l = l.
Proof. apply firstn_skipn. Qed.
Lemma ztake_app_exact n a b : zlen a = n -> ztake n (a ++ b) = a.
Proof.
  unfold ztake, zlen. intros H. rewrite firstn_app.
  replace (Z.to_nat n - length a)%nat with 0%nat by lia. cbn [firstn].
  rewrite app_nil_r. apply firstn_all2. lia.
Qed.
Lemma zdrop_zdrop a b l : 0 <= a -> 0 <= b -> zdrop a (zdrop b l) = zdrop (a + b) l.
Proof.
  unfold zdrop. intros. replace (Z.to_nat (a + b)) with (Z.to_nat b + Z.to_nat a)%nat by lia.
  generalize (Z.to_nat a) (Z.to_nat b). clear. intros x y.
  revert l. induction y; intros l; [reflexivity|]. destruct l; [destruct x; reflexivity|]. cbn. apply IHy.
Qed.
Lemma ztake_ztake a b l : 0 <= a <= b -> ztake a (ztake b l) = ztake a l.
Proof. unfold ztake. intros. rewrite firstn_firstn. f_equal. lia. Qed.
Lemma zdrop_ztake a b l : 0 <= a -> zdrop a (ztake (a + b) l) = ztake b (zdrop a l).
Proof.
  unfold ztake, zdrop. intros Ha.
  destruct (Z.le_gt_cases 0 b).
  - replace (Z.to_nat (a + b)) with (Z.to_nat a + Z.to_nat b)%nat by lia.
    generalize (Z.to_nat a) (Z.to_nat b). clear. intros x y.
    revert l. induction x; intros l; [reflexivity|]. destruct l; cbn; [destruct y; reflexivity|]. apply IHx.
  - replace (Z.to_nat b) with 0%nat by lia. cbn [firstn]. apply skipn_all2.
    rewrite firstn_length. lia.
Qed.

(* ---- safety of single fragments ---- *)
Definition fsafe (f : frag) : Prop :=
  0 <= fr_off f < 65536 /\ 0 <= fr_len f < 65536 /\ fr_len f <= zlen (fr_data f).

Lemma cut_ok f over : fsafe f -> 0 < over < fr_len f ->
  exists f', cut f over = Ret f' /\ fsafe f' /\ fr_uid f' = fr_uid f /\ fr_hdr f' = fr_hdr f /\
    fr_flags f' = fr_flags f /\ fr_len f' = fr_len f - over /\
    fr_off f' = (fr_off f + over) mod 65536 /\
    ztake (fr_len f') (fr_data f') = ztake (fr_len f') (zdrop over (ztake (fr_len f) (fr_data f))).
Proof.
  intros (H1 & H2 & H3) Ho. unfold cut.
  destruct (Z.ltb_spec (zlen (fr_data f)) (fr_len f)); [lia|].
  eexists. split; [reflexivity|]. cbn [fr_off fr_len fr_data fr_uid fr_hdr fr_flags]. unfold u16.
  assert (EL : (fr_len f - over) mod 65536 = fr_len f - over) by (apply Z.mod_small; lia).
  rewrite EL. unfold fsafe. cbn [fr_off fr_len fr_data]. rewrite ?EL.
  assert (L1 : zlen (zdrop over (fr_data f)) = zlen (fr_data f) - over) by (apply zlen_zdrop; lia).
  assert (L2 : zlen (ztake (fr_len f - over) (zdrop over (fr_data f))) = fr_len f - over)
    by (apply zlen_ztake; lia).
  assert (L3 : zlen (zdrop (fr_len f - over) (fr_data f)) = zlen (fr_data f) - (fr_len f - over))
    by (apply zlen_zdrop; lia).
  split.
  { split; [apply Z.mod_pos_bound; lia|]. split; [lia|]. rewrite zlen_app. lia. }
  repeat (split; [reflexivity|]).
  rewrite ztake_app_exact by exact L2.
  replace (fr_len f) with (over + (fr_len f - over)) at 3 by lia.
  rewrite zdrop_ztake by lia. rewrite ztake_ztake by lia. reflexivity.
Qed.

Section Inv.
(* K: what all fragments of the chain satisfy (depends on header and flags
   only); T: a fragment whose bytes are what was received at its offset *)
Variable K : frag -> Prop.
Variable T : frag -> Prop.
Hypothesis Kcut : forall f o f', K f -> cut f o = Ret f' -> K f'.
Hypothesis Tcut : forall f o f', fsafe f -> T f -> 0 < o < fr_len f -> fr_off f + o < 65536 ->
   cut f o = Ret f' -> T f'.

Definition cross (f : frag) : Prop := fr_off f + fr_len f >= 65536.

Fixpoint good (l : list frag) : Prop :=
  match l with [] => True | f :: r => T f /\ (cross f \/ good r) end.

Definition fok (f : frag) : Prop := fsafe f /\ K f.

Lemma trim_total : forall l prev, fsafe prev -> Forall fok l ->
  exists r fd, trim prev l = Ret (r, fd) /\ Forall fok r /\ Permutation (uids r ++ fd) (uids l).
Proof.
  induction l as [|f l IH]; intros prev Hp HF; cbn [trim].
  { exists [], []. repeat split; constructor. }
  inversion HF as [|? ? [Hs Hk] HF']; subst.
  set (over := fr_off prev + fr_len prev - fr_off f).
  destruct (over >? 0) eqn:E1.
  - destruct (over >=? fr_len f) eqn:E2.
    + destruct (IH prev Hp HF') as (r & fd & -> & A & B). exists r, (fr_uid f :: fd). cbn [obind].
      split; [reflexivity|]. split; [exact A|].
      cbn [uids map]. rewrite <- B. symmetry. apply Permutation_middle.
    + assert (HO : 0 < over < fr_len f) by lia.
      destruct (cut_ok f over Hs HO) as (f' & E & Hs' & U & _).
      rewrite E. cbn [obind]. destruct (IH f' Hs' HF') as (r & fd & -> & A & B). cbn [obind].
      exists (f' :: r), fd. split; [reflexivity|]. split.
      * constructor; [split; [exact Hs'|exact (Kcut f over f' Hk E)]|exact A].
      * cbn [uids map app]. rewrite U. constructor. exact B.
  - destruct (IH f Hs HF') as (r & fd & -> & A & B). cbn [obind].
    exists (f :: r), fd. split; [reflexivity|]. split; [constructor; [split; assumption|exact A]|].
    cbn [uids map app]. constructor. exact B.
Qed.

Lemma trim_good : forall l prev r fd, fsafe prev -> Forall fok l -> ~ cross prev -> good l ->
  trim prev l = Ret (r, fd) -> good r.
Proof.
  induction l as [|f l IH]; intros prev r fd Hp HF NC G H; cbn [trim] in H.
  { injection H as <- <-. exact I. }
  inversion HF as [|? ? [Hs Hk] HF']; subst. destruct G as [Tf G].
  unfold cross in *.
  set (over := fr_off prev + fr_len prev - fr_off f) in *.
  destruct (over >? 0) eqn:E1.
  - destruct (over >=? fr_len f) eqn:E2.
    + destruct (trim_total l prev Hp HF') as (r' & fd' & ER & _). rewrite ER in H. cbn [obind] in H.
      injection H as <- <-. eapply (IH prev); try eassumption.
      destruct G as [G|G]; [|exact G]. exfalso. lia.
    + assert (HO : 0 < over < fr_len f) by lia.
      destruct (cut_ok f over Hs HO) as (f' & E & Hs' & U & _ & _ & EL & EO & _).
      rewrite E in H. cbn [obind] in H.
      destruct (trim_total l f' Hs' HF') as (r' & fd' & ER & _). rewrite ER in H. cbn [obind] in H.
      injection H as <- <-. cbn [good].
      assert (NW : fr_off f + over < 65536) by lia.
      assert (EO' : fr_off f' = fr_off f + over) by (rewrite EO; apply Z.mod_small; destruct Hs; lia).
      split; [exact (Tcut f over f' Hs Tf HO NW E)|].
      destruct (Z.lt_ge_cases (fr_off f' + fr_len f') 65536) as [C|C]; [right|left; unfold cross; lia].
      eapply (IH f'); try eassumption; [unfold cross; lia|]. destruct G as [G|G]; [|exact G]. lia.
  - destruct (trim_total l f Hs HF') as (r' & fd' & ER & _). rewrite ER in H. cbn [obind] in H.
    injection H as <- <-. cbn [good]. split; [exact Tf|].
    destruct (Z.lt_ge_cases (fr_off f + fr_len f) 65536) as [C|C]; [right|left; unfold cross; lia].
    eapply (IH f); try eassumption; [unfold cross; lia|]. destruct G as [G|G]; [lia|exact G].
Qed.

Lemma trim_cons_good p l r fd : fsafe p -> T p -> Forall fok l -> good l ->
  trim p l = Ret (r, fd) -> good (p :: r).
Proof.
  intros Hp Tp HF G H. cbn [good]. split; [exact Tp|].
  destruct (Z.lt_ge_cases (fr_off p + fr_len p) 65536) as [C|C]; [right|left; unfold cross; lia].
  eapply trim_good; try eassumption. unfold cross. lia.
Qed.

Lemma place_total : forall l p prev, fok p -> Forall fok l -> (forall q, prev = Some q -> fsafe q) ->
  exists o, place p prev l = Ret o /\
  match o with
  | None => prev <> None \/ l <> []
  | Some (l', fd) => Forall fok l' /\ l' <> [] /\ Permutation (uids l' ++ fd) (fr_uid p :: uids l)
  end.
Proof.
  induction l as [|f l IH]; intros p prev Hp HF HQ; cbn [place].
  { exists (Some ([p], [])). split; [reflexivity|]. split; [constructor; [exact Hp|constructor]|].
    split; [discriminate|]. reflexivity. }
  inversion HF as [|? ? [Hs Hk] HF']; subst. destruct Hp as [Ps Pk].
  destruct (fr_off p <=? fr_off f) eqn:E0.
  - assert (TR : forall p', fsafe p' -> K p' -> fr_uid p' = fr_uid p -> exists o,
       obind (trim p' (f :: l)) (fun '(r', fd) => Ret (Some (p' :: r', fd))) = Ret o /\
       match o with None => prev <> None \/ f :: l <> []
       | Some (l', fd) => Forall fok l' /\ l' <> [] /\ Permutation (uids l' ++ fd) (fr_uid p :: uids (f :: l)) end).
    { intros p' Hs' Hk' U. destruct (trim_total (f :: l) p' Hs' HF) as (r & fd & -> & A & B).
      cbn [obind]. eexists. split; [reflexivity|]. cbn beta iota. split; [constructor; [split; assumption|exact A]|].
      split; [discriminate|]. cbn [uids map app]. rewrite U. constructor. exact B. }
    destruct prev as [q|]; [|apply TR; auto].
    pose proof (HQ q eq_refl) as Qs. set (over := fr_off q + fr_len q - fr_off p).
    destruct (over >? 0) eqn:E1; [|apply TR; auto].
    destruct (over >=? fr_len p) eqn:E2.
    + exists None. split; [reflexivity|]. left. discriminate.
    + assert (HO : 0 < over < fr_len p) by lia.
      destruct (cut_ok p over Ps HO) as (p' & E & Hs' & U & _). rewrite E. cbn [obind].
      apply TR; [exact Hs'|exact (Kcut p over p' Pk E)|exact U].
  - destruct (IH p (Some f) (conj Ps Pk) HF') as (o & -> & A).
    { intros q E. injection E as <-. exact Hs. }
    cbn [obind]. destruct o as [[r' fd]|].
    + eexists. split; [reflexivity|]. cbn beta iota. destruct A as (A & B & C).
      split; [constructor; [split; assumption|exact A]|]. split; [discriminate|].
      cbn [uids map app]. cbn [uids map] in C. rewrite (perm_swap (fr_uid f) (fr_uid p)). constructor. exact C.
    + eexists. split; [reflexivity|]. right. discriminate.
Qed.

Lemma place_good : forall l p prev l' fd, fok p -> T p -> Forall fok l -> good l ->
  (forall q, prev = Some q -> fsafe q /\ ~ cross q) ->
  place p prev l = Ret (Some (l', fd)) -> good l'.
Proof.
  induction l as [|f l IH]; intros p prev l' fd [Ps Pk] Tp HF G HQ H; cbn [place] in H.
  { injection H as <- <-. cbn [good]. auto. }
  pose proof HF as HFF. inversion HF as [|? ? [Hs Hk] HF']; subst.
  destruct (fr_off p <=? fr_off f) eqn:E0.
  - assert (TR : forall p', fsafe p' -> T p' ->
       obind (trim p' (f :: l)) (fun '(r', fd) => Ret (Some (p' :: r', fd))) = Ret (Some (l', fd)) -> good l').
    { intros p' Hs' Tp' X. destruct (trim_total (f :: l) p' Hs' HFF) as (r & fd' & ER & _).
      rewrite ER in X. cbn [obind] in X. injection X as <- <-. exact (trim_cons_good p' (f :: l) r fd' Hs' Tp' HFF G ER). }
    destruct prev as [q|]; [|apply (TR p); auto].
    destruct (HQ q eq_refl) as [Qs NC]. unfold cross in NC. set (over := fr_off q + fr_len q - fr_off p) in *.
    destruct (over >? 0) eqn:E1; [|apply (TR p); auto].
    destruct (over >=? fr_len p) eqn:E2; [discriminate|].
    assert (HO : 0 < over < fr_len p) by lia.
    destruct (cut_ok p over Ps HO) as (p' & E & Hs' & U & _). rewrite E in H. cbn [obind] in H.
    apply (TR p'); auto. apply (Tcut p over p'); auto. lia.
  - destruct (place_total l p (Some f) (conj Ps Pk) HF') as (o & EO & _).
    { intros q E. injection E as <-. exact Hs. }
    rewrite EO in H. cbn [obind] in H. destruct o as [[r' fd']|]; [|discriminate].
    injection H as <- <-. destruct G as [Tf G]. cbn [good]. split; [exact Tf|].
    destruct (Z.lt_ge_cases (fr_off f + fr_len f) 65536) as [C|C]; [right|left; unfold cross; lia].
    eapply (IH p (Some f)); try eassumption; try (split; assumption).
    + destruct G as [G|G]; [unfold cross in G; lia|exact G].
    + intros q E. injection E as <-. split; [exact Hs|unfold cross; lia].
Qed.

(* ---- completion ---- *)
Definition piece (f : frag) : list Z := ztake (fr_len f) (fr_data f).
Definition payload (l : list frag) : list Z := concat (map piece l).

Fixpoint span (n : Z) (l : list frag) : Prop :=
  match l with [] => True | f :: r => fr_off f = n /\ span (n + fr_len f) r end.

Lemma complete_mono : forall l n s total, Forall fok l -> complete n s l = Some total -> n <= total.
Proof.
  induction l as [|f l IH]; intros n s total HF H; cbn [complete] in H.
  - destruct (Z.land s OFP_IP_MF =? 0); [|discriminate]. injection H as <-. lia.
  - destruct (fr_off f =? n); [|discriminate]. inversion HF as [|? ? [[_ [Hl _]] _] HF']; subst.
    specialize (IH _ _ _ HF' H). lia.
Qed.

Lemma complete_span : forall l n s total, Forall fok l -> complete n s l = Some total ->
  span n l /\ total = n + zlen (payload l) /\
  (l = [] \/ exists f, In f l /\ Z.land (fr_flags f) OFP_IP_MF = 0 /\ fr_off f + fr_len f = total).
Proof.
  induction l as [|f l IH]; intros n s total HF H; cbn [complete] in H.
  - destruct (Z.land s OFP_IP_MF =? 0); [|discriminate]. injection H as <-.
    cbn. split; [exact I|]. split; [lia|auto].
  - destruct (Z.eqb_spec (fr_off f) n) as [EO|]; [|discriminate].
    inversion HF as [|? ? [[Ho [Hl Hd]] _] HF']; subst.
    assert (X : l = [] -> Z.land (fr_flags f) OFP_IP_MF = 0 /\ total = fr_off f + fr_len f).
    { intros ->. cbn [complete] in H. destruct (Z.land (fr_flags f) OFP_IP_MF =? 0) eqn:E; [|discriminate].
      injection H as <-. lia. }
    destruct (IH _ _ _ HF' H) as (A & B & C). cbn [span]. split; [auto|].
    unfold payload. cbn [map concat]. rewrite zlen_app. unfold piece at 1. rewrite zlen_ztake by lia.
    split; [unfold payload in B; lia|]. right.
    destruct C as [->|(g & Hg & G1 & G2)].
    + exists f. destruct (X eq_refl). split; [left; reflexivity|]. lia.
    + exists g. split; [right; exact Hg|auto].
Qed.

Lemma good_all : forall l n s total, Forall fok l -> good l -> complete n s l = Some total ->
  total < 65536 -> Forall T l.
Proof.
  induction l as [|f l IH]; intros n s total HF G H HT; [constructor|].
  pose proof HF as HF0. inversion HF as [|? ? [[Ho [Hl Hd]] _] HF']; subst. cbn [complete] in H.
  destruct (Z.eqb_spec (fr_off f) n) as [EO|]; [|discriminate].
  destruct G as [Tf G]. constructor; [exact Tf|].
  pose proof (complete_mono _ _ _ _ HF' H). eapply IH; try eassumption.
  destruct G as [G|G]; [unfold cross in G; lia|exact G].
Qed.

Lemma nth_piece : forall l n i, Forall fok l -> span n l -> 0 <= i < zlen (payload l) ->
  exists f, In f l /\ fr_off f <= n + i < fr_off f + fr_len f /\
   nth_error (payload l) (Z.to_nat i) = nth_error (piece f) (Z.to_nat (n + i - fr_off f)).
Proof.
  induction l as [|f l IH]; intros n i HF S H; [cbn in H; lia|].
  inversion HF as [|? ? [[Ho [Hl Hd]] _] HF']; subst. destruct S as [EO S].
  unfold payload in *. cbn [map concat] in *. rewrite zlen_app in H.
  assert (LP : zlen (piece f) = fr_len f) by (apply zlen_ztake; lia). rewrite LP in H.
  destruct (Z.lt_ge_cases i (fr_len f)) as [C|C].
  - exists f. split; [left; reflexivity|]. split; [lia|].
    rewrite nth_error_app1 by (unfold zlen in LP; lia). f_equal. lia.
  - destruct (IH (n + fr_len f) (i - fr_len f) HF' S) as (g & Hg & G1 & G2); [lia|].
    exists g. split; [right; exact Hg|]. split; [lia|].
    rewrite nth_error_app2 by (unfold zlen in LP; lia).
    replace (Z.to_nat i - length (piece f))%nat with (Z.to_nat (i - fr_len f)) by (unfold zlen in LP; lia).
    rewrite G2. f_equal. lia.
Qed.

Lemma add_frags_ok : forall l data pos, Forall fok l -> 0 <= pos <= zlen data ->
  exists data', add_frags data pos l = Ret (data', pos + zlen (payload l)) /\
    pos + zlen (payload l) <= zlen data' /\
    ztake (pos + zlen (payload l)) data' = ztake pos data ++ payload l.
Proof.
  induction l as [|f l IH]; intros data pos HF HP; cbn [add_frags].
  - exists data. assert (E : zlen (payload []) = 0) by reflexivity. rewrite E, Z.add_0_r.
    change (payload []) with (@nil Z). rewrite app_nil_r. split; [reflexivity|]. split; [lia|reflexivity].
  - inversion HF as [|? ? [[Ho [Hl Hd]] _] HF']; subst.
    destruct (Z.ltb_spec (zlen data) pos); [lia|]. destruct (Z.ltb_spec (zlen (fr_data f)) (fr_len f)); [lia|].
    cbn [orb].
    assert (L1 : zlen (ztake pos data) = pos) by (apply zlen_ztake; lia).
    assert (L2 : zlen (ztake (fr_len f) (fr_data f)) = fr_len f) by (apply zlen_ztake; lia).
    assert (L3 : zlen (zdrop pos data) = zlen data - pos) by (apply zlen_zdrop; lia).
    set (d1 := ztake pos data ++ ztake (fr_len f) (fr_data f) ++ zdrop pos data).
    assert (HD : zlen d1 = zlen data + fr_len f) by (unfold d1; rewrite !zlen_app; lia).
    destruct (IH d1 (pos + fr_len f) HF') as (d' & E & A & B); [lia|].
    exists d'. rewrite E. unfold payload in *. cbn [map concat]. rewrite zlen_app. assert (LP : zlen (piece f) = fr_len f) by exact L2. rewrite LP.
    split; [do 2 f_equal; lia|]. split; [lia|].
    rewrite Z.add_assoc, B. rewrite app_assoc. f_equal.
    unfold d1. rewrite app_assoc. apply ztake_app_exact. rewrite zlen_app. lia.
Qed.
End Inv.
