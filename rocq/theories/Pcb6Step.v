(* Every legal call returns and keeps the invariant. *)
From Verif Require Import Base Pcb6Model Pcb6Spec Pcb6Proof.
Ltac Zify.zify_post_hook ::= idtac.

Lemma upd_eq {A} (f : nat -> A) i x : upd f i x i = x.
Proof. unfold upd. rewrite Nat.eqb_refl. reflexivity. Qed.
Lemma upd_ne {A} (f : nat -> A) i x j : j <> i -> upd f i x j = f j.
Proof. intros H. unfold upd. apply Nat.eqb_neq in H. rewrite H. reflexivity. Qed.
Lemma in_unlink i j l : In j (unlink i l) <-> In j l /\ j <> i.
Proof. unfold unlink. rewrite filter_In, negb_true_iff, Nat.eqb_neq. reflexivity. Qed.
Lemma set_get d i p : get (set_pcb d i p) i = Ret p.
Proof. unfold get, set_pcb. cbn [pcbs]. rewrite upd_eq. reflexivity. Qed.
Lemma get_some d i p : pcbs d i = Some p -> get d i = Ret p.
Proof. unfold get. intros ->. reflexivity. Qed.

Definition fam_ok (p : pcb) : Prop := v6 p = false -> v4 p = true /\ fst (la p) = 0 /\ fst (fa p) = 0.
Definition same_but (d d' : db) (i : nat) : Prop := forall j, j <> i -> pcbs d' j = pcbs d j.

(* a change of the flags or of the local address *)
Lemma inv_set h d i p p' : Inv h d -> pcbs d i = Some p -> lp p' = lp p -> fa p' = fa p -> fp p' = fp p ->
  hashed p' = hashed p -> (hashed p = false -> la p' = any) -> fam_ok p' ->
  Inv h (set_pcb d i p').
Proof.
  intros I E E1 E2 E3 E4 Hl F.
  assert (G : forall j q, holds (set_pcb d i p') j q -> exists q0, holds d j q0 /\ lp q0 = lp q /\ fa q0 = fa q /\ fp q0 = fp q).
  { intros j q [A B]. unfold set_pcb in A. cbn [pcbs] in A. destruct (Nat.eq_dec j i) as [->|N].
    - rewrite upd_eq in A. injection A as <-. exists p. split; [split; [exact E|congruence]|auto].
    - rewrite upd_ne in A by exact N. exists q. split; [split; assumption|auto]. }
  assert (G2 : forall j q, holds d j q -> exists q0, holds (set_pcb d i p') j q0 /\ lp q0 = lp q /\ fa q0 = fa q /\ fp q0 = fp q).
  { intros j q [A B]. unfold holds, set_pcb. cbn [pcbs]. destruct (Nat.eq_dec j i) as [->|N].
    - rewrite upd_eq. assert (q = p) by congruence. subst. exists p'. split; [split; [reflexivity|congruence]|auto].
    - rewrite upd_ne by exact N. exists q. auto. }
  constructor.
  - intros k j. unfold set_pcb. cbn [hash]. rewrite (i_hash _ _ I). split; intros (q & H & K).
    + destruct (G2 j q H) as (q0 & H0 & K1 & K2 & K3). exists q0. split; [exact H0|congruence].
    + destruct (G j q H) as (q0 & H0 & K1 & K2 & K3). exists q0. split; [exact H0|congruence].
  - intros k j. unfold set_pcb. cbn [ports]. rewrite (i_port _ _ I). split; intros (q & H & K).
    + destruct (G2 j q H) as (q0 & H0 & K1 & K2 & K3). exists q0. split; [exact H0|congruence].
    + destruct (G j q H) as (q0 & H0 & K1 & K2 & K3). exists q0. split; [exact H0|congruence].
  - intros j q A B. unfold set_pcb in A. cbn [pcbs] in A. destruct (Nat.eq_dec j i) as [->|N].
    + rewrite upd_eq in A. injection A as <-. assert (hashed p = false) by congruence.
      destruct (i_new _ _ I i p E H) as (_ & K2 & K3 & K4). rewrite E1, E2, E3. auto.
    + rewrite upd_ne in A by exact N. eapply i_new; eassumption.
  - intros j q H. destruct (G j q H) as (q0 & H0 & K1 & _). rewrite <- K1. eapply i_lp; eassumption.
  - intros j q H A. destruct (G j q H) as (q0 & H0 & K1 & K2 & K3). rewrite <- K3. apply (i_fp _ _ I j q0 H0). congruence.
  - intros j q A. unfold set_pcb in A. cbn [pcbs] in A. destruct (Nat.eq_dec j i) as [->|N].
    + rewrite upd_eq in A. injection A as <-. exact F.
    + rewrite upd_ne in A by exact N. eapply i_v; eassumption.
Qed.

(* insertion of a bound socket *)
Lemma inv_insert h d i p p' : Inv h d -> pcbs d i = Some p -> hashed p = false -> hashed p' = false ->
  lp p' <> 0 -> fa p' = any -> fp p' = 0 -> fam_ok p' ->
  exists d', inshash h (set_pcb d i p') i = Ret d' /\ Inv h d' /\ same_but d d' i /\
    pcbs d' i = Some (with_hashed p' true).
Proof.
  intros I E Hp Hp' L F1 F2 F.
  unfold inshash. rewrite set_get. cbn [obind]. rewrite Hp'. rewrite F1, F2. change (snd any) with 0.
  eexists. split; [reflexivity|].
  assert (Ni : forall q, ~ holds d i q) by (intros q [A B]; congruence).
  unfold set_pcb. cbn [pcbs hash ports]. split; [|split].
  - assert (HH : forall j q, holds
       {| pcbs := upd (upd (pcbs d) i (Some p')) i (Some (with_hashed p' true)); hash := updZ (hash d) (h 0 (lp p') 0) (i :: hash d (h 0 (lp p') 0));
          ports := updZ (ports d) (lp p') (i :: ports d (lp p')) |} j q <->
       (j = i /\ q = with_hashed p' true) \/ (j <> i /\ holds d j q)).
    { intros j q. unfold holds. cbn [pcbs]. destruct (Nat.eq_dec j i) as [->|N].
      - rewrite upd_eq. split.
        + intros [A _]. injection A as <-. left. auto.
        + intros [[_ ->]|[N _]]; [split; reflexivity|congruence].
      - rewrite !upd_ne by exact N. split; [intros H; right; auto|]. intros [[? _]|[_ H]]; [congruence|exact H]. }
    constructor.
    + intros k j. cbn [hash]. unfold updZ. destruct (k =? h 0 (lp p') 0) eqn:K.
      * apply Z.eqb_eq in K. subst k. cbn [In]. rewrite (i_hash _ _ I). split.
        { intros [<-|(q & H & Q)]; [exists (with_hashed p' true); split; [apply HH; left; auto|cbn; rewrite F1, F2; reflexivity]|].
          exists q. split; [apply HH; right; split; [intros ->; exact (Ni _ H)|exact H]|exact Q]. }
        { intros (q & H & Q). apply HH in H. destruct H as [[-> ->]|[N H]]; [left; reflexivity|right; eauto]. }
      * apply Z.eqb_neq in K. rewrite (i_hash _ _ I). split; intros (q & H & Q).
        { exists q. split; [apply HH; right; split; [intros ->; exact (Ni _ H)|exact H]|exact Q]. }
        { apply HH in H. destruct H as [[-> ->]|[N H]]; [|eauto]. exfalso. apply K. rewrite Q. cbn. rewrite F1, F2. reflexivity. }
    + intros k j. cbn [ports]. unfold updZ. destruct (k =? lp p') eqn:K.
      * apply Z.eqb_eq in K. subst k. cbn [In]. rewrite (i_port _ _ I). split.
        { intros [<-|(q & H & Q)]; [exists (with_hashed p' true); split; [apply HH; left; auto|reflexivity]|].
          exists q. split; [apply HH; right; split; [intros ->; exact (Ni _ H)|exact H]|exact Q]. }
        { intros (q & H & Q). apply HH in H. destruct H as [[-> ->]|[N H]]; [left; reflexivity|right; eauto]. }
      * apply Z.eqb_neq in K. rewrite (i_port _ _ I). split; intros (q & H & Q).
        { exists q. split; [apply HH; right; split; [intros ->; exact (Ni _ H)|exact H]|exact Q]. }
        { apply HH in H. destruct H as [[-> ->]|[N H]]; [|eauto]. exfalso. apply K. rewrite Q. reflexivity. }
    + intros j q A B. cbn [pcbs] in A. destruct (Nat.eq_dec j i) as [->|N].
      * rewrite upd_eq in A. injection A as <-. discriminate B.
      * rewrite !upd_ne in A by exact N. eapply i_new; eassumption.
    + intros j q H. apply HH in H. destruct H as [[-> ->]|[N H]]; [exact L|eapply i_lp; eassumption].
    + intros j q H A. apply HH in H. destruct H as [[-> ->]|[N H]]; [exact F2|eapply i_fp; eassumption].
    + intros j q A. cbn [pcbs] in A. destruct (Nat.eq_dec j i) as [->|N].
      * rewrite upd_eq in A. injection A as <-. exact F.
      * rewrite !upd_ne in A by exact N. eapply i_v; eassumption.
  - intros j N. cbn [pcbs]. rewrite !upd_ne by exact N. reflexivity.
  - apply upd_eq.
Qed.

(* a new foreign address *)
Lemma inv_rehash h d i p p' : Inv h d -> holds d i p -> hashed p' = true -> lp p' = lp p ->
  (fa p' = any -> fp p' = 0) -> fam_ok p' ->
  exists d', rehash h (set_pcb d i p') i = Ret d' /\ Inv h d' /\ same_but d d' i /\ pcbs d' i = Some p'.
Proof.
  intros I H Hh L Fp F. unfold rehash. rewrite set_get. cbn [obind]. rewrite Hh. cbn [negb].
  eexists. split; [reflexivity|]. unfold set_pcb. cbn [pcbs hash ports]. split; [|split].
  - set (k0 := h (snd (fa p')) (lp p') (fp p')).
    match goal with |- Inv h ?D => set (d' := D) end.
    assert (HH : forall j q, holds d' j q <-> (j = i /\ q = p') \/ (j <> i /\ holds d j q)).
    { intros j q. unfold holds, d'. cbn [pcbs]. destruct (Nat.eq_dec j i) as [->|N].
      - rewrite upd_eq. split; [intros [A _]; injection A as <-; left; auto|].
        intros [[_ ->]|[N _]]; [auto|congruence].
      - rewrite !upd_ne by exact N. split; [intros Q; right; auto|]. intros [[? _]|[_ Q]]; [congruence|exact Q]. }
    constructor.
    + intros k j. unfold d'. cbn [hash]. unfold updZ. destruct (k =? k0) eqn:K.
      * apply Z.eqb_eq in K. subst k. cbn [In]. rewrite in_unlink, (i_hash _ _ I). split.
        { intros [<-|[(q & Hq & Q) N]]; [exists p'; split; [apply HH; left; auto|reflexivity]|].
          exists q. split; [apply HH; right; auto|exact Q]. }
        { intros (q & Hq & Q). apply HH in Hq. destruct Hq as [[-> ->]|[N Hq]]; [left; reflexivity|right; eauto]. }
      * apply Z.eqb_neq in K. rewrite in_unlink, (i_hash _ _ I). split.
        { intros [(q & Hq & Q) N]. exists q. split; [apply HH; right; auto|exact Q]. }
        { intros (q & Hq & Q). apply HH in Hq. destruct Hq as [[-> ->]|[N Hq]]; [exfalso; apply K; exact Q|eauto]. }
    + intros k j. unfold d'. cbn [ports]. rewrite (i_port _ _ I). split; intros (q & Hq & Q).
      * destruct (Nat.eq_dec j i) as [->|N].
        { exists p'. split; [apply HH; left; auto|]. assert (q = p) by (destruct Hq, H; congruence). subst. congruence. }
        { exists q. split; [apply HH; right; auto|exact Q]. }
      * apply HH in Hq. destruct Hq as [[-> ->]|[N Hq]]; [exists p; split; [exact H|congruence]|eauto].
    + intros j q A B. unfold d' in A. cbn [pcbs] in A. destruct (Nat.eq_dec j i) as [->|N].
      * rewrite upd_eq in A. injection A as <-. congruence.
      * rewrite upd_ne in A by exact N. eapply i_new; eassumption.
    + intros j q Hq. apply HH in Hq. destruct Hq as [[-> ->]|[N Hq]]; [rewrite L; eapply i_lp; eassumption|eapply i_lp; eassumption].
    + intros j q Hq A. apply HH in Hq. destruct Hq as [[-> ->]|[N Hq]]; [auto|eapply i_fp; eassumption].
    + intros j q A. unfold d' in A. cbn [pcbs] in A. destruct (Nat.eq_dec j i) as [->|N].
      * rewrite upd_eq in A. injection A as <-. exact F.
      * rewrite upd_ne in A by exact N. eapply i_v; eassumption.
  - intros j N. cbn [pcbs]. rewrite upd_ne by exact N. reflexivity.
  - apply upd_eq.
Qed.

Lemma inv_new h d i p : Inv h d -> pcbs d i = None -> hashed p = false -> la p = any -> lp p = 0 -> fa p = any ->
  fp p = 0 -> (v6 p = false -> v4 p = true) -> Inv h (set_pcb d i p).
Proof.
  intros I E Hp E1 E2 E3 E4 Fv.
  assert (HH : forall j q, holds (set_pcb d i p) j q <-> holds d j q).
  { intros j q. unfold holds, set_pcb. cbn [pcbs]. destruct (Nat.eq_dec j i) as [->|N].
    - rewrite upd_eq. split; [intros [A B]; injection A as <-; congruence|intros [A _]; congruence].
    - rewrite upd_ne by exact N. reflexivity. }
  constructor.
  - intros k j. unfold set_pcb at 1. cbn [hash]. rewrite (i_hash _ _ I). split; intros (q & H & K); exists q; (split; [apply HH; exact H|exact K]).
  - intros k j. unfold set_pcb at 1. cbn [ports]. rewrite (i_port _ _ I). split; intros (q & H & K); exists q; (split; [apply HH; exact H|exact K]).
  - intros j q A B. unfold set_pcb in A. cbn [pcbs] in A. destruct (Nat.eq_dec j i) as [->|N].
    + rewrite upd_eq in A. injection A as <-. auto.
    + rewrite upd_ne in A by exact N. eapply i_new; eassumption.
  - intros j q H. apply HH in H. eapply i_lp; eassumption.
  - intros j q H. apply HH in H. eapply i_fp; eassumption.
  - intros j q A. unfold set_pcb in A. cbn [pcbs] in A. destruct (Nat.eq_dec j i) as [->|N].
    + rewrite upd_eq in A. injection A as <-. intros V. rewrite E1, E3. auto.
    + rewrite upd_ne in A by exact N. eapply i_v; eassumption.
Qed.

Lemma inv_free h d i p : Inv h d -> pcbs d i = Some p ->
  exists d', pcbfree d i = Ret d' /\ Inv h d' /\ same_but d d' i /\ pcbs d' i = None.
Proof.
  intros I E. unfold pcbfree. rewrite (get_some _ _ _ E). cbn [obind].
  eexists. split; [reflexivity|]. destruct (hashed p) eqn:Hp.
  - assert (Hi : holds d i p) by (split; assumption).
    match goal with |- Inv h ?D /\ _ => set (d' := D) end.
    assert (HH : forall j q, holds d' j q <-> j <> i /\ holds d j q).
    { intros j q. unfold holds, d'. cbn [pcbs]. destruct (Nat.eq_dec j i) as [->|N].
      - rewrite upd_eq. split; [intros [A _]; discriminate|intros [A _]; congruence].
      - rewrite upd_ne by exact N. split; [auto|tauto]. }
    split; [|split; [intros j N; unfold d'; cbn [pcbs]; apply upd_ne, N|apply upd_eq]].
    constructor.
    + intros k j. unfold d'. cbn [hash]. rewrite in_unlink, (i_hash _ _ I). split.
      * intros [(q & H & K) N]. exists q. split; [apply HH; auto|exact K].
      * intros (q & H & K). apply HH in H. destruct H. eauto.
    + intros k j. unfold d'. cbn [ports]. rewrite in_unlink, (i_port _ _ I). split.
      * intros [(q & H & K) N]. exists q. split; [apply HH; auto|exact K].
      * intros (q & H & K). apply HH in H. destruct H. eauto.
    + intros j q A B. unfold d' in A. cbn [pcbs] in A. destruct (Nat.eq_dec j i) as [->|N]; [rewrite upd_eq in A; discriminate|].
      rewrite upd_ne in A by exact N. eapply i_new; eassumption.
    + intros j q H. apply HH in H. destruct H. eapply i_lp; eassumption.
    + intros j q H. apply HH in H. destruct H. eapply i_fp; eassumption.
    + intros j q A. unfold d' in A. cbn [pcbs] in A. destruct (Nat.eq_dec j i) as [->|N]; [rewrite upd_eq in A; discriminate|].
      rewrite upd_ne in A by exact N. eapply i_v; eassumption.
  - match goal with |- Inv h ?D /\ _ => set (d' := D) end.
    assert (HH : forall j q, holds d' j q <-> holds d j q).
    { intros j q. unfold holds, d'. cbn [pcbs]. destruct (Nat.eq_dec j i) as [->|N].
      - rewrite upd_eq. split; [intros [A _]; discriminate|intros [A B]; congruence].
      - rewrite upd_ne by exact N. reflexivity. }
    split; [|split; [intros j N; unfold d'; cbn [pcbs]; apply upd_ne, N|apply upd_eq]].
    constructor.
    + intros k j. unfold d' at 1. cbn [hash]. rewrite (i_hash _ _ I). split; intros (q & H & K); exists q; (split; [apply HH; exact H|exact K]).
    + intros k j. unfold d' at 1. cbn [ports]. rewrite (i_port _ _ I). split; intros (q & H & K); exists q; (split; [apply HH; exact H|exact K]).
    + intros j q A B. unfold d' in A. cbn [pcbs] in A. destruct (Nat.eq_dec j i) as [->|N]; [rewrite upd_eq in A; discriminate|].
      rewrite upd_ne in A by exact N. eapply i_new; eassumption.
    + intros j q H. apply HH in H. eapply i_lp; eassumption.
    + intros j q H. apply HH in H. eapply i_fp; eassumption.
    + intros j q A. unfold d' in A. cbn [pcbs] in A. destruct (Nat.eq_dec j i) as [->|N]; [rewrite upd_eq in A; discriminate|].
      rewrite upd_ne in A by exact N. eapply i_v; eassumption.
Qed.

(* the search for a free port *)
Lemma pick_spec h d p a : Inv h d -> forall cands, Forall (fun x => x <> 0) cands ->
  exists r, pick h d p a cands = Ret r /\
  match r with
  | Some q => q <> 0 /\ In q cands /\ (v6 p = true -> ~ (if share p then exists i, bound6 d (la p) q i else taken6 d (la p) q))
  | None => v6 p = true -> forall q, In q cands -> if share p then exists i, bound6 d (la p) q i else taken6 d (la p) q
  end.
Proof.
  intros I. induction cands as [|q t IH]; intros Hc.
  - exists None. split; [reflexivity|]. intros _ q [].
  - inversion Hc as [|? ? H1 H2]; subst. cbn [pick]. destruct (IH H2) as (r & Er & R).
    destruct (v6 p) eqn:V.
    + destruct (local6_spec h d (la p) q (share p) I) as (t6 & E6 & K). rewrite E6. cbn [obind]. destruct t6 as [j|].
      * exists r. split; [exact Er|]. assert (C := proj1 K ltac:(discriminate)). destruct r as [q'|].
        { destruct R as (R1 & R2 & R3). split; [exact R1|]. split; [right; exact R2|exact R3]. }
        { intros _ q' [<-|Hq]; [exact C|exact (R eq_refl q' Hq)]. }
      * exists (Some q). split; [reflexivity|]. split; [exact H1|]. split; [left; reflexivity|].
        intros _ C. apply (proj2 K C). reflexivity.
    + destruct (local4_some h d (snd a) q (negb (share p)) I) as (t4 & E4 & _). rewrite E4. cbn [obind].
      destruct t4 as [j|].
      * exists r. split; [exact Er|]. destruct r as [q'|]; [|intros Z; discriminate].
        destruct R as (R1 & R2 & R3). split; [exact R1|]. split; [right; exact R2|exact R3].
      * exists (Some q). split; [reflexivity|]. split; [exact H1|]. split; [left; reflexivity|]. intros Z. discriminate.
Qed.

(* a bind of a new IPv6 socket *)
Definition bind6_post (h : hfun) (d : db) (i : nat) (p : pcb) (nam : option (addr * Z)) (cands : list Z) (d' : db) (e : err) : Prop :=
  let a := match nam with Some (a, _) => a | None => la p end in
  let clash q := if share p then exists j, bound6 d a q j else taken6 d a q in
  (e = OK /\ exists q, pcbs d' i = Some (with_hashed (with_local p a q) true) /\ ~ clash q /\
     (match nam with Some (_, q0) => q0 = 0 \/ q = q0 | None => True end)) \/
  (d' = d /\ (e = EADDRINUSE \/ e = EADDRNOTAVAIL) /\
   (only p = true -> match nam with
     | Some (_, q0) => if q0 =? 0 then forall q, In q cands -> clash q else clash q0
     | None => forall q, In q cands -> clash q end)).

Lemma bind6_new h d i p nam cands : Inv h d -> pcbs d i = Some p -> v6 p = true -> hashed p = false ->
  Forall (fun x => x <> 0) cands ->
  exists d' e, pcbbind6 h d i nam cands = Ret (d', e) /\ Inv h d' /\ same_but d d' i /\ bind6_post h d i p nam cands d' e.
Proof.
  intros I E V Hh Hc. destruct (i_new _ _ I i p E Hh) as (L1 & L2 & L3 & L4).
  unfold pcbbind6. rewrite (get_some _ _ _ E). cbn [obind]. rewrite L2, L1. change (is_any any) with true. cbn [Z.eqb negb orb].
  assert (Ins : forall a q, q <> 0 -> exists d', inshash h (set_pcb d i (with_local p a q)) i = Ret d' /\ Inv h d' /\
            same_but d d' i /\ pcbs d' i = Some (with_hashed (with_local p a q) true)).
  { intros a q Nq. apply (inv_insert h d i p); auto. intros Z. cbn in Z. congruence. }
  assert (Auto : forall a, exists d' e,
    obind (pick h d (with_local p a 0) a cands) (fun r => match r with
      | None => Ret (d, EADDRNOTAVAIL)
      | Some q => obind (inshash h (set_pcb d i (with_local p a q)) i) (fun d => Ret (d, OK)) end) = Ret (d', e) /\
    Inv h d' /\ same_but d d' i /\
    ((e = OK /\ exists q, pcbs d' i = Some (with_hashed (with_local p a q) true) /\
        ~ (if share p then exists j, bound6 d a q j else taken6 d a q)) \/
     (d' = d /\ e = EADDRNOTAVAIL /\ forall q, In q cands -> if share p then exists j, bound6 d a q j else taken6 d a q))).
  { intros a. destruct (pick_spec h d (with_local p a 0) a I cands Hc) as (r & Er & R). rewrite Er. cbn [obind].
    destruct r as [q|].
    - destruct R as (R1 & _ & R2). destruct (Ins a q R1) as (d' & Ed & I' & S & P). rewrite Ed. cbn [obind].
      exists d', OK. split; [reflexivity|]. split; [exact I'|]. split; [exact S|]. left. split; [reflexivity|].
      exists q. split; [exact P|]. exact (R2 V).
    - exists d, EADDRNOTAVAIL. split; [reflexivity|]. split; [exact I|]. split; [intros j _; reflexivity|].
      right. split; [reflexivity|]. split; [reflexivity|]. exact (R V). }
  unfold bind6_post. destruct nam as [[a q]|].
  - destruct (q =? 0) eqn:Q.
    + cbn [obind]. destruct (Auto a) as (d' & e & Ee & I' & S & K). exists d', e.
      split; [exact Ee|]. split; [exact I'|]. split; [exact S|].
      apply Z.eqb_eq in Q. destruct K as [[-> (q' & P & C)]|(-> & -> & C)].
      * left. split; [reflexivity|]. exists q'. auto.
      * right. auto.
    + destruct (local6_spec h d a q (share p) I) as (t & Et & K). rewrite Et. cbn [obind].
      apply Z.eqb_neq in Q. destruct t as [j|].
      * cbn [obind]. exists d, EADDRINUSE. split; [reflexivity|]. split; [exact I|]. split; [intros x _; reflexivity|].
        right. split; [reflexivity|]. split; [left; reflexivity|]. intros _. apply K. discriminate.
      * assert (NC : ~ (if share p then exists j, bound6 d a q j else taken6 d a q)).
        { intros C. apply (proj2 K C). reflexivity. }
        destruct (Ins a q Q) as (d' & Ed & I' & S & P).
        destruct (negb (only p) && is_any a) eqn:O.
        { apply andb_prop in O. destruct O as [O _].
          destruct (local4_some h d (snd a) q (negb (share p)) I) as (t4 & E4 & S4). rewrite E4. cbn [obind].
          assert (Fin : forall b : bool, exists d' e,
             obind (Ret (if b then Some EADDRINUSE else None)) (fun e => match e with
               | Some e => Ret (d, e)
               | None => obind (inshash h (set_pcb d i (with_local p a q)) i) (fun d => Ret (d, OK)) end) = Ret (d', e) /\
             Inv h d' /\ same_but d d' i /\
             ((e = OK /\ pcbs d' i = Some (with_hashed (with_local p a q) true)) \/ (d' = d /\ e = EADDRINUSE))).
          { intros b. cbn [obind]. destruct b.
            - exists d, EADDRINUSE. split; [reflexivity|]. split; [exact I|]. split; [intros x _; reflexivity|]. right. auto.
            - rewrite Ed. cbn [obind]. exists d', OK. split; [reflexivity|]. split; [exact I'|]. split; [exact S|]. left. split; [reflexivity|exact P]. }
          assert (Post : forall d'' e, (e = OK /\ pcbs d'' i = Some (with_hashed (with_local p a q) true)) \/ (d'' = d /\ e = EADDRINUSE) ->
            (e = OK /\ (exists q0, pcbs d'' i = Some (with_hashed (with_local p a q0) true) /\
               ~ (if share p then exists j, bound6 d a q0 j else taken6 d a q0) /\ (q = 0 \/ q0 = q))) \/
            (d'' = d /\ (e = EADDRINUSE \/ e = EADDRNOTAVAIL) /\ (only p = true -> if share p then exists j, bound6 d a q j else taken6 d a q))).
          { intros d'' e [[-> P']|[-> ->]].
            - left. split; [reflexivity|]. exists q. auto.
            - right. split; [reflexivity|]. split; [left; reflexivity|]. intros O1. rewrite O1 in O. discriminate. }
          destruct t4 as [j|].
          - destruct (S4 j eq_refl) as (r & Ej). rewrite (get_some _ _ _ Ej). cbn [obind].
            destruct (Fin (negb (snd (la r) =? 0) || v6 r)) as (d'' & e & Ee & I'' & S' & K'). cbn [obind] in Ee.
            exists d'', e. split; [exact Ee|]. split; [exact I''|]. split; [exact S'|]. apply Post, K'.
          - destruct (Fin false) as (d'' & e & Ee & I'' & S' & K'). cbn [obind] in Ee.
            exists d'', e. split; [exact Ee|]. split; [exact I''|]. split; [exact S'|]. apply Post, K'. }
        { cbn [obind]. rewrite Ed. cbn [obind].
          exists d', OK. split; [reflexivity|]. split; [exact I'|]. split; [exact S|].
          left. split; [reflexivity|]. exists q. auto. }
  - cbn [obind]. change (0 =? 0) with true. cbv iota. rewrite L1. destruct (Auto any) as (d' & e & Ee & I' & S & K). exists d', e.
    split; [exact Ee|]. split; [exact I'|]. split; [exact S|]. destruct K as [[-> (q' & P & C)]|(-> & -> & C)].
    * left. split; [reflexivity|]. exists q'. auto.
    * right. auto.
Qed.
