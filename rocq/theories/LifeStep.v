(* Preservation of the invariant by the operations. *)
From Verif Require Import Base LifeModel LifeSpec LifeInv LifeLocal.
Ltac Zify.zify_post_hook ::= idtac.

Ltac ext := unfold changes_at, dequeues, enqueues, frees, allocates, put, put_so, put_pcb, free_pcb, set_user, set_call, sodealloc, alloc, upd; cbn;
  repeat match goal with |- _ /\ _ => split end; intros; try reflexivity;
  repeat match goal with |- context [?a =? ?b] => destruct (Z.eqb_spec a b) end; subst; try reflexivity; try congruence; try contradiction; try assumption.

(* the socket, its PCB and the local invariant of an allocated slot *)
Lemma slot : forall N X s i so, INV N X s -> s_so s i = Some so ->
  exists p q, so_pcb so = Some p /\ s_pcb s p = Some q /\ p_sock q = Some i /\ 0 <= so_qlimit so /\
    (~ X i -> LOK so q (s_user s i) (s_call s i)) /\
    forall A (k : sock -> Z -> pcb -> outcome A), get_sp s i k = k so p q.
Proof.
  intros N X s i so IV Hi. destruct (i_pcb _ _ _ IV i so Hi) as (p & q & A & B & C).
  exists p, q. split; [exact A | split; [exact B | split; [exact C | split; [| split]]]].
  - destruct (i_queue _ _ _ IV i so Hi) as (_ & _ & _ & _ & K & _). exact K.
  - intros HX. apply (i_local _ _ _ IV i so p q); assumption.
  - intros. unfold get_sp, get_so. rewrite Hi, A. unfold get_pcb. rewrite B, C, Z.eqb_refl. reflexivity.
Qed.

Lemma slot_p : forall N X s p q i, INV N X s -> s_pcb s p = Some q -> p_sock q = Some i ->
  exists so, s_so s i = Some so /\ so_pcb so = Some p /\ 0 <= so_qlimit so /\
    (~ X i -> LOK so q (s_user s i) (s_call s i)) /\
    forall A (k : Z -> sock -> pcb -> outcome A), get_ps s p k = k i so q.
Proof.
  intros N X s p q i IV Hq Hs. destruct (i_sock _ _ _ IV p q Hq) as (_ & B & _).
  destruct (B i Hs) as (so & B1 & B2). exists so.
  split; [exact B1 | split; [exact B2 | split; [| split]]].
  - destruct (i_queue _ _ _ IV i so B1) as (_ & _ & _ & _ & K & _). exact K.
  - intros HX. apply (i_local _ _ _ IV i so p q); assumption.
  - intros. unfold get_ps, get_pcb. rewrite Hq, Hs. unfold get_so. rewrite B1. reflexivity.
Qed.

Definition released so : Prop := so_nofd so = true /\ so_count so = 0 /\ so_protoref so = false /\ so_qs so <> QComp.

Lemma hasrefs_false : forall so, sohasrefs so = false <-> released so.
Proof.
  intros so. unfold sohasrefs, released. destruct (so_nofd so), (so_protoref so), (so_qs so), (Z.eqb_spec (so_count so) 0);
  cbn; intuition congruence.
Qed.

(* how much of the rest of the world a call leaves alone *)
Definition untouched (s s' : st) (i : Z) : Prop :=
  s_next s' = s_next s /\ (forall x, x <> i -> s_user s' x = s_user s x) /\ (forall x, x <> i -> s_call s' x = s_call s x).

Lemma sofree_none : forall N X s i so p q,
  INV N X s -> s_so s i = Some so -> so_pcb so = Some p -> s_pcb s p = Some q ->
  released so -> so_qs so = QNone -> so_head so = None -> so_incq so = [] -> so_compq so = [] ->
  s_user s i = false -> s_call s i = CNone -> p_sockref q = false ->
  (p_dropped q = true \/ p_tw q = true) ->
  exists s' o, sofree s i = Ret s' /\ frees s s' i p o /\ INV N X s'.
Proof.
  intros N X s i so p q IV Hi Hp Hq R Hqs Hh Hiq Hcq Hu Hc Hsr HD.
  unfold sofree, get_so. rewrite Hi. apply hasrefs_false in R. rewrite R.
  unfold sofree_dequeue. rewrite Hh, Hqs, Hiq, Hcq. cbn [negb]. rewrite andb_false_r. cbn [obind].
  destruct (i_pcb _ _ _ IV i so Hi) as (p0 & q0 & A & B & C).
  assert (p0 = p) by congruence. subst p0. assert (q0 = q) by congruence. subst q0.
  unfold detach. rewrite Hp. unfold get_pcb. rewrite Hq, C, Z.eqb_refl. cbn [negb].
  destruct (p_tw q) eqn:TW.
  - destruct (p_dropped q) eqn:DR; cbn [obind].
    + eexists; exists None. split; [reflexivity |].
      match goal with |- frees s ?s' i p _ /\ _ => assert (F : frees s s' i p None) by ext end.
      split; [exact F |]. eapply INV_free; eauto. exact Logic.I.
    + eexists; exists (Some (p_set_sock q None)). split; [reflexivity |].
      match goal with |- frees s ?s' i p ?o /\ _ => assert (F : frees s s' i p o) by ext end.
      split; [exact F |]. eapply INV_free; eauto. destruct q; cbn in *. auto.
  - destruct HD as [HD | HD]; [| discriminate]. rewrite HD. cbn [orb obind].
    eexists; exists None. split; [reflexivity |].
    match goal with |- frees s ?s' i p _ /\ _ => assert (F : frees s s' i p None) by ext end.
    split; [exact F |]. eapply INV_free; eauto. exact Logic.I.
Qed.

Lemma INV_eqX : forall N s i, INV N X0 s -> INV N (eq i) s.
Proof. intros. eapply INV_mono; eauto. intros x []. Qed.

Lemma frees_none : forall s s' i p o, frees s s' i p o -> s_so s' i = None.
Proof. intros s s' i p o (E & _). rewrite E, Z.eqb_refl. reflexivity. Qed.

(* queue entries are not listeners *)
Lemma queued_neq : forall N X s h hs i so, INV N X s -> s_so s h = Some hs -> s_so s i = Some so -> so_accept so = false ->
  (~ X i) -> In i (so_incq hs) \/ In i (so_compq hs) -> h <> i.
Proof.
  intros N X s h hs i so IV Hh Hi HA HX K E. subst i. assert (hs = so) by congruence. subst hs.
  destruct (slot _ _ _ _ _ IV Hh) as (p & q & _ & _ & _ & _ & L & _). destruct (L HX) as [C _].
  unfold common in C. destruct C as (_ & _ & _ & _ & _ & C & _). destruct (C HA) as [A B]. rewrite A, B in K. cbn in K. tauto.
Qed.

(* a queued connection, seen from its listener *)
Lemma queued_child : forall N X s h hs i, INV N X s -> s_so s h = Some hs -> (forall x, X x -> x <> i) ->
  In i (so_incq hs) \/ In i (so_compq hs) ->
  exists so p q, s_so s i = Some so /\ so_head so = Some h /\ so_qs so <> QNone /\ so_pcb so = Some p /\ s_pcb s p = Some q /\
    p_sock q = Some i /\ h <> i /\ s_user s i = false /\ s_call s i = CNone /\ common so q /\ child_ok so q /\
    so_count so = 0 /\ so_nofd so = true /\ 0 <= so_qlimit so /\ (In i (so_compq hs) -> flags_ok so q).
Proof.
  intros N X s h hs i IV Hh HX K.
  assert (HXi : ~ X i) by (intros Y; apply (HX i Y); reflexivity).
  destruct (i_queue _ _ _ IV h hs Hh) as (_ & _ & _ & _ & _ & Q6 & Q7).
  assert (E : exists so, s_so s i = Some so /\ so_head so = Some h /\ so_qs so <> QNone /\ (In i (so_compq hs) -> so_qs so = QComp)).
  { destruct K as [K | K].
    - destruct (Q6 i K) as (so & B1 & B2 & B3). exists so. repeat split; try congruence. intros K2.
      destruct (Q7 i K2) as (so2 & D1 & D2 & D3). congruence.
    - destruct (Q7 i K) as (so & B1 & B2 & B3). exists so. repeat split; congruence. }
  destruct E as (so & E1 & E2 & E3 & E4).
  destruct (slot _ _ _ _ _ IV E1) as (p & q & P1 & P2 & P3 & P4 & L & _).
  destruct (L HXi) as [C R]. unfold role in R.
  destruct (s_user s i) eqn:U; [destruct R as (_ & _ & _ & R & _); contradiction |].
  destruct (s_call s i) eqn:CC; try (exfalso; repeat match goal with H : _ /\ _ |- _ => destruct H end; contradiction).
  destruct R as (R1 & R2 & R3).
  assert (CH : child_ok so q /\ (so_qs so = QComp -> flags_ok so q)).
  { destruct (so_qs so); [contradiction | split; [exact R3 | discriminate] | destruct R3 as [R3 R4]; split; [exact R3 | auto]]. }
  destruct CH as [CH FL].
  exists so, p, q. repeat (split; [first [assumption | reflexivity] |]).
  split; [| auto 10]. eapply queued_neq; eauto. destruct CH. assumption.
Qed.

Lemma INV_shrink : forall N (X X' : Z -> Prop) s, INV N X s -> (forall x, X x -> X' x \/ s_so s x = None) -> INV N X' s.
Proof.
  intros N X X' s IV H. constructor; try solve [apply IV].
  - intros i so Hi HX. apply (i_back _ _ _ IV); auto. intros K. apply H in K. destruct K; congruence.
  - intros i so p q Hi Hp Hq HX. eapply (i_local _ _ _ IV); eauto. intros K. apply H in K. destruct K; congruence.
Qed.

Lemma usr_abort_child : forall so q, 0 <= so_qlimit so -> common so q ->
  so_accept so = false -> p_sockref q = false -> p_tw q = false ->
  exists so' q', tcp_usr_abort so q = Ret (so', q') /\ common so' q' /\ kept so q so' q' /\
    p_dropped q' = true /\ p_sockref q' = false /\ p_tw q' = false /\ so_protoref so' = false /\ so_accept so' = false.
Proof.
  intros so q HQ C H1 H2 H3. unfold tcp_usr_abort. rewrite H3. cbn [negb andb].
  destruct (p_dropped q) eqn:DR; cbn [negb obind fst snd].
  - unfold take_ref. rewrite DR. exists so, q. split; [reflexivity |]. split; [exact C |].
    split; [unfold kept; split; [apply same_str_refl; exact HQ | auto 10] |].
    destruct C as (C1 & _). repeat split; congruence.
  - destruct (tcp_drop_noref so q OFP_ECONNABORTED HQ C H2 H3 DR) as (so' & q' & A1 & A2 & A3 & A4 & A5 & A6 & A7 & A8).
    rewrite A1. cbn [noref obind fst snd]. unfold take_ref. rewrite A4. exists so', q'.
    split; [reflexivity |]. destruct A2 as (B1 & B2). assert (so_accept so' = so_accept so) by apply A3.
    repeat (split; [first [assumption | congruence | (split; assumption)] |]). congruence.
Qed.

Lemma soabort_child : forall N (X : Z -> Prop) s i so p q,
  INV N X s -> X i -> s_so s i = Some so -> so_pcb so = Some p -> s_pcb s p = Some q ->
  common so q -> child_ok so q -> so_count so = 0 -> so_nofd so = true -> so_qs so = QNone -> so_head so = None ->
  s_user s i = false -> s_call s i = CNone ->
  exists s' o, soabort s i = Ret s' /\ frees s s' i p o /\ INV N X s'.
Proof.
  intros N X s i so p q IV HX Hi Hp Hq C CH Hcnt Hnf Hqs Hhd Hu Hc.
  destruct (slot _ _ _ _ _ IV Hi) as (p0 & q0 & P1 & P2 & P3 & P4 & _ & G).
  assert (p0 = p) by congruence. subst p0. assert (q0 = q) by congruence. subst q0.
  unfold soabort. rewrite G.
  assert (PR : so_protoref so = false). { destruct C as (C1 & _). destruct CH as (_ & H2 & _). congruence. }
  rewrite Hcnt, PR, Hnf. cbn [Z.eqb negb orb].
  destruct (usr_abort_child so q P4 C) as (so' & q' & A1 & A2 & A3 & A4 & A5 & A6 & A7 & A8); try apply CH.
  rewrite A1. cbn [obind fst snd].
  destruct A3 as (K1 & K2 & K3 & K4 & K5 & K6).
  assert (IV1 : INV N X (put s i so' p q')).
  { eapply (INV_local N X s i so p q so' q' (s_user s i) (s_call s i)); eauto; [ext | contradiction]. }
  destruct K1 as (S1 & S2 & S3 & S4 & S5 & S6 & S7 & S8).
  assert (QE : so_incq so' = [] /\ so_compq so' = []). { apply A2. exact A8. } destruct QE as [QE1 QE2].
  destruct (sofree_none N X (put s i so' p q') i so' p q') as (s' & o & F1 & F2 & F3); auto.
  { unfold put, put_so, put_pcb; cbn. apply upd_eq. }
  { congruence. }
  { unfold put, put_so, put_pcb; cbn. apply upd_eq. }
  { unfold released. repeat split; congruence. }
  { congruence. } { congruence. }
  exists s', o. split; [exact F1 | split; [| exact F3]].
  destruct F2 as (E1 & E2 & E3 & E4 & E5 & E6 & E7 & E8). unfold frees.
  split; [| split; [| auto 10]].
  - intros x. rewrite E1. unfold put, put_so, put_pcb, upd; cbn. destruct (x =? i); reflexivity.
  - intros x. rewrite E2. unfold put, put_so, put_pcb, upd; cbn. destruct (x =? p); reflexivity.
Qed.

(* what the removal loop leaves alone *)
Definition others (X : Z -> Prop) (s s' : st) : Prop :=
  s_next s' = s_next s /\ (forall x, s_user s' x = s_user s x) /\ (forall x, s_call s' x = s_call s x) /\
  (forall x, X x -> s_so s' x = s_so s x) /\
  (forall p q x, s_pcb s p = Some q -> p_sock q = Some x -> X x -> s_pcb s' p = Some q).

Lemma pop_inc_dequeues : forall N X s h hs i rest so p q,
  INV N X s -> s_so s h = Some hs -> s_so s i = Some so -> so_pcb so = Some p -> s_pcb s p = Some q -> h <> i ->
  so_incq hs = i :: rest -> ~ In i (so_compq hs) ->
  exists s', pop_inc s h hs i rest = Ret s' /\ dequeues s s' h hs i (set_q so QNone None) p q (s_user s i) (s_call s i) /\
    without hs i = set_queues hs rest (so_compq hs) (so_incqlen hs - 1) (so_qlen hs) /\
    s_so s' h = Some (set_queues hs rest (so_compq hs) (so_incqlen hs - 1) (so_qlen hs)).
Proof.
  intros N X s h hs i rest so p q IV Hh Hi Hp Hq Hne Hiq Hnc.
  destruct (i_queue _ _ _ IV h hs Hh) as (B1 & B2 & B3 & B4 & _).
  assert (W : without hs i = set_queues hs rest (so_compq hs) (so_incqlen hs - 1) (so_qlen hs)).
  { unfold without. rewrite Hiq in B1. rewrite Hiq, rm_head by exact B1. rewrite rm_notin by exact Hnc.
    rewrite B3, B4, Hiq. f_equal. cbn [length]. lia. }
  unfold pop_inc, get_so. rewrite Hi. eexists. split; [reflexivity |]. split; [| split; [exact W |]].
  - rewrite <- W. ext.
  - unfold put_so, upd; cbn. destruct (Z.eqb_spec h i); [contradiction |]. rewrite Z.eqb_refl. reflexivity.
Qed.

Lemma pop_comp_dequeues : forall N X s h hs i rest so p q,
  INV N X s -> s_so s h = Some hs -> s_so s i = Some so -> so_pcb so = Some p -> s_pcb s p = Some q -> h <> i ->
  so_compq hs = i :: rest -> ~ In i (so_incq hs) ->
  exists s', pop_comp s h hs i rest = Ret s' /\ dequeues s s' h hs i (set_q so QNone None) p q (s_user s i) (s_call s i) /\
    without hs i = set_queues hs (so_incq hs) rest (so_incqlen hs) (so_qlen hs - 1) /\
    s_so s' i = Some (set_q so QNone None) /\
    s_so s' h = Some (set_queues hs (so_incq hs) rest (so_incqlen hs) (so_qlen hs - 1)).
Proof.
  intros N X s h hs i rest so p q IV Hh Hi Hp Hq Hne Hiq Hnc.
  destruct (i_queue _ _ _ IV h hs Hh) as (B1 & B2 & B3 & B4 & _).
  assert (W : without hs i = set_queues hs (so_incq hs) rest (so_incqlen hs) (so_qlen hs - 1)).
  { unfold without. rewrite Hiq in B2. rewrite Hiq, rm_head by exact B2. rewrite rm_notin by exact Hnc.
    rewrite B3, B4, Hiq. f_equal. cbn [length]. lia. }
  unfold pop_comp, get_so. rewrite Hi. eexists. split; [reflexivity |]. split; [| split; [exact W | split]].
  - rewrite <- W. ext.
  - unfold put_so, upd; cbn. rewrite Z.eqb_refl. reflexivity.
  - unfold put_so, upd; cbn. destruct (Z.eqb_spec h i); [contradiction |]. rewrite Z.eqb_refl. reflexivity.
Qed.

(* an entry is on one queue only *)
Lemma one_queue : forall N X s h hs i, INV N X s -> s_so s h = Some hs -> In i (so_incq hs) -> ~ In i (so_compq hs).
Proof.
  intros N X s h hs i IV Hh A B. destruct (i_queue _ _ _ IV h hs Hh) as (_ & _ & _ & _ & _ & Q6 & Q7).
  destruct (Q6 i A) as (so & C1 & C2 & _). destruct (Q7 i B) as (so2 & D1 & D2 & _). congruence.
Qed.

Lemma child_set_q : forall so q a b, (common so q -> common (set_q so a b) q) /\ (child_ok so q -> child_ok (set_q so a b) q) /\
  (flags_ok so q -> flags_ok (set_q so a b) q).
Proof. intros. destruct so. auto. Qed.

Lemma evict_ok : forall N (X : Z -> Prop) h n s hs,
  INV N X s -> s_so s h = Some hs -> ~ X h ->
  (forall x sx, X x -> s_so s x = Some sx -> so_qs sx = QNone) ->
  (length (so_incq hs) < n)%nat ->
  exists s' rest, evict n s h = Ret s' /\ INV N X s' /\
    s_so s' h = Some (set_queues hs rest (so_compq hs) (Z.of_nat (length rest)) (so_qlen hs)) /\
    (exists gone, so_incq hs = gone ++ rest) /\ Z.of_nat (length rest) <= so_qlimit hs /\ others X s s' /\
    (forall x, x <> h -> s_user s x = true -> s_so s' x = s_so s x).
Proof.
  intros N X h n. induction n as [| n IH]; intros s hs IV Hh HXh HXq Hlen; [lia |].
  destruct (i_queue _ _ _ IV h hs Hh) as (B1 & B2 & B3 & B4 & B5 & B6 & B7).
  cbn [evict]. unfold get_so at 1. rewrite Hh.
  destruct (so_qlimit hs <? so_incqlen hs) eqn:OV.
  2:{ exists s, (so_incq hs). split; [reflexivity |]. split; [exact IV |].
      split; [rewrite <- B3, Hh; destruct hs; reflexivity |].
      split; [exists []; reflexivity |]. split; [lia |]. unfold others. split; auto 10. }
  destruct (so_incq hs) as [| i rest] eqn:IQ; [cbn in B3; lia |].
  assert (HXi : forall x, X x -> x <> i).
  { intros x Kx ->. destruct (B6 i (or_introl eq_refl)) as (sx & C1 & C2 & _). rewrite (HXq i sx Kx C1) in C2. discriminate. }
  destruct (queued_child N X s h hs i IV Hh HXi) as (so & p & q & D1 & D2 & D3 & D4 & D5 & D6 & D7 & D8 & D9 & D10 & D11 & D12 & D13 & D14 & _).
  { left. rewrite IQ. left; reflexivity. }
  assert (NC : ~ In i (so_compq hs)). { eapply one_queue; eauto. rewrite IQ; left; reflexivity. }
  destruct (pop_inc_dequeues N X s h hs i rest so p q IV Hh D1 D4 D5 D7 IQ NC) as (s1 & E1 & E2 & E3 & E4).
  rewrite E1. cbn [obind].
  destruct (child_set_q so q QNone None) as (F1 & F2 & _).
  assert (IV1 : INV N (fun x => X x \/ x = i) s1).
  { eapply (INV_dequeue N _ s h hs i so p q (set_q so QNone None) q); eauto.
    - eapply INV_mono; [exact IV | auto].
    - intros K. exfalso. apply K. auto. }
  destruct E2 as (G1 & G2 & G3 & G4 & G5 & G6).
  destruct (soabort_child N (fun x => X x \/ x = i) s1 i (set_q so QNone None) p q IV1) as (s2 & o & H1 & H2 & H3); auto.
  { rewrite G1, Z.eqb_refl. reflexivity. }
  { rewrite G2, Z.eqb_refl. reflexivity. }
  { rewrite G5, Z.eqb_refl. exact D8. }
  { rewrite G6, Z.eqb_refl. exact D9. }
  rewrite H1. cbn [obind].
  destruct H2 as (J1 & J2 & J3 & J4 & J5 & J6 & J7 & J8).
  assert (IV2 : INV N X s2).
  { eapply INV_shrink; [exact H3 |]. intros x [K | ->]; [auto | right]. rewrite J1, Z.eqb_refl. reflexivity. }
  set (hs1 := set_queues hs rest (so_compq hs) (so_incqlen hs - 1) (so_qlen hs)) in *.
  assert (HH2 : s_so s2 h = Some hs1).
  { rewrite J1. destruct (Z.eqb_spec h i); [contradiction |]. exact E4. }
  assert (OUT : forall x, x <> i -> x <> h -> s_so s2 x = s_so s x).
  { intros x a b. rewrite J1. destruct (Z.eqb_spec x i); [contradiction |]. rewrite G1.
    destruct (Z.eqb_spec x i); [contradiction |]. destruct (Z.eqb_spec x h); [contradiction |]. reflexivity. }
  assert (XO : forall x, X x -> s_so s2 x = s_so s x).
  { intros x Kx. apply OUT; [apply HXi; exact Kx | intros ->; contradiction]. }
  destruct (IH s2 hs1 IV2 HH2 HXh) as (s' & rest' & L1 & L2 & L3 & L4 & L5 & L6 & L7).
  { intros x sx Kx Hx. rewrite XO in Hx by exact Kx. eapply HXq; eauto. }
  { subst hs1. destruct hs; cbn in *. lia. }
  exists s', rest'. split; [exact L1 |]. split; [exact L2 |]. split; [rewrite L3; destruct hs; reflexivity |].
  split; [destruct L4 as [gone L4]; exists (i :: gone); destruct hs; cbn in *; subst; reflexivity |].
  split; [destruct hs; exact L5 |].
  destruct L6 as (M1 & M2 & M3 & M4 & M5). unfold others. split.
  2:{ intros x nh Hu. assert (n0 : x <> i) by congruence. rewrite L7; [apply OUT; auto | exact nh |].
      rewrite J5 by exact n0. rewrite G5. destruct (Z.eqb_spec x i); [contradiction | exact Hu]. }
  split; [congruence |]. split; [| split; [| split]].
  - intros x. rewrite M2. destruct (Z.eq_dec x i) as [-> | n0]; [congruence |]. rewrite J5 by exact n0.
    rewrite G5. destruct (Z.eqb_spec x i); [contradiction | reflexivity].
  - intros x. rewrite M3. destruct (Z.eq_dec x i) as [-> | n0]; [congruence |]. rewrite J6 by exact n0.
    rewrite G6. destruct (Z.eqb_spec x i); [contradiction | reflexivity].
  - intros x Kx. rewrite M4 by exact Kx. apply XO. exact Kx.
  - intros p1 q1 x Hp1 Hs1 Kx. apply (M5 p1 q1 x); [| exact Hs1 | exact Kx].
    assert (p1 <> p). { intros ->. assert (x = i) by congruence. apply (HXi x Kx). assumption. }
    rewrite J2. destruct (Z.eqb_spec p1 p); [contradiction |]. rewrite G2. destruct (Z.eqb_spec p1 p); [contradiction |]. exact Hp1.
Qed.
