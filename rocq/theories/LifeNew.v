(* Arrival of a new connection. *)
From Verif Require Import Base LifeModel LifeSpec LifeInv LifeLocal LifeStep.
Ltac Zify.zify_post_hook ::= idtac.

(* ofp_sofree of a socket that is still on so_incomp *)
Lemma sofree_inc : forall N (X : Z -> Prop) s i so p q h hs,
  INV N X s -> X i -> s_so s i = Some so -> so_pcb so = Some p -> s_pcb s p = Some q ->
  released so -> so_qs so = QInc -> so_head so = Some h -> s_so s h = Some hs -> In i (so_incq hs) -> h <> i ->
  so_incq so = [] -> so_compq so = [] ->
  s_user s i = false -> s_call s i = CNone -> p_sockref q = false -> (p_dropped q = true \/ p_tw q = true) ->
  exists s', sofree s i = Ret s' /\ INV N X s' /\ s_so s' i = None /\
    s_so s' h = Some (set_queues hs (rm i (so_incq hs)) (so_compq hs) (so_incqlen hs - 1) (so_qlen hs)) /\
    (forall x, x <> i -> x <> h -> s_so s' x = s_so s x) /\ s_next s' = s_next s /\
    (forall x, s_user s' x = s_user s x) /\ (forall x, s_call s' x = s_call s x).
Proof.
  intros N X s i so p q h hs IV HX Hi Hp Hq R Hqs Hhd Hh Hin Hne Hiq Hcq Hu Hc Hsr HD.
  set (hs1 := set_queues hs (rm i (so_incq hs)) (so_compq hs) (so_incqlen hs - 1) (so_qlen hs)).
  set (s1 := put_so (put_so s h hs1) i (set_q so QNone None)).
  destruct (i_queue _ _ _ IV h hs Hh) as (B1 & B2 & B3 & B4 & _).
  assert (W : without hs i = hs1).
  { unfold without, hs1. rewrite rm_length by assumption. rewrite (rm_notin i (so_compq hs)) by (eapply one_queue; eauto).
    rewrite B3, B4. reflexivity. }
  assert (DQ : dequeues s s1 h hs i (set_q so QNone None) p q (s_user s i) (s_call s i)).
  { unfold s1. rewrite <- W. ext. }
  assert (IV1 : INV N X s1).
  { eapply (INV_dequeue N X s h hs i so p q (set_q so QNone None) q); eauto; try (destruct so; reflexivity || assumption).
    - congruence.
    - destruct (i_queue _ _ _ IV i so Hi) as (_ & _ & _ & _ & K & _). exact K.
    - contradiction. }
  assert (E1 : s_so s1 i = Some (set_q so QNone None)) by (unfold s1, put_so; cbn; apply upd_eq).
  assert (E2 : s_so s1 h = Some hs1).
  { unfold s1, put_so; cbn. rewrite upd_neq by assumption. apply upd_eq. }
  assert (R1 : released (set_q so QNone None)).
  { unfold released in *. destruct so; cbn in *. destruct R as (R1 & R2 & R3 & R4). repeat split; congruence. }
  destruct (sofree_none N X s1 i (set_q so QNone None) p q IV1 E1) as (s' & o & F1 & F2 & F3); auto.
  assert (EQ : sofree s i = sofree s1 i).
  { unfold sofree, get_so. rewrite Hi, E1. apply hasrefs_false in R1. apply hasrefs_false in R. rewrite R, R1.
    unfold sofree_dequeue. rewrite Hhd, Hqs. unfold get_so. rewrite Hh.
    assert (M : mem i (so_incq hs) = true) by (apply mem_in; exact Hin). rewrite M. fold hs1. fold s1. cbn [obind].
    rewrite Hiq, Hcq. cbn [negb]. rewrite andb_false_r. cbn [obind].
    replace (so_head (set_q so QNone None)) with (@None Z) by (destruct so; reflexivity).
    replace (so_qs (set_q so QNone None)) with QNone by (destruct so; reflexivity).
    replace (so_incq (set_q so QNone None)) with (@nil Z) by (destruct so; cbn in *; congruence).
    replace (so_compq (set_q so QNone None)) with (@nil Z) by (destruct so; cbn in *; congruence).
    cbn [negb]. rewrite andb_false_r. cbn [obind].
    unfold detach. replace (so_pcb (set_q so QNone None)) with (so_pcb so) by (destruct so; reflexivity). reflexivity. }
  exists s'. rewrite EQ. split; [exact F1 |]. split; [exact F3 |].
  destruct F2 as (J1 & J2 & J3 & J4 & J5 & J6 & J7 & J8).
  split; [rewrite J1, Z.eqb_refl; reflexivity |].
  split; [rewrite J1; destruct (Z.eqb_spec h i); [contradiction | exact E2] |].
  split; [| split; [rewrite J4; reflexivity |]].
  - intros x n1 n2. rewrite J1. destruct (Z.eqb_spec x i); [contradiction |]. unfold s1, put_so; cbn.
    rewrite !upd_neq by assumption. reflexivity.
  - split; intros x; (destruct (Z.eq_dec x i) as [-> | n1]; [congruence |]);
    [rewrite J5 by exact n1 | rewrite J6 by exact n1]; reflexivity.
Qed.

(* a listening PCB belongs to an allocated, accepting socket without flags *)
Lemma listener : forall N s h p q, INV N X0 s -> s_pcb s p = Some q -> p_sock q = Some h ->
  p_dropped q = false -> p_state q = T_LISTEN ->
  exists hs, s_so s h = Some hs /\ so_accept hs = true /\ so_qinit hs = true /\ so_protoref hs = false /\
    so_conn hs = false /\ so_conning hs = false /\ so_discing hs = false /\ so_disced hs = false.
Proof.
  intros N s h p q IV Hq Hs Hd Hst. destruct (slot_p _ _ _ _ _ _ IV Hq Hs) as (so & A1 & A2 & A3 & L & _).
  destruct (L (fun x => x)) as [C _]. destruct C as (C1 & C2 & C3 & C4 & C5 & C6 & C7 & C8 & C9).
  unfold T_LISTEN in *. exists so. assert (AC : so_accept so = true) by auto.
  destruct C8 as (D1 & D2 & D3 & D4 & D5); [lia | exact Hd |].
  repeat split; auto; congruence.
Qed.

Lemma newconn_ok : forall N s h aok ok, INV N X0 s ->
  (exists p q, s_pcb s p = Some q /\ p_sock q = Some h /\ p_dropped q = false /\ p_state q = T_LISTEN) ->
  exists s' r hs rest, newconn s h aok ok = Ret (s', r) /\ INV N X0 s' /\ s_so s h = Some hs /\
    (forall x, s_user s' x = s_user s x) /\ (forall x, s_call s' x = s_call s x) /\
    (forall x, x <> h -> s_user s x = true -> s_so s' x = s_so s x) /\
    ((s' = s /\ r = RErr 0) \/
     (so_qlen hs <= (3 * so_qlimit hs) / 2 /\
      (exists gone, so_incq hs = gone ++ rest) /\ Z.of_nat (length rest) <= so_qlimit hs /\
      exists i, In i (s_free s) /\
      ((r = RErr 0 /\ s_so s' h = Some (set_queues hs rest (so_compq hs) (Z.of_nat (length rest)) (so_qlen hs))) \/
       (r = RFd i /\ s_so s' h = Some (set_queues hs (rest ++ [i]) (so_compq hs) (Z.of_nat (length rest) + 1) (so_qlen hs)))))).
Proof.
  intros N s h aok ok IV (lp & lq & L1 & L2 & L3 & L4).
  destruct (listener _ _ _ _ _ IV L1 L2 L3 L4) as (hs & Hh & HA & HQ & HPR & F1 & F2 & F3 & F4).
  unfold newconn, get_so at 1. rewrite Hh.
  destruct ((3 * so_qlimit hs) / 2 <? so_qlen hs) eqn:OV.
  { exists s, (RErr 0), hs, []. split; [reflexivity | split; [exact IV | split; [first [reflexivity | exact Hh] | split; [auto | split; [auto | split; [auto | left; auto]]]]]]. }
  destruct (s_free s) as [| i rest] eqn:FR.
  { exists s, (RErr 0), hs, []. split; [reflexivity | split; [exact IV | split; [first [reflexivity | exact Hh] | split; [auto | split; [auto | split; [auto | left; auto]]]]]]. }
  destruct aok; cbn [negb].
  2:{ exists s, (RErr 0), hs, []. split; [reflexivity | split; [exact IV | split; [first [reflexivity | exact Hh] | split; [auto | split; [auto | split; [auto | left; auto]]]]]]. }
  assert (FI : In i (s_free s)) by (rewrite FR; left; reflexivity).
  assert (Ni : s_so s i = None) by (apply (i_free _ _ _ IV i) in FI; tauto).
  destruct (i_idle _ _ _ IV i Ni) as [Ui Ci].
  assert (Hne : h <> i) by congruence.
  set (p := s_next s). set (ch := child_sock hs h p). set (s1 := alloc s i rest ch).
  assert (IV1 : INV N (eq i) s1).
  { eapply (INV_alloc N X0 (eq i) s s1 i rest ch false); auto; try reflexivity.
    - unfold s1. ext.
    - intros x [].
    - intros K. exfalso. apply K. reflexivity. }
  assert (E1 : s_so s1 h = Some hs). { unfold s1, alloc; cbn. rewrite upd_neq by assumption. exact Hh. }
  assert (E2 : s_so s1 i = Some ch). { unfold s1, alloc; cbn. apply upd_eq. }
  assert (E3 : s_pcb s1 p = Some (new_pcb i)). { unfold s1, alloc, p; cbn. apply upd_eq. }
  destruct (evict_ok N (eq i) h (S (length (so_incq hs))) s1 hs IV1 E1) as (s2 & rst & G1 & G2 & G3 & G4 & G5 & G6 & G7).
  { congruence. }
  { intros x sx <- Hx. rewrite E2 in Hx. injection Hx as <-. reflexivity. }
  { lia. }
  rewrite G1. cbn [obind]. destruct G6 as (M1 & M2 & M3 & M4 & M5).
  assert (H2 : s_so s2 i = Some ch) by (rewrite M4 by reflexivity; exact E2).
  assert (H3 : s_pcb s2 p = Some (new_pcb i)) by (apply (M5 p (new_pcb i) i); auto).
  set (hs2 := set_queues hs rst (so_compq hs) (Z.of_nat (length rst)) (so_qlen hs)) in *.
  unfold get_so. rewrite G3, H2.
  replace (so_qinit hs2) with true by (destruct hs; cbn in *; congruence). cbn [negb].
  set (hs3 := set_queues hs2 (so_incq hs2 ++ [i]) (so_compq hs2) (so_incqlen hs2 + 1) (so_qlen hs2)).
  set (s3 := put_so (put_so s2 h hs3) i (set_q ch QInc (Some h))).
  assert (PU : hs3 = push false hs2 i) by reflexivity.
  assert (A2 : so_accept hs2 = true) by (destruct hs; exact HA).
  assert (US : s_user s2 i = false /\ s_call s2 i = CNone). { rewrite M2, M3. unfold s1, alloc; cbn. auto. }
  destruct US as [US1 US2].
  assert (CM : forall x, x = 0 \/ x = 3 -> common (set_q ch QInc (Some h)) (p_set_state (new_pcb i) x)).
  { intros x Hx. unfold common, ch, child_sock, set_q, new_pcb, p_set_state; cbn. rewrite HPR, F1, F2, F3, F4.
    repeat split; try congruence; lia. }
  destruct ok.
  - assert (E4 : s_pcb s3 p = Some (new_pcb i)) by exact H3.
    unfold get_pcb. rewrite E4.
    set (s4 := put_pcb s3 p (p_set_state (new_pcb i) T_SYN_RECEIVED)).
    assert (EN : enqueues s2 s4 false h hs2 i (set_q ch QInc (Some h)) p (p_set_state (new_pcb i) T_SYN_RECEIVED)).
    { unfold s4, s3. ext. }
    exists s4, (RFd i), hs, rst. split; [reflexivity |]. split; [| split; [first [reflexivity | exact Hh] | split; [| split; [| split]]]].
    + eapply (INV_enqueue N (eq i) X0 false s2 h hs2 i ch p (new_pcb i)); eauto; try reflexivity.
      * intros _. rewrite US1, US2. split; [apply CM; auto |].
        unfold role, child_ok, ch, child_sock, set_q, new_pcb, p_set_state, T_SYN_RECEIVED; cbn. rewrite F4. repeat split; auto. right; lia.
    + intros x. unfold s4, s3; cbn. rewrite M2. reflexivity.
    + intros x. unfold s4, s3; cbn. rewrite M3. reflexivity.
    + intros x n1 Hu. assert (n2 : x <> i) by congruence. unfold s4, s3; cbn. rewrite !upd_neq by assumption.
      rewrite G7; [| exact n1 | exact Hu]. unfold s1, alloc; cbn. rewrite upd_neq by assumption. reflexivity.
    + right. split; [lia | split; [exact G4 | split; [exact G5 |]]]. exists i. split; [left; reflexivity | right].
      split; [reflexivity |]. unfold s4, s3; cbn. rewrite upd_neq by assumption. rewrite upd_eq. destruct hs; reflexivity.
  - assert (EN : enqueues s2 s3 false h hs2 i (set_q ch QInc (Some h)) p (new_pcb i)).
    { unfold s3. ext. }
    assert (IV3 : INV N (eq i) s3).
    { eapply (INV_enqueue N (eq i) (eq i) false s2 h hs2 i ch p (new_pcb i)); eauto; try reflexivity.
      - intros K. exfalso. apply K. reflexivity. }
    assert (I3 : s_so s3 i = Some (set_q ch QInc (Some h))) by (unfold s3; cbn; apply upd_eq).
    assert (P3 : s_pcb s3 p = Some (new_pcb i)) by exact H3.
    destruct (slot _ _ _ _ _ IV3 I3) as (p0 & q0 & P1 & P2 & P4 & P5 & _ & G).
    assert (p0 = p) by (cbn in P1; congruence). subst p0. assert (q0 = new_pcb i) by congruence. subst q0.
    unfold soabort. rewrite G.
    replace (so_protoref (set_q ch QInc (Some h))) with false by (cbn; congruence). cbn [set_q so_count so_nofd ch child_sock Z.eqb negb orb].
    destruct (usr_abort_child (set_q ch QInc (Some h)) (new_pcb i) P5 (CM 0 (or_introl eq_refl)))
      as (so' & q' & B1 & B2 & B3 & B4 & B5 & B6 & B7 & B8); try reflexivity.
    rewrite B1. cbn [obind fst snd].
    destruct B3 as (S & K2 & K3 & K4 & K5 & K6). pose proof S as (S1 & S2 & S3 & S4 & S5 & S6 & S7 & S8).
    set (s4 := put s3 i so' p q').
    assert (IV4 : INV N (eq i) s4).
    { eapply (INV_local N (eq i) s3 i _ p (new_pcb i) so' q' (s_user s3 i) (s_call s3 i)); eauto; [unfold s4; ext |].
      intros K. exfalso. apply K. reflexivity. }
    destruct (sofree_inc N (eq i) s4 i so' p q' h hs3 IV4) as (s5 & J1 & J2 & J3 & J4 & J5 & J6 & J7 & J8).
    { reflexivity. }
    { unfold s4, put, put_so, put_pcb; cbn. apply upd_eq. }
    { rewrite S7. reflexivity. }
    { unfold s4, put, put_so, put_pcb; cbn. apply upd_eq. }
    { unfold released. rewrite K4, K3, S1. cbn. repeat split; congruence. }
    { rewrite S1. reflexivity. }
    { rewrite S2. reflexivity. }
    { unfold s4, s3, put, put_so, put_pcb; cbn. rewrite !upd_neq by assumption. apply upd_eq. }
    { unfold hs3; cbn. apply in_app_iff. right. left. reflexivity. }
    { exact Hne. }
    { rewrite S3. reflexivity. }
    { rewrite S4. reflexivity. }
    { exact US1. } { exact US2. } { exact B5. } { left. exact B4. }
    rewrite J1. cbn [obind].
    exists s5, (RErr 0), hs, rst. split; [reflexivity |]. split; [| split; [first [reflexivity | exact Hh] | split; [| split; [| split]]]].
    + eapply INV_shrink; [exact J2 |]. intros x <-. right. exact J3.
    + intros x. rewrite J7. unfold s4, s3; cbn. rewrite M2. reflexivity.
    + intros x. rewrite J8. unfold s4, s3; cbn. rewrite M3. reflexivity.
    + intros x n1 Hu. assert (n2 : x <> i) by congruence. rewrite J5 by assumption. unfold s4, s3; cbn. rewrite !upd_neq by assumption.
      rewrite G7; [| exact n1 | exact Hu]. unfold s1, alloc; cbn. rewrite upd_neq by assumption. reflexivity.
    + right. split; [lia | split; [exact G4 | split; [exact G5 |]]]. exists i. split; [left; reflexivity | left].
      split; [reflexivity |]. rewrite J4.
      assert (NI : ~ In i rst).
      { intros K. destruct (i_queue _ _ _ G2 h hs2 G3) as (_ & _ & _ & _ & _ & Q6 & _).
        destruct (Q6 i) as (y & Y1 & Y2 & _); [destruct hs; exact K |]. rewrite H2 in Y1. injection Y1 as <-. discriminate. }
      assert (RM : rm i (rst ++ [i]) = rst).
      { unfold rm. rewrite filter_app. cbn [filter]. rewrite Z.eqb_refl. cbn [negb]. rewrite app_nil_r. apply rm_notin; exact NI. }
      change (so_incq hs3) with (rst ++ [i]). rewrite RM. 
      assert (EQ : so_incqlen hs3 - 1 = Z.of_nat (length rst)) by (change (so_incqlen hs3) with (Z.of_nat (length rst) + 1); lia).
      rewrite EQ. reflexivity.
Qed.
