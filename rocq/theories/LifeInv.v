(* Invariant of the socket layer, and its preservation by elementary updates. *)
From Verif Require Import Base LifeModel LifeSpec.
Ltac Zify.zify_post_hook ::= idtac.

Definition flags_ok so q : Prop :=
  2 <= p_state q -> p_dropped q = false -> p_tw q = false ->
  so_conn so = true \/ so_conning so = true \/ so_disced so = true.

Definition child_ok so q : Prop :=
  so_accept so = false /\ p_sockref q = false /\ p_tw q = false /\ p_needfin q = false /\
  (p_dropped q = true \/ 3 <= p_state q <= 5) /\ so_disced so = p_dropped q.

Definition common so q : Prop :=
  so_protoref so = p_sockref q /\
  (p_sockref q = true -> p_dropped q = false) /\
  (so_accept so = true -> p_dropped q = true \/ (p_state q = 1 /\ p_tw q = false)) /\
  (p_state q = 1 -> p_dropped q = false -> so_accept so = true) /\
  (so_accept so = true -> so_qinit so = true) /\
  (so_accept so = false -> so_incq so = [] /\ so_compq so = []) /\
  (p_tw q = true -> 6 <= p_state q) /\
  (p_state q <= 1 -> p_dropped q = false ->
     p_sockref q = false /\ so_conn so = false /\ so_conning so = false /\ so_discing so = false /\ so_disced so = false) /\
  0 <= p_state q <= 9.

Definition role so q (u : bool) (c : call) : Prop :=
  if u then c = CNone /\ so_count so = 1 /\ so_nofd so = false /\ so_qs so = QNone /\ p_sockref q = false /\ flags_ok so q
  else match c with
  | CClose1 => so_count so = 1 /\ so_nofd so = false /\ so_qs so = QNone /\ p_sockref q = false
  | CClose2 => so_count so = 1 /\ so_nofd so = false /\ so_qs so = QNone /\
               (p_sockref q = true \/ p_dropped q = true \/ p_tw q = true) /\
               (so_accept so = true -> p_dropped q = true)
  | CAccept => so_count so = 1 /\ so_nofd so = true /\ so_qs so = QNone /\ child_ok so q /\ flags_ok so q
  | CAbort1 => so_count so = 0 /\ so_nofd so = true /\ so_qs so = QNone /\ child_ok so q
  | CAbort2 => so_count so = 0 /\ so_nofd so = true /\ so_qs so = QNone /\ p_sockref q = false /\
               p_dropped q = true /\ p_tw q = false /\ so_accept so = false
  | CLost => so_count so = 1 /\ so_nofd so = false /\ so_qs so = QNone /\ p_sockref q = false /\
             p_dropped q = true /\ so_accept so = false
  | CNone => so_count so = 0 /\ so_nofd so = true /\
      match so_qs so with
      | QNone => p_sockref q = true /\ so_accept so = false
      | QInc => child_ok so q
      | QComp => child_ok so q /\ flags_ok so q
      end
  end.

Definition LOK so q u c := common so q /\ role so q u c.

Record INV (N : nat) (X : Z -> Prop) (s : st) : Prop := {
  i_next : 0 <= s_next s;
  i_nodup : NoDup (s_free s);
  i_free : forall i, In i (s_free s) <-> 0 <= i < Z.of_nat N /\ s_so s i = None;
  i_range : forall i so, s_so s i = Some so -> 0 <= i < Z.of_nat N;
  i_idle : forall i, s_so s i = None -> s_user s i = false /\ s_call s i = CNone;
  i_pcb : forall i so, s_so s i = Some so ->
     exists p q, so_pcb so = Some p /\ s_pcb s p = Some q /\ p_sock q = Some i;
  i_sock : forall p q, s_pcb s p = Some q ->
     0 <= p < s_next s /\
     (forall i, p_sock q = Some i -> exists so, s_so s i = Some so /\ so_pcb so = Some p) /\
     (p_sock q = None -> p_tw q = true /\ p_dropped q = false /\ p_sockref q = false);
  i_queue : forall h hs, s_so s h = Some hs ->
     NoDup (so_incq hs) /\ NoDup (so_compq hs) /\
     so_incqlen hs = Z.of_nat (length (so_incq hs)) /\ so_qlen hs = Z.of_nat (length (so_compq hs)) /\
     0 <= so_qlimit hs /\
     (forall i, In i (so_incq hs) -> exists so, s_so s i = Some so /\ so_qs so = QInc /\ so_head so = Some h) /\
     (forall i, In i (so_compq hs) -> exists so, s_so s i = Some so /\ so_qs so = QComp /\ so_head so = Some h);
  i_back : forall i so, s_so s i = Some so -> ~ X i ->
     match so_qs so with
     | QNone => so_head so = None
     | QInc => exists h hs, so_head so = Some h /\ s_so s h = Some hs /\ In i (so_incq hs)
     | QComp => exists h hs, so_head so = Some h /\ s_so s h = Some hs /\ In i (so_compq hs)
     end;
  i_local : forall i so p q, s_so s i = Some so -> so_pcb so = Some p -> s_pcb s p = Some q -> ~ X i ->
     LOK so q (s_user s i) (s_call s i) }.

Definition X0 : Z -> Prop := fun _ => False.

(* structural fields unchanged *)
Definition same_str so so' : Prop :=
  so_qs so' = so_qs so /\ so_head so' = so_head so /\ so_incq so' = so_incq so /\ so_compq so' = so_compq so /\
  so_incqlen so' = so_incqlen so /\ so_qlen so' = so_qlen so /\ so_pcb so' = so_pcb so /\ 0 <= so_qlimit so'.

Lemma upd_eq : forall {A} (f : Z -> A) k v, upd f k v k = v.
Proof. intros. unfold upd. rewrite Z.eqb_refl. reflexivity. Qed.
Lemma upd_neq : forall {A} (f : Z -> A) k v x, x <> k -> upd f k v x = f x.
Proof. intros. unfold upd. destruct (Z.eqb_spec x k); congruence. Qed.

(* ---- one socket and its PCB change, not its place in the structure ---- *)
Definition changes_at (s s' : st) i so' p q' u' c' : Prop :=
  (forall x, s_so s' x = if x =? i then Some so' else s_so s x) /\
  (forall x, s_pcb s' x = if x =? p then Some q' else s_pcb s x) /\
  s_free s' = s_free s /\ s_next s' = s_next s /\
  (forall x, s_user s' x = if x =? i then u' else s_user s x) /\
  (forall x, s_call s' x = if x =? i then c' else s_call s x).

Lemma INV_local : forall N X s i so p q so' q' u' c' s',
  INV N X s -> s_so s i = Some so -> so_pcb so = Some p -> s_pcb s p = Some q ->
  changes_at s s' i so' p q' u' c' ->
  same_str so so' -> p_sock q' = p_sock q ->
  (~ X i -> LOK so' q' u' c') -> INV N X s'.
Proof.
  intros N X s i so p q so' q' u' c' s' IV Hso Hp Hq (Es & Ep & Ef & En & Eu & Ec) SS Psk HL.
  destruct SS as (S1 & S2 & S3 & S4 & S5 & S6 & S7 & S8).
  pose proof (i_pcb _ _ _ IV i so Hso) as (p0 & q0 & A1 & A2 & A3).
  assert (p0 = p) by congruence. subst p0. assert (q0 = q) by congruence. subst q0.
  constructor.
  - rewrite En. apply (i_next _ _ _ IV).
  - rewrite Ef. apply (i_nodup _ _ _ IV).
  - intros x. rewrite Ef, Es. rewrite (i_free _ _ _ IV x).
    destruct (Z.eqb_spec x i) as [-> | n]; [| tauto]. split; intros [P Q]; [congruence | discriminate].
  - intros x sx. rewrite Es. destruct (Z.eqb_spec x i) as [-> | n].
    + intros _. apply (i_range _ _ _ IV i so Hso).
    + apply (i_range _ _ _ IV).
  - intros x. rewrite Es, Eu, Ec. destruct (Z.eqb_spec x i) as [-> | n]; [discriminate |].
    apply (i_idle _ _ _ IV).
  - intros x sx. rewrite Es. destruct (Z.eqb_spec x i) as [-> | n].
    + intros [= <-]. exists p, q'. rewrite S7, Ep, Z.eqb_refl. repeat split; congruence.
    + intros Hx. destruct (i_pcb _ _ _ IV x sx Hx) as (px & qx & B1 & B2 & B3).
      exists px, qx. rewrite Ep. destruct (Z.eqb_spec px p) as [-> | np]; [| auto].
      assert (x = i) by congruence. contradiction.
  - intros px qx. rewrite Ep, En. destruct (Z.eqb_spec px p) as [-> | np].
    + intros [= <-]. destruct (i_sock _ _ _ IV p q Hq) as (B1 & B2 & B3).
      split; [exact B1 | split].
      * intros x Hx. assert (x = i) by congruence. subst x. exists so'. rewrite Es, Z.eqb_refl. split; congruence.
      * intros Hx. congruence.
    + intros Hx. destruct (i_sock _ _ _ IV px qx Hx) as (B1 & B2 & B3).
      split; [exact B1 | split; [| exact B3]].
      intros x Hsx. destruct (B2 x Hsx) as (sx & C1 & C2). exists sx. rewrite Es.
      destruct (Z.eqb_spec x i) as [-> | n]; [| auto].
      assert (sx = so) by congruence. congruence.
  - intros h hs. rewrite Es. destruct (Z.eqb_spec h i) as [-> | n].
    + intros [= <-]. destruct (i_queue _ _ _ IV i so Hso) as (B1 & B2 & B3 & B4 & B5 & B6 & B7).
      rewrite S3, S4, S5, S6. split; [exact B1 | split; [exact B2 | split; [exact B3 | split; [exact B4 | split; [exact S8 | split]]]]];
      intros x Hx; [destruct (B6 x Hx) as (sx & C1 & C2 & C3) | destruct (B7 x Hx) as (sx & C1 & C2 & C3)];
      (rewrite Es; destruct (Z.eqb_spec x i) as [-> | nx];
       [exists so'; assert (sx = so) by congruence; subst sx; repeat split; congruence | exists sx; auto]).
    + intros Hh. destruct (i_queue _ _ _ IV h hs Hh) as (B1 & B2 & B3 & B4 & B5 & B6 & B7).
      split; [exact B1 | split; [exact B2 | split; [exact B3 | split; [exact B4 | split; [exact B5 | split]]]]];
      intros x Hx; [destruct (B6 x Hx) as (sx & C1 & C2 & C3) | destruct (B7 x Hx) as (sx & C1 & C2 & C3)];
      (rewrite Es; destruct (Z.eqb_spec x i) as [-> | nx];
       [exists so'; assert (sx = so) by congruence; subst sx; repeat split; congruence | exists sx; auto]).
  - intros x sx. rewrite Es. destruct (Z.eqb_spec x i) as [-> | n].
    + intros [= <-] HX. pose proof (i_back _ _ _ IV i so Hso HX) as B. rewrite S1, S2.
      destruct (so_qs so); [exact B | |]; destruct B as (h & hs & C1 & C2 & C3);
      (destruct (Z.eq_dec h i) as [-> | nh];
       [exists i, so'; rewrite Es, Z.eqb_refl; assert (hs = so) by congruence; subst hs; repeat split; congruence
       |exists h, hs; rewrite Es; destruct (Z.eqb_spec h i); [contradiction | auto]]).
    + intros Hx HX. pose proof (i_back _ _ _ IV x sx Hx HX) as B.
      destruct (so_qs sx); [exact B | |]; destruct B as (h & hs & C1 & C2 & C3);
      (destruct (Z.eq_dec h i) as [-> | nh];
       [exists i, so'; rewrite Es, Z.eqb_refl; assert (hs = so) by congruence; subst hs; repeat split; congruence
       |exists h, hs; rewrite Es; destruct (Z.eqb_spec h i); [contradiction | auto]]).
  - intros x sx px qx. rewrite Es, Ep, Eu, Ec. destruct (Z.eqb_spec x i) as [-> | n].
    + intros [= <-] Hp' Hq' HX. assert (px = p) by congruence. subst px. rewrite Z.eqb_refl in Hq'.
      injection Hq' as <-. apply HL, HX.
    + intros Hx Hpx Hqx HX. destruct (Z.eqb_spec px p) as [-> | np].
      * destruct (i_pcb _ _ _ IV x sx Hx) as (p1 & q1 & D1 & D2 & D3).
        assert (p1 = p) by congruence. subst p1. assert (q1 = q) by congruence. subst q1.
        assert (x = i) by congruence. contradiction.
      * apply (i_local _ _ _ IV x sx px qx); assumption.
Qed.

(* ---- leaving a queue ---- *)

Lemma rm_in : forall i l x, In x (rm i l) <-> In x l /\ x <> i.
Proof.
  intros. unfold rm. rewrite filter_In. destruct (Z.eqb_spec x i); cbn; intuition congruence.
Qed.
Lemma mem_in : forall i l, mem i l = true <-> In i l.
Proof.
  intros. unfold mem. rewrite existsb_exists. split.
  - intros (x & A & B). apply Z.eqb_eq in B. congruence.
  - intros. exists i. split; [assumption | apply Z.eqb_refl].
Qed.
Lemma NoDup_rm : forall i l, NoDup l -> NoDup (rm i l).
Proof. intros. apply NoDup_filter. assumption. Qed.
Lemma rm_notin : forall i l, ~ In i l -> rm i l = l.
Proof.
  induction l as [| a l IH]; intros H; [reflexivity |]. unfold rm in *. cbn [filter].
  destruct (Z.eqb_spec a i) as [-> | n]; [exfalso; apply H; left; reflexivity |].
  cbn [negb]. rewrite IH; [reflexivity |]. intros K. apply H. right; assumption.
Qed.
Lemma rm_length : forall i l, NoDup l -> In i l -> Z.of_nat (length (rm i l)) = Z.of_nat (length l) - 1.
Proof.
  induction l as [| a l IH]; intros ND H; [contradiction |]. unfold rm in *. cbn [filter].
  inversion ND; subst. destruct (Z.eqb_spec a i) as [-> | n]; cbn [negb].
  - fold (rm i l). rewrite rm_notin by assumption. cbn [length]. lia.
  - destruct H as [-> | H]; [contradiction |]. cbn [length]. specialize (IH H3 H). fold (rm i l) in *. lia.
Qed.
Lemma rm_head : forall i l, NoDup (i :: l) -> rm i (i :: l) = l.
Proof.
  intros i l ND. inversion ND; subst. unfold rm. cbn [filter]. rewrite Z.eqb_refl. cbn [negb].
  fold (rm i l). apply rm_notin. assumption.
Qed.

(* the queues of a listener, one entry removed *)
Definition without hs i :=
  set_queues hs (rm i (so_incq hs)) (rm i (so_compq hs))
    (Z.of_nat (length (rm i (so_incq hs)))) (Z.of_nat (length (rm i (so_compq hs)))).

Definition dequeues (s s' : st) h hs i so' p q' u' c' : Prop :=
  (forall x, s_so s' x = if x =? i then Some so' else if x =? h then Some (without hs i) else s_so s x) /\
  (forall x, s_pcb s' x = if x =? p then Some q' else s_pcb s x) /\
  s_free s' = s_free s /\ s_next s' = s_next s /\
  (forall x, s_user s' x = if x =? i then u' else s_user s x) /\
  (forall x, s_call s' x = if x =? i then c' else s_call s x).

Lemma common_without : forall hs q i, common hs q -> common (without hs i) q.
Proof.
  intros hs q i (A1 & A2 & A3 & A4 & A5 & A6 & A7 & A8 & A9). unfold common, without. destruct hs; cbn in *.
  refine (conj A1 (conj A2 (conj A3 (conj A4 (conj A5 (conj _ (conj A7 (conj A8 A9)))))))).
  intros H. destruct (A6 H) as [-> ->]. split; reflexivity.
Qed.
Lemma LOK_without : forall hs q i u c, LOK hs q u c -> LOK (without hs i) q u c.
Proof.
  intros hs q i u c [A B]. split; [apply common_without; exact A |].
  destruct hs; exact B.
Qed.

Lemma INV_dequeue : forall N X s h hs i so p q so' q' u' c' s',
  INV N X s -> s_so s h = Some hs -> s_so s i = Some so -> so_head so = Some h -> so_qs so <> QNone -> h <> i ->
  so_pcb so = Some p -> s_pcb s p = Some q ->
  dequeues s s' h hs i so' p q' u' c' ->
  so_qs so' = QNone -> so_head so' = None -> so_pcb so' = Some p -> p_sock q' = p_sock q ->
  so_incq so' = so_incq so -> so_compq so' = so_compq so -> so_incqlen so' = so_incqlen so ->
  so_qlen so' = so_qlen so -> 0 <= so_qlimit so' ->
  (~ X i -> LOK so' q' u' c') -> INV N X s'.
Proof.
  intros N X s h hs i so p q so' q' u' c' s' IV Hh Hi Hhd Hqs Hne Hp Hq (Es & Ep & Ef & En & Eu & Ec)
         S1 S2 S7 Psk S3 S4 S5 S6 S8 HL.
  pose proof (i_pcb _ _ _ IV i so Hi) as (p0 & q0 & A1 & A2 & A3).
  assert (p0 = p) by congruence. subst p0. assert (q0 = q) by congruence. subst q0.
  pose proof (i_queue _ _ _ IV h hs Hh) as (Q1 & Q2 & Q3 & Q4 & Q5 & Q6 & Q7).
  assert (EsI : s_so s' i = Some so') by (rewrite Es, Z.eqb_refl; reflexivity).
  assert (EsH : s_so s' h = Some (without hs i)).
  { rewrite Es. destruct (Z.eqb_spec h i); [contradiction |]. rewrite Z.eqb_refl. reflexivity. }
  assert (EsO : forall x, x <> i -> x <> h -> s_so s' x = s_so s x).
  { intros x a b. rewrite Es. destruct (Z.eqb_spec x i); [contradiction |]. destruct (Z.eqb_spec x h); [contradiction | reflexivity]. }
  (* every allocated slot stays allocated, with the same pcb *)
  assert (ALL : forall x sx, s_so s x = Some sx -> exists sx', s_so s' x = Some sx' /\ so_pcb sx' = so_pcb sx /\
              (x <> i -> so_qs sx' = so_qs sx /\ so_head sx' = so_head sx)).
  { intros x sx Hx. destruct (Z.eq_dec x i) as [-> | ni].
    - exists so'. assert (sx = so) by congruence. subst sx. split; [exact EsI |]. split; [congruence | contradiction].
    - destruct (Z.eq_dec x h) as [-> | nh].
      + exists (without hs i). assert (sx = hs) by congruence. subst sx. destruct hs; cbn; auto.
      + exists sx. rewrite EsO by assumption. auto. }
  assert (NONE : forall x, s_so s' x = None <-> s_so s x = None).
  { intros x. destruct (Z.eq_dec x i) as [-> | ni]; [rewrite EsI; split; congruence |].
    destruct (Z.eq_dec x h) as [-> | nh]; [rewrite EsH; split; congruence |].
    rewrite EsO by assumption. tauto. }
  assert (OLD : forall x sx', s_so s' x = Some sx' -> exists sx, s_so s x = Some sx /\ so_pcb sx' = so_pcb sx).
  { intros x sx' Hx. destruct (s_so s x) as [sx |] eqn:E.
    - exists sx. split; [reflexivity |]. destruct (ALL x sx E) as (y & B1 & B2 & _). congruence.
    - apply NONE in E. congruence. }
  (* the queued entries that survive *)
  assert (SURV : forall g gs, s_so s g = Some gs -> forall x, x <> i ->
      (In x (so_incq gs) -> exists sx, s_so s' x = Some sx /\ so_qs sx = QInc /\ so_head sx = Some g) /\
      (In x (so_compq gs) -> exists sx, s_so s' x = Some sx /\ so_qs sx = QComp /\ so_head sx = Some g)).
  { intros g gs Hg x nx. destruct (i_queue _ _ _ IV g gs Hg) as (B1 & B2 & B3 & B4 & B5 & B6 & B7).
    split; intros Hin; [destruct (B6 x Hin) as (sx & C1 & C2 & C3) | destruct (B7 x Hin) as (sx & C1 & C2 & C3)];
    destruct (ALL x sx C1) as (y & D1 & D2 & D3); destruct (D3 nx) as [D4 D5]; exists y; repeat split; congruence. }
  constructor.
  - rewrite En. apply (i_next _ _ _ IV).
  - rewrite Ef. apply (i_nodup _ _ _ IV).
  - intros x. rewrite Ef, NONE. apply (i_free _ _ _ IV x).
  - intros x sx Hx. destruct (OLD x sx Hx) as (sx0 & B & _). apply (i_range _ _ _ IV x sx0 B).
  - intros x Hx. apply NONE in Hx. rewrite Eu, Ec. destruct (Z.eqb_spec x i) as [-> | n]; [congruence |].
    apply (i_idle _ _ _ IV x Hx).
  - intros x sx Hx. destruct (OLD x sx Hx) as (sx0 & B1 & B2). rewrite B2.
    destruct (i_pcb _ _ _ IV x sx0 B1) as (px & qx & C1 & C2 & C3).
    destruct (Z.eq_dec px p) as [-> | np].
    + exists p, q'. rewrite Ep, Z.eqb_refl. repeat split; congruence.
    + exists px, qx. rewrite Ep. destruct (Z.eqb_spec px p); [contradiction | auto].
  - intros px qx. rewrite Ep, En. destruct (Z.eqb_spec px p) as [-> | np].
    + intros [= <-]. destruct (i_sock _ _ _ IV p q Hq) as (B1 & B2 & B3).
      split; [exact B1 | split].
      * intros x Hx. exists so'. assert (x = i) by congruence. subst x. split; congruence.
      * intros Hx. congruence.
    + intros Hx. destruct (i_sock _ _ _ IV px qx Hx) as (B1 & B2 & B3).
      split; [exact B1 | split; [| exact B3]].
      intros x Hsx. destruct (B2 x Hsx) as (sx & C1 & C2). destruct (ALL x sx C1) as (y & D1 & D2 & _).
      exists y. split; congruence.
  - intros g gs Hg. destruct (Z.eq_dec g i) as [-> | ni].
    + rewrite EsI in Hg. injection Hg as <-. rewrite S3, S4, S5, S6.
      destruct (i_queue _ _ _ IV i so Hi) as (B1 & B2 & B3 & B4 & B5 & B6 & B7).
      assert (NI : ~ In i (so_incq so) /\ ~ In i (so_compq so)).
      { split; intros K; [destruct (B6 _ K) as (y & C1 & C2 & C3) | destruct (B7 _ K) as (y & C1 & C2 & C3)];
        assert (y = so) by congruence; subst y; congruence. }
      split; [exact B1 | split; [exact B2 | split; [exact B3 | split; [exact B4 | split; [exact S8 | split]]]]];
      intros x Hx; assert (x <> i) by (intros ->; tauto); destruct (SURV i so Hi x H); auto.
    + destruct (Z.eq_dec g h) as [-> | nh].
      * rewrite EsH in Hg. injection Hg as <-. unfold without. destruct hs; cbn in *.
        split; [apply NoDup_rm; exact Q1 | split; [apply NoDup_rm; exact Q2 | split; [reflexivity | split; [reflexivity | split; [exact Q5 | split]]]]];
        intros x Hx; apply rm_in in Hx; destruct Hx as [Hx nx]; destruct (SURV h _ Hh x nx) as [U V]; cbn in *; auto.
      * rewrite EsO in Hg by assumption.
        destruct (i_queue _ _ _ IV g gs Hg) as (B1 & B2 & B3 & B4 & B5 & B6 & B7).
        assert (NI : ~ In i (so_incq gs) /\ ~ In i (so_compq gs)).
        { split; intros K; [destruct (B6 _ K) as (y & C1 & C2 & C3) | destruct (B7 _ K) as (y & C1 & C2 & C3)];
          assert (y = so) by congruence; subst y; congruence. }
        split; [exact B1 | split; [exact B2 | split; [exact B3 | split; [exact B4 | split; [exact B5 | split]]]]];
        intros x Hx; assert (x <> i) by (intros ->; tauto); destruct (SURV g gs Hg x H); auto.
  - intros x sx Hx HX. destruct (Z.eq_dec x i) as [-> | ni].
    + rewrite EsI in Hx. injection Hx as <-. rewrite S1. exact S2.
    + destruct (OLD x sx Hx) as (sx0 & B1 & B2). destruct (ALL x sx0 B1) as (y & C1 & C2 & C3).
      destruct (C3 ni) as [C4 C5]. assert (y = sx) by congruence. subst y. rewrite C4, C5.
      pose proof (i_back _ _ _ IV x sx0 B1 HX) as K.
      destruct (so_qs sx0); [exact K | |]; destruct K as (g & gs & D1 & D2 & D3);
      (destruct (Z.eq_dec g i) as [-> | ngi];
       [exists i, so'; assert (gs = so) by congruence; subst gs; repeat split; congruence
       |destruct (Z.eq_dec g h) as [-> | ngh];
        [exists h, (without hs i); assert (gs = hs) by congruence; subst gs; split; [exact D1 | split; [exact EsH |]];
         unfold without; destruct hs; cbn in *; apply rm_in; auto
        |exists g, gs; rewrite EsO by assumption; auto]]).
  - intros x sx px qx Hx Hpx Hqx HX. rewrite Eu, Ec. destruct (Z.eqb_spec x i) as [-> | ni].
    + rewrite EsI in Hx. injection Hx as <-. assert (px = p) by congruence. subst px.
      rewrite Ep, Z.eqb_refl in Hqx. injection Hqx as <-. apply HL, HX.
    + rewrite Ep in Hqx. destruct (Z.eqb_spec px p) as [-> | np].
      * destruct (OLD x sx Hx) as (sx0 & B1 & B2).
        destruct (i_pcb _ _ _ IV x sx0 B1) as (p1 & q1 & D1 & D2 & D3).
        assert (p1 = p) by congruence. subst p1. assert (q1 = q) by congruence. subst q1.
        assert (x = i) by congruence. contradiction.
      * destruct (Z.eq_dec x h) as [-> | nh].
        -- rewrite EsH in Hx. injection Hx as <-. apply LOK_without.
           apply (i_local _ _ _ IV h hs px qx); assumption.
        -- rewrite EsO in Hx by assumption. apply (i_local _ _ _ IV x sx px qx); assumption.
Qed.

(* ---- a socket without any reference is given back ---- *)
Definition frees (s s' : st) i p (o : option pcb) : Prop :=
  (forall x, s_so s' x = if x =? i then None else s_so s x) /\
  (forall x, s_pcb s' x = if x =? p then o else s_pcb s x) /\
  s_free s' = i :: s_free s /\ s_next s' = s_next s /\
  (forall x, x <> i -> s_user s' x = s_user s x) /\ (forall x, x <> i -> s_call s' x = s_call s x) /\
  s_user s' i = false /\ s_call s' i = CNone.

Lemma INV_free : forall N X s i so p q o s',
  INV N X s -> s_so s i = Some so -> so_qs so = QNone -> so_incq so = [] -> so_compq so = [] ->
  so_pcb so = Some p -> s_pcb s p = Some q ->
  frees s s' i p o ->
  (match o with None => True | Some q' => p_sock q' = None /\ p_tw q' = true /\ p_dropped q' = false /\ p_sockref q' = false end) ->
  INV N X s'.
Proof.
  intros N X s i so p q o s' IV Hi Hqs Hiq Hcq Hp Hq (Es & Ep & Ef & En & Eu & Ec & Eui & Eci) HO.
  pose proof (i_pcb _ _ _ IV i so Hi) as (p0 & q0 & A1 & A2 & A3).
  assert (p0 = p) by congruence. subst p0. assert (q0 = q) by congruence. subst q0.
  assert (EsO : forall x sx, s_so s' x = Some sx -> x <> i /\ s_so s x = Some sx).
  { intros x sx. rewrite Es. destruct (Z.eqb_spec x i); [discriminate | auto]. }
  assert (KEEP : forall x sx, s_so s x = Some sx -> x <> i -> s_so s' x = Some sx).
  { intros x sx Hx n. rewrite Es. destruct (Z.eqb_spec x i); [contradiction | auto]. }
  constructor.
  - rewrite En. apply (i_next _ _ _ IV).
  - rewrite Ef. constructor; [| apply (i_nodup _ _ _ IV)]. rewrite (i_free _ _ _ IV i). intros [_ K]. congruence.
  - intros x. rewrite Ef, Es. cbn [In]. rewrite (i_free _ _ _ IV x).
    destruct (Z.eqb_spec x i) as [-> | n].
    + split; [intros _ | auto]. split; [apply (i_range _ _ _ IV i so Hi) | reflexivity].
    + split; [intros [K | K]; [congruence | exact K] | auto].
  - intros x sx Hx. apply (i_range _ _ _ IV x sx). apply EsO in Hx. tauto.
  - intros x. rewrite Es. destruct (Z.eqb_spec x i) as [-> | n]; [auto |].
    intros Hx. rewrite Eu, Ec by assumption. apply (i_idle _ _ _ IV x Hx).
  - intros x sx Hx. apply EsO in Hx. destruct Hx as [n Hx].
    destruct (i_pcb _ _ _ IV x sx Hx) as (px & qx & B1 & B2 & B3). exists px, qx. rewrite Ep.
    destruct (Z.eqb_spec px p) as [-> | np]; [| auto]. assert (x = i) by congruence. contradiction.
  - intros px qx. rewrite Ep, En. destruct (Z.eqb_spec px p) as [-> | np].
    + intros ->. destruct (i_sock _ _ _ IV p q Hq) as (B1 & B2 & B3). destruct HO as (C1 & C2 & C3 & C4).
      split; [exact B1 | split; [intros x K; congruence | auto]].
    + intros Hx. destruct (i_sock _ _ _ IV px qx Hx) as (B1 & B2 & B3).
      split; [exact B1 | split; [| exact B3]].
      intros x Hsx. destruct (B2 x Hsx) as (sx & C1 & C2). exists sx. split; [| exact C2].
      apply KEEP; [exact C1 |]. intros ->. congruence.
  - intros h hs Hh. apply EsO in Hh. destruct Hh as [n Hh].
    destruct (i_queue _ _ _ IV h hs Hh) as (B1 & B2 & B3 & B4 & B5 & B6 & B7).
    split; [exact B1 | split; [exact B2 | split; [exact B3 | split; [exact B4 | split; [exact B5 | split]]]]];
    intros x Hx; [destruct (B6 x Hx) as (sx & C1 & C2 & C3) | destruct (B7 x Hx) as (sx & C1 & C2 & C3)];
    (exists sx; split; [apply KEEP; [exact C1 | intros ->; congruence] | auto]).
  - intros x sx Hx HX. apply EsO in Hx. destruct Hx as [n Hx]. pose proof (i_back _ _ _ IV x sx Hx HX) as B.
    destruct (so_qs sx); [exact B | |]; destruct B as (h & hs & C1 & C2 & C3);
    (exists h, hs; split; [exact C1 | split; [apply KEEP; [exact C2 | intros ->; assert (hs = so) by congruence; subst hs; rewrite ?Hiq, ?Hcq in C3; contradiction] | exact C3]]).
  - intros x sx px qx Hx Hpx Hqx HX. apply EsO in Hx. destruct Hx as [n Hx].
    rewrite Eu, Ec by assumption. rewrite Ep in Hqx. destruct (Z.eqb_spec px p) as [-> | np].
    + destruct (i_pcb _ _ _ IV x sx Hx) as (p1 & q1 & D1 & D2 & D3).
      assert (p1 = p) by congruence. subst p1. assert (q1 = q) by congruence. subst q1.
      assert (x = i) by congruence. contradiction.
    + apply (i_local _ _ _ IV x sx px qx); assumption.
Qed.

(* ---- a socket and its PCB are allocated ---- *)
Definition allocates (s s' : st) i rest so' (u' : bool) : Prop :=
  s_free s = i :: rest /\
  (forall x, s_so s' x = if x =? i then Some so' else s_so s x) /\
  (forall x, s_pcb s' x = if x =? s_next s then Some (new_pcb i) else s_pcb s x) /\
  s_free s' = rest /\ s_next s' = s_next s + 1 /\
  (forall x, s_user s' x = if x =? i then u' else s_user s x) /\
  (forall x, s_call s' x = s_call s x).

Lemma INV_alloc : forall N (X X' : Z -> Prop) s s' i rest so' u',
  INV N X s -> allocates s s' i rest so' u' ->
  so_pcb so' = Some (s_next s) -> so_qs so' = QNone -> so_incq so' = [] -> so_compq so' = [] ->
  so_incqlen so' = 0 -> so_qlen so' = 0 -> 0 <= so_qlimit so' ->
  (forall x, X x -> X' x) ->
  (~ X' i -> so_head so' = None /\ LOK so' (new_pcb i) u' CNone) -> INV N X' s'.
Proof.
  intros N X X' s s' i rest so' u' IV (Ef & Es & Ep & Ef' & En & Eu & Ec) Hp Hqs Hiq Hcq Hil Hql Hlim HXX HL.
  assert (Ni : s_so s i = None).
  { assert (K : In i (s_free s)) by (rewrite Ef; left; reflexivity). apply (i_free _ _ _ IV) in K. tauto. }
  assert (Ri : 0 <= i < Z.of_nat N).
  { assert (K : In i (s_free s)) by (rewrite Ef; left; reflexivity). apply (i_free _ _ _ IV) in K. tauto. }
  assert (NDf : ~ In i rest /\ NoDup rest).
  { pose proof (i_nodup _ _ _ IV) as K. rewrite Ef in K. inversion K; auto. }
  assert (KEEP : forall x sx, s_so s x = Some sx -> s_so s' x = Some sx).
  { intros x sx Hx. rewrite Es. destruct (Z.eqb_spec x i) as [-> | n]; [congruence | exact Hx]. }
  assert (KEEPP : forall x qx, s_pcb s x = Some qx -> s_pcb s' x = Some qx).
  { intros x qx Hx. rewrite Ep. destruct (Z.eqb_spec x (s_next s)) as [-> | n]; [| exact Hx].
    destruct (i_sock _ _ _ IV _ _ Hx) as ((_ & K) & _). lia. }
  pose proof (i_next _ _ _ IV) as Hn0.
  constructor.
  - rewrite En. lia.
  - rewrite Ef'. tauto.
  - intros x. rewrite Ef', Es. pose proof (i_free _ _ _ IV x) as K. rewrite Ef in K. cbn [In] in K.
    destruct (Z.eqb_spec x i) as [-> | n].
    + split; [tauto | intros [_ C]; discriminate].
    + rewrite <- K. split; [auto | intros [C | C]; [congruence | exact C]].
  - intros x sx. rewrite Es. destruct (Z.eqb_spec x i) as [-> | n]; [auto | apply (i_range _ _ _ IV)].
  - intros x. rewrite Es, Eu, Ec. destruct (Z.eqb_spec x i) as [-> | n]; [discriminate | apply (i_idle _ _ _ IV)].
  - intros x sx. rewrite Es. destruct (Z.eqb_spec x i) as [-> | n].
    + intros [= <-]. exists (s_next s), (new_pcb i). rewrite Ep, Z.eqb_refl. auto.
    + intros Hx. destruct (i_pcb _ _ _ IV x sx Hx) as (px & qx & B1 & B2 & B3). exists px, qx. auto.
  - intros px qx. rewrite Ep, En. destruct (Z.eqb_spec px (s_next s)) as [-> | np].
    + intros [= <-]. split; [lia | split; [| discriminate]]. intros x [= <-]. exists so'. rewrite Es, Z.eqb_refl. auto.
    + intros Hx. destruct (i_sock _ _ _ IV px qx Hx) as (B1 & B2 & B3). split; [lia | split; [| exact B3]].
      intros x Hsx. destruct (B2 x Hsx) as (sx & C1 & C2). exists sx. auto.
  - intros h hs. rewrite Es. destruct (Z.eqb_spec h i) as [-> | n].
    + intros [= <-]. rewrite Hiq, Hcq, Hil, Hql. split; [constructor | split; [constructor | split; [reflexivity | split; [reflexivity | split; [exact Hlim | split; contradiction]]]]].
    + intros Hh. destruct (i_queue _ _ _ IV h hs Hh) as (B1 & B2 & B3 & B4 & B5 & B6 & B7).
      split; [exact B1 | split; [exact B2 | split; [exact B3 | split; [exact B4 | split; [exact B5 | split]]]]];
      intros x Hx; [destruct (B6 x Hx) as (sx & C1 & C2 & C3) | destruct (B7 x Hx) as (sx & C1 & C2 & C3)]; exists sx; auto.
  - intros x sx. rewrite Es. destruct (Z.eqb_spec x i) as [-> | n].
    + intros [= <-] HX. rewrite Hqs. apply HL in HX. tauto.
    + intros Hx HX. assert (HX1 : ~ X x) by auto. pose proof (i_back _ _ _ IV x sx Hx HX1) as B.
      destruct (so_qs sx); [exact B | |]; destruct B as (h & hs & C1 & C2 & C3); exists h, hs; auto.
  - intros x sx px qx. rewrite Es, Eu, Ec. destruct (Z.eqb_spec x i) as [-> | n].
    + intros [= <-] Hpx Hqx HX. assert (px = s_next s) by congruence. subst px.
      rewrite Ep, Z.eqb_refl in Hqx. injection Hqx as <-. destruct (i_idle _ _ _ IV i Ni) as [_ ->].
      apply HL in HX. tauto.
    + intros Hx Hpx Hqx HX. destruct (i_pcb _ _ _ IV x sx Hx) as (p1 & q1 & D1 & D2 & D3).
      assert (p1 = px) by congruence. subst p1. assert (q1 = qx) by (pose proof (KEEPP _ _ D2); congruence). subst q1.
      apply (i_local _ _ _ IV x sx px qx); auto.
Qed.

Lemma INV_mono : forall N (X X' : Z -> Prop) s, INV N X s -> (forall x, X x -> X' x) -> INV N X' s.
Proof.
  intros N X X' s IV H. destruct IV. constructor; auto.
  - intros i so Hi HX. apply i_back0; auto.
  - intros i so p q Hi Hp Hq HX. eapply i_local0; eauto.
Qed.
Lemma INV_gone : forall N (X : Z -> Prop) s, INV N X s -> (forall x, X x -> s_so s x = None) -> INV N X0 s.
Proof.
  intros N X s IV H. destruct IV. constructor; auto.
  - intros i so Hi HX. apply i_back0; auto. intros K. apply H in K. congruence.
  - intros i so p q Hi Hp Hq HX. eapply i_local0; eauto. intros K. apply H in K. congruence.
Qed.

(* ---- entering a queue ---- *)
Definition push (b : bool) hs i :=
  if b then set_queues hs (so_incq hs) (so_compq hs ++ [i]) (so_incqlen hs) (so_qlen hs + 1)
  else set_queues hs (so_incq hs ++ [i]) (so_compq hs) (so_incqlen hs + 1) (so_qlen hs).

Definition enqueues (s s' : st) (b : bool) h hs i so' p q' : Prop :=
  (forall x, s_so s' x = if x =? i then Some so' else if x =? h then Some (push b hs i) else s_so s x) /\
  (forall x, s_pcb s' x = if x =? p then Some q' else s_pcb s x) /\
  s_free s' = s_free s /\ s_next s' = s_next s /\
  (forall x, s_user s' x = s_user s x) /\ (forall x, s_call s' x = s_call s x).

Lemma LOK_push : forall b hs q i u c, so_accept hs = true -> LOK hs q u c -> LOK (push b hs i) q u c.
Proof.
  intros b hs q i u c HA [(A1 & A2 & A3 & A4 & A5 & A6 & A7 & A8 & A9) B]. split.
  - unfold common. destruct b, hs; cbn in *;
    refine (conj A1 (conj A2 (conj A3 (conj A4 (conj A5 (conj _ (conj A7 (conj A8 A9)))))))); congruence.
  - destruct b, hs; exact B.
Qed.

Lemma NoDup_snoc : forall (l : list Z) i, NoDup l -> ~ In i l -> NoDup (l ++ [i]).
Proof.
  induction l as [| a l IH]; intros i ND H; cbn [app].
  - constructor; [exact H | constructor].
  - inversion ND; subst. constructor.
    + rewrite in_app_iff. intros [K | [K | []]]; [contradiction | apply H; left; congruence].
    + apply IH; [assumption | intros K; apply H; right; exact K].
Qed.

Lemma INV_enqueue : forall N (X X' : Z -> Prop) b s h hs i so p q so' q' s',
  INV N X s -> s_so s h = Some hs -> s_so s i = Some so -> so_qs so = QNone -> h <> i -> so_accept hs = true ->
  so_pcb so = Some p -> s_pcb s p = Some q ->
  enqueues s s' b h hs i so' p q' ->
  so_qs so' = (if b then QComp else QInc) -> so_head so' = Some h -> so_pcb so' = Some p -> p_sock q' = p_sock q ->
  so_incq so' = so_incq so -> so_compq so' = so_compq so -> so_incqlen so' = so_incqlen so ->
  so_qlen so' = so_qlen so -> 0 <= so_qlimit so' ->
  (forall x, X x -> x = i \/ X' x) ->
  (~ X' i -> LOK so' q' (s_user s i) (s_call s i)) -> INV N X' s'.
Proof.
  intros N X X' b s h hs i so p q so' q' s' IV Hh Hi Hqs Hne HA Hp Hq (Es & Ep & Ef & En & Eu & Ec)
         S1 S2 S7 Psk S3 S4 S5 S6 S8 HXX HL.
  pose proof (i_pcb _ _ _ IV i so Hi) as (p0 & q0 & A1 & A2 & A3).
  assert (p0 = p) by congruence. subst p0. assert (q0 = q) by congruence. subst q0.
  pose proof (i_queue _ _ _ IV h hs Hh) as (Q1 & Q2 & Q3 & Q4 & Q5 & Q6 & Q7).
  assert (EsI : s_so s' i = Some so') by (rewrite Es, Z.eqb_refl; reflexivity).
  assert (EsH : s_so s' h = Some (push b hs i)).
  { rewrite Es. destruct (Z.eqb_spec h i); [contradiction |]. rewrite Z.eqb_refl. reflexivity. }
  assert (EsO : forall x, x <> i -> x <> h -> s_so s' x = s_so s x).
  { intros x a c. rewrite Es. destruct (Z.eqb_spec x i); [contradiction |]. destruct (Z.eqb_spec x h); [contradiction | reflexivity]. }
  assert (PF : so_pcb (push b hs i) = so_pcb hs /\ so_qs (push b hs i) = so_qs hs /\ so_head (push b hs i) = so_head hs
               /\ so_qlimit (push b hs i) = so_qlimit hs) by (destruct b, hs; cbn; auto).
  destruct PF as (PF1 & PF2 & PF3 & PF4).
  assert (ALL : forall x sx, s_so s x = Some sx -> exists sx', s_so s' x = Some sx' /\ so_pcb sx' = so_pcb sx /\
              (x <> i -> so_qs sx' = so_qs sx /\ so_head sx' = so_head sx)).
  { intros x sx Hx. destruct (Z.eq_dec x i) as [-> | ni].
    - exists so'. assert (sx = so) by congruence. subst sx. split; [exact EsI |]. split; [congruence | contradiction].
    - destruct (Z.eq_dec x h) as [-> | nh].
      + exists (push b hs i). assert (sx = hs) by congruence. subst sx. auto.
      + exists sx. rewrite EsO by assumption. auto. }
  assert (NONE : forall x, s_so s' x = None <-> s_so s x = None).
  { intros x. destruct (Z.eq_dec x i) as [-> | ni]; [rewrite EsI; split; congruence |].
    destruct (Z.eq_dec x h) as [-> | nh]; [rewrite EsH; split; congruence |].
    rewrite EsO by assumption. tauto. }
  assert (OLD : forall x sx', s_so s' x = Some sx' -> exists sx, s_so s x = Some sx /\ so_pcb sx' = so_pcb sx).
  { intros x sx' Hx. destruct (s_so s x) as [sx |] eqn:E.
    - exists sx. split; [reflexivity |]. destruct (ALL x sx E) as (y & B1 & B2 & _). congruence.
    - apply NONE in E. congruence. }
  assert (NIN : forall g gs, s_so s g = Some gs -> ~ In i (so_incq gs) /\ ~ In i (so_compq gs)).
  { intros g gs Hg. destruct (i_queue _ _ _ IV g gs Hg) as (B1 & B2 & B3 & B4 & B5 & B6 & B7).
    split; intros K; [destruct (B6 _ K) as (y & C1 & C2 & C3) | destruct (B7 _ K) as (y & C1 & C2 & C3)];
    assert (y = so) by congruence; subst y; congruence. }
  assert (SURV : forall g gs, s_so s g = Some gs -> forall x,
      (In x (so_incq gs) -> exists sx, s_so s' x = Some sx /\ so_qs sx = QInc /\ so_head sx = Some g) /\
      (In x (so_compq gs) -> exists sx, s_so s' x = Some sx /\ so_qs sx = QComp /\ so_head sx = Some g)).
  { intros g gs Hg x. destruct (i_queue _ _ _ IV g gs Hg) as (B1 & B2 & B3 & B4 & B5 & B6 & B7).
    destruct (NIN g gs Hg) as [NI1 NI2].
    split; intros Hin; [destruct (B6 x Hin) as (sx & C1 & C2 & C3) | destruct (B7 x Hin) as (sx & C1 & C2 & C3)];
    (assert (nx : x <> i) by (intros ->; contradiction));
    destruct (ALL x sx C1) as (y & D1 & D2 & D3); destruct (D3 nx) as [D4 D5]; exists y; repeat split; congruence. }
  constructor.
  - rewrite En. apply (i_next _ _ _ IV).
  - rewrite Ef. apply (i_nodup _ _ _ IV).
  - intros x. rewrite Ef, NONE. apply (i_free _ _ _ IV x).
  - intros x sx Hx. destruct (OLD x sx Hx) as (sx0 & B & _). apply (i_range _ _ _ IV x sx0 B).
  - intros x Hx. apply NONE in Hx. rewrite Eu, Ec. apply (i_idle _ _ _ IV x Hx).
  - intros x sx Hx. destruct (OLD x sx Hx) as (sx0 & B1 & B2). rewrite B2.
    destruct (i_pcb _ _ _ IV x sx0 B1) as (px & qx & C1 & C2 & C3).
    destruct (Z.eq_dec px p) as [-> | np].
    + exists p, q'. rewrite Ep, Z.eqb_refl. repeat split; congruence.
    + exists px, qx. rewrite Ep. destruct (Z.eqb_spec px p); [contradiction | auto].
  - intros px qx. rewrite Ep, En. destruct (Z.eqb_spec px p) as [-> | np].
    + intros [= <-]. destruct (i_sock _ _ _ IV p q Hq) as (B1 & B2 & B3).
      split; [exact B1 | split].
      * intros x Hx. exists so'. assert (x = i) by congruence. subst x. split; congruence.
      * intros Hx. congruence.
    + intros Hx. destruct (i_sock _ _ _ IV px qx Hx) as (B1 & B2 & B3).
      split; [exact B1 | split; [| exact B3]].
      intros x Hsx. destruct (B2 x Hsx) as (sx & C1 & C2). destruct (ALL x sx C1) as (y & D1 & D2 & _).
      exists y. split; congruence.
  - intros g gs Hg. destruct (Z.eq_dec g i) as [-> | ni].
    + rewrite EsI in Hg. injection Hg as <-. rewrite S3, S4, S5, S6.
      destruct (i_queue _ _ _ IV i so Hi) as (B1 & B2 & B3 & B4 & B5 & B6 & B7).
      split; [exact B1 | split; [exact B2 | split; [exact B3 | split; [exact B4 | split; [exact S8 | split]]]]];
      intros x Hx; destruct (SURV i so Hi x); auto.
    + destruct (Z.eq_dec g h) as [-> | nh].
      * rewrite EsH in Hg. injection Hg as <-. rewrite PF4.
        destruct (NIN h hs Hh) as [NI1 NI2]. pose proof (SURV h hs Hh) as SV.
        unfold push. destruct b; destruct hs; cbn in *; rewrite ?app_length; cbn [length].
        -- split; [exact Q1 | split; [apply NoDup_snoc; assumption | split; [exact Q3 | split; [lia | split; [exact Q5 | split]]]]].
           ++ intros x Hx. apply SV; exact Hx.
           ++ intros x Hx. apply in_app_iff in Hx. destruct Hx as [Hx | [<- | []]]; [apply SV; exact Hx | exists so'; auto].
        -- split; [apply NoDup_snoc; assumption | split; [exact Q2 | split; [lia | split; [exact Q4 | split; [exact Q5 | split]]]]].
           ++ intros x Hx. apply in_app_iff in Hx. destruct Hx as [Hx | [<- | []]]; [apply SV; exact Hx | exists so'; auto].
           ++ intros x Hx. apply SV; exact Hx.
      * rewrite EsO in Hg by assumption.
        destruct (i_queue _ _ _ IV g gs Hg) as (B1 & B2 & B3 & B4 & B5 & B6 & B7).
        split; [exact B1 | split; [exact B2 | split; [exact B3 | split; [exact B4 | split; [exact B5 | split]]]]];
        intros x Hx; destruct (SURV g gs Hg x); auto.
  - intros x sx Hx HX. destruct (Z.eq_dec x i) as [-> | ni].
    + rewrite EsI in Hx. injection Hx as <-. rewrite S1.
      assert (K : In i (so_incq (push b hs i)) /\ b = false \/ In i (so_compq (push b hs i)) /\ b = true).
      { destruct b, hs; cbn; [right | left]; rewrite in_app_iff; cbn [In]; auto. }
      destruct b; destruct K as [[K1 K2] | [K1 K2]]; try discriminate;
      [exists h, (push true hs i) | exists h, (push false hs i)]; auto.
    + assert (HX1 : ~ X x) by (intros K; apply HXX in K; tauto).
      destruct (OLD x sx Hx) as (sx0 & B1 & B2). destruct (ALL x sx0 B1) as (y & C1 & C2 & C3).
      destruct (C3 ni) as [C4 C5]. assert (y = sx) by congruence. subst y. rewrite C4, C5.
      pose proof (i_back _ _ _ IV x sx0 B1 HX1) as K.
      destruct (so_qs sx0); [exact K | |]; destruct K as (g & gs & D1 & D2 & D3);
      (destruct (Z.eq_dec g i) as [-> | ngi];
       [exists i, so'; assert (gs = so) by congruence; subst gs; repeat split; congruence
       |destruct (Z.eq_dec g h) as [-> | ngh];
        [exists h, (push b hs i); assert (gs = hs) by congruence; subst gs; split; [exact D1 | split; [exact EsH |]];
         destruct b, hs; cbn in *; rewrite ?in_app_iff; auto
        |exists g, gs; rewrite EsO by assumption; auto]]).
  - intros x sx px qx Hx Hpx Hqx HX. rewrite Eu, Ec. destruct (Z.eq_dec x i) as [-> | ni].
    + rewrite EsI in Hx. injection Hx as <-. assert (px = p) by congruence. subst px.
      rewrite Ep, Z.eqb_refl in Hqx. injection Hqx as <-. apply HL, HX.
    + assert (HX1 : ~ X x) by (intros K; apply HXX in K; tauto).
      rewrite Ep in Hqx. destruct (Z.eqb_spec px p) as [-> | np].
      * destruct (OLD x sx Hx) as (sx0 & B1 & B2).
        destruct (i_pcb _ _ _ IV x sx0 B1) as (p1 & q1 & D1 & D2 & D3).
        assert (p1 = p) by congruence. subst p1. assert (q1 = q) by congruence. subst q1.
        assert (x = i) by congruence. contradiction.
      * destruct (Z.eq_dec x h) as [-> | nh].
        -- rewrite EsH in Hx. injection Hx as <-. apply LOK_push; [exact HA |].
           apply (i_local _ _ _ IV h hs px qx); try assumption. congruence.
        -- rewrite EsO in Hx by assumption. apply (i_local _ _ _ IV x sx px qx); assumption.
Qed.
