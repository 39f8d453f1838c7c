(* What one call does to the pending handshakes, without overlapping calls. *)
From Verif Require Import Base TcpSeqModel TcpOptModel SynModel SynSpec SynProof.
Ltac Zify.zify_post_hook ::= idtac.

Lemma addr_eqb_eq : forall a b, addr_eqb a b = true <-> a = b.
Proof.
  intros [[[a0 a1] a2] a3] [[[b0 b1] b2] b3]. unfold addr_eqb. rewrite !andb_true_iff, !Z.eqb_eq. split.
  - intros (((-> & ->) & ->) & ->). reflexivity.
  - intro E. inversion E. auto.
Qed.
Lemma matches_same : forall i x, inc_ok i -> not_compat i -> inc_ok (sc_inc x) -> matches i x = true <-> same_conn i (sc_inc x).
Proof.
  intros i x (_ & _ & _ & _ & _ & L) N (_ & _ & _ & _ & _ & L'). unfold matches, same_conn, endpts4, endpts6, not_compat in *.
  destruct (i_v6 i) eqn:V, (i_v6 (sc_inc x)) eqn:V'.
  - rewrite !andb_true_iff, !Z.eqb_eq, !addr_eqb_eq. tauto.
  - split; [|intros (E & _); discriminate]. rewrite !andb_true_iff, !addr_eqb_eq. intros (((_ & _) & A) & B).
    exfalso. apply N; auto. rewrite A, B. apply L'; auto.
  - split; [discriminate|intros (E & _); discriminate].
  - destruct (L eq_refl) as (A & B). destruct (L' eq_refl) as (A' & B').
    destruct (i_fa i) as [[[a0 a1] a2] a3], (i_fa (sc_inc x)) as [[[b0 b1] b2] b3],
             (i_la i) as [[[c0 c1] c2] c3], (i_la (sc_inc x)) as [[[d0 d1] d2] d3].
    simpl in *. destruct A as (-> & -> & ->), B as (-> & -> & ->), A' as (-> & -> & ->), B' as (-> & -> & ->).
    unfold w3; simpl. rewrite !andb_true_iff, !Z.eqb_eq. split.
    + intros (((-> & ->) & ->) & ->). auto.
    + intros (_ & -> & -> & E & F). inversion E; inversion F; subst; auto.
Qed.
Lemma same_conn_sym : forall a b, same_conn a b -> same_conn b a.
Proof. unfold same_conn. intuition congruence. Qed.
Lemma same_conn_trans : forall a b c, same_conn a b -> same_conn b c -> same_conn a c.
Proof. unfold same_conn. intuition congruence. Qed.
Lemma same_conn_refl : forall a, same_conn a a.
Proof. unfold same_conn. auto. Qed.
Lemma same_conn_bucket : forall a b, same_conn a b -> bucket a = bucket b.
Proof. intros a b (V & F & L & A & B). unfold bucket. rewrite V, F, L, A. reflexivity. Qed.

Fixpoint distinct (l : list sc) : Prop :=
  match l with [] => True | x :: r => Forall (fun y => ~ same_conn (sc_inc x) (sc_inc y)) r /\ distinct r end.
Definition SInv (s : st) : Prop := Inv s /\ s_pend s = [] /\ forall b, distinct (h_l (s_b s b)).

(* the transitions of one row for a call about connection j *)
Inductive rowstep (j : inc) (ev : Prop) : list sc -> list sc -> Prop :=
| rs_same l : rowstep j ev l l
| rs_remove l1 x l2 : same_conn j (sc_inc x) -> rowstep j ev (l1 ++ x :: l2) (l1 ++ l2)
| rs_change l1 x x' l2 : same_conn j (sc_inc x) -> sc_inc x' = sc_inc x -> rowstep j ev (l1 ++ x :: l2) (l1 ++ x' :: l2)
| rs_evict l x : ev -> Forall (fun y => ~ same_conn j (sc_inc y)) (l ++ [x]) -> rowstep j ev (l ++ [x]) l
| rs_add l y : Forall (fun y => ~ same_conn j (sc_inc y)) l -> (length l <= 29)%nat -> sc_inc y = j -> rowstep j ev l (y :: l)
| rs_add_evict l x y : ev -> Forall (fun y => ~ same_conn j (sc_inc y)) (l ++ [x]) -> sc_inc y = j -> rowstep j ev (l ++ [x]) (y :: l).

Lemma distinct_app : forall a b, distinct (a ++ b) <-> distinct a /\ distinct b /\ Forall (fun x => Forall (fun y => ~ same_conn (sc_inc x) (sc_inc y)) b) a.
Proof.
  induction a as [|x a IH]; intro b; simpl; [intuition|]. rewrite IH, Forall_app. split.
  - intros ((F1 & F2) & D1 & D2 & F3). repeat split; auto.
  - intros ((F1 & D1) & D2 & F3). inversion F3; subst. auto.
Qed.
Lemma rowstep_distinct : forall j ev l l', rowstep j ev l l' -> distinct l -> distinct l'.
Proof.
  intros j ev l l' R D. destruct R.
  - auto.
  - apply distinct_app in D as (D1 & D2 & F). simpl in D2. apply distinct_app. repeat split; try apply D1; try apply D2.
    eapply Forall_impl; [|exact F]. intros a Fa. inversion Fa; auto.
  - apply distinct_app in D as (D1 & D2 & F). simpl in D2. apply distinct_app. simpl. rewrite H0. repeat split; try apply D1; try apply D2.
    eapply Forall_impl; [|exact F]. intros a Fa. inversion Fa; subst. constructor; [rewrite H0; auto|auto].
  - apply distinct_app in D. apply D.
  - simpl. rewrite H1. auto.
  - apply distinct_app in D. simpl. rewrite H1. apply Forall_app in H0 as (H0 & _). split; [auto|apply D].
Qed.

Lemma take_row : forall s i x r, Inv s -> inc_ok i -> not_compat i -> take (matches i) (h_l (s_b s (bucket i))) = Some (x, r) ->
  exists l1 l2, h_l (s_b s (bucket i)) = l1 ++ x :: l2 /\ r = l1 ++ l2 /\ same_conn i (sc_inc x) /\ Forall (fun y => matches i y = false) l1.
Proof.
  intros s i x r (R & _) Hi Hn T. apply take_some in T as (l1 & l2 & E & -> & Mx & F). exists l1, l2. split; [auto|split; [auto|split; [|auto]]].
  apply matches_same; auto. destruct (R (bucket i)) as (_ & _ & FA). rewrite E in FA. apply Forall_app in FA as (_ & FA). inversion FA; subst. apply H1.
Qed.
Lemma take_row_none : forall s i, Inv s -> inc_ok i -> not_compat i -> take (matches i) (h_l (s_b s (bucket i))) = None ->
  Forall (fun y => ~ same_conn i (sc_inc y)) (h_l (s_b s (bucket i))).
Proof.
  intros s i (R & _) Hi Hn T. apply take_none in T. destruct (R (bucket i)) as (_ & _ & FA).
  rewrite Forall_forall in *. intros y Hy E. specialize (T y Hy). destruct (FA y Hy) as ((Ok & _) & _).
  apply matches_same in E; auto; [congruence|apply Ok].
Qed.

(* reading the rows of the states built by the model *)
Lemma row_drop : forall s b r b', h_l (s_b (drop_row s b r) b') = if b' =? b then r else h_l (s_b s b').
Proof. intros. unfold drop_row, upd; cbn [s_b]. destruct (b' =? b); reflexivity. Qed.

Definition seq_eff (s s' : st) (j : inc) (ev : Prop) : Prop :=
  (forall b, b <> bucket j -> h_l (s_b s' b) = h_l (s_b s b)) /\ rowstep j ev (row s j) (row s' j) /\ s_pend s' = s_pend s.

Lemma eff_same : forall s j ev, seq_eff s s j ev.
Proof. intros. repeat split; auto. constructor. Qed.
Lemma eff_drop : forall s i x r ev, Inv s -> inc_ok i -> not_compat i -> take (matches i) (h_l (s_b s (bucket i))) = Some (x, r) ->
  seq_eff s (drop_row s (bucket i) r) i ev.
Proof.
  intros s i x r ev I Hi Hn T. destruct (take_row _ _ _ _ I Hi Hn T) as (l1 & l2 & E & -> & Sx & _). split; [|split; [|reflexivity]].
  - intros b Hb. rewrite row_drop. destruct (Z.eqb_spec b (bucket i)); [contradiction|auto].
  - unfold row. rewrite row_drop, Z.eqb_refl, E. constructor. auto.
Qed.
Lemma eff_modify : forall s i x r f ev, Inv s -> inc_ok i -> not_compat i -> take (matches i) (h_l (s_b s (bucket i))) = Some (x, r) ->
  sc_inc (f x) = sc_inc x ->
  seq_eff s (mkSt (upd (s_b s) (bucket i) (set_row (s_b s (bucket i)) (modify (matches i) f (h_l (s_b s (bucket i)))) (h_len (s_b s (bucket i))))) (s_cnt s) (s_live s) (s_pend s)) i ev.
Proof.
  intros s i x r f ev I Hi Hn T Hf. destruct (take_row _ _ _ _ I Hi Hn T) as (l1 & l2 & E & -> & Sx & F).
  apply take_some in T as (_ & _ & _ & _ & Mx & _). split; [|split; [|reflexivity]].
  - intros b Hb. unfold upd; cbn [s_b]. destruct (Z.eqb_spec b (bucket i)); [contradiction|auto].
  - unfold row, upd; cbn [s_b]. rewrite Z.eqb_refl. unfold set_row; cbn [h_l]. rewrite E, modify_split by auto. constructor; auto.
Qed.

(* a new SYN: rows after the whole call *)
Definition tossed (e : env) (s : st) (i : inc) : bool := negb (e_a1 e) || (30 <=? Z.of_nat (length (row s i))).
Definition entry (H : digest) (c : cfg) (e : env) (s : st) (i : inc) (g : sseg) : sc :=
  if c_cook c then snd (generate H c e (s_b s (bucket i)) (fill c e i g)) else fill c e i g.

Lemma generate_drop : forall H c e h l n x, snd (generate H c e (set_row h l n) x) = snd (generate H c e h x).
Proof. intros. unfold generate, set_row. cbn [h_reseed h_odd h_so h_se h_l h_len snd]. destruct (h_reseed h <? uptime (e_ticks e)); reflexivity. Qed.

Lemma syn_new : forall H c e k i g s s' v, Inv s -> s_pend s = [] -> inc_ok i -> not_compat i ->
  take (matches i) (h_l (s_b s (bucket i))) = None -> syn H c e k i g s = Ret (s', v) ->
  seq_eff s s' i (e_a1 e = false \/ length (row s i) = 30%nat) /\
  (e_a1 e = true -> e_out e = true -> c_cook c && c_only c = false ->
   v = ESent (respond c e (entry H c e s i g)) /\
   row s' i = timeout (entry H c e s i g) :: (if 30 <=? Z.of_nat (length (row s i)) then removelast (row s i) else row s i)) /\
  (row s' i <> row s i -> tossed e s i = false -> exists y, row s' i = y :: row s i).
Proof.
  intros H c e k i g s s' v I Pn Hi Hn T E.
  pose proof (take_row_none s i I Hi Hn T) as NF. pose proof (bucket_range i) as Hb.
  unfold syn, syn_begin in E. rewrite T in E.
  set (s1 := if e_a1 e then s else _) in E.
  assert (R1 : forall b, b <> bucket i -> h_l (s_b s1 b) = h_l (s_b s b)).
  { intros b Hbb. unfold s1. destruct (e_a1 e); [auto|]. destruct (h_l (s_b s (bucket i))); [auto|]. rewrite row_drop.
    destruct (Z.eqb_spec b (bucket i)); [contradiction|auto]. }
  assert (P1 : s_pend s1 = []).
  { unfold s1. destruct (e_a1 e); [auto|]. destruct (h_l (s_b s (bucket i))); auto. }
  assert (I1 : Inv s1).
  { unfold s1. destruct (e_a1 e); [auto|]. destruct (h_l (s_b s (bucket i))) eqn:El; [auto|]. rewrite <- El.
    apply inv_drop_last; auto. rewrite El. discriminate. }
  (* the row after a failed first allocation *)
  assert (RR : (e_a1 e = true /\ s1 = s) \/ (e_a1 e = false /\ ((row s i = [] /\ s1 = s) \/ exists l x, row s i = l ++ [x] /\ row s1 i = l))).
  { unfold s1, row. destruct (e_a1 e); [left; auto|right; split; auto]. destruct (h_l (s_b s (bucket i))) eqn:El; [left; auto|right].
    destruct (removelast_split (s0 :: l)) as (l1 & y & E1 & E2); [discriminate|].
    exists l1, y. split; [auto|]. rewrite row_drop, Z.eqb_refl. auto. }
  set (got := e_a1 e || e_a2 e) in E.
  (* end of the call from the state with row L *)
  assert (EndOnly : forall q, s' = q -> s_pend q = [] -> (forall b, b <> bucket i -> h_l (s_b q b) = h_l (s_b s1 b)) -> row q i = row s1 i -> seq_eff s s' i (e_a1 e = false \/ length (row s i) = 30%nat)).
  { intros q -> Pq Rq Eq. split; [|split].
    - intros b Hbb. rewrite Rq by auto. auto.
    - rewrite Eq. destruct RR as [(_ & ->)|(A0 & [(_ & ->)|(l & x & El & El1)])]; [constructor|constructor|].
      rewrite El1, El. constructor; [auto|]. unfold row in El. rewrite <- El. auto.
    - rewrite Pq, Pn. auto. }
  assert (Tos : forall q, s' = q -> row q i = row s1 i -> row s' i <> row s i -> tossed e s i = false -> exists y, row s' i = y :: row s i).
  { intros q -> Eq D Hto. exfalso. unfold tossed in Hto. apply orb_false_iff in Hto as (A1 & _). apply negb_false_iff in A1.
    destruct RR as [(_ & E1)|(A & _)]; [|congruence]. rewrite E1 in Eq. contradiction. }
  destruct (negb got && negb (c_cook c)) eqn:G.
  { cbn [snd fst] in E. inversion E; subst s' v. apply andb_true_iff in G as (G & _). apply negb_true_iff in G. rewrite G in *.
    split; [eapply EndOnly; eauto|]. split; [intros A; unfold got in G; rewrite A in G; discriminate|].
    eapply Tos; eauto. }
  cbn [snd fst] in E.
  set (s2 := if got then mkSt (s_b s1) (s_cnt s1) (s_live s1 + 1) (s_pend s1) else s1) in E.
  assert (B2 : s_b s2 = s_b s1) by (unfold s2; destruct got; reflexivity).
  assert (P2 : s_pend s2 = []) by (unfold s2; destruct got; auto).
  set (hx := if c_cook c then generate H c e (s_b s2 (bucket i)) (fill c e i g) else (s_b s2 (bucket i), fill c e i g)) in E.
  assert (HL : h_l (fst hx) = row s1 i /\ h_len (fst hx) = h_len (s_b s1 (bucket i))).
  { unfold hx, row. rewrite B2. destruct (c_cook c); [apply generate_row|split; reflexivity]. }
  assert (HX : snd hx = entry H c e s i g).
  { unfold hx, entry. rewrite B2. destruct (c_cook c); [|reflexivity].
    destruct RR as [(_ & ->)|(A & [(_ & ->)|_])]; [reflexivity|reflexivity|].
    unfold s1. destruct (e_a1 e); [reflexivity|]. destruct (h_l (s_b s (bucket i))); [reflexivity|]. rewrite drop_row_same. apply generate_drop. }
  unfold syn_end in E. cbn [s_pend pend_take] in E. rewrite Z.eqb_refl, P2 in E. cbn [s_b s_cnt s_live s_pend] in E.
  destruct (e_out e) eqn:Eo; cbn [negb] in E.
  2:{ inversion E; subst s' v.
      assert (RQ : row (mkSt (upd (s_b s2) (bucket i) (fst hx)) (s_cnt s2) (if negb got then s_live s2 else s_live s2 - 1) []) i = row s1 i).
      { unfold row at 1, upd; cbn [s_b]. rewrite Z.eqb_refl. apply HL. }
      split; [eapply EndOnly; [reflexivity|auto| |auto]|split; [intros _ A; discriminate|eapply Tos; eauto]].
      intros b Hbb. unfold upd; cbn [s_b]. rewrite B2. destruct (Z.eqb_spec b (bucket i)); [contradiction|auto]. }
  destruct (negb got || c_cook c && c_only c) eqn:O.
  { inversion E; subst s' v.
      assert (RQ : row (mkSt (upd (s_b s2) (bucket i) (fst hx)) (s_cnt s2) (if negb got then s_live s2 else s_live s2 - 1) []) i = row s1 i).
      { unfold row at 1, upd; cbn [s_b]. rewrite Z.eqb_refl. apply HL. }
      split; [eapply EndOnly; [reflexivity|auto| |auto]|split].
      - intros b Hbb. unfold upd; cbn [s_b]. rewrite B2. destruct (Z.eqb_spec b (bucket i)); [contradiction|auto].
      - intros A _ C. unfold got in O. rewrite A, C in O. discriminate.
      - eapply Tos; eauto. }
  (* insertion *)
  set (q := mkSt (upd (s_b s2) (bucket i) (fst hx)) (s_cnt s2) (s_live s2) []) in E.
  destruct (insert (snd hx) (bucket i) q) as [s3| |] eqn:EI; try discriminate. cbn [obind] in E. inversion E; subst s' v. clear E.
  assert (Q : s_b q (bucket i) = fst hx) by (unfold q, upd; cbn [s_b]; rewrite Z.eqb_refl; reflexivity).
  assert (QO : forall b, b <> bucket i -> h_l (s_b q b) = h_l (s_b s b)).
  { intros b Hbb. unfold q, upd; cbn [s_b]. rewrite B2. destruct (Z.eqb_spec b (bucket i)); [contradiction|auto]. }
  assert (LEN : h_len (fst hx) = Z.of_nat (length (row s1 i))).
  { destruct HL as (_ & ->). apply row_ok_len with (b := bucket i). destruct I1 as (R & _). apply R. }
  assert (ROW3 : row s3 i = timeout (snd hx) :: (if 30 <=? Z.of_nat (length (row s1 i)) then removelast (row s1 i) else row s1 i)
                 /\ (forall b, b <> bucket i -> h_l (s_b s3 b) = h_l (s_b s b)) /\ s_pend s3 = []).
  { unfold insert in EI. rewrite Q, LEN in EI. unfold LIMIT in EI. rewrite Z.geb_leb in EI. destruct (30 <=? Z.of_nat (length (row s1 i))) eqn:C30.
    - destruct (h_l (fst hx)) eqn:El; [discriminate|]. rewrite <- El in EI. cbn [obind] in EI. match type of EI with Ret ?a = Ret ?b => assert (EE : b = a) by congruence end. rewrite EE. clear EE EI.
      repeat split.
      + unfold row at 1. cbn [s_b]. unfold upd at 1. rewrite Z.eqb_refl. unfold set_row at 1. cbn [h_l]. f_equal.
        rewrite row_drop, Z.eqb_refl. destruct HL as (<- & _). rewrite ?El. reflexivity.
      + intros b Hbb. cbn [s_b]. unfold upd at 1. destruct (Z.eqb_spec b (bucket i)); [contradiction|]. rewrite row_drop.
        destruct (Z.eqb_spec b (bucket i)); [contradiction|]. auto.
    - cbn [obind] in EI. match type of EI with Ret ?a = Ret ?b => assert (EE : b = a) by congruence end. rewrite EE. clear EE EI. repeat split.
      + unfold row at 1. cbn [s_b]. unfold upd at 1. rewrite Z.eqb_refl. unfold set_row at 1. cbn [h_l]. f_equal. rewrite Q. apply HL.
      + intros b Hbb. cbn [s_b]. unfold upd at 1. destruct (Z.eqb_spec b (bucket i)); [contradiction|]. auto. }
  destruct ROW3 as (ROW3 & O3 & P3).
  assert (INC : sc_inc (timeout (snd hx)) = i) by (rewrite HX; unfold entry; destruct (c_cook c); reflexivity).
  assert (LE30 : (length (row s i) <= 30)%nat) by (destruct I as (R & _); destruct (R (bucket i)) as (_ & N & _); exact N).
  split; [|split].
  - split; [auto|split; [|rewrite P3; auto]]. rewrite ROW3.
    destruct RR as [(_ & E1)|(A0 & [(El & E1)|(l & x & El & El1)])].
    + rewrite E1. destruct (Z.leb_spec 30 (Z.of_nat (length (row s i)))).
      * assert (N30 : length (row s i) = 30%nat) by lia.
        destruct (removelast_split (row s i)) as (l1 & y & Er & ->); [intro Z0; rewrite Z0 in *; simpl in *; lia|].
        rewrite Er. apply rs_add_evict; [rewrite <- Er; auto| |auto]. rewrite <- Er. exact NF.
      * apply rs_add; auto. lia.
    + rewrite E1. rewrite El. simpl. apply rs_add; auto. simpl. lia.
    + rewrite El1. rewrite El in LE30. rewrite app_length in LE30. simpl in LE30.
      destruct (Z.leb_spec 30 (Z.of_nat (length l))); [lia|]. rewrite El. apply rs_add_evict; auto. rewrite <- El. exact NF.
  - intros A _ _. destruct RR as [(_ & E1)|(A' & _)]; [|congruence]. rewrite E1 in ROW3. rewrite HX in ROW3 |- *. auto.
  - intros _ Hto. unfold tossed in Hto. apply orb_false_iff in Hto as (A1 & L30). apply negb_false_iff in A1.
    destruct RR as [(_ & E1)|(A' & _)]; [|congruence]. rewrite E1 in ROW3. rewrite L30 in ROW3. eauto.
Qed.

Definition evicting (o : op) (s : st) : Prop :=
  match o with
  | Seg _ e j g => plain_syn g = true /\ (e_a1 e = false \/ length (row s j) = 30%nat)
  | _ => False
  end.
Lemma eff_impl : forall s s' j (P Q : Prop), (P -> Q) -> seq_eff s s' j P -> seq_eff s s' j Q.
Proof.
  intros s s' j P Q PQ (A & B & C). split; [auto|split; [|auto]]. destruct B; [apply rs_same|apply rs_remove|apply rs_change|apply rs_evict|apply rs_add|apply rs_add_evict]; auto.
Qed.
Lemma seq_step : forall H c o j s s' v, SInv s -> op_ok o -> whole o -> compat_free o ->
  (match o with Seg _ _ i _ | Unreach i _ => i = j | _ => False end) -> step H c o s = Ret (s', v) -> seq_eff s s' j (evicting o s).
Proof.
  intros H c o j s s' v (I & Pn & D) Ho Hw Hc Hj E. destruct o as [k e i g|k e i g|k e|i q]; try contradiction; subst i; cbn [step op_ok compat_free] in *.
  - destruct Ho as (He & Hi & Hg). unfold listen_input in E.
    destruct (g_fack g && negb (g_frst g) && negb (g_fsyn g)).
    { unfold expand in E. destruct (take (matches j) (h_l (s_b s (bucket j)))) as [[x r]|] eqn:T.
      - inversion E; subst. eapply eff_drop; eauto.
      - destruct (negb (c_cook c)); [inversion E; subst; apply eff_same|].
        destruct (cookie_lookup H e (s_b s (bucket j)) j g); inversion E; subst; apply eff_same. }
    destruct (g_frst g) eqn:FR.
    { unfold chkrst in E. destruct (g_fack g || g_fsyn g || g_ffin g); [inversion E; subst; apply eff_same|].
      destruct (take (matches j) (h_l (s_b s (bucket j)))) as [[x r]|] eqn:T; [|inversion E; subst; apply eff_same].
      match type of E with context [if ?b then _ else _] => destruct b end; inversion E; subst; [|apply eff_same].
      eapply eff_drop; eauto. }
    destruct (negb (g_fsyn g)) eqn:FS; [inversion E; subst; apply eff_same|].
    destruct (g_fack g) eqn:FA.
    { unfold badack in E. destruct (take (matches j) (h_l (s_b s (bucket j)))) as [[x r]|] eqn:T; inversion E; subst; [|apply eff_same].
      eapply eff_drop; eauto. }
    destruct (negb (syn_sane j g)); [inversion E; subst; apply eff_same|].
    destruct (take (matches j) (h_l (s_b s (bucket j)))) as [[x r]|] eqn:T.
    + unfold syn, syn_begin in E. rewrite T in E. cbn [fst snd] in E. fold (resend e g x) in E. rewrite (modify_const _ (resend e g) _ _ _ T) in E.
      inversion E; subst. eapply eff_modify; eauto. apply resend_key.
    + eapply eff_impl; [|eapply syn_new; eauto]. intro. split; auto.
      unfold plain_syn. rewrite FR, FA. apply negb_false_iff in FS. rewrite FS. reflexivity.
  - destruct Ho as (Hi & Hq). inversion E; subst. unfold unreach.
    destruct (take (matches j) (h_l (s_b s (bucket j)))) as [[x r]|] eqn:T; [|apply eff_same].
    destruct (negb (q =? sc_iss x)); [apply eff_same|].
    destruct (negb (f_unreach x) || _); [eapply eff_modify; eauto|eapply eff_drop; eauto].
Qed.
Lemma sinv_step : forall H c o s s' v, SInv s -> op_ok o -> whole o -> compat_free o -> step H c o s = Ret (s', v) -> SInv s'.
Proof.
  intros H c o s s' v S Ho Hw Hc E. pose proof S as (I & Pn & D).
  destruct (inv_step H c o s I Ho) as (s2 & v2 & E2 & I2). rewrite E in E2. inversion E2; subst s2 v2.
  assert (exists j, match o with Seg _ _ i _ | Unreach i _ => i = j | _ => False end) as (j & Hj) by (destruct o; try contradiction; eauto).
  destruct (seq_step H c o j s s' v S Ho Hw Hc Hj E) as (Oth & RS & Pd).
  split; [auto|split; [congruence|]]. intro b. destruct (Z.eq_dec b (bucket j)) as [->|N]; [|rewrite Oth; auto].
  eapply rowstep_distinct; [exact RS|apply D].
Qed.
Lemma sinv_init : SInv init.
Proof. split; [apply inv_init|split; [reflexivity|intro b; simpl; auto]]. Qed.
Lemma sinv_run : forall H c l s s' evs, SInv s -> Forall op_ok l -> Forall whole l -> Forall compat_free l -> run H c l s = Ret (s', evs) -> SInv s'.
Proof.
  induction l as [|o l IH]; intros s s' evs S F1 F2 F3 E; [inversion E; subst; auto|].
  inversion F1; inversion F2; inversion F3; subst. cbn [run] in E.
  destruct (step H c o s) as [[s1 v]| |] eqn:E1; try discriminate. cbn [obind fst snd] in E.
  destruct (run H c l s1) as [[s2 ev2]| |] eqn:E2; try discriminate. cbn [obind fst snd] in E. inversion E; subst.
  eapply IH; [eapply sinv_step; [exact S| | | |exact E1]| | | |exact E2]; auto.
Qed.
Lemma reach_seq_sinv : forall H c s, reach_seq H c s -> SInv s.
Proof. intros H c s (l & evs & F1 & F2 & F3 & E). eapply sinv_run; eauto using sinv_init. Qed.

(* lookup *)
Lemma lookup_take : forall s i x, lookup s i = Some x <-> exists r, take (matches i) (row s i) = Some (x, r).
Proof.
  intros. unfold lookup, row. destruct (take _ _) as [[y r]|]; split; intro E.
  - inversion E; subst. eauto.
  - destruct E as (r' & E). inversion E; subst. auto.
  - discriminate.
  - destruct E; discriminate.
Qed.
Lemma lookup_none_take : forall s i, lookup s i = None <-> take (matches i) (row s i) = None.
Proof. intros. unfold lookup, row. destruct (take _ _) as [[y r]|]; split; congruence. Qed.
Lemma row_inc_ok : forall s i y, Inv s -> In y (row s i) -> inc_ok (sc_inc y).
Proof.
  intros s i y (R & _) Hy. destruct (R (bucket i)) as (_ & _ & F). rewrite Forall_forall in F. destruct (F y Hy) as ((Ok & _) & _). apply Ok.
Qed.
Lemma distinct_in : forall l x y, distinct l -> In x l -> In y l -> same_conn (sc_inc x) (sc_inc y) -> x = y.
Proof.
  induction l as [|a l IH]; simpl; intros x y D Hx Hy S; [contradiction|]. destruct D as (F & D). rewrite Forall_forall in F.
  destruct Hx as [->|Hx], Hy as [->|Hy]; auto.
  - exfalso. apply (F y Hy S).
  - exfalso. apply (F x Hx). apply same_conn_sym. auto.
Qed.
Lemma look_iff : forall s i x, SInv s -> inc_ok i -> not_compat i -> lookup s i = Some x <-> In x (row s i) /\ same_conn i (sc_inc x).
Proof.
  intros s i x (I & _ & D) Hi Hn. rewrite lookup_take. split.
  - intros (r & T). destruct (take_row s i x r I Hi Hn T) as (l1 & l2 & E & _ & S & _). unfold row. rewrite E. split; [apply in_elt|auto].
  - intros (Hx & S). destruct (take (matches i) (row s i)) as [[y r]|] eqn:T.
    + destruct (take_row s i y r I Hi Hn T) as (l1 & l2 & E & _ & Sy & _). exists r. f_equal. f_equal.
      apply (distinct_in (row s i)); [apply D| |auto|].
      * unfold row. rewrite E. apply in_elt.
      * eapply same_conn_trans; [apply same_conn_sym; eauto|auto].
    + pose proof (take_row_none s i I Hi Hn T) as F. rewrite Forall_forall in F. exfalso. apply (F x); auto.
Qed.
Lemma look_none : forall s i, SInv s -> inc_ok i -> not_compat i -> lookup s i = None <-> forall y, In y (row s i) -> ~ same_conn i (sc_inc y).
Proof.
  intros s i S Hi Hn. split.
  - intros E y Hy Sy. assert (lookup s i = Some y) by (apply look_iff; auto). congruence.
  - intro F. destruct (lookup s i) eqn:E; [|auto]. apply look_iff in E; auto. destruct E. exfalso. eapply F; eauto.
Qed.

(* effect of a call for j on the entry of another connection *)
Lemma other_some : forall s s' i j ev x, SInv s -> SInv s' -> seq_eff s s' j ev -> inc_ok i -> not_compat i -> inc_ok j -> not_compat j ->
  ~ same_conn i j -> lookup s i = Some x ->
  lookup s' i = Some x \/ (ev /\ bucket i = bucket j /\ lookup s j = None /\ exists l, row s i = l ++ [x]).
Proof.
  intros s s' i j ev x S S' (O & R & _) Hi Hn Hj Hnj N L. apply look_iff in L as (Hx & Sx); auto.
  destruct (Z.eq_dec (bucket i) (bucket j)) as [B|B].
  2:{ left. apply look_iff; auto. split; auto. unfold row in *. rewrite O; auto. }
  unfold row in *. rewrite B in *.
  assert (NX : forall y, same_conn j (sc_inc y) -> x <> y).
  { intros y Sy <-. apply N. eapply same_conn_trans; [exact Sx|apply same_conn_sym; auto]. }
  assert (K : forall l', h_l (s_b s' (bucket j)) = l' -> In x l' -> lookup s' i = Some x).
  { intros l' E Hl. apply look_iff; auto. split; auto. unfold row. rewrite B, E. auto. }
  inversion R as [l E1 E2|l1 y l2 Sy E1 E2|l1 y y' l2 Sy Ey E1 E2|l y Hev F E1 E2|l y F Hl Hy E1 E2|l y z Hev F Hy E1 E2].
  - left. eapply K; [reflexivity|]. rewrite <- E2. auto.
  - left. eapply K; [reflexivity|]. rewrite <- E2. rewrite <- E1 in Hx. apply in_elt_inv in Hx as [E|Hx]; [exfalso; eapply NX; eauto|auto].
  - left. eapply K; [reflexivity|]. rewrite <- E2. rewrite <- E1 in Hx. apply in_elt_inv in Hx as [E|Hx]; [exfalso; eapply NX; eauto|].
    apply in_app_or in Hx. apply in_or_app. simpl. tauto.
  - rewrite <- E1 in Hx. apply in_app_or in Hx as [Hx|Hx]; [left; eapply K; [reflexivity|]; rewrite <- E2; auto|simpl in Hx; destruct Hx as [->|[]]].
    right. repeat split; auto; [|eexists; symmetry; eauto]. apply look_none; auto. unfold row. rewrite <- E1. rewrite Forall_forall in F. rewrite ?E2. auto.
  - left. eapply K; [reflexivity|]. rewrite <- E2. simpl. auto.
  - rewrite <- E1 in Hx. apply in_app_or in Hx as [Hx|Hx]; [left; eapply K; [reflexivity|]; rewrite <- E2; simpl; auto|simpl in Hx; destruct Hx as [->|[]]].
    right. repeat split; auto; [|eexists; symmetry; eauto]. apply look_none; auto. unfold row. rewrite <- E1. rewrite Forall_forall in F. rewrite ?E2. auto.
Qed.
Lemma other_none : forall s s' i j ev, SInv s -> SInv s' -> seq_eff s s' j ev -> inc_ok i -> not_compat i ->
  ~ same_conn i j -> lookup s i = None -> lookup s' i = None.
Proof.
  intros s s' i j ev S S' (O & R & _) Hi Hn N L. rewrite look_none in *; auto. unfold row in *.
  destruct (Z.eq_dec (bucket i) (bucket j)) as [B|B]; [|rewrite O; auto]. rewrite B in *.
  inversion R as [l E1 E2|l1 y l2 Sy E1 E2|l1 y y' l2 Sy Ey E1 E2|l y Hev F E1 E2|l y F Hl Hy E1 E2|l y z Hev F Hy E1 E2];
    rewrite <- E1 in L; try rewrite <- E2; intros w Hw.
  - apply L; congruence.
  - apply L. apply in_app_or in Hw. apply in_or_app. simpl. tauto.
  - apply in_elt_inv in Hw as [<-|Hw]; [|apply L; apply in_app_or in Hw; apply in_or_app; simpl; tauto].
    intro Sw. apply N. rewrite Ey in Sw. eapply same_conn_trans; [exact Sw|apply same_conn_sym; auto].
  - apply L. apply in_or_app. auto.
  - destruct Hw as [<-|Hw]; [rewrite Hy; auto|]. rewrite <- E1 in Hw. auto.
  - destruct Hw as [<-|Hw]; [rewrite Hy; auto|apply L; apply in_or_app; auto].
Qed.
