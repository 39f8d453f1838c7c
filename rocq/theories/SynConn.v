(* Connections come from SYN|ACKs: counting, for every interleaving. *)
From Verif Require Import Base TcpSeqModel TcpOptModel SynModel SynSpec SynProof.
Ltac Zify.zify_post_hook ::= idtac.

Section Count.
Variable P : inc -> Z -> Z -> bool.
Let m (x : sc) : Z := if key_of P x then 1 else 0.
Let b2 (b : bool) : Z := if b then 1 else 0.

Lemma m_nonneg : forall x, 0 <= m x.
Proof. intro x. unfold m. destruct (key_of P x); lia. Qed.
Lemma m_key : forall x y, sc_inc x = sc_inc y -> sc_iss x = sc_iss y -> sc_irs x = sc_irs y -> m x = m y.
Proof. intros x y A B C. unfold m, key_of. rewrite A, B, C. reflexivity. Qed.
Lemma b2_nonneg : forall b, 0 <= b2 b.
Proof. destruct b; unfold b2; lia. Qed.

Lemma W_drop : forall s b l1 x l2, 0 <= b < 1024 -> h_l (s_b s b) = l1 ++ x :: l2 ->
  W m (s_b (drop_row s b (l1 ++ l2))) = W m (s_b s) - m x.
Proof.
  intros s b l1 x l2 Hb E. unfold drop_row. cbn [s_b]. rewrite W_upd by auto. unfold set_row. cbn [h_l]. rewrite E, !lsum_app.
  cbn [lsum fold_right]. fold (lsum m l2). lia.
Qed.
Lemma W_drop_last : forall s b, 0 <= b < 1024 -> h_l (s_b s b) <> [] -> W m (s_b (drop_row s b (removelast (h_l (s_b s b))))) <= W m (s_b s).
Proof.
  intros s b Hb Hne. destruct (removelast_split _ Hne) as (l1 & x & E & ER). rewrite ER.
  pose proof (W_drop s b l1 x [] Hb) as D. rewrite app_nil_r in D. rewrite D by auto. pose proof (m_nonneg x). lia.
Qed.
Lemma W_modify : forall s b p f, 0 <= b < 1024 -> (forall x, m (f x) = m x) ->
  W m (upd (s_b s) b (set_row (s_b s b) (modify p f (h_l (s_b s b))) (h_len (s_b s b)))) = W m (s_b s).
Proof.
  intros s b p f Hb Hf. rewrite W_upd by auto. unfold set_row; cbn [h_l].
  assert (E : forall l, lsum m (modify p f l) = lsum m l).
  { induction l as [|a l IH]; simpl; [auto|]. destruct (p a); simpl; rewrite ?Hf, ?IH; lia. }
  rewrite E. lia.
Qed.
Lemma W_insert : forall x b s s', 0 <= b < 1024 -> insert x b s = Ret s' -> W m (s_b s') <= W m (s_b s) + m x.
Proof.
  intros x b s s' Hb E. unfold insert in E.
  assert (D : forall q, W m (upd (s_b q) b (set_row (s_b q b) (timeout x :: h_l (s_b q b)) (u32 (h_len (s_b q b) + 1)))) = W m (s_b q) + m x).
  { intro q. rewrite W_upd by auto. unfold set_row; cbn [h_l lsum fold_right]. fold (lsum m (h_l (s_b q b))).
    replace (m (timeout x)) with (m x) by (apply m_key; reflexivity). lia. }
  destruct (h_len (s_b s b) >=? LIMIT).
  - destruct (h_l (s_b s b)) eqn:El; [discriminate|]. cbn [obind] in E. injection E as E. rewrite <- E.
    pose proof (W_drop_last s b Hb) as K. rewrite El in K. specialize (K ltac:(discriminate)).
    pose proof (D (drop_row s b (removelast (s0 :: l)))) as D'. change (W m (upd (s_b (drop_row s b (removelast (s0 :: l)))) b (set_row (s_b (drop_row s b (removelast (s0 :: l))) b) (timeout x :: h_l (s_b (drop_row s b (removelast (s0 :: l))) b)) (u32 (h_len (s_b (drop_row s b (removelast (s0 :: l))) b) + 1)))) <= W m (s_b s) + m x). lia.
  - cbn [obind] in E. inversion E; subst. cbn [s_b]. rewrite D. lia.
Qed.

Lemma count_syn_begin : forall H c e k i g s, c_cook c = false -> Inv s ->
  W m (s_b (fst (syn_begin H c e k i g s))) <= W m (s_b s)
  /\ match snd (syn_begin H c e k i g s) with Some v => conn_of P v = false | None => True end.
Proof.
  intros H c e k i g s Hc I. unfold syn_begin. pose proof (bucket_range i) as Hb.
  destruct (take (matches i) (h_l (s_b s (bucket i)))) as [[x r]|] eqn:T.
  - cbn [fst snd s_b]. fold (resend e g x). rewrite (modify_const _ (resend e g) _ _ _ T).
    rewrite W_modify; auto; [|intro y; destruct (resend_key e g y) as (A & B & C); apply m_key; auto].
    split; [lia|]. destruct (e_out e); reflexivity.
  - set (s1 := if e_a1 e then s else _).
    assert (I1 : W m (s_b s1) <= W m (s_b s)).
    { unfold s1. destruct (e_a1 e); [lia|]. pose proof (W_drop_last s (bucket i) Hb) as K. destruct (h_l (s_b s (bucket i))) eqn:El; [lia|].
      apply K. discriminate. }
    rewrite Hc. destruct (e_a1 e || e_a2 e); cbn [negb andb fst snd s_b].
    + rewrite W_upd by auto. split; [lia|auto].
    + split; [lia|reflexivity].
Qed.
Lemma count_syn_end : forall c e k s s' v, Inv s -> syn_end c e k s = Ret (s', v) ->
  W m (s_b s') + b2 (conn_of P v) <= W m (s_b s) + b2 (sent_of P v).
Proof.
  intros c e k s s' v I E. unfold syn_end in E. destruct (pend_take k (s_pend s)) as [[[[b o] x] r]|] eqn:T.
  2:{ inversion E; subst. simpl. lia. }
  apply pend_take_some in T as (l1 & l2 & Ep & ->).
  assert (Hx : bucket (sc_inc x) = b).
  { destruct I as (_ & Pd & _). rewrite Ep in Pd. apply Forall_app in Pd as (_ & P2). inversion P2 as [|? ? HP P3]; subst. apply HP. }
  pose proof (bucket_range (sc_inc x)) as Hb. rewrite Hx in Hb.
  destruct (e_out e); cbn [negb] in E.
  2:{ inversion E; subst. cbn [s_b]. simpl. lia. }
  destruct (o || c_cook c && c_only c).
  - inversion E; subst. cbn [s_b]. pose proof (b2_nonneg (sent_of P (ESent (respond c e x)))). change (conn_of P (ESent (respond c e x))) with false. unfold b2 at 1. lia.
  - destruct (insert x b _) eqn:Ei; try discriminate. cbn [obind] in E. inversion E; subst.
    apply W_insert in Ei; auto. cbn [s_b] in Ei. unfold m at 3, key_of in Ei.
    change (conn_of P (ESent (respond c e x))) with false. change (sent_of P (ESent (respond c e x))) with (P (sc_inc x) (sc_iss x) (u32 (sc_irs x + 1))). unfold b2. lia.
Qed.
Lemma finish_count : forall e x g, b2 (conn_of P (finish e x g)) <= m x.
Proof.
  intros e x g. unfold finish. pose proof (m_nonneg x). destruct (valid x g); [|simpl; unfold b2; lia].
  destruct (e_sock e); [|simpl; unfold b2; lia]. cbn. unfold m, key_of, b2. lia.
Qed.
Lemma W_drop_take : forall s i x r, take (matches i) (h_l (s_b s (bucket i))) = Some (x, r) ->
  W m (s_b (drop_row s (bucket i) r)) = W m (s_b s) - m x.
Proof.
  intros s i x r T. apply take_some in T as (l1 & l2 & E & -> & _). eapply W_drop; eauto using bucket_range.
Qed.
Lemma step_count : forall H c o s s' v, c_cook c = false -> Inv s -> step H c o s = Ret (s', v) -> op_ok o ->
  W m (s_b s') + b2 (conn_of P v) <= W m (s_b s) + b2 (sent_of P v).
Proof.
  intros H c o s s' v Hc I E Ho. destruct o as [k e i g|k e i g|k e|i q]; cbn [step] in E.
  - destruct Ho as (He & Hi & Hg). unfold listen_input in E.
    destruct (g_fack g && negb (g_frst g) && negb (g_fsyn g)).
    { unfold expand in E. destruct (take (matches i) (h_l (s_b s (bucket i)))) as [[x r]|] eqn:T.
      - inversion E; subst. rewrite (W_drop_take s i x r T). pose proof (finish_count e x g).
        pose proof (b2_nonneg (sent_of P (finish e x g))). lia.
      - rewrite Hc in E. cbn [negb] in E. inversion E; subst. simpl. lia. }
    assert (Triv : forall w, v = w -> s' = s -> conn_of P w = false -> W m (s_b s') + b2 (conn_of P v) <= W m (s_b s) + b2 (sent_of P v)).
    { intros w -> -> Cw. rewrite Cw. pose proof (b2_nonneg (sent_of P w)). unfold b2 at 1. lia. }
    destruct (g_frst g).
    { unfold chkrst in E. destruct (g_fack g || g_fsyn g || g_ffin g); [inversion E; subst; eapply Triv; eauto|].
      destruct (take (matches i) (h_l (s_b s (bucket i)))) as [[x r]|] eqn:T; [|inversion E; subst; eapply Triv; eauto].
      match type of E with context [if ?b then _ else _] => destruct b end; [|inversion E; subst; eapply Triv; eauto].
      inversion E; subst. rewrite (W_drop_take s i x r T). pose proof (m_nonneg x). simpl. lia. }
    destruct (negb (g_fsyn g)); [inversion E; subst; eapply Triv; eauto|].
    destruct (g_fack g).
    { unfold badack in E. destruct (take (matches i) (h_l (s_b s (bucket i)))) as [[x r]|] eqn:T; inversion E; subst; [|eapply Triv; eauto].
      rewrite (W_drop_take s i x r T). pose proof (m_nonneg x). simpl. lia. }
    destruct (negb (syn_sane i g)); [inversion E; subst; eapply Triv; eauto|].
    unfold syn in E. pose proof (inv_syn_begin H c e k i g s I He Hi Hg) as I1.
    destruct (count_syn_begin H c e k i g s Hc I) as (Cw & Cv).
    destruct (snd (syn_begin H c e k i g s)) as [w|].
    + inversion E; subst. rewrite Cv. pose proof (b2_nonneg (sent_of P v)). unfold b2 at 1. lia.
    + pose proof (count_syn_end _ _ _ _ _ _ I1 E). lia.
  - destruct Ho as (He & Hi & Hg). destruct (plain_syn g && syn_sane i g).
    + inversion E; subst. destruct (count_syn_begin H c e k i g s Hc I) as (Cw & Cv).
      destruct (snd (syn_begin H c e k i g s)) as [w|].
      * rewrite Cv. pose proof (b2_nonneg (sent_of P w)). unfold b2 at 1. lia.
      * simpl. unfold b2. lia.
    + inversion E; subst. simpl. lia.
  - eapply count_syn_end; eauto.
  - inversion E; subst. unfold unreach. simpl. destruct (take (matches i) (h_l (s_b s (bucket i)))) as [[x r]|] eqn:T; [|lia].
    destruct (negb (q =? sc_iss x)); [lia|].
    destruct (negb (f_unreach x) || _).
    + cbn [s_b]. rewrite W_modify; [lia|apply bucket_range|]. intro y. apply m_key; reflexivity.
    + rewrite (W_drop_take s i x r T). pose proof (m_nonneg x). lia.
Qed.
Lemma run_count : forall H c l s s' evs, c_cook c = false -> Inv s -> Forall op_ok l -> run H c l s = Ret (s', evs) ->
  W m (s_b s') + count (conn_of P) evs <= W m (s_b s) + count (sent_of P) evs.
Proof.
  intros H c l. induction l as [|o l IH]; intros s s' evs Hc I F E.
  - inversion E; subst. unfold count. simpl length. lia.
  - inversion F; subst. cbn [run] in E. destruct (inv_step H c o s I H2) as (s1 & v & E1 & I1). rewrite E1 in E. cbn [obind fst snd] in E.
    destruct (run H c l s1) as [[s2 ev2]| |] eqn:E2; try discriminate. cbn [obind fst snd] in E. inversion E; subst.
    pose proof (step_count _ _ _ _ _ _ Hc I E1 H2). pose proof (IH _ _ _ Hc I1 H3 E2). rewrite !count_cons.
    unfold b2 in *. lia.
Qed.
End Count.

Lemma run_count_table : forall P H c l s' evs, c_cook c = false -> Forall op_ok l -> run H c l init = Ret (s', evs) ->
  count (key_of P) (table s') + count (conn_of P) evs <= count (sent_of P) evs.
Proof.
  intros P H c l s' evs Hc F E. pose proof (run_count P H c l init s' evs Hc inv_init F E).
  rewrite table_W. replace (W (fun x => if key_of P x then 1 else 0) (s_b init)) with 0 in H0; [lia|].
  unfold W. vm_compute. reflexivity.
Qed.
