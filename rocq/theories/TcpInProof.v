From Verif Require Import Base TcpSeqModel TcpOptModel TcpReassModel TcpReassSpec TcpInModel TcpInSpec.
Ltac Zify.zify_post_hook ::= idtac.

Definition wlp (r : res) (P : tcp -> ev -> Prop) : Prop := forall t v, r = Ret (t, v) -> P t v.
Lemma wlp_ret t v (P : tcp -> ev -> Prop) : P t v -> wlp (Ret (t, v)) P.
Proof. intros H t' v' E. injection E as <- <-. exact H. Qed.
Lemma wlp_ub P : wlp UB P. Proof. intros t v E. discriminate. Qed.
Lemma wlp_if (b : bool) r1 r2 P : (b = true -> wlp r1 P) -> (b = false -> wlp r2 P) -> wlp (if b then r1 else r2) P.
Proof. destruct b; auto. Qed.
Lemma wlp_mono r (P Q : tcp -> ev -> Prop) : wlp r P -> (forall t v, P t v -> Q t v) -> wlp r Q.
Proof. intros H I t v E. apply I, H, E. Qed.

(* a field output leaves alone *)
Lemma out_field out (Ho : output_ok out) {A} (p : tcp -> A) : (forall t, p (core t) = p t) -> forall t, p (out t) = p t.
Proof. intros Hp t. rewrite <- Hp, Ho, Hp. reflexivity. Qed.

(* ---- the receiving side ---- *)
Definition rx (t : tcp) := (rnxt t, tsegq t, tsegqlen t, cantrcv t).
Record kk := mkK { k_nxt : Z; k_q : list tseg; k_len : Z; k_cant : bool; k_est : bool; k_inl : bool }.
Definition K (t : tcp) : kk := mkK (rnxt t) (tsegq t) (tsegqlen t) (cantrcv t) (HAVEESTABLISHED (t_state t)) (oobinline t).
Definition Rnone (k : kk) (t' : tcp) (v : ev) : Prop :=
  rnxt t' = k_nxt k /\ tsegq t' = k_q k /\ tsegqlen t' = k_len k /\ cantrcv t' = k_cant k /\ v_out v = [] /\ v_eof v = false.
Definition Rdata (e : env) (g : seg) (c : cur) (k : kk) (t' : tcp) (v : ev) : Prop :=
  (zlen (c_data c) <> 0 \/ c_fin c = true) /\ zlen (c_data c) <= e_space e /\ exists r te,
  tcp_data (e_hiwat e) (e_maxseg e) (e_alloc e) (k_cant k) (mkTcb (k_nxt k) (k_q k) (k_len k) (k_est k))
    (mkIn (g_uid g) (c_seq c) (zlen (c_data c)) (g_ffin g) (c_data c)) = Ret (r, te) /\
  v_out v = te_out te /\ v_eof v = te_ret te /\
  rnxt t' = (if te_ret te then u32 (rcv_nxt r + 1) else rcv_nxt r) /\ tsegq t' = segq r /\ tsegqlen t' = segqlen r /\
  cantrcv t' = k_cant k || te_ret te.
Definition Rany (e : env) (g : seg) (c : cur) (k : kk) (t' : tcp) (v : ev) : Prop := Rnone k t' v \/ Rdata e g c k t' v.

Section Out.
Context (out : tcp -> tcp) (Ho : output_ok out).
Lemma K_out t : K (out t) = K t. Proof. apply (out_field out Ho); reflexivity. Qed.
Lemma st_out t : t_state (out t) = t_state t. Proof. apply (out_field out Ho t_state); reflexivity. Qed.
Lemma Rnone_K k t' v : (K t' = k \/ exists b, mkK (rnxt t') (tsegq t') (tsegqlen t') (cantrcv t') b (oobinline t') = k) -> v_out v = [] -> v_eof v = false -> Rnone k t' v.
Proof. intros [<-|[b <-]] H1 H2; repeat split; auto. Qed.

Lemma finish_rx no t v : wlp (finish out no t v) (fun t' v' => K t' = K t /\ v' = v /\ t_state t' = t_state t).
Proof.
  unfold finish, check_delack. apply wlp_ret. destruct (no || acknow t); destruct (delack _);
    (split; [|split; [reflexivity|]]); try reflexivity; try (apply K_out); try (apply st_out).
Qed.
Lemma do_fin_rx no fin t outs : t_state t < TIME_WAIT ->
  wlp (do_fin out no fin t outs) (fun t' v => v_out v = outs /\ v_eof v = fin /\
     rnxt t' = (if fin then u32 (rnxt t + 1) else rnxt t) /\ tsegq t' = tsegq t /\ tsegqlen t' = tsegqlen t /\ cantrcv t' = cantrcv t || fin).
Proof.
  intros Hs. unfold do_fin. destruct fin; cbn [negb].
  - cbv zeta. replace (HAVERCVDFIN (t_state t)) with false by (unfold HAVERCVDFIN, TIME_WAIT in *; lia). cbn [negb].
    set (t1 := set_rnxt _ _).
    assert (H1 : rnxt t1 = u32 (rnxt t + 1) /\ tsegq t1 = tsegq t /\ tsegqlen t1 = tsegqlen t /\ cantrcv t1 = cantrcv t || true).
    { subst t1. rewrite orb_true_r; destruct (needsyn _); (split; [|split; [|split]]); reflexivity. }
    clearbody t1. destruct H1 as (A & B & C & D).
    assert (F : forall t2, rx t2 = rx t1 -> wlp (finish out no t2 (mkEv outs true None)) (fun t' v => v_out v = outs /\ v_eof v = true /\ rnxt t' = u32 (rnxt t + 1) /\ tsegq t' = tsegq t /\ tsegqlen t' = tsegqlen t /\ cantrcv t' = cantrcv t || true)).
    { intros t2 H2. eapply wlp_mono; [apply finish_rx|]. intros t' v (HK & -> & _). unfold rx in H2. injection H2 as E1 E2 E3 E4.
      unfold K in HK. injection HK as F1 F2 F3 F4 F5 F6. cbn [v_out v_eof]. rewrite F1, F2, F3, F4, E1, E2, E3, E4. auto 10. }
    repeat (apply wlp_if; intros _); try (apply F; reflexivity).
    apply wlp_ret. cbn [v_out v_eof]. auto 10.
  - eapply wlp_mono; [apply finish_rx|]. intros t' v (HK & -> & _). unfold K in HK. injection HK as F1 F2 F3 F4 F5 F6.
    cbn [v_out v_eof]. rewrite orb_false_r. auto 10.
Qed.
Lemma dodata_rx e no g c t : t_state t < TIME_WAIT ->
  wlp (dodata e out no g c (zlen (c_data c)) t) (fun t' v => Rany e g c (K t) t' v).
Proof.
  intros Hs. unfold dodata. cbv zeta.
  assert (Hdrop : wlp (drop t) (Rany e g c (K t))) by (apply wlp_ret; left; apply Rnone_K; auto).
  assert (Hno : forall t1, K t1 = K t -> t_state t1 = t_state t -> wlp (do_fin out no false t1 []) (Rany e g c (K t))).
  { intros t1 HK H1. eapply wlp_mono; [apply do_fin_rx; lia|]. intros t' v (A & B & C & D & E & F). left. unfold K in HK. injection HK as F1 F2 F3 F4 F5 F6.
    rewrite orb_false_r in F. unfold Rnone, K. cbn [k_nxt k_q k_len k_cant]. rewrite <- F1, <- F2, <- F3, <- F4. auto 10. }
  apply wlp_if; intros E1; [exact Hdrop|].
  apply wlp_if; intros E2; [|apply Hno; reflexivity].
  apply wlp_if; intros E3; [|apply Hno; reflexivity].
  destruct (tcp_data _ _ _ _ _ _) as [[r te]| |] eqn:ED; cbn [obind]; [|apply wlp_ub|intros ? ? X; discriminate X].
  match goal with |- wlp (do_fin _ _ _ ?a _) _ => set (t1 := a) end.
  assert (H1 : rnxt t1 = rcv_nxt r /\ tsegq t1 = segq r /\ tsegqlen t1 = segqlen r /\ cantrcv t1 = cantrcv t /\ t_state t1 = t_state t).
  { subst t1. clear E1 E2. destruct (_ && _); [destruct (e_delayack e)|]; (split; [|split; [|split; [|split]]]); reflexivity. }
  clearbody t1. destruct H1 as (A & B & C & D & E).
  eapply wlp_mono; [apply do_fin_rx; lia|]. intros t' v (A' & B' & C' & D' & E' & F'). right.
  apply andb_prop in E2. destruct E2 as [E2 _]. apply orb_prop in E2.
  split; [destruct E2 as [E2|E2]; [left|right; exact E2]; intros X; rewrite X in E2; discriminate|]. split; [lia|].
  exists r, te. cbn [K k_nxt k_q k_len k_cant k_est]. unfold rview in ED.
  split; [exact ED|]. rewrite <- A, <- B, <- C, <- D. repeat split; auto.
Qed.

Definition keep (t t1 : tcp) : Prop := K t1 = K t /\ t_state t1 = t_state t.
Lemma keep_refl t : keep t t. Proof. split; reflexivity. Qed.
Lemma keep_trans a b c : keep a b -> keep b c -> keep a c.
Proof. intros [A B] [C D]. split; congruence. Qed.
Lemma keep_out t : keep t (out t). Proof. split; [apply K_out|apply st_out]. Qed.
Lemma K_fields t t1 : K t1 = K t -> rnxt t1 = rnxt t /\ tsegq t1 = tsegq t /\ tsegqlen t1 = tsegqlen t /\ cantrcv t1 = cantrcv t /\ HAVEESTABLISHED (t_state t1) = HAVEESTABLISHED (t_state t) /\ oobinline t1 = oobinline t.
Proof. unfold K. intros H. injection H. auto 10. Qed.
Lemma Rany_drop e g c t t1 v : rnxt t1 = rnxt t -> tsegq t1 = tsegq t -> tsegqlen t1 = tsegqlen t -> cantrcv t1 = cantrcv t -> v_out v = [] -> v_eof v = false -> Rany e g c (K t) t1 v.
Proof. intros. left. unfold Rnone, K. cbn. auto 10. Qed.
Lemma Rany_keep e g c t t1 v : K t1 = K t -> v_out v = [] -> v_eof v = false -> Rany e g c (K t) t1 v.
Proof. intros H ? ?. destruct (K_fields _ _ H) as (A & B & C & D & _). apply Rany_drop; auto. Qed.
Ltac kp := intros; cbv zeta; repeat (match goal with |- context [if ?b then _ else _] => destruct b end); (apply keep_refl || (split; reflexivity)).
Lemma keep_win tw g c t : keep t (win_update tw g c t). Proof. unfold win_update. kp. Qed.
Lemma keep_urg e c t : keep t (urg_update e c t). Proof. unfold urg_update. kp. Qed.
Lemma keep_timer g t : keep t (ack_timer g t). Proof. unfold ack_timer. kp. Qed.
Lemma keep_drop a t : keep t (ack_drop a t). Proof. unfold ack_drop. kp. Qed.
Lemma keep_recover g t : keep t (ack_recover g t). Proof. unfold ack_recover. kp. Qed.
Lemma keep_una g t : keep t (ack_una g t).
Proof. unfold ack_una. cbv zeta. destruct (_ && _); destruct (SEQ_LT _ _); split; reflexivity. Qed.
Lemma keep_synack t : keep t (syn_acked t). Proof. unfold syn_acked. kp. Qed.
Lemma keep_cdel t : keep t (check_delack t). Proof. unfold check_delack. kp. Qed.
Lemma keep_ts e g c t : keep t (ts_update e g c t). Proof. unfold ts_update. destruct (o_ts _) as [[? ?]|]; kp. Qed.
Lemma keep_pts e g t : keep t (pred_ts e g t). Proof. unfold pred_ts. destruct (o_ts _) as [[? ?]|]; kp. Qed.
Lemma keep_set t t1 t2 : keep t t1 -> K t2 = K t1 -> t_state t2 = t_state t1 -> keep t t2.
Proof. intros [A B] C D. split; congruence. Qed.
Lemma keep_frex g t : keep t (fast_rexmt out g t).
Proof.
  unfold fast_rexmt. cbv zeta. set (t1 := set_frec _ _).
  assert (H : keep t (out t1)) by (eapply keep_trans; [|apply keep_out]; split; reflexivity).
  destruct (SEQ_GT _ _); [|exact H]. eapply keep_set; [exact H|reflexivity|reflexivity].
Qed.
Lemma keep_partial g t : keep t (partial_ack out g t).
Proof.
  unfold partial_ack. destruct (_ && _); [|apply keep_refl]. destruct (sackp t).
  - eapply keep_trans; [|apply keep_out]; split; reflexivity.
  - cbv zeta. set (t1 := set_acknow _ _). assert (H : keep t (out t1)) by (eapply keep_trans; [|apply keep_out]; split; reflexivity).
    destruct (SEQ_GT _ _); [|exact H]. eapply keep_set; [exact H|reflexivity|reflexivity].
Qed.

Lemma step6_rx e no tw g c t : t_state t < TIME_WAIT -> (c_urg c = false \/ oobinline t = true) ->
  wlp (step6 e out no tw g c t) (fun t' v => Rany e g c (K t) t' v).
Proof.
  intros Hs Hu. unfold step6. cbv zeta. pose proof (keep_win tw g c t) as H1. generalize dependent (win_update tw g c t). intros t1 [HK HS].
  generalize (no || win_news tw g c t). clear no. intros no.
  rewrite <- HK. rewrite <- HS in Hs.
  assert (Hu1 : c_urg c = false \/ oobinline t1 = true) by (destruct (K_fields _ _ HK) as (_ & _ & _ & _ & _ & ->); auto).
  clear HK HS Hu.
  assert (Hd : forall t2, keep t1 t2 -> wlp (dodata e out no g c (zlen (c_data c)) t2) (Rany e g c (K t1))).
  { intros t2 [HK HS]. rewrite <- HK. apply dodata_rx. lia. }
  apply wlp_if; intros E.
  - apply wlp_if; intros E2; [apply Hd, keep_refl|].
    destruct Hu1 as [Hu1|Hu1]; [rewrite Hu1 in E; discriminate|].
    pose proof (keep_urg e c t1) as H2. generalize dependent (urg_update e c t1). intros t2 H2.
    replace (oobinline t2) with true by (destruct H2 as [H2 _]; destruct (K_fields _ _ H2) as (_ & _ & _ & _ & _ & ->); auto).
    cbn [negb]. rewrite andb_false_r. apply Hd, H2.
  - apply Hd. destruct (SEQ_GT _ _); split; reflexivity.
Qed.
Lemma process_ack_rx e tw g c t : t_state t < TIME_WAIT -> (c_urg c = false \/ oobinline t = true) ->
  wlp (process_ack e out tw g c t) (fun t' v => Rany e g c (K t) t' v).
Proof.
  intros Hs Hu. unfold process_ack. cbv zeta.
  assert (S6 : forall no t2, K t2 = K t -> t_state t2 < TIME_WAIT -> wlp (step6 e out no tw g c t2) (Rany e g c (K t))).
  { intros no t2 HK HS. rewrite <- HK. apply step6_rx; auto. destruct (K_fields _ _ HK) as (_ & _ & _ & _ & _ & Hi). rewrite Hi. exact Hu. }
  apply wlp_if; intros E0. { destruct (keep_timer g t). apply S6; [auto|lia]. }
  set (a := s32 _). set (t1 := ack_una _ _).
  assert (H1 : keep t t1) by (eapply keep_trans; [eapply keep_trans; [eapply keep_trans; [apply keep_timer|apply keep_drop]|apply keep_recover]|apply keep_una]).
  clearbody t1. destruct H1 as [HK HS].
  apply wlp_if; intros E1.
  { apply S6; destruct (a >? _); auto; try lia; [|cbn; unfold TIME_WAIT, FIN_WAIT_2; lia].
    rewrite <- HK. unfold K. cbn. replace (t_state t1) with FIN_WAIT_1 by lia. reflexivity. }
  apply wlp_if; intros E2. { apply wlp_if; intros E3; [|apply S6; auto; lia]. apply wlp_ret. destruct (K_fields _ _ HK) as (A & B & C & D & _). apply Rany_drop; auto. }
  apply wlp_if; intros E3. { apply wlp_if; intros E4; [|apply S6; auto; lia]. apply wlp_ret. destruct (K_fields _ _ HK) as (A & B & C & D & _). apply Rany_drop; auto. }
  apply S6; auto. lia.
Qed.
Lemma dropafterack_rx e g c t : wlp (dropafterack out g c t) (fun t' v => Rany e g c (K t) t' v).
Proof.
  unfold dropafterack. apply wlp_if; intros _; apply wlp_ret; apply Rany_keep; auto.
  rewrite K_out. reflexivity.
Qed.
Lemma do_ack_rx e tw g c t : t_state t < TIME_WAIT -> (c_urg c = false \/ oobinline t = true) ->
  wlp (do_ack e out tw g c t) (fun t' v => Rany e g c (K t) t' v).
Proof.
  intros Hs Hu. unfold do_ack.
  assert (S6 : forall no t2, K t2 = K t -> t_state t2 = t_state t -> wlp (step6 e out no tw g c t2) (Rany e g c (K t))).
  { intros no t2 HK HS. rewrite <- HK. apply step6_rx; [lia|]. destruct (K_fields _ _ HK) as (_ & _ & _ & _ & _ & Hi). rewrite Hi. exact Hu. }
  assert (Dr : forall t2, keep t t2 -> wlp (drop t2) (Rany e g c (K t))) by (intros t2 [HK HS]; apply wlp_ret, Rany_keep; auto).
  apply wlp_if; intros E1; [apply dropafterack_rx|].
  apply wlp_if; intros E2.
  - apply wlp_if; intros E3; [|apply S6; reflexivity].
    apply wlp_if; intros E4; [apply S6; reflexivity|]. cbv zeta.
    apply wlp_if; intros E5. { apply Dr. eapply keep_trans; [|apply keep_out]. split; reflexivity. }
    apply wlp_if; intros E6.
    { apply wlp_if; intros E7; [apply S6; reflexivity|]. apply Dr. eapply keep_trans; [|apply keep_frex]. split; reflexivity. }
    apply wlp_if; intros E7; [|apply S6; reflexivity]. apply Dr. eapply keep_trans; [|apply keep_out]. split; reflexivity.
  - set (t1 := syn_acked _).
    assert (H : keep t t1). { eapply keep_trans; [|apply keep_synack]. eapply keep_set; [apply keep_partial|reflexivity|reflexivity]. }
    clearbody t1. destruct H as [HK HS]. rewrite <- HK. apply process_ack_rx; [lia|]. destruct (K_fields _ _ HK) as (_ & _ & _ & _ & _ & ->). exact Hu.
Qed.

(* past the handshake *)
Definition past (t : tcp) : Prop := ESTABLISHED <= t_state t \/ t_state t = CLOSED.
Lemma past_keep t t1 : t_state t1 = t_state t -> past t -> past t1. Proof. unfold past. intros ->. auto. Qed.
Lemma do_fin_past no fin t outs : past t -> wlp (do_fin out no fin t outs) (fun t' v => past t').
Proof.
  intros H. assert (F : forall t1 v, past t1 -> wlp (finish out no t1 v) (fun t' _ => past t')).
  { intros t1 v H1. eapply wlp_mono; [apply finish_rx|]. intros t' v' (_ & _ & X). eapply past_keep; eauto. }
  unfold do_fin. apply wlp_if; intros _; [apply F, H|]. cbv zeta. set (t1 := if HAVERCVDFIN _ then t else _).
  assert (H1 : past t1) by (subst t1; destruct (HAVERCVDFIN _); [exact H|]; destruct (needsyn _); exact H). clearbody t1.
  apply wlp_if; intros _; [apply F; left; cbn; unfold ESTABLISHED, CLOSE_WAIT; lia|].
  apply wlp_if; intros _; [apply F; left; cbn; unfold ESTABLISHED, CLOSING; lia|].
  apply wlp_if; intros _; [apply wlp_ret; left; cbn; unfold ESTABLISHED, TIME_WAIT; lia|]. apply F, H1.
Qed.
Lemma dodata_past e no g c tl t : past t -> wlp (dodata e out no g c tl t) (fun t' v => past t').
Proof.
  intros H. unfold dodata. cbv zeta. apply wlp_if; intros _; [apply wlp_ret, H|].
  apply wlp_if; intros _; [|apply do_fin_past, H]. apply wlp_if; intros _; [|apply do_fin_past, H].
  destruct (tcp_data _ _ _ _ _ _) as [[r te]| |]; cbn [obind]; [|apply wlp_ub|intros ? ? X; discriminate X].
  apply do_fin_past. destruct (_ && _); [destruct (e_delayack e)|]; exact H.
Qed.
Lemma step6_past e no tw g c t : past t -> wlp (step6 e out no tw g c t) (fun t' v => past t').
Proof.
  intros H. unfold step6. cbv zeta. assert (H1 : past (win_update tw g c t)) by (eapply past_keep; [apply keep_win|exact H]).
  assert (H2 : past (urg_update e c (win_update tw g c t))) by (eapply past_keep; [apply keep_urg|exact H1]).
  apply wlp_if; intros _.
  - apply wlp_if; intros _; [apply dodata_past, H1|]. apply wlp_if; intros _; [|apply dodata_past, H2].
    destruct (nth_error _ _); [apply dodata_past, H2|apply wlp_ub].
  - apply dodata_past. destruct (SEQ_GT _ _); exact H1.
Qed.
Lemma do_ack_past e tw g c t : past t -> wlp (do_ack e out tw g c t) (fun t' v => past t').
Proof.
  intros H. unfold do_ack.
  apply wlp_if; intros _. { unfold dropafterack. apply wlp_if; intros _; apply wlp_ret; [exact H|]. eapply past_keep; [apply st_out|exact H]. }
  apply wlp_if; intros _.
  - apply wlp_if; intros _; [|apply step6_past, H]. apply wlp_if; intros _; [apply step6_past, H|]. cbv zeta.
    apply wlp_if; intros _; [apply wlp_ret; eapply past_keep; [apply st_out|exact H]|].
    apply wlp_if; intros _. { apply wlp_if; intros _; [apply step6_past, H|]. apply wlp_ret. eapply past_keep; [apply keep_frex|exact H]. }
    apply wlp_if; intros _; [|apply step6_past, H]. apply wlp_ret. eapply past_keep; [apply st_out|exact H].
  - set (t1 := syn_acked _).
    assert (H1 : past t1). { eapply past_keep; [apply keep_synack|]. eapply (past_keep (partial_ack out g t)); [reflexivity|]. eapply past_keep; [apply keep_partial|exact H]. }
    clearbody t1. unfold process_ack. cbv zeta.
    apply wlp_if; intros _. { apply step6_past. eapply past_keep; [apply keep_timer|exact H1]. }
    set (a := s32 _). set (t2 := ack_una _ _).
    assert (H2 : past t2) by (eapply past_keep; [|exact H1]; eapply keep_trans; [eapply keep_trans; [eapply keep_trans; [apply keep_timer|apply keep_drop]|apply keep_recover]|apply keep_una]).
    clearbody t2.
    apply wlp_if; intros _. { apply step6_past. destruct (a >? _); [left; cbn; unfold ESTABLISHED, FIN_WAIT_2; lia|exact H2]. }
    apply wlp_if; intros _. { apply wlp_if; intros _; [|apply step6_past, H2]. apply wlp_ret. left; cbn; unfold ESTABLISHED, TIME_WAIT; lia. }
    apply wlp_if; intros _. { apply wlp_if; intros _; [|apply step6_past, H2]. apply wlp_ret. right. reflexivity. }
    apply step6_past, H2.
Qed.
(* from SYN_RECEIVED on: possibly the handshake completes, then possibly data *)
Definition kest (r : tcb) (t : tcp) : kk := mkK (rcv_nxt r) (segq r) (segqlen r) (cantrcv t) (estab r) (oobinline t).
Definition RX (e : env) (g : seg) (c : cur) (t t' : tcp) (v : ev) : Prop :=
  Rany e g c (K t) t' v \/
  exists call r te v0, t_state t = SYN_RECEIVED /\ (call = true -> zlen (c_data c) = 0 /\ c_fin c = false) /\ tstep (rview t) (Establish call (cantrcv t)) = Ret (r, te) /\ Rany e g c (kest r t) t' v0 /\
    v_out v = te_out te ++ v_out v0 /\ v_eof v = v_eof v0 /\ past t'.
Lemma ack_switch_rx e tw g c t : synchronized t -> (c_urg c = false \/ oobinline t = true) ->
  wlp (ack_switch e out tw g c t) (RX e g c t).
Proof.
  intros Hs Hu. unfold synchronized, SYN_RECEIVED, FIN_WAIT_2 in Hs. unfold ack_switch. apply wlp_if; intros E1.
  - cbv zeta. assert (He : rnxt (establish tw t) = rnxt t /\ tsegq (establish tw t) = tsegq t /\ tsegqlen (establish tw t) = tsegqlen t /\
      cantrcv (establish tw t) = cantrcv t /\ oobinline (establish tw t) = oobinline t /\ (t_state (establish tw t) = ESTABLISHED \/ t_state (establish tw t) = FIN_WAIT_1)).
    { unfold establish. cbv zeta. destruct (_ && _); destruct (needfin _); repeat split; auto. }
    generalize dependent (establish tw t). intros t1 (F1 & F2 & F3 & F4 & F5 & F6).
    assert (Hv : rview t1 = mkTcb (rnxt t) (tsegq t) (tsegqlen t) true).
    { unfold rview. rewrite F1, F2, F3. f_equal. destruct F6 as [-> | ->]; reflexivity. }
    assert (H1 : t_state t1 < TIME_WAIT) by (destruct F6 as [-> | ->]; unfold ESTABLISHED, FIN_WAIT_1, TIME_WAIT; lia).
    apply wlp_if; intros E2.
    + cbn [tcp_reass obind]. destruct (present _ _ _ _ _ _) as [r te] eqn:EP.
      assert (Er : estab r = true). { unfold present in EP. rewrite Hv in EP. cbn [estab negb] in EP. destruct (present_loop _ _) as [[[? ?] ?] ?]. injection EP as <- <-. reflexivity. }
      set (t2 := set_snd_wl1 _ _).
      pose proof (do_ack_rx e tw g c t2 H1) as H. destruct (do_ack e out tw g c t2) as [[t' v]| |] eqn:ED; cbn [obind]; [|apply wlp_ub|intros ? ? X; discriminate X].
      apply wlp_ret. right. exists true, r, te, v. split; [unfold SYN_RECEIVED in *; lia|]. split.
      { intros _. apply andb_prop in E2. destruct (c_fin c); [destruct E2; discriminate|]. split; [lia|reflexivity]. }
      split.
      { cbn [tstep tcp_reass]. rewrite Hv, F4 in EP. cbn [rview rcv_nxt segq segqlen]. f_equal. exact EP. }
      assert (HP : past t') by (eapply (do_ack_past e tw g c t2); [left; destruct F6 as [X|X]; change (ESTABLISHED <= t_state t1); rewrite X; unfold ESTABLISHED, FIN_WAIT_1; lia|exact ED]).
      split; [|split; [reflexivity|split; [reflexivity|exact HP]]]. assert (Hk : K t2 = kest r t).
      { unfold kest, K. subst t2. cbn. f_equal; auto. rewrite Er. destruct F6 as [-> | ->]; reflexivity. }
      rewrite <- Hk. refine (H _ _ _ eq_refl). change (c_urg c = false \/ oobinline t1 = true). rewrite F5. exact Hu.
    + set (t2 := set_snd_wl1 _ _).
      assert (HP : wlp (do_ack e out tw g c t2) (fun t' v => past t')) by (apply do_ack_past; left; destruct F6 as [X|X]; change (ESTABLISHED <= t_state t1); rewrite X; unfold ESTABLISHED, FIN_WAIT_1; lia).
      intros t' v EE. specialize (HP t' v EE). revert t' v EE HP. cut (wlp (do_ack e out tw g c t2) (fun t' v => past t' -> RX e g c t t' v)); [intros X t' v EE HP; exact (X t' v EE HP)|].
      eapply wlp_mono; [apply do_ack_rx; [exact H1|change (c_urg c = false \/ oobinline t1 = true); rewrite F5; exact Hu]|].
      intros t' v H HP. right. exists false. eexists _, _, v. split; [unfold SYN_RECEIVED in *; lia|]. split; [discriminate|]. split; [reflexivity|]. split; [|split; [reflexivity|split; [reflexivity|exact HP]]].
      assert (Hk : K t2 = kest (mkTcb (rcv_nxt (rview t)) (segq (rview t)) (segqlen (rview t)) true) t).
      { unfold kest, K. subst t2. cbn. f_equal; auto. destruct F6 as [-> | ->]; reflexivity. }
      rewrite <- Hk. exact H.
  - eapply wlp_mono; [apply do_ack_rx; auto; unfold TIME_WAIT; lia|]. intros t' v H. left. exact H.
Qed.
Lemma RX_keep e g c t t1 t' v : keep t t1 -> RX e g c t1 t' v -> RX e g c t t' v.
Proof.
  intros [HK HS] [H|(call & r & te & v0 & A0 & A1 & A & B & C)].
  - left. rewrite <- HK. exact H.
  - right. destruct (K_fields _ _ HK) as (F1 & F2 & F3 & F4 & F5 & F6).
    assert (V : rview t1 = rview t) by (unfold rview; rewrite F1, F2, F3, F5; reflexivity).
    exists call, r, te, v0. split; [congruence|]. split; [exact A1|]. rewrite <- V, <- F4. split; [exact A|]. split; [|exact C].
    replace (kest r t) with (kest r t1) by (unfold kest; rewrite F4, F6; reflexivity). exact B.
Qed.
Lemma need_ack_rx e tw g c t : synchronized t -> (c_urg c = false \/ oobinline t = true) ->
  wlp (need_ack e out tw g c t) (RX e g c t).
Proof.
  intros Hs Hu. unfold need_ack.
  assert (L : forall r, wlp r (Rany e g c (K t)) -> wlp r (RX e g c t)) by (intros r H; eapply wlp_mono; [exact H|left; assumption]).
  apply wlp_if; intros E1; [|apply ack_switch_rx; auto].
  apply wlp_if; intros E2. { apply L, step6_rx; auto. unfold synchronized, FIN_WAIT_2, TIME_WAIT in *. lia. }
  apply wlp_if; intros E3; apply L; [apply dropafterack_rx|]. apply wlp_ret, Rany_keep; auto.
Qed.
Lemma tcp_drop_rx err t : K (tcp_drop out err t) = mkK (rnxt t) (tsegq t) (tsegqlen t) (cantrcv t) false (oobinline t).
Proof.
  unfold tcp_drop. cbv zeta. destruct (_ >=? _); [|reflexivity].
  transitivity (let k := K (out (set_t_state CLOSED t)) in mkK (k_nxt k) (k_q k) (k_len k) (k_cant k) false (k_inl k)); [reflexivity|].
  rewrite K_out. reflexivity.
Qed.
Lemma ts_syn_rx e tw g c t : synchronized t -> (c_urg c = false \/ oobinline t = true) ->
  wlp (ts_syn e out tw g c t) (fun t' v => if c_syn c then Rnone (K t) t' v else RX e g c t t' v).
Proof.
  intros Hs Hu. unfold ts_syn. cbv zeta. pose proof (keep_ts e g c t) as Hk. generalize dependent (ts_update e g c t). intros t1 Hk.
  destruct (c_syn c).
  - apply wlp_ret. pose proof (tcp_drop_rx ECONNRESET t1) as H. generalize dependent (tcp_drop out ECONNRESET t1). intros t2 H.
    unfold K in H. injection H as H1 H2 H3 H4 _ _.
    destruct Hk as [Hk _]. destruct (K_fields _ _ Hk) as (A & B & C & D & _). unfold Rnone, K. cbn [k_nxt k_q k_len k_cant]. rewrite H1, H2, H3, H4. auto 10.
  - eapply wlp_mono; [apply need_ack_rx|]. { destruct Hk as [_ Hk]. unfold synchronized. rewrite Hk. exact Hs. }
    { destruct Hk as [Hk _]. destruct (K_fields _ _ Hk) as (_ & _ & _ & _ & _ & ->). exact Hu. }
    intros t' v H. eapply RX_keep; eauto.
Qed.
End Out.
