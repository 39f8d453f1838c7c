From Verif Require Import Base TcpSeqModel TcpOptModel TcpReassModel TcpReassSpec TcpReassProof TcpReassProps TcpInModel TcpInSpec TcpInProof TcpInRx TcpInTx TcpInStream TcpInExact.
Ltac Zify.zify_post_hook ::= idtac.
Section Syn.
Context (out : tcp -> tcp).
Lemma syn_opt_fields e g t : t_state t = SYN_SENT -> let t1 := if g_fsyn g then syn_options e g t else t in
  t_state t1 = SYN_SENT /\ iss t1 = iss t /\ snd_max t1 = snd_max t.
Proof. intros Hs t1. subst t1. destruct (g_fsyn g); [|auto]. unfold syn_options. destruct (o_ws _); [destruct (req_scale t)|]; destruct (o_ts _) as [[? ?]|]; destruct (_ && _); auto. Qed.
Lemma syn_opt_more e g t : let t1 := syn_options e g t in
  t_state t1 = t_state t /\ snd_una t1 = snd_una t /\ snd_cc t1 = snd_cc t /\ so_error t1 = so_error t /\ needfin t1 = needfin t /\ needsyn t1 = needsyn t /\
  K t1 = K t /\ rcv_adv t1 = rcv_adv t /\ irs t1 = irs t /\ iss t1 = iss t /\ snd_max t1 = snd_max t.
Proof. intros t1. subst t1. unfold syn_options. destruct (o_ws _); [destruct (req_scale t)|]; destruct (o_ts _) as [[? ?]|]; destruct (_ && _); repeat split; auto. Qed.
Lemma to_syn_sent e g t : t_state t = SYN_SENT ->
  do_segment e out g t = syn_sent e out (Z.shiftl (g_win g) (snd_scale t)) g (startc g) (set_rcv_wnd (window e t) (if g_fsyn g then syn_options e g t else t)).
Proof.
  intros Hs. unfold do_segment. replace (t_state t =? SYN_SENT) with true by (rewrite Hs; reflexivity). cbn [andb].
  destruct (syn_opt_fields e g t Hs) as (F1 & _). assert (W : window e (if g_fsyn g then syn_options e g t else t) = window e t).
  { destruct (g_fsyn g); [|reflexivity]. destruct (syn_opt_more e g t) as (_ & _ & _ & _ & _ & _ & HK & HR & _). unfold window. rewrite HR. destruct (K_fields _ _ HK) as (-> & _). reflexivity. }
  set (t1 := if g_fsyn g then _ else t) in *. unfold predict, pred_cond. rewrite F1. change (SYN_SENT =? ESTABLISHED) with false. cbn [andb negb].
  unfold slow. cbv zeta. replace (Z.max (if e_space e <? 0 then 0 else e_space e) (s32 (u32 (rcv_adv t1 - rnxt t1)))) with (window e t).
  2: { rewrite <- W. unfold window, dist. f_equal. destruct (Z.ltb_spec (e_space e) 0); lia. }
  set (t2 := set_rcv_wnd _ t1). change (t_state t2) with (t_state t1). rewrite F1. reflexivity.
Qed.
Context (Ho : output_ok out).
(* fields never touched after the handshake *)
Definition M (t : tcp) := (irs t, connected t).
Ltac mk1 := cbv zeta; repeat (match goal with |- context [if ?b then _ else _] => destruct b end); reflexivity.
Lemma M_out t : M (out t) = M t. Proof. apply (out_field out Ho M); reflexivity. Qed.
Lemma M_finish no t v : wlp (finish out no t v) (fun t' _ => M t' = M t).
Proof.
  unfold finish. apply wlp_ret. assert (C : forall x, M (check_delack x) = M x) by (intros x; unfold check_delack; mk1).
  rewrite C. destruct (no || _); [apply M_out|reflexivity].
Qed.
Lemma M_fin no fin t o : wlp (do_fin out no fin t o) (fun t' _ => M t' = M t).
Proof.
  unfold do_fin. apply wlp_if; intros _; [apply M_finish|]. cbv zeta. set (t1 := if HAVERCVDFIN _ then t else _).
  assert (H : M t1 = M t) by (subst t1; mk1). clearbody t1.
  repeat (apply wlp_if; intros _); try (eapply wlp_mono; [apply M_finish|]; intros ? ? X; rewrite X; exact H). apply wlp_ret. exact H.
Qed.
Lemma M_dodata e no g c tl t : wlp (dodata e out no g c tl t) (fun t' _ => M t' = M t).
Proof.
  unfold dodata. cbv zeta. apply wlp_if; intros _; [apply wlp_ret; reflexivity|].
  apply wlp_if; intros _; [|apply M_fin]. apply wlp_if; intros _; [|exact (M_fin no false (set_acknow true t) [])].
  destruct (tcp_data _ _ _ _ _ _) as [[r te]| |]; cbn [obind]; [|apply wlp_ub|intros ? ? X; discriminate X].
  eapply wlp_mono; [apply M_fin|]. intros ? ? X. rewrite X. mk1.
Qed.
Lemma M_step6 e no tw g c t : wlp (step6 e out no tw g c t) (fun t' _ => M t' = M t).
Proof.
  unfold step6. cbv zeta. assert (H1 : M (win_update tw g c t) = M t) by (unfold win_update; mk1).
  assert (H2 : M (urg_update e c (win_update tw g c t)) = M t) by (rewrite <- H1; unfold urg_update; mk1).
  assert (D : forall c0 tl t1, M t1 = M t -> forall no, wlp (dodata e out no g c0 tl t1) (fun t' _ => M t' = M t)).
  { intros c0 tl t1 H no0. eapply wlp_mono; [apply M_dodata|]. intros ? ? X. rewrite X. exact H. }
  apply wlp_if; intros _.
  - apply wlp_if; intros _; [apply D, H1|]. apply wlp_if; intros _; [|apply D, H2]. destruct (nth_error _ _); [apply D, H2|apply wlp_ub].
  - apply D. destruct (SEQ_GT _ _); exact H1.
Qed.
Lemma M_ack e tw g c t : t_state t = ESTABLISHED \/ t_state t = FIN_WAIT_1 -> wlp (process_ack e out tw g c t) (fun t' _ => M t' = M t).
Proof.
  intros Hst. unfold process_ack. cbv zeta. assert (T : M (ack_timer g t) = M t) by (unfold ack_timer; mk1).
  assert (S6 : forall no t1, M t1 = M t -> wlp (step6 e out no tw g c t1) (fun t' _ => M t' = M t)).
  { intros no t1 H. eapply wlp_mono; [apply M_step6|]. intros ? ? X. rewrite X. exact H. }
  apply wlp_if; intros _; [apply S6, T|]. set (a := s32 _). set (t2 := ack_una _ _).
  assert (H : M t2 = M t). { subst t2. rewrite <- T. unfold ack_una, ack_recover, ack_drop. mk1. }
  assert (Hs2 : t_state t2 = t_state t) by (eapply keep_trans; [eapply keep_trans; [eapply keep_trans; [apply keep_timer|apply keep_drop]|apply keep_recover]|apply keep_una]).
  clearbody t2. rewrite Hs2.
  apply wlp_if; intros _; [apply S6; destruct (a >? _); exact H|].
  apply wlp_if; intros E1; [destruct Hst as [X|X]; rewrite X in E1; discriminate|].
  apply wlp_if; intros E2; [destruct Hst as [X|X]; rewrite X in E2; discriminate|]. apply S6, H.
Qed.
Lemma syn_sent_opens e g t t' v : t_state t = SYN_SENT -> 0 <= snd_cc t -> snd_una t = iss t -> 0 <= iss t < 4294967296 ->
  0 <= g_ack g < 4294967296 -> 0 <= g_seq g < 4294967296 -> tsegq t = [] -> (g_furg g = false \/ oobinline t = true) ->
  g_fack g = true -> 0 < dist (g_ack g) (iss t) -> dist (g_ack g) (snd_max t) <= 0 -> g_frst g = false -> g_fsyn g = true ->
  do_segment e out g t = Ret (t', v) ->
  let acked := dist (g_ack g) (iss t) - 1 in
  connected t' = true /\ v_rst v = None /\ so_error t' = so_error t /\ snd_una t' = g_ack g /\ snd_cc t' = Z.max 0 (snd_cc t - acked) /\
  t_state t' = after_fin (after_ack (if needfin t then FIN_WAIT_1 else ESTABLISHED) (acked >? snd_cc t)) (v_eof v) /\
  irs t' = g_seq g /\ rnxt t' = u32 (g_seq g + 1 + Z.of_nat (length (ev_bytes v)) + (if v_eof v then 1 else 0)) /\
  exists k, ev_bytes v = firstn k (g_data g).
Proof.
  intros Hs Hcc Hun Hi Ha Hq Hsq Hu Hf H1 H2 Hr Hsy E acked.
  rewrite to_syn_sent in E by exact Hs. rewrite Hsy in E.
  destruct (syn_opt_more e g t) as (O1 & O2 & O3 & O4 & O5 & O6 & O7 & O8 & O9 & O10 & O11). cbv zeta in *.
  destruct (K_fields _ _ O7) as (P1 & P2 & P3 & P4 & P5 & P6).
  set (t1 := set_rcv_wnd (window e t) (syn_options e g t)) in *.
  unfold syn_sent in E. change (c_syn (startc g)) with (g_fsyn g) in E. rewrite Hf, Hr, Hsy in E. cbn [andb negb] in E.
  change (iss t1) with (iss (syn_options e g t)) in E. change (snd_max t1) with (snd_max (syn_options e g t)) in E. rewrite O10, O11 in E.
  replace (SEQ_LEQ (g_ack g) (iss t) || SEQ_GT (g_ack g) (snd_max t)) with false in E.
  2: { symmetry. apply orb_false_intro; unfold SEQ_LEQ, SEQ_GT; unfold dist in H1, H2; lia. }
  set (w := rcv_wnd t1) in E. set (c1 := syn_sent_seg _ _ _) in E. set (t2 := syn_sent_tcb e g (startc g) t1) in E. set (t3 := set_rcv_up _ _) in E.
  assert (T : snd_una t2 = u32 (iss t + 1) /\ snd_cc t2 = snd_cc t /\ so_error t2 = so_error t /\
     t_state t2 = (if needfin t then FIN_WAIT_1 else ESTABLISHED) /\ irs t2 = g_seq g /\ connected t2 = true /\ rnxt t2 = u32 (g_seq g + 1) /\ tsegq t2 = [] /\ tsegqlen t2 = tsegqlen t /\ cantrcv t2 = cantrcv t /\ oobinline t2 = oobinline t).
  { subst t2. unfold syn_sent_tcb. rewrite Hf. cbv zeta. cbn [c_data startc c_seq c_syn]. rewrite <- O5, <- O3, <- O4, <- P3, <- P4, <- P6, <- Hun, <- O2, <- Hsq, <- P2.
    destruct (rcvd_scale _ && req_scale _); destruct (e_delayack e && _); cbn; destruct (needfin (syn_options e g t)); repeat split; reflexivity. }
  destruct T as (A1 & A2 & A3 & A4 & A5 & A6 & A7 & A8 & A9 & A10 & A11).
  assert (D : dist (g_ack g) (snd_una t3) = acked). { change (snd_una t3) with (snd_una t2). rewrite A1. rewrite dist_lt by exact H1. reflexivity. }
  assert (Hst : t_state t3 = ESTABLISHED \/ t_state t3 = FIN_WAIT_1) by (change (t_state t3) with (t_state t2); rewrite A4; destruct (needfin t); auto).
  assert (Htw : t_state t3 < TIME_WAIT) by (destruct Hst as [-> | ->]; unfold ESTABLISHED, FIN_WAIT_1, TIME_WAIT; lia).
  pose proof (process_ack_S out Ho e (Z.shiftl (g_win g) (snd_scale t)) g c1 t3 Htw) as PS. rewrite D in PS.
  assert (PA : 0 <= acked) by (subst acked; lia).
  specialize (PS PA). change (snd_cc t3) with (snd_cc t2) in PS. rewrite A2 in PS. specialize (PS Hcc).
  assert (PZ : acked = 0 -> snd_una t3 = g_ack g).
  { intros X. symmetry. apply dist_zero; [exact Ha| |rewrite D; exact X]. change (snd_una t3) with (snd_una t2). rewrite A1. unfold u32. apply Z.mod_pos_bound. lia. }
  destruct (PS PZ t' v E) as (S1 & S2 & S3 & S4 & _ & S6). clear PS PZ.
  pose proof (M_ack e (Z.shiftl (g_win g) (snd_scale t)) g c1 t3 Hst t' v E) as HM. unfold M in HM. injection HM as M1 M2.
  change (irs t3) with (irs t2) in M1. change (connected t3) with (connected t2) in M2.
  assert (UC : c_urg c1 = false \/ oobinline t3 = true). { change (oobinline t3) with (oobinline t2). rewrite A11. exact Hu. }
  pose proof (process_ack_rx out Ho e (Z.shiftl (g_win g) (snd_scale t)) g c1 t3 Htw UC t' v E) as RX.
  change (snd_cc t3) with (snd_cc t2) in *. change (so_error t3) with (so_error t2) in *. change (t_state t3) with (t_state t2) in *.
  rewrite A2, A3, A4 in *. rewrite A5 in M1. rewrite A6 in M2.
  split; [exact M2|]. split; [exact S1|]. split; [exact S4|]. split; [exact S2|]. split; [exact S3|]. split; [exact S6|]. split; [exact M1|].
  assert (KR : k_nxt (K t3) = u32 (g_seq g + 1)) by exact A7. assert (KQ : k_q (K t3) = []) by exact A8.
  assert (KE : k_est (K t3) = true). { change (k_est (K t3)) with (HAVEESTABLISHED (t_state t2)). rewrite A4. destruct (needfin t); reflexivity. }
  assert (CS : c_seq c1 = u32 (g_seq g + 1)) by reflexivity.
  destruct RX as [(R1 & _ & _ & _ & R5 & R6)|(R1 & R2 & r & te & R3 & R4)].
  - unfold ev_bytes. rewrite R5, R6. cbn [map concat length]. split; [rewrite R1, KR; f_equal; lia|]. exists 0%nat. reflexivity.
  - rewrite KQ, KR, KE in R3. unfold tcp_data in R3. cbn [segq rcv_nxt estab i_seq i_len i_fin i_uid i_data segqlen] in R3. rewrite CS, Z.eqb_refl in R3. cbn [andb] in R3.
    injection R3 as <- <-. cbn [te_out te_ret rcv_nxt] in R4. destruct R4 as (R4 & R5 & R6 & _).
    assert (B : ev_bytes v = c_data c1) by (unfold ev_bytes; rewrite R4; cbn [map concat snd s_data]; apply app_nil_r).
    rewrite B, R5, R6. split.
    + change (zlen (if zlen (g_data g) >? w then firstn (Z.to_nat w) (g_data g) else g_data g)) with (Z.of_nat (length (c_data c1))).
      generalize (Z.of_nat (length (c_data c1))). intros L. unfold u32. destruct (g_ffin g).
      * rewrite Zplus_mod_idemp_l. rewrite <- Z.add_assoc, Zplus_mod_idemp_l. f_equal. lia.
      * rewrite Zplus_mod_idemp_l. f_equal. lia.
    + change (c_data c1) with (if zlen (g_data g) >? w then firstn (Z.to_nat w) (g_data g) else g_data g). destruct (zlen (g_data g) >? w); [eexists; reflexivity|]. exists (length (g_data g)). symmetry. apply firstn_all.
Qed.
Lemma simultaneous e g t t' v : t_state t = SYN_SENT -> (g_furg g = false \/ oobinline t = true) -> 0 <= g_seq g < 4294967296 ->
  g_fack g = false -> g_frst g = false -> g_fsyn g = true ->
  do_segment e out g t = Ret (t', v) ->
  t_state t' = SYN_RECEIVED /\ v = no_ev /\ irs t' = g_seq g /\ rnxt t' = u32 (g_seq g + 1) /\
  snd_una t' = snd_una t /\ snd_cc t' = snd_cc t /\ so_error t' = so_error t.
Proof.
  intros Hs Hu Hq Hf Hr Hsy E.
  rewrite to_syn_sent in E by exact Hs. rewrite Hsy in E.
  destruct (syn_opt_more e g t) as (O1 & O2 & O3 & O4 & O5 & O6 & O7 & O8 & O9 & O10 & O11). cbv zeta in *.
  destruct (K_fields _ _ O7) as (P1 & P2 & P3 & P4 & P5 & P6).
  set (t1 := set_rcv_wnd (window e t) (syn_options e g t)) in *.
  unfold syn_sent in E. change (c_syn (startc g)) with (g_fsyn g) in E. rewrite Hf, Hr, Hsy in E. cbn [andb negb] in E.
  set (c1 := syn_sent_seg _ _ _) in E. set (t2 := syn_sent_tcb e g (startc g) t1) in E. set (t3 := set_rcv_up _ _) in E.
  assert (T2 : t2 = set_t_state SYN_RECEIVED (set_rexmt false (set_needsyn true (set_acknow true (set_rcv_adv (u32 (g_seq g + 1)) (set_rnxt (u32 (g_seq g + 1)) (set_irs (g_seq g) t1))))))).
  { subst t2. unfold syn_sent_tcb. rewrite Hf. reflexivity. }
  assert (Htw : t_state t3 < TIME_WAIT) by (change (t_state t3) with (t_state t2); rewrite T2; cbn; unfold SYN_RECEIVED, TIME_WAIT; lia).
  assert (UC : c_urg c1 = false \/ oobinline t3 = true). { change (oobinline t3) with (oobinline t2). rewrite T2. change (g_furg g = false \/ oobinline (syn_options e g t) = true). rewrite P6. exact Hu. }
  pose proof (step6_rx out Ho e false (Z.shiftl (g_win g) (snd_scale t)) g c1 t3 Htw UC t' v E) as RX.
  destruct (step6_S out Ho e false (Z.shiftl (g_win g) (snd_scale t)) g c1 t3 Htw t' v E) as (S1 & S2 & S3 & S4 & _ & S6).
  pose proof (M_step6 e false (Z.shiftl (g_win g) (snd_scale t)) g c1 t3 t' v E) as HM. unfold M in HM. injection HM as M1 _.
  assert (X : v_out v = [] /\ v_eof v = false /\ rnxt t' = rnxt t3).
  { destruct RX as [(R1 & _ & _ & _ & R5 & R6)|(R1 & R2 & r & te & R3 & R4)]; [auto|].
    assert (KE : k_est (K t3) = false). { change (k_est (K t3)) with (HAVEESTABLISHED (t_state t2)). rewrite T2. reflexivity. }
    rewrite KE in R3.
    assert (Y : te_out te = [] /\ te_ret te = false /\ rcv_nxt r = k_nxt (K t3)).
    { revert R3. unfold tcp_data. cbn [segq rcv_nxt estab]. rewrite andb_false_r. 
      assert (Z : forall ii, tcp_reass (e_hiwat e) (e_maxseg e) (e_alloc e) (k_cant (K t3)) (mkTcb (k_nxt (K t3)) (k_q (K t3)) (k_len (K t3)) false) (Some ii) = Ret (r, te) -> te_out te = [] /\ te_ret te = false /\ rcv_nxt r = k_nxt (K t3)).
      { intros ii. unfold tcp_reass. destruct (_ =? 0); [discriminate|]. cbv zeta. destruct (_ && _); [intros X; injection X as <- <-; auto|]. destruct (negb _ && _); [intros X; injection X as <- <-; auto|].
        destruct (split_at _ _) as [pre post]. destruct (_ && _); [intros X; injection X as <- <-; auto|]. destruct (trim_succ _ _) as [[? ?] ?]. intros X. injection X as <- <-. auto. }
      destruct (k_q (K t3)); apply Z. }
    destruct Y as (Y1 & Y2 & Y3). rewrite Y1, Y2, Y3 in R4. destruct R4 as (R4 & R5 & R6 & _). rewrite R4, R5, R6. auto. }
  destruct X as (X1 & X2 & X3). rewrite X2 in S6. cbn [after_fin] in S6. destruct v as [vo ve vr]. cbn in X1, X2, S1. subst vo ve vr.
  rewrite S6, S2, S3, S4, M1, X3.
  change (snd_una t3) with (snd_una t2). change (snd_cc t3) with (snd_cc t2). change (so_error t3) with (so_error t2). change (t_state t3) with (t_state t2). change (irs t3) with (irs t2). change (rnxt t3) with (rnxt t2).
  rewrite T2. cbn. auto 10.
Qed.
End Syn.
