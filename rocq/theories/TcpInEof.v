From Verif Require Import Base TcpSeqModel TcpOptModel TcpReassModel TcpReassSpec TcpReassProof TcpReassProps TcpInModel TcpInSpec TcpInProof TcpInRx TcpInTx TcpInStream TcpInExact.
Ltac Zify.zify_post_hook ::= idtac.
(* after the end of the stream *)
Definition eofst (t : tcp) : Prop := (t_state t = CLOSE_WAIT \/ t_state t = CLOSING \/ t_state t = LAST_ACK) /\ tsegq t = [].
Lemma eofst_keep t t1 : keep t t1 -> eofst t -> eofst t1.
Proof. intros [HK HS] [A B]. destruct (K_fields _ _ HK) as (_ & F & _). unfold eofst. rewrite HS, F. auto. Qed.
Section Out.
Context (out : tcp -> tcp) (Ho : output_ok out) (e : env) (g : seg).
Definition silent (r : res) : Prop := wlp r (fun _ v => ev_bytes v = []).
Lemma silent_ret t : silent (Ret (t, no_ev)). Proof. apply wlp_ret. reflexivity. Qed.
Lemma silent_rst c t : silent (dropwithreset g c t). Proof. apply wlp_ret. reflexivity. Qed.
Lemma silent_daa c t : silent (dropafterack out g c t). Proof. unfold dropafterack. apply wlp_if; intros _; [apply silent_rst|apply silent_ret]. Qed.
Lemma do_fin_out no fin t o : wlp (do_fin out no fin t o) (fun _ v => v_out v = o).
Proof.
  unfold do_fin. assert (F : forall t v, v_out v = o -> wlp (finish out no t v) (fun _ v => v_out v = o)) by (intros t1 v H; apply wlp_ret; exact H).
  cbv zeta. repeat (apply wlp_if; intros _); try (apply F; reflexivity). apply wlp_ret. reflexivity.
Qed.
Lemma present_empty b st l fr al zf tl : segq st = [] \/ (exists s, segq st = [s] /\ s_data s = []) ->
  l = snd (present b st fr al zf tl) -> concat (map (fun o : bool * tseg => s_data (snd o)) (te_out l)) = [].
Proof.
  intros H ->. unfold present. destruct (negb (estab st)); [reflexivity|].
  destruct H as [->|(s & -> & Hd)]; cbn [present_loop]; [reflexivity|]. destruct (s_seq s =? rcv_nxt st); cbn; rewrite ?Hd; reflexivity.
Qed.
Lemma eof_dodata no c t tl : tl = zlen (c_data c) \/ tl <> 0 -> eofst t -> silent (dodata e out no g c tl t).
Proof.
  intros Htl [Hs Hq]. unfold dodata. cbv zeta. apply wlp_if; intros E1; [apply silent_ret|].
  assert (T0 : tl = 0). { apply andb_false_iff in E1. destruct E1 as [E1|E1]; [lia|]. destruct Hs as [X|[X|X]]; rewrite X in E1; discriminate E1. }
  assert (D0 : c_data c = []). { destruct Htl as [H|H]; [|congruence]. rewrite T0 in H. destruct (c_data c); [reflexivity|]. unfold zlen in H. cbn in H. lia. }
  assert (N : forall fin t o, concat (map (fun o : bool * tseg => s_data (snd o)) o) = [] -> silent (do_fin out no fin t o)).
  { intros fin t1 o H. eapply wlp_mono; [apply do_fin_out|]. intros t2 v H2. unfold ev_bytes. rewrite H2. exact H. }
  apply wlp_if; intros _; [|apply N; reflexivity]. apply wlp_if; intros _; [|apply N; reflexivity].
  destruct (tcp_data _ _ _ _ _ _) as [[r te]| |] eqn:ET; cbn [obind]; [|apply wlp_ub|intros ? ? X; discriminate X]. apply N.
  rewrite D0 in ET. unfold tcp_data in ET. cbn [rview segq] in ET. rewrite Hq in ET. cbn [rcv_nxt estab i_seq] in ET.
  destruct ((c_seq c =? rnxt t) && HAVEESTABLISHED (t_state t)) eqn:EB; cbn [rview estab rcv_nxt] in ET; rewrite EB in ET. { inversion ET. reflexivity. }
  unfold tcp_reass in ET. destruct (e_maxseg e =? 0); [discriminate ET|]. cbv zeta in ET. cbn [i_seq i_len i_data i_uid i_fin rview segq rcv_nxt estab segqlen] in ET.
  rewrite Hq in ET. cbn [split_at rev] in ET. change (0 >? 0) with false in ET. cbn [andb trim_succ app] in ET.
  match type of ET with (if ?b then _ else _) = _ => destruct b end; [inversion ET; reflexivity|].
  match type of ET with (if ?b then _ else _) = _ => destruct b end; [inversion ET; reflexivity|].
  match type of ET with Ret ?x = _ => assert (X : x = (r, te)) by congruence end.
  eapply present_empty; [|rewrite X; reflexivity]. right. eexists. split; reflexivity.
Qed.
Lemma eof_step6 no tw c t : eofst t -> silent (step6 e out no tw g c t).
Proof.
  intros H. unfold step6. cbv zeta. assert (H1 := eofst_keep _ _ (keep_win tw g c t) H). assert (H2 := eofst_keep _ _ (keep_urg e c _) H1).
  apply wlp_if; intros E1.
  - apply wlp_if; intros _; [apply eof_dodata; auto|]. apply wlp_if; intros E2; [|apply eof_dodata; auto].
    destruct (nth_error _ _) eqn:EN; [|apply wlp_ub]. apply eof_dodata; [|exact H2]. right.
    intros X. destruct (c_data c); [destruct (Z.to_nat _); discriminate EN|]. unfold zlen in X. cbn in X. lia.
  - apply eof_dodata; [auto|]. destruct (SEQ_GT _ _); exact H1.
Qed.
Lemma silent_if (b : bool) r1 r2 : (b = true -> silent r1) -> (b = false -> silent r2) -> silent (if b then r1 else r2).
Proof. destruct b; auto. Qed.
Ltac sif := repeat match goal with |- silent (if _ then _ else _) => apply silent_if; intros _ end.
Lemma eof_process tw c t : eofst t -> silent (process_ack e out tw g c t).
Proof.
  intros H. unfold process_ack. cbv zeta. apply silent_if; intros _; [apply eof_step6; eapply eofst_keep; [apply keep_timer|exact H]|].
  set (a := s32 _). set (t2 := ack_una _ _).
  assert (H2 : eofst t2) by (eapply eofst_keep; [|exact H]; eapply keep_trans; [eapply keep_trans; [eapply keep_trans; [apply keep_timer|apply keep_drop]|apply keep_recover]|apply keep_una]).
  clearbody t2. apply silent_if; intros E1. { exfalso. destruct H2 as [[X|[X|X]] _]; rewrite X in E1; discriminate E1. }
  sif; try apply silent_ret; apply eof_step6, H2.
Qed.
Lemma eof_do_ack tw c t : eofst t -> silent (do_ack e out tw g c t).
Proof.
  intros H. unfold do_ack. cbv zeta. apply silent_if; intros _; [apply silent_daa|].
  apply silent_if; intros _; [sif; try apply silent_ret; apply eof_step6, H|].
  apply eof_process. eapply eofst_keep; [|exact H]. eapply keep_trans; [|apply keep_synack]. eapply keep_set; [apply (keep_partial out Ho)|reflexivity|reflexivity].
Qed.
Lemma eof_ts_syn tw c t : eofst t -> silent (ts_syn e out tw g c t).
Proof.
  intros H. unfold ts_syn. cbv zeta. assert (H1 := eofst_keep _ _ (keep_ts e g c t) H). generalize dependent (ts_update e g c t). intros t1 H1.
  apply silent_if; intros _; [apply silent_ret|]. unfold need_ack.
  apply silent_if; intros _; [sif; [apply eof_step6, H1|apply silent_daa|apply silent_ret]|].
  unfold ack_switch. apply silent_if; intros E1; [|apply eof_do_ack, H1]. exfalso. destruct H1 as [[X|[X|X]] _]; rewrite X in E1; discriminate E1.
Qed.
Lemma eof_after_close tw c t : eofst t -> silent (after_close e out tw g c t).
Proof.
  intros H. unfold after_close, trim_tail. cbv zeta. apply silent_if; intros _; [apply silent_rst|].
  sif; try apply silent_daa; apply eof_ts_syn, H.
Qed.
Lemma eof_land tw c t : eofst t -> silent (land_check e out tw g c t).
Proof.
  intros H. unfold land_check, trim_head. cbv zeta. sif; try apply silent_rst; apply eof_after_close, H.
Qed.
Lemma eof_segment t : eofst t -> silent (do_segment e out g t).
Proof.
  intros H. unfold do_segment, predict. assert (Hst := proj1 H).
  replace (t_state t =? SYN_SENT) with false by (destruct Hst as [X|[X|X]]; rewrite X; reflexivity). cbn [andb].
  unfold pred_cond. replace (t_state t =? ESTABLISHED) with false by (destruct Hst as [X|[X|X]]; rewrite X; reflexivity). cbn [andb negb].
  unfold slow. cbv zeta. set (t1 := set_rcv_wnd _ t). assert (H1 : eofst t1) by exact H. clearbody t1.
  apply silent_if; intros _; [apply silent_rst|]. apply silent_if; intros E1. { exfalso. destruct H1 as [[X|[X|X]] _]; rewrite X in E1; discriminate E1. }
  apply silent_if; intros _. { unfold do_rst. cbv zeta. sif; apply silent_ret. }
  unfold paws. destruct (o_ts _) as [[? ?]|]; [|apply eof_land, H1].
  apply silent_if; intros _; [|apply eof_land, H1]. apply silent_if; intros _; [apply eof_land, H1|]. apply silent_if; intros _; [apply silent_daa|apply silent_ret].
Qed.
End Out.
