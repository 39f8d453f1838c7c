From Verif Require Import Base TcpSeqModel TcpOptModel TcpReassModel TcpReassSpec TcpReassProof TcpReassProps TcpInModel TcpInSpec TcpInProof TcpInRx TcpInTx TcpInStream.
Ltac Zify.zify_post_hook ::= idtac.

Lemma session_inv out (Ho : output_ok out) f n0 F t N d b : session out f n0 F t N d b -> I1 f n0 F t N d b.
Proof.
  induction 1 as [t Hs Hn Hq Hl|t N d b t1 H IH Hs Hs1 Hv|t N d b e A g t' v H IH Hs SO E].
  - split; [rewrite Z.sub_diag; reflexivity|]. split; [lia|]. split; [discriminate|]. split; [intros _; exact Hn|]. split; [|discriminate].
    intros _ _. exists (HAVEESTABLISHED (t_state t)), [], [], []. unfold rview. rewrite Hn, Hq, Hl. split; [apply conn_init|]. split; [reflexivity|constructor].
  - destruct IH as (J1 & J2 & J3 & J4 & J5 & J6). unfold I1. assert (V := Hv). unfold rview in V. injection V as V1 V2 V3 V4.
    split; [exact J1|]. split; [exact J2|]. split; [exact J3|]. split; [intros _; rewrite V1; auto|]. split.
    + intros _ Hb. unfold I0. rewrite Hv, V2. apply J5; auto.
    + intros _ Hb. rewrite V4. auto.
  - eapply seg_I1; eauto.
Qed.

Section Exact.
Context (out : tcp -> tcp) (Ho : output_ok out).
Lemma slow_of e g t : connected_state t -> g_frst g = true -> do_segment e out g t = do_rst e g (startc g) (set_rcv_wnd (window e t) t).
Proof.
  intros Hs Hr. unfold connected_state, ESTABLISHED, FIN_WAIT_2 in Hs. unfold do_segment, predict, pred_cond.
  replace (t_state t =? SYN_SENT) with false by (unfold SYN_SENT; lia). cbn [andb]. rewrite Hr. cbn [negb]. rewrite !andb_false_r. cbn [andb negb].
  unfold slow. cbv zeta. replace (Z.max (if e_space e <? 0 then 0 else e_space e) (s32 (u32 (rcv_adv t - rnxt t)))) with (window e t).
  2: { unfold window, dist. f_equal. destruct (Z.ltb_spec (e_space e) 0); lia. }
  set (t1 := set_rcv_wnd _ t). assert (Ht : t_state t1 = t_state t) by reflexivity. rewrite Ht.
  replace (t_state t =? SYN_RECEIVED) with false by (unfold SYN_RECEIVED; lia). replace (t_state t =? SYN_SENT) with false by (unfold SYN_SENT; lia).
  cbn [andb]. rewrite Hr. reflexivity.
Qed.
Lemma near_b s a : SEQ_GEQ s (u32 (a - 1)) && SEQ_LEQ s (u32 (a + 1)) = true <-> near s a.
Proof. unfold near, SEQ_GEQ, SEQ_LEQ, dist, u32. rewrite !Zminus_mod_idemp_r. rewrite andb_true_iff. split; lia. Qed.
Lemma rst_exact e g t : connected_state t -> g_frst g = true ->
  ((rst_in_window t g (window e t) /\ (t_state t = ESTABLISHED -> e_insecure e = true \/ near (g_seq g) (rnxt t) \/ near (g_seq g) (last_ack t))) /\
   exists t', do_segment e out g t = Ret (t', no_ev) /\ t_state t' = CLOSED /\
     so_error t' = (if (t_state t =? CLOSING) || (t_state t =? LAST_ACK) then so_error t else ECONNRESET)) \/
  (~ (rst_in_window t g (window e t) /\ (t_state t = ESTABLISHED -> e_insecure e = true \/ near (g_seq g) (rnxt t) \/ near (g_seq g) (last_ack t))) /\
   do_segment e out g t = Ret (set_rcv_wnd (window e t) t, no_ev)).
Proof.
  intros Hs Hr. rewrite (slow_of e g t Hs Hr). unfold do_rst. cbv zeta. change (c_seq (startc g)) with (g_seq g).
  set (t1 := set_rcv_wnd (window e t) t).
  change (last_ack t1) with (last_ack t). change (rcv_wnd t1) with (window e t). change (t_state t1) with (t_state t). change (rnxt t1) with (rnxt t).
  pose proof (rst_window_b t g (window e t)) as RW.
  destruct (SEQ_GEQ (g_seq g) (u32 (last_ack t - 1)) && SEQ_LEQ (g_seq g) (u32 (last_ack t + window e t))).
  2: { right. split; [intros [X _]; apply RW in X; discriminate|reflexivity]. }
  assert (R : rst_in_window t g (window e t)) by (apply RW; reflexivity).
  unfold connected_state, ESTABLISHED, FIN_WAIT_2 in Hs.
  replace (t_state t =? SYN_RECEIVED) with false by (unfold SYN_RECEIVED; lia).
  pose proof (near_b (g_seq g) (rnxt t)) as NB1. pose proof (near_b (g_seq g) (last_ack t)) as NB2.
  destruct (Z.eqb_spec (t_state t) ESTABLISHED) as [EE|EE]; cbn [andb orb].
  - destruct (e_insecure e) eqn:EI; cbn [negb andb].
    + left. split; [split; auto|]. eexists. split; [reflexivity|]. rewrite EE. split; reflexivity.
    + destruct (SEQ_GEQ (g_seq g) (u32 (rnxt t - 1)) && SEQ_LEQ (g_seq g) (u32 (rnxt t + 1))); cbn [negb andb].
      { left. split; [split; [exact R|intros _; right; left; apply NB1; reflexivity]|]. eexists. split; [reflexivity|]. rewrite EE. split; reflexivity. }
      destruct (SEQ_GEQ (g_seq g) (u32 (last_ack t - 1)) && SEQ_LEQ (g_seq g) (u32 (last_ack t + 1))); cbn [negb andb].
      { left. split; [split; [exact R|intros _; right; right; apply NB2; reflexivity]|]. eexists. split; [reflexivity|]. rewrite EE. split; reflexivity. }
      right. split; [|reflexivity]. intros [_ X]. destruct (X EE) as [X1|[X1|X1]]; [discriminate|apply NB1 in X1; discriminate|apply NB2 in X1; discriminate].
  - left. split; [split; [exact R|contradiction]|].
    unfold ESTABLISHED, FIN_WAIT_1, FIN_WAIT_2, CLOSE_WAIT, CLOSING, LAST_ACK in *.
    destruct (Z.eqb_spec (t_state t) 6); [eexists; split; [reflexivity|]; split; [reflexivity|]; replace (t_state t =? 7) with false by lia; replace (t_state t =? 8) with false by lia; reflexivity|].
    destruct (Z.eqb_spec (t_state t) 9); [eexists; split; [reflexivity|]; split; [reflexivity|]; replace (t_state t =? 7) with false by lia; replace (t_state t =? 8) with false by lia; reflexivity|].
    destruct (Z.eqb_spec (t_state t) 5); [eexists; split; [reflexivity|]; split; [reflexivity|]; replace (t_state t =? 7) with false by lia; replace (t_state t =? 8) with false by lia; reflexivity|].
    cbn [orb]. destruct ((t_state t =? 7) || (t_state t =? 8)) eqn:E; [eexists; split; [reflexivity|]; split; reflexivity|]. apply orb_false_elim in E. lia.
Qed.

(* no reset: up to the timestamp check *)
Lemma to_paws e g t : connected_state t -> g_frst g = false -> pred_cond (Z.shiftl (g_win g) (snd_scale t)) g t = false ->
  do_segment e out g t = paws e out (Z.shiftl (g_win g) (snd_scale t)) g (startc g) (set_rcv_wnd (window e t) t).
Proof.
  intros Hs Hr Hp. unfold connected_state, ESTABLISHED, FIN_WAIT_2 in Hs. unfold do_segment, predict.
  replace (t_state t =? SYN_SENT) with false by (unfold SYN_SENT; lia). cbn [andb]. rewrite Hp. cbn [negb].
  unfold slow. cbv zeta. replace (Z.max (if e_space e <? 0 then 0 else e_space e) (s32 (u32 (rcv_adv t - rnxt t)))) with (window e t).
  2: { unfold window, dist. f_equal. destruct (Z.ltb_spec (e_space e) 0); lia. }
  set (t1 := set_rcv_wnd _ t). assert (Ht : t_state t1 = t_state t) by reflexivity. rewrite Ht.
  replace (t_state t =? SYN_RECEIVED) with false by (unfold SYN_RECEIVED; lia). replace (t_state t =? SYN_SENT) with false by (unfold SYN_SENT; lia).
  cbn [andb]. rewrite Hr. reflexivity.
Qed.
Lemma same_conn_out t t1 : same_conn t t1 -> same_conn t (out t1).
Proof. unfold same_conn. intros H. rewrite <- H. change (set_rcv_wnd 0 (core (out t1)) = set_rcv_wnd 0 (core t1)). rewrite Ho. reflexivity. Qed.
Lemma daa_same g c t t1 : connected_state t1 -> same_conn t t1 -> exists t', dropafterack out g c t1 = Ret (t', no_ev) /\ same_conn t t'.
Proof.
  intros Hs H. unfold dropafterack, connected_state, ESTABLISHED in *. replace (t_state t1 =? SYN_RECEIVED) with false by (unfold SYN_RECEIVED; lia). cbn [andb].
  eexists. split; [reflexivity|]. apply same_conn_out. exact H.
Qed.
Lemma paws_drop e g t : connected_state t -> g_frst g = false -> stale e t g -> exists t', do_segment e out g t = Ret (t', no_ev) /\ same_conn t t'.
Proof.
  intros Hs Hr (v & ec & H1 & H2 & H3 & H4). rewrite to_paws; auto.
  - unfold paws. rewrite H1. set (t1 := set_rcv_wnd _ t). change (ts_recent t1) with (ts_recent t). change (ts_age t1) with (ts_age t).
    unfold TSTMP_LT. fold (dist v (ts_recent t)).
    replace (negb (ts_recent t =? 0)) with true by (symmetry; apply negb_true_iff; lia). replace (dist v (ts_recent t) <? 0) with true by lia. cbn [andb].
    replace (u32 (e_now e - ts_age t) >? PAWS_IDLE) with false by lia.
    destruct (negb _); [eapply daa_same; [exact Hs|reflexivity]|]. eexists. split; reflexivity.
  - unfold pred_cond. rewrite H1. unfold TSTMP_GEQ. fold (dist v (ts_recent t)). replace (dist v (ts_recent t) >=? 0) with false by lia. apply andb_false_r.
Qed.
Lemma dist_add a b k : u32 (a - (b + k)) = u32 (dist a b - k).
Proof.
  unfold dist, s32, u32. rewrite Z.mod_mod by lia. set (y := (a - b) mod 4294967296).
  assert (Y : (a - (b + k)) mod 4294967296 = (y - k) mod 4294967296) by (unfold y; rewrite Zminus_mod_idemp_l; f_equal; lia).
  rewrite Y. destruct (y <? 2147483648); [reflexivity|]. replace (y - 4294967296 - k) with (y - k + (-1) * 4294967296) by ring. rewrite Z.mod_add by lia. reflexivity.
Qed.
Lemma dist_range a b : -2147483648 <= dist a b < 2147483648.
Proof. unfold dist, s32. destruct (Z.ltb_spec (u32 (a - b) mod 4294967296) 2147483648) as [H|H]; pose proof (Z.mod_pos_bound (u32 (a - b)) 4294967296); lia. Qed.
Lemma dist_flip a b : 0 < dist a b -> dist b a <= 0.
Proof.
  unfold dist, s32, u32. rewrite !Z.mod_mod by lia.
  replace (b - a) with (- (a - b)) by ring. intros H.
  assert (B : 0 <= (a - b) mod 4294967296 < 4294967296) by (apply Z.mod_pos_bound; lia).
  destruct (Z.ltb_spec ((a - b) mod 4294967296) 2147483648) as [L|L]; [|lia].
  rewrite Z_mod_nz_opp_full by lia. destruct (Z.ltb_spec (4294967296 - (a - b) mod 4294967296) 2147483648); lia.
Qed.
Lemma beyond_window e g t : connected_state t -> g_frst g = false -> ~ stale e t g ->
  window e t < dist (g_seq g) (rnxt t) -> dist (g_seq g) (rnxt t) + Z.of_nat (length (g_data g)) < 2147483648 -> 
  ~ (nofdref t = true /\ CLOSE_WAIT < t_state t /\ g_data g <> []) ->
  exists t', do_segment e out g t = Ret (t', no_ev) /\ same_conn (set_ts_recent (ts_recent t') t) t' /\ (ts_recent t' = ts_recent t \/ ts_recent t' = 0 /\ idle e t).
Proof.
  intros Hs Hr Hst Hd Hl Hn. fold (zlen (g_data g)) in Hl.
  assert (W0 : 0 <= window e t) by (unfold window; lia).
  assert (Hp : pred_cond (Z.shiftl (g_win g) (snd_scale t)) g t = false).
  { unfold pred_cond. destruct (Z.eqb_spec (g_seq g) (rnxt t)) as [E|E]; [|rewrite !andb_false_r; reflexivity].
    rewrite E in Hd. unfold dist in Hd. rewrite Z.sub_diag in Hd. change (s32 (u32 0)) with 0 in Hd. lia. }
  rewrite to_paws by auto. clear Hp. set (tw := Z.shiftl _ _).
  assert (LC : forall t2, rnxt t2 = rnxt t -> rcv_wnd t2 = window e t -> t_state t2 = t_state t -> nofdref t2 = nofdref t ->
    land_check e out tw g (startc g) t2 = Ret (out (set_acknow true t2), no_ev)).
  { intros t2 H1 H2 H3 H4. unfold land_check. rewrite H3. unfold connected_state, ESTABLISHED in Hs.
    replace (t_state t =? SYN_RECEIVED) with false by (unfold SYN_RECEIVED; lia). cbn [andb].
    unfold trim_head. cbv zeta. change (c_seq (startc g)) with (g_seq g). rewrite H1. fold (dist (rnxt t) (g_seq g)).
    pose proof (dist_flip (g_seq g) (rnxt t) ltac:(lia)). replace (dist (rnxt t) (g_seq g) >? 0) with false by lia.
    unfold after_close. rewrite H3, H4. change (c_data (startc g)) with (g_data g).
    assert (X : nofdref t && (t_state t >? CLOSE_WAIT) && negb (zlen (g_data g) =? 0) = false).
    { destruct (nofdref t) eqn:E1; [|reflexivity]. destruct (Z.gtb_spec (t_state t) CLOSE_WAIT); [|reflexivity]. destruct (g_data g) eqn:E2; [reflexivity|]. elim Hn. repeat split; auto; try lia. discriminate. }
    rewrite X. unfold trim_tail. cbv zeta. change (c_seq (startc g)) with (g_seq g). change (c_data (startc g)) with (g_data g). rewrite H1, H2.
    replace (u32 (g_seq g + zlen (g_data g) - (rnxt t + window e t))) with (u32 (g_seq g - (rnxt t + (window e t - zlen (g_data g))))) by (f_equal; lia).
    rewrite dist_add. pose proof (zlen_nonneg (g_data g)). rewrite s32_small by lia.
    replace (dist (g_seq g) (rnxt t) - (window e t - zlen (g_data g)) >? 0) with true by lia.
    replace (dist (g_seq g) (rnxt t) - (window e t - zlen (g_data g)) >=? zlen (g_data g)) with true by lia.
    replace (g_seq g =? rnxt t) with false.
    2: { symmetry. apply Z.eqb_neq. intros E. rewrite E in Hd. unfold dist in Hd. rewrite Z.sub_diag in Hd. change (s32 (u32 0)) with 0 in Hd. lia. }
    rewrite andb_false_r. unfold dropafterack. rewrite H3. replace (t_state t =? SYN_RECEIVED) with false by (unfold SYN_RECEIVED; lia). reflexivity. }
  assert (FO : forall t2, ts_recent (out t2) = ts_recent t2) by (intros t2; apply (out_field out Ho ts_recent); reflexivity).
  assert (SC : forall t2, same_conn (set_ts_recent (ts_recent t2) t) t2 -> same_conn (set_ts_recent (ts_recent (out (set_acknow true t2))) t) (out (set_acknow true t2))).
  { intros t2 H. rewrite FO. apply same_conn_out. exact H. }
  unfold paws. set (t1 := set_rcv_wnd _ t).
  assert (S1 : same_conn (set_ts_recent (ts_recent t1) t) t1) by reflexivity.
  destruct (o_ts (g_opt g)) as [[v ec]|] eqn:ET.
  - destruct (negb (ts_recent t1 =? 0) && TSTMP_LT v (ts_recent t1)) eqn:EP.
    + destruct (Z.gtb_spec (u32 (e_now e - ts_age t1)) PAWS_IDLE) as [EI|EI].
      * rewrite LC by reflexivity. eexists. split; [reflexivity|]. split; [apply SC; reflexivity|]. right. rewrite FO. split; [reflexivity|exact EI].
      * exfalso. apply Hst. exists v, ec. apply andb_prop in EP. unfold TSTMP_LT in EP. destruct EP as [EP1 EP2]. change (ts_recent t1) with (ts_recent t) in *. unfold dist. repeat split; auto; try lia.
    + rewrite LC by reflexivity. eexists. split; [reflexivity|]. split; [apply SC; reflexivity|]. left. rewrite FO. reflexivity.
  - rewrite LC by reflexivity. eexists. split; [reflexivity|]. split; [apply SC; reflexivity|]. left. rewrite FO. reflexivity.
Qed.

(* ---- every call returns ---- *)
Definition total (r : res) : Prop := exists t v, r = Ret (t, v).
Lemma total_if (b : bool) r1 r2 : total r1 -> total r2 -> total (if b then r1 else r2). Proof. destruct b; auto. Qed.
Ltac tif := repeat match goal with |- total (if _ then _ else _) => apply total_if end.
Lemma total_ret t v : total (Ret (t, v)). Proof. exists t, v. reflexivity. Qed.
Lemma finish_total no t v : total (finish out no t v). Proof. apply total_ret. Qed.
Lemma do_fin_total no fin t o : total (do_fin out no fin t o).
Proof. unfold do_fin. cbv zeta. tif; try apply finish_total. apply total_ret. Qed.
Context (e : env) (He : e_maxseg e <> 0).
Lemma dodata_total no g c tl t : total (dodata e out no g c tl t).
Proof.
  unfold dodata. cbv zeta. tif; try apply total_ret; try apply do_fin_total.
  destruct (tcp_reass_total (e_hiwat e) (e_maxseg e) (e_alloc e) (cantrcv t) (rview t) (mkIn (g_uid g) (c_seq c) tl (g_ffin g) (c_data c)) He) as (r & te & ->). cbn [obind]. apply do_fin_total.
Qed.
Lemma step6_total no tw g c t : 0 <= c_urp c -> total (step6 e out no tw g c t).
Proof.
  intros Hu. unfold step6. cbv zeta. destruct (c_urg c && negb (c_urp c =? 0) && negb _) eqn:E1; [|apply dodata_total].
  apply total_if; [apply dodata_total|]. destruct ((c_urp c <=? zlen (c_data c)) && negb (oobinline _)) eqn:E2; [|apply dodata_total].
  destruct (nth_error (c_data c) (Z.to_nat (c_urp c - 1))) eqn:EN; [apply dodata_total|].
  exfalso. apply nth_error_None in EN. apply andb_prop in E2. unfold zlen in E2. rewrite !andb_true_iff in E1. lia.
Qed.
Lemma daa_total g c t : total (dropafterack out g c t). Proof. unfold dropafterack. apply total_if; apply total_ret. Qed.
Lemma process_ack_total tw g c t : 0 <= c_urp c -> total (process_ack e out tw g c t).
Proof. intros Hu. unfold process_ack. cbv zeta. tif; try (apply step6_total, Hu); apply total_ret. Qed.
Lemma do_ack_total tw g c t : 0 <= c_urp c -> total (do_ack e out tw g c t).
Proof.
  intros Hu. unfold do_ack. cbv zeta. apply total_if; [apply daa_total|]. tif; try (apply step6_total, Hu); try apply total_ret. apply process_ack_total, Hu.
Qed.
Lemma ts_syn_total tw g c t : 0 <= c_urp c -> total (ts_syn e out tw g c t).
Proof.
  intros Hu. unfold ts_syn, need_ack, ack_switch. cbv zeta. tif; try apply total_ret; try apply daa_total; try (apply step6_total, Hu); try (apply do_ack_total, Hu).
  cbn [tcp_reass obind]. destruct (present _ _ _ _ _ _) as [r te]. destruct (do_ack_total tw g c (set_snd_wl1 (u32 (c_seq c - 1)) (rback r (establish tw (ts_update e g c t)))) Hu) as (t' & v & ->). apply total_ret.
Qed.
Lemma trim_head_total tw g c t : 0 <= c_urp c -> total (trim_head e out tw g c t).
Proof.
  intros Hu. assert (AC : forall c t, 0 <= c_urp c -> total (after_close e out tw g c t)).
  { intros c0 t0 H0. unfold after_close, trim_tail. cbv zeta. tif; try apply total_ret; try apply daa_total; apply ts_syn_total; exact H0. }
  assert (CH : forall n f c0, 0 <= c_urp c0 -> 0 <= c_urp (cut_head n f c0)) by (intros n f c0 H; unfold cut_head; cbn; destruct (Z.gtb_spec (c_urp c0) n); lia).
  assert (SS : 0 <= c_urp (strip_syn c)) by (unfold strip_syn; destruct (c_syn c); [cbn; destruct (Z.gtb_spec (c_urp c) 1); lia|exact Hu]).
  unfold trim_head. cbv zeta. tif; apply AC; auto.
Qed.
Lemma slow_total tw g t : 0 <= g_urp g -> total (slow e out tw g t).
Proof.
  intros Hu. unfold slow. cbv zeta. apply total_if; [apply total_ret|]. apply total_if.
  { unfold syn_sent. cbv zeta. tif; try apply total_ret; [apply process_ack_total|apply step6_total]; exact Hu. }
  apply total_if. { unfold do_rst. cbv zeta. tif; apply total_ret. }
  assert (LC : forall t2, total (land_check e out tw g (startc g) t2)) by (intros t2; unfold land_check; apply total_if; [apply total_ret|apply trim_head_total; exact Hu]).
  unfold paws. fold (startc g). destruct (o_ts _) as [[? ?]|]; [|apply LC]. tif; try apply LC; [apply daa_total|apply total_ret].
Qed.
Lemma do_segment_total g t : 0 <= g_urp g -> (t_state t = ESTABLISHED -> new_ack t g -> acked_now t g <= snd_cc t) -> total (do_segment e out g t).
Proof.
  intros Hu Hi. unfold do_segment, predict. set (t1 := if (t_state t =? SYN_SENT) && g_fsyn g then syn_options e g t else t).
  destruct (pred_cond _ g t1) eqn:E1; cbn [negb]; [|apply slow_total, Hu]. cbv zeta.
  assert (T : t1 = t).
  { subst t1. unfold pred_cond in E1. rewrite !andb_true_iff in E1. destruct (Z.eqb_spec (t_state t) SYN_SENT) as [E|E]; [|reflexivity]. destruct (g_fsyn g); [|reflexivity]. cbn [negb] in E1. destruct E1; intuition discriminate. }
  rewrite T in *. clear T t1. unfold pred_cond in E1. rewrite !andb_true_iff in E1. destruct E1 as (((((((((((((E0 & E2) & _) & _) & _) & _) & E7) & _) & _) & _) & E11) & _) & _) & _).
  pose proof (S_pts e g t) as HX. unfold sx in HX. injection HX as A B C D E F G.
  apply total_if; [|apply total_if; [apply total_ret|apply slow_total, Hu]].
  destruct (SEQ_GT _ _ && _ && _ && _ && _) eqn:E3; [|apply slow_total, Hu].
  destruct (Z.gtb_spec (s32 (u32 (g_ack g - snd_una (pred_ts e g t)))) (snd_cc (pred_ts e g t))) as [L|L]; [|apply total_ret].
  exfalso. rewrite !andb_true_iff in E3. unfold SEQ_GT, SEQ_LEQ in E3. rewrite A, B, C in *. 
  specialize (Hi ltac:(lia)). unfold new_ack, acked_now, dist in Hi. destruct (needsyn t); [discriminate|].
  assert (X : s32 (u32 (g_ack g - snd_una t)) - 0 <= snd_cc t) by (apply Hi; split; [exact E7|]; lia). lia.
Qed.
End Exact.
