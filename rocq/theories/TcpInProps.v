(* C68-C74: what an arriving TCP segment can do to a connection (ofp_tcp_do_segment, src/ofp_tcp_input.c). *)
From Verif Require Import Base TcpSeqModel TcpOptModel TcpReassModel TcpReassSpec TcpReassProof TcpReassProps TcpInModel TcpInSpec TcpInProof TcpInRx TcpInTx TcpInStream TcpInExact TcpInSyn TcpInEof.
Ltac Zify.zify_post_hook ::= idtac.

(* ---------- C68 ---------- *)
(* A segment with no part in the receive window [0, window) delivers nothing, signals no end of stream and leaves
   the receiving side as it is: wholly old (payload and FIN before what is expected next), or starting past the window. *)
Theorem tcp_outside_window_delivers_nothing :
  forall out e g t t' v,
  output_ok out -> connected_state t -> 0 <= rnxt t < 4294967296 -> 0 <= g_seq g < 4294967296 -> e_space e < 2147483648 ->
  (g_furg g = false \/ oobinline t = true) ->
  -2147483648 < lo t g - 1 -> hi t g + 1 < 2147483648 ->
  (hi t g + (if g_ffin g then 1 else 0) <= 0 \/ window e t < lo t g \/ lo t g = window e t /\ g_data g <> []) ->
  do_segment e out g t = Ret (t', v) ->
  v_out v = [] /\ v_eof v = false /\ rnxt t' = rnxt t /\ tsegq t' = tsegq t /\ cantrcv t' = cantrcv t.
Proof.
  intros out e g t t' v Ho Hs Hn Hq Hsp Hu H1 H2 H3 E.
  assert (W : 0 <= window e t < 2147483648) by (unfold window; pose proof (dist_range (rcv_adv t) (rnxt t)); lia).
  set (sy := if g_fsyn g then 1 else 0) in *. set (N := rnxt t). set (A := N + lo t g).
  assert (HA : g_seq g = seqno (A - sy)).
  { subst A. unfold lo. fold sy. replace (N + (dist (g_seq g) (rnxt t) + sy) - sy) with (N + dist (g_seq g) N) by (fold N; lia).
    unfold dist, s32, u32, seqno. rewrite Z.mod_mod by lia. fold N in Hn. destruct (_ <? 2147483648).
    - rewrite Zplus_mod_idemp_r. replace (N + (g_seq g - N)) with (g_seq g) by ring. rewrite Z.mod_small; lia.
    - replace (N + ((g_seq g - N) mod 4294967296 - 4294967296)) with (N + (g_seq g - N) mod 4294967296 + (-1) * 4294967296) by ring.
      rewrite Z.mod_add, Zplus_mod_idemp_r by lia. replace (N + (g_seq g - N)) with (g_seq g) by ring. rewrite Z.mod_small; lia. }
  assert (HN : rnxt t = seqno N) by (unfold seqno; rewrite Z.mod_small; auto).
  assert (Hsync : synchronized t) by (unfold connected_state, synchronized, ESTABLISHED, SYN_RECEIVED in *; lia).
  unfold hi in *. fold (zlen (g_data g)) in *.
  pose proof (do_segment_Q out Ho e g N A (window e t) ltac:(lia) ltac:(lia) W HA t ltac:(repeat split; auto; apply Hsync) eq_refl ltac:(unfold window; lia) t' v E) as HQ.
  assert (R : Rnone (K t) t' v).
  { destruct HQ as [HQ|(c & HT & HR)]; [exact HQ|].
    destruct HR as [[HR|HR]|(call & r & te & v0 & R1 & _)]; [exact HR| |unfold connected_state, ESTABLISHED, SYN_RECEIVED in *; lia].
    exfalso. destruct HR as (R0 & _). destruct HT as (a & n & Ha & Hl & Hd & _ & Hc & Hcut & Hf). destruct (Hc R0) as (C1 & C2 & C3).
    assert (HL : zlen (c_data c) = n). { rewrite Hd. apply firstn_zlen. rewrite skipn_zlen; lia. }
    destruct H3 as [H3|[H3|[H3 H4]]].
    - destruct R0 as [R0|R0]; [destruct (g_ffin g); lia|]. rewrite (Hf R0) in H3. lia.
    - lia.
    - assert (a = 0) by lia. assert (n = 0) by lia. destruct R0 as [R0|R0]; [lia|]. destruct (Hcut) as [X _]; [|congruence].
      destruct (g_data g); [congruence|]. unfold zlen. cbn [length]. lia. }
  destruct R as (R1 & R2 & R3 & R4 & R5 & R6). auto 10.
Qed.
(* One that starts past the window (and is no reset) is answered with an ACK and does nothing else. *)
Theorem tcp_beyond_window_only_acks :
  forall out e g t,
  output_ok out -> connected_state t -> g_frst g = false -> ~ stale e t g ->
  window e t < dist (g_seq g) (rnxt t) -> dist (g_seq g) (rnxt t) + Z.of_nat (length (g_data g)) < 2147483648 ->
  ~ (nofdref t = true /\ CLOSE_WAIT < t_state t /\ g_data g <> []) ->
  exists t', do_segment e out g t = Ret (t', no_ev) /\ same_conn (set_ts_recent (ts_recent t') t) t' /\
    (ts_recent t' = ts_recent t \/ ts_recent t' = 0 /\ PAWS_IDLE < u32 (e_now e - ts_age t)).
Proof. intros out e g t Ho. exact (beyond_window out Ho e g t). Qed.

(* ---------- C69 ---------- *)
(* A reset closes the connection exactly if its sequence number is in the window around the last ACK sent and, when
   ESTABLISHED, within one of what is expected next or of the last ACK; otherwise it has no effect. It is never answered. *)
Theorem tcp_reset_accepted_iff :
  forall out e g t, connected_state t -> g_frst g = true ->
  let valid := rst_in_window t g (window e t) /\
               (t_state t = ESTABLISHED -> e_insecure e = true \/ near (g_seq g) (rnxt t) \/ near (g_seq g) (last_ack t)) in
  (valid /\ exists t', do_segment e out g t = Ret (t', no_ev) /\ t_state t' = CLOSED /\
     so_error t' = (if (t_state t =? CLOSING) || (t_state t =? LAST_ACK) then so_error t else ECONNRESET)) \/
  (~ valid /\ do_segment e out g t = Ret (set_rcv_wnd (window e t) t, no_ev)).
Proof. intros out e g t Hs Hr. apply rst_exact; auto. Qed.
(* The connection is not closed in any other way than by a reset in the window, a SYN not before what is expected
   next, data for a closed socket past CLOSE_WAIT, or the ACK of our FIN in LAST_ACK. *)
Theorem tcp_closed_only_if :
  forall out e g t t' v, output_ok out -> synchronized t -> wf g t -> do_segment e out g t = Ret (t', v) -> t_state t' = CLOSED ->
  g_frst g = true /\ rst_in_window t g (window e t) \/
  g_fsyn g = true /\ dist (rnxt t) (g_seq g) <= 0 /\ so_error t' = ECONNRESET \/
  nofdref t = true /\ CLOSE_WAIT < t_state t /\ g_data g <> [] \/
  t_state t = LAST_ACK /\ new_ack t g /\ snd_cc t < acked_now t g.
Proof.
  intros out e g t t' v Ho Hs Hw E HC. destruct (do_segment_P out Ho e g t Hs Hw t' v E) as [[_ H]|(_ & H1 & _ & _ & H2)]; [|left; auto].
  right. destruct H as [(_ & _ & H)|[(_ & H1 & _ & H2)|(_ & _ & H1 & H2 & H3)]]; [|left|right; left; auto].
  - right. right. rewrite HC in H. unfold synchronized in Hs. 
    assert (AF : forall s f, CLOSED = after_fin s f -> s = CLOSED).
    { intros s f X. unfold after_fin, CLOSED, CLOSE_WAIT, CLOSING, TIME_WAIT in *. destruct f; [|auto]. repeat match type of X with context [if ?b then _ else _] => destruct b end; lia. }
    destruct H as [(_ & _ & H)|(HA & _ & _ & H)]; apply AF in H.
    + unfold CLOSED, SYN_RECEIVED in *. lia.
    + unfold after_ack, opened, CLOSED, SYN_RECEIVED, LAST_ACK, FIN_WAIT_1, FIN_WAIT_2, CLOSING, TIME_WAIT, ESTABLISHED in *.
      destruct (Z.gtb_spec (acked_now t g) (snd_cc t)) as [X|X].
      * destruct (Z.eqb_spec (t_state t) 3); [destruct (needfin t); discriminate|].
        destruct (t_state t =? 6); [discriminate|]. destruct (t_state t =? 7); [discriminate|]. destruct (Z.eqb_spec (t_state t) 8); [auto|lia].
      * destruct (Z.eqb_spec (t_state t) 3); [destruct (needfin t); discriminate|lia].
  - unfold syn_in in H2. apply andb_prop in H2. destruct H2 as [H2 H3]. split; [exact H2|]. split; [lia|exact H1].
Qed.
(* A synchronized connection sends a reset only for data that arrives after its socket is closed. *)
Theorem tcp_reset_sent_only_if :
  forall out e g t t' v, output_ok out -> connected_state t -> wf g t -> do_segment e out g t = Ret (t', v) -> v_rst v <> None ->
  nofdref t = true /\ CLOSE_WAIT < t_state t /\ g_data g <> [].
Proof.
  intros out e g t t' v Ho Hs Hw E HC. assert (Hsy : synchronized t) by (unfold connected_state, synchronized, ESTABLISHED, SYN_RECEIVED in *; lia).
  destruct (do_segment_P out Ho e g t Hsy Hw t' v E) as [[_ H]|(_ & H1 & H2 & _)]; [|rewrite H2 in HC; elim HC; reflexivity].
  destruct H as [(_ & [H|H] & _)|[(_ & _ & H & _)|(_ & _ & H1 & H2 & H3)]]; try contradiction; [|auto].
  unfold connected_state, ESTABLISHED, SYN_RECEIVED in *. lia.
Qed.

(* ---------- C70 ---------- *)
(* Over the life of a connection, whatever order, duplication, overlap and repetition the segments come in: the bytes
   handed over are the peer's stream from the start, without gap or repetition; the end of the stream is signalled only
   when all of it has been handed over, once, and nothing is handed over after it. Missing: the sequence of a FIN cut
   off by the window (see tcp_fin_beyond_window_refuted). *)
Theorem tcp_session_stream_partial :
  forall out f n0 F t N d b, output_ok out -> session out f n0 F t N d b ->
  d = stream_from f n0 (if b then F - n0 else N - n0) /\ n0 <= N /\ (synchronized t -> rnxt t = seqno N) /\
  (b = true -> N = F + 1).
Proof.
  intros out f n0 F t N d b Ho H. destruct (session_inv out Ho f n0 F t N d b H) as (J1 & J2 & J3 & J4 & _).
  split; [exact J1|]. split; [exact J2|]. split; [exact J4|]. intros Hb. apply J3, Hb.
Qed.

(* Once the peer's FIN has been taken, no segment, whatever it is, hands over another byte. *)
Theorem tcp_nothing_after_eof :
  forall out e g t t' v, output_ok out -> t_state t = CLOSE_WAIT \/ t_state t = CLOSING \/ t_state t = LAST_ACK -> tsegq t = [] ->
  do_segment e out g t = Ret (t', v) -> ev_bytes v = [].
Proof. intros out e g t t' v Ho Hs Hq E. exact (eof_segment out Ho e g t (conj Hs Hq) t' v E). Qed.

(* ---------- C71, C73 ---------- *)
(* Every segment that does not end the connection moves it along the RFC 793 diagram: handshake completed by an ACK of
   something sent, our FIN acknowledged exactly if the ACK covers more than the whole send buffer, the peer's FIN taken
   exactly if the end of the stream is signalled. The send buffer loses what is newly acknowledged and nothing else, and
   only for an ACK of something that has been sent and not yet been acknowledged. *)
Theorem tcp_state_and_ack :
  forall out e g t t' v, output_ok out -> synchronized t -> wf g t -> do_segment e out g t = Ret (t', v) ->
  t_state t' = CLOSED /\ snd_una t' = snd_una t /\ snd_cc t' = snd_cc t /\ v_eof v = false \/
  snd_una t' = snd_una t /\ snd_cc t' = snd_cc t /\ t_state t' = after_fin (t_state t) (v_eof v) \/
  new_ack t g /\ snd_una t' = g_ack g /\ snd_cc t' = Z.max 0 (snd_cc t - acked_now t g) /\
    t_state t' = after_fin (after_ack (opened t) (acked_now t g >? snd_cc t)) (v_eof v).
Proof.
  intros out e g t t' v Ho Hs Hw E. destruct (do_segment_P out Ho e g t Hs Hw t' v E) as [[_ H]|(_ & _ & _ & (A & B & C & D) & _)]; [|left; auto].
  destruct H as [(_ & _ & [H|H])|[((A & B & C & D) & _)|((A & B & C & D) & _)]]; [right; left; auto|right; right; auto|left; auto|left; auto].
Qed.
(* Every call returns: no out-of-bounds access to the urgent byte, no drop from the send buffer of more than it holds. *)
Theorem tcp_input_total :
  forall out e g t, e_maxseg e <> 0 -> 0 <= g_urp g ->
  (t_state t = ESTABLISHED -> new_ack t g -> acked_now t g <= snd_cc t) ->
  exists t' v, do_segment e out g t = Ret (t', v).
Proof. intros out e g t H1 H2 H3. apply (do_segment_total out e H1 g t H2 H3). Qed.

(* ---------- C74 ---------- *)
(* While the connection attempt is under way (SYN_SENT), only a segment that acknowledges our SYN is answered to:
   an ACK of anything else is answered with a reset and changes nothing; a reset that does not acknowledge our SYN,
   and anything without a SYN, is ignored; a reset that acknowledges it refuses the connection. *)
Theorem tcp_syn_sent_unacceptable :
  forall out e g t, t_state t = SYN_SENT ->
  let good := 0 < dist (g_ack g) (iss t) /\ dist (g_ack g) (snd_max t) <= 0 in
  (g_fack g = true -> ~ good ->
     exists t' r, do_segment e out g t = Ret (t', mkEv [] false r) /\ t_state t' = SYN_SENT /\ (g_fsyn g = false -> t' = set_rcv_wnd (window e t) t) /\
     r = if g_frst g || g_mcast g then None else Some (g_ack g, None)) /\
  (g_fack g = true -> good -> g_frst g = true ->
     exists t', do_segment e out g t = Ret (t', no_ev) /\ t_state t' = CLOSED /\ so_error t' = ECONNREFUSED) /\
  (g_fack g = false \/ good -> g_frst g = true /\ g_fack g = false \/ g_frst g = false /\ g_fsyn g = false ->
     exists t', do_segment e out g t = Ret (t', no_ev) /\ t_state t' = SYN_SENT /\ (g_fsyn g = false -> t' = set_rcv_wnd (window e t) t)).
Proof.
  intros out e g t Hs good.
  assert (E0 : do_segment e out g t = syn_sent e out (Z.shiftl (g_win g) (snd_scale t)) g (startc g) (set_rcv_wnd (window e t) (if g_fsyn g then syn_options e g t else t))).
  { apply (to_syn_sent out e g t Hs). }
  set (t1 := if g_fsyn g then syn_options e g t else t) in *.
  assert (F : t_state t1 = SYN_SENT /\ iss t1 = iss t /\ snd_max t1 = snd_max t) by (apply (syn_opt_fields e g t Hs)).
  destruct F as (F1 & F2 & F3). set (t2 := set_rcv_wnd (window e t) t1) in *.
  assert (G : SEQ_LEQ (g_ack g) (iss t2) || SEQ_GT (g_ack g) (snd_max t2) = true <-> ~ good).
  { change (iss t2) with (iss t1). change (snd_max t2) with (snd_max t1). rewrite F2, F3. unfold good, SEQ_LEQ, SEQ_GT, dist. rewrite orb_true_iff. lia. }
  assert (F4 : g_fsyn g = false -> t2 = set_rcv_wnd (window e t) t) by (intros X; subst t2 t1; rewrite X; reflexivity).
  rewrite E0. unfold syn_sent. change (c_syn (startc g)) with (g_fsyn g). split; [|split].
  - intros Ha Hg. apply G in Hg. rewrite Ha, Hg. cbn [andb]. exists t2, (reset_of g (startc g)). split; [reflexivity|]. split; [exact F1|]. split; [exact F4|].
    unfold reset_of. rewrite Ha. destruct (g_frst g || g_mcast g); reflexivity.
  - intros Ha Hg Hr. destruct (SEQ_LEQ _ _ || SEQ_GT _ _) eqn:X; [elim (proj1 G eq_refl); exact Hg|]. rewrite Ha, Hr. cbn [andb].
    exists (tcp_drop out ECONNREFUSED t2). split; [reflexivity|]. split; reflexivity.
  - intros H1 H2. assert (X : g_fack g && (SEQ_LEQ (g_ack g) (iss t2) || SEQ_GT (g_ack g) (snd_max t2)) = false).
    { destruct H1 as [->|H1]; [reflexivity|]. destruct (SEQ_LEQ _ _ || SEQ_GT _ _) eqn:X; [elim (proj1 G eq_refl); exact H1|apply andb_false_r]. }
    rewrite X. exists t2. destruct H2 as [[R A]|[R A]]; rewrite R, A; cbn [andb negb]; rewrite ?andb_false_r; split; auto.
Qed.
(* A SYN that acknowledges ours opens the connection: everything acknowledged beyond our SYN leaves the send buffer,
   the sequence space starts at the peer's SYN, data carried along is handed over from its first byte. *)
Theorem tcp_syn_sent_opens :
  forall out e g t t' v, output_ok out -> t_state t = SYN_SENT -> 0 <= snd_cc t -> snd_una t = iss t -> 0 <= iss t < 4294967296 ->
  0 <= g_ack g < 4294967296 -> 0 <= g_seq g < 4294967296 -> tsegq t = [] -> (g_furg g = false \/ oobinline t = true) ->
  g_fack g = true -> 0 < dist (g_ack g) (iss t) -> dist (g_ack g) (snd_max t) <= 0 -> g_frst g = false -> g_fsyn g = true ->
  do_segment e out g t = Ret (t', v) ->
  let acked := dist (g_ack g) (iss t) - 1 in
  connected t' = true /\ v_rst v = None /\ so_error t' = so_error t /\ snd_una t' = g_ack g /\ snd_cc t' = Z.max 0 (snd_cc t - acked) /\
  t_state t' = after_fin (after_ack (if needfin t then FIN_WAIT_1 else ESTABLISHED) (acked >? snd_cc t)) (v_eof v) /\
  irs t' = g_seq g /\ rnxt t' = u32 (g_seq g + 1 + Z.of_nat (length (ev_bytes v)) + (if v_eof v then 1 else 0)) /\
  exists k, ev_bytes v = firstn k (g_data g).
Proof. intros out e g t t' v Ho. exact (syn_sent_opens out Ho e g t t' v). Qed.
(* A SYN without ACK (both ends open at once) is remembered and acknowledged; nothing is handed over yet. *)
Theorem tcp_simultaneous_open :
  forall out e g t t' v, output_ok out -> t_state t = SYN_SENT -> (g_furg g = false \/ oobinline t = true) -> 0 <= g_seq g < 4294967296 ->
  g_fack g = false -> g_frst g = false -> g_fsyn g = true ->
  do_segment e out g t = Ret (t', v) ->
  t_state t' = SYN_RECEIVED /\ v = no_ev /\ irs t' = g_seq g /\ rnxt t' = u32 (g_seq g + 1) /\
  snd_una t' = snd_una t /\ snd_cc t' = snd_cc t /\ so_error t' = so_error t.
Proof. intros out e g t t' v Ho. exact (simultaneous out Ho e g t t' v). Qed.

(* ---------- C72 ---------- *)
Theorem tcp_stale_timestamp_ignored :
  forall out e g t, output_ok out -> connected_state t -> g_frst g = false -> stale e t g ->
  exists t', do_segment e out g t = Ret (t', no_ev) /\ same_conn t t'.
Proof. intros out e g t Ho. exact (paws_drop out Ho e g t). Qed.
(* The timestamp remembered never goes back, except after 24 days without one. *)
Theorem tcp_ts_recent_monotone :
  forall out e g t t' v, output_ok out -> synchronized t -> wf g t -> do_segment e out g t = Ret (t', v) ->
  ts_recent t' = ts_recent t \/ ts_recent t = 0 \/ PAWS_IDLE < u32 (e_now e - ts_age t) \/ 0 <= dist (ts_recent t') (ts_recent t).
Proof.
  intros out e g t t' v Ho Hs Hw E. destruct (do_segment_P out Ho e g t Hs Hw t' v E) as [[H _]|(H & _)]; [|left; exact H].
  destruct H as [H|[[H1 H2]|(tv & ec & H1 & H2 & [H3|[H3|H3]])]]; [left; exact H|right; right; left; exact H2|right; left; exact H3|right; right; left; exact H3|].
  right. right. right. rewrite H2. exact H3.
Qed.

(* ---------- what does not hold ---------- *)
(* an output that announces and acknowledges all there is *)
Definition out1 (t : tcp) : tcp := set_acknow false (set_last_ack (rnxt t) t).
Lemma out1_ok : output_ok out1. Proof. intros t. reflexivity. Qed.
Definition opt0 : topt := no_opt.
(* 100 bytes in flight, 500 expected next; adv is the right edge of the window announced *)
Definition conn (st adv : Z) : tcp :=
  mkTcp st 100 200 200 1000 499 100 99 1000 99 499 500 0 adv 500 500 0 0 0 0 0 0 100 0 0 None
        false false false false false false false false false false true false false false false true [] 0.
Definition env1 (space : Z) : env := mkEnv space 65536 1448 true false false 1000 false false 65536 0.
Definition sg (seq ack win : Z) (syn fin rst fack : bool) (d : list Z) : seg := mkSeg 7 seq ack win syn fin rst false fack 0 opt0 d false.

(* The end of the stream does not wait for the data before it: a FIN cut off by the window is honoured all the same. *)
Theorem tcp_fin_beyond_window_refuted :
  ~ (forall out e g t t' v, output_ok out -> connected_state t -> wf g t -> tsegq t = [] -> g_seq g = rnxt t -> g_fsyn g = false -> g_furg g = false ->
     do_segment e out g t = Ret (t', v) -> v_eof v = true -> ev_bytes v = g_data g).
Proof.
  intros H. specialize (H out1 (env1 3) (sg 500 100 1000 false true false true [1;2;3;4;5]) (conn ESTABLISHED 503)).
  assert (X : ev_bytes (mkEv [(true, mkS 7 500 3 true [1;2;3] true)] true None) = [1;2;3;4;5]); [|discriminate X].
  eapply H; [apply out1_ok|unfold connected_state; cbn; unfold ESTABLISHED, FIN_WAIT_2; lia|unfold wf; cbn; lia|vm_compute; reflexivity..].
Qed.
(* A FIN in sequence and in the window is not always taken: one that looks like a duplicate ACK is dropped. *)
Theorem tcp_fin_on_duplicate_ack_refuted :
  ~ (forall out e g t t' v, output_ok out -> t_state t = ESTABLISHED -> wf g t -> tsegq t = [] -> g_seq g = rnxt t -> g_data g = [] ->
     g_ffin g = true -> g_fsyn g = false -> g_frst g = false -> g_furg g = false -> g_fack g = true -> g_ack g = snd_una t -> 0 < e_space e ->
     o_ts (g_opt g) = None -> do_segment e out g t = Ret (t', v) -> v_eof v = true).
Proof.
  intros H. specialize (H out1 (env1 1000) (sg 500 100 1000 false true false true []) (set_dupacks 3 (conn ESTABLISHED 600))).
  assert (X : v_eof no_ev = true); [|discriminate X].
  eapply H; [apply out1_ok|reflexivity|unfold wf; cbn; lia|vm_compute; reflexivity..].
Qed.
(* The end of the stream is signalled again for a second FIN after the first. *)
Theorem tcp_second_fin_refuted :
  ~ (forall out e g t t' v, output_ok out -> t_state t = CLOSE_WAIT -> wf g t -> do_segment e out g t = Ret (t', v) -> v_eof v = false /\ rnxt t' = rnxt t).
Proof.
  intros H. specialize (H out1 (env1 1000) (sg 500 200 1000 false true false true []) (conn CLOSE_WAIT 600)).
  eassert (X : _ /\ _); [eapply H; [apply out1_ok|reflexivity|unfold wf; cbn; lia|vm_compute; reflexivity]|].
  vm_compute in X. destruct X. discriminate.
Qed.
(* The send window is not bounded by what the peer has announced: an ACK with an old sequence number of more than the
   window (the peer has shrunk it) leaves a window of almost 2^64. *)
Theorem tcp_send_window_refuted :
  ~ (forall out e g t t' v, output_ok out -> connected_state t -> wf g t -> 0 <= g_win g < 65536 -> snd_scale t = 0 -> 0 <= snd_wnd t < 65536 ->
     do_segment e out g t = Ret (t', v) -> snd_wnd t' < 65536).
Proof.
  intros H. specialize (H out1 (env1 1000) (sg 500 200 20 false false false true [1]) (set_snd_wl1 550 (set_snd_wnd 10 (conn ESTABLISHED 600)))).
  eassert (X : _ < _); [eapply H; [apply out1_ok|unfold connected_state; cbn; unfold ESTABLISHED, FIN_WAIT_2; lia|unfold wf; cbn; lia|cbn; lia|reflexivity|cbn; lia|vm_compute; reflexivity]|].
  vm_compute in X. discriminate X.
Qed.
(* A segment far outside the window is not always harmless: it ends a connection the user has closed. *)
Theorem tcp_blind_close_refuted :
  ~ (forall out e g t t' v, output_ok out -> connected_state t -> wf g t -> g_frst g = false -> g_fsyn g = false -> window e t < dist (g_seq g) (rnxt t) ->
     do_segment e out g t = Ret (t', v) -> t_state t' = t_state t).
Proof.
  intros H. specialize (H out1 (env1 1000) (sg 1000000 200 1000 false false false true [1]) (set_nofdref true (conn FIN_WAIT_2 600))).
  eassert (X : _ = _); [eapply H; [apply out1_ok|unfold connected_state; cbn; unfold ESTABLISHED, FIN_WAIT_2; lia|unfold wf; cbn; lia|reflexivity|reflexivity|reflexivity|vm_compute; reflexivity]|].
  vm_compute in X. discriminate X.
Qed.
(* A SYN that does not acknowledge ours changes the options of the connection attempt all the same. *)
Theorem tcp_syn_options_before_check_refuted :
  ~ (forall out e g t t' v, output_ok out -> t_state t = SYN_SENT -> g_fack g = true -> dist (g_ack g) (iss t) <= 0 ->
     do_segment e out g t = Ret (t', v) -> same_conn t t').
Proof.
  intros H. specialize (H out1 (env1 1000) (mkSeg 7 900 5 1000 true false false false true 0 (mkOpt None (Some 14) false None false None) [] false) (set_req_scale true (conn SYN_SENT 600))).
  eassert (X : _); [eapply H; [apply out1_ok|reflexivity|reflexivity|vm_compute; discriminate|vm_compute; reflexivity]|].
  unfold same_conn in X. apply (f_equal snd_scale) in X. vm_compute in X. discriminate X.
Qed.

(* ---------- the hypotheses are met ---------- *)
Definition summary (r : res) := match r with Ret (t, v) => Some (t_state t, rnxt t, snd_una t, snd_cc t, ev_bytes v, v_eof v, v_rst v, so_error t) | _ => None end.
(* in-order data with an ACK of everything sent; FIN in sequence; old, partly old and out-of-order data *)
Example ex_data : summary (do_segment (env1 1000) out1 (sg 500 200 1000 false false false true [1;2;3]) (conn ESTABLISHED 600)) = Some (ESTABLISHED, 503, 200, 0, [1;2;3], false, None, 0).
Proof. vm_compute. reflexivity. Qed.
Example ex_fin : summary (do_segment (env1 1000) out1 (sg 500 150 1000 false true false true [1;2;3]) (conn ESTABLISHED 600)) = Some (CLOSE_WAIT, 504, 150, 50, [1;2;3], true, None, 0).
Proof. vm_compute. reflexivity. Qed.
Example ex_old : summary (do_segment (env1 1000) out1 (sg 490 100 1000 false false false true [1;2;3]) (conn ESTABLISHED 600)) = Some (ESTABLISHED, 500, 100, 100, [], false, None, 0).
Proof. vm_compute. reflexivity. Qed.
Example ex_partly_old : summary (do_segment (env1 1000) out1 (sg 498 100 1000 false false false true [1;2;3]) (conn ESTABLISHED 600)) = Some (ESTABLISHED, 501, 100, 100, [3], false, None, 0).
Proof. vm_compute. reflexivity. Qed.
Example ex_beyond : summary (do_segment (env1 1000) out1 (sg 9000 100 1000 false false false true [1;2;3]) (conn ESTABLISHED 600)) = Some (ESTABLISHED, 500, 100, 100, [], false, None, 0) /\ window (env1 1000) (conn ESTABLISHED 600) < dist 9000 500.
Proof. split; vm_compute; reflexivity. Qed.
Example ex_rst_ok : summary (do_segment (env1 1000) out1 (sg 500 0 0 false false true false []) (conn ESTABLISHED 600)) = Some (CLOSED, 500, 100, 100, [], false, None, ECONNRESET).
Proof. vm_compute. reflexivity. Qed.
Example ex_rst_bad : summary (do_segment (env1 1000) out1 (sg 600 0 0 false false true false []) (conn ESTABLISHED 600)) = Some (ESTABLISHED, 500, 100, 100, [], false, None, 0).
Proof. vm_compute. reflexivity. Qed.
Example ex_fin_acked : summary (do_segment (env1 1000) out1 (sg 500 200 1000 false false false true []) (set_snd_cc 99 (conn FIN_WAIT_1 600))) = Some (FIN_WAIT_2, 500, 200, 0, [], false, None, 0).
Proof. vm_compute. reflexivity. Qed.
Example ex_last_ack : summary (do_segment (env1 1000) out1 (sg 500 200 1000 false false false true []) (set_snd_cc 99 (conn LAST_ACK 600))) = Some (CLOSED, 500, 200, 0, [], false, None, 0).
Proof. vm_compute. reflexivity. Qed.
Example ex_after_eof : summary (do_segment (env1 1000) out1 (sg 500 100 1000 false false false true [1;2;3]) (conn CLOSE_WAIT 600)) = Some (CLOSE_WAIT, 500, 100, 100, [], false, None, 0).
Proof. vm_compute. reflexivity. Qed.
(* a stale timestamp *)
Definition paws_seg : seg := mkSeg 7 500 200 1000 false false false false true 0 (mkOpt None None false (Some (90, 0)) false None) [1;2] false.
Definition paws_conn : tcp := set_ts_age 900 (set_ts_recent 100 (conn ESTABLISHED 600)).
Example ex_stale : stale (env1 1000) paws_conn paws_seg /\ summary (do_segment (env1 1000) out1 paws_seg paws_conn) = Some (ESTABLISHED, 500, 100, 100, [], false, None, 0).
Proof. split; [exists 90, 0; repeat split; try reflexivity; cbn; discriminate|vm_compute; reflexivity]. Qed.
(* opening: nothing sent but the SYN at 99 *)
Definition attempt : tcp := set_snd_una 99 (set_snd_max 100 (set_snd_nxt 100 (set_rnxt 0 (set_rcv_adv 0 (set_snd_cc 0 (conn SYN_SENT 0)))))).
Example ex_syn_ack : summary (do_segment (env1 1000) out1 (sg 700 100 1000 true false false true [4;5]) attempt) = Some (ESTABLISHED, 703, 100, 0, [4;5], false, None, 0).
Proof. vm_compute. reflexivity. Qed.
Example ex_syn_bad_ack : summary (do_segment (env1 1000) out1 (sg 700 105 1000 true false false true []) attempt) = Some (SYN_SENT, 0, 99, 0, [], false, Some (105, None), 0).
Proof. vm_compute. reflexivity. Qed.
Example ex_syn_refused : summary (do_segment (env1 1000) out1 (sg 0 100 0 false false true true []) attempt) = Some (CLOSED, 0, 99, 0, [], false, None, ECONNREFUSED).
Proof. vm_compute. reflexivity. Qed.
Example ex_simultaneous : summary (do_segment (env1 1000) out1 (sg 700 0 1000 true false false false []) attempt) = Some (SYN_RECEIVED, 701, 99, 0, [], false, None, 0).
Proof. vm_compute. reflexivity. Qed.
(* a session: data out of order, the gap filled, then the FIN *)
Definition byte_at (p : Z) : Z := p mod 251.
Example ex_session : exists t, session out1 byte_at 500 506 t 507 (stream_from byte_at 500 6) true /\ t_state t = CLOSE_WAIT.
Proof.
  set (e := env1 1000).
  set (g1 := sg 503 100 1000 false false false true (stream_from byte_at 503 3)).
  set (g2 := sg 500 100 1000 false false false true (stream_from byte_at 500 4)).
  set (g3 := sg 506 100 1000 false true false true []).
  assert (SO : forall A N t g, g_seq g = A -> 500 <= A <= 506 -> N = rnxt t -> 500 <= N <= 506 -> g_fsyn g = false -> g_furg g = false ->
     g_data g = stream_from byte_at A (Z.of_nat (length (g_data g))) -> A + Z.of_nat (length (g_data g)) <= 506 -> 
     (g_ffin g = true -> A + Z.of_nat (length (g_data g)) = 506) -> snd_cc t = 100 -> snd_una t = 100 -> g_ack g = 100 ->
     segment_of byte_at 506 N A e t g).
  { intros A N t g H1 H2 H3 H4 H5 H6 H7 H8 H9 H10 H11 H12. constructor; auto; rewrite ?H5, ?H10, ?H11, ?H12; try lia.
    - rewrite H1. unfold seqno. rewrite Z.mod_small; lia.
    - intros F. split; [auto|]. unfold window. change (e_space e) with 1000. lia.
    - cbn. lia.
    - unfold wf. rewrite H10, H11, H12. lia. }
  pose proof (ses_start out1 byte_at 500 506 (conn ESTABLISHED 600) ltac:(unfold synchronized; cbn; unfold SYN_RECEIVED, ESTABLISHED, FIN_WAIT_2; lia) eq_refl eq_refl eq_refl) as S0.
  eassert (S1 := ses_seg _ _ _ _ _ _ _ _ e 503 g1 _ _ S0 ltac:(unfold synchronized; cbn; unfold SYN_RECEIVED, ESTABLISHED, FIN_WAIT_2; lia) ltac:(apply SO; first [reflexivity|cbn; lia|discriminate]) ltac:(vm_compute; reflexivity)).
  eassert (S2 := ses_seg _ _ _ _ _ _ _ _ e 500 g2 _ _ S1 ltac:(unfold synchronized; cbn; unfold SYN_RECEIVED, ESTABLISHED, FIN_WAIT_2; lia) ltac:(apply SO; first [reflexivity|cbn; lia|discriminate]) ltac:(vm_compute; reflexivity)).
  eassert (S3 := ses_seg _ _ _ _ _ _ _ _ e 506 g3 _ _ S2 ltac:(unfold synchronized; cbn; unfold SYN_RECEIVED, ESTABLISHED, FIN_WAIT_2; lia) ltac:(apply SO; first [reflexivity|cbn; lia|discriminate]) ltac:(vm_compute; reflexivity)).
  eexists. split; [exact S3|reflexivity].
Qed.

Print Assumptions tcp_outside_window_delivers_nothing.
Print Assumptions tcp_beyond_window_only_acks.
Print Assumptions tcp_reset_accepted_iff.
Print Assumptions tcp_closed_only_if.
Print Assumptions tcp_reset_sent_only_if.
Print Assumptions tcp_session_stream_partial.
Print Assumptions tcp_nothing_after_eof.
Print Assumptions tcp_state_and_ack.
Print Assumptions tcp_input_total.
Print Assumptions tcp_syn_sent_unacceptable.
Print Assumptions tcp_syn_sent_opens.
Print Assumptions tcp_simultaneous_open.
Print Assumptions tcp_stale_timestamp_ignored.
Print Assumptions tcp_ts_recent_monotone.
