(* Vocabulary for the theorems about TCP input. *)
From Verif Require Import Base TcpSeqModel TcpOptModel TcpReassModel TcpReassSpec TcpInModel.

(* Sending a segment touches nothing but what has been sent, what has been announced, the request to
   acknowledge and the retransmission timers. *)
Definition core (t : tcp) : tcp :=
  set_snd_nxt 0 (set_snd_max 0 (set_rcv_adv 0 (set_last_ack 0 (set_acknow false (set_delack false (set_rexmt false (set_persist false t))))))).
Definition output_ok (out : tcp -> tcp) : Prop := forall t, core (out t) = core t.
(* two control blocks that differ at most in that and in the receive window *)
Definition same_conn (t t' : tcp) : Prop := core (set_rcv_wnd 0 t') = core (set_rcv_wnd 0 t).

(* signed distance of a sequence number from another one *)
Definition dist (a b : Z) : Z := s32 (u32 (a - b)).
(* the receive window: free buffer space, but not less than what has been announced *)
Definition window (e : env) (t : tcp) : Z := Z.max (Z.max 0 (e_space e)) (dist (rcv_adv t) (rnxt t)).

(* states in which both ends have been heard of, except TIME_WAIT *)
Definition synchronized (t : tcp) : Prop := SYN_RECEIVED <= t_state t <= FIN_WAIT_2.
Definition connected_state (t : tcp) : Prop := ESTABLISHED <= t_state t <= FIN_WAIT_2.

(* what the segment occupies, relative to rcv_nxt: payload from lo to hi, FIN at hi *)
Definition lo (t : tcp) (g : seg) : Z := dist (g_seq g) (rnxt t) + (if g_fsyn g then 1 else 0).
Definition hi (t : tcp) (g : seg) : Z := lo t g + Z.of_nat (length (g_data g)).

(* ---- connection states, RFC 793 figure 6 ---- *)
(* the peer's FIN arrives *)
Definition after_fin (s : Z) (fin : bool) : Z :=
  if fin then
    if (s =? SYN_RECEIVED) || (s =? ESTABLISHED) then CLOSE_WAIT
    else if s =? FIN_WAIT_1 then CLOSING
    else if s =? FIN_WAIT_2 then TIME_WAIT else s
  else s.
(* our FIN is acknowledged *)
Definition after_ack (s : Z) (fin_acked : bool) : Z :=
  if fin_acked then
    if s =? FIN_WAIT_1 then FIN_WAIT_2
    else if s =? CLOSING then TIME_WAIT
    else if s =? LAST_ACK then CLOSED else s
  else s.
(* our SYN is acknowledged *)
Definition opened (t : tcp) : Z :=
  if t_state t =? SYN_RECEIVED then (if needfin t then FIN_WAIT_1 else ESTABLISHED) else t_state t.
(* the ACK field acknowledges something new that has been sent *)
Definition new_ack (t : tcp) (g : seg) : Prop :=
  g_fack g = true /\ 0 < dist (g_ack g) (snd_una t) /\ dist (g_ack g) (snd_max t) <= 0.
(* how much of the send buffer (and, beyond it, our FIN) is acknowledged; a SYN of ours still counts one *)
Definition acked_now (t : tcp) (g : seg) : Z := dist (g_ack g) (snd_una t) - (if needsyn t then 1 else 0).
(* a reset the window check lets through *)
Definition rst_in_window (t : tcp) (g : seg) (w : Z) : Prop :=
  0 <= dist (g_seq g) (last_ack t - 1) /\ dist (g_seq g) (last_ack t + w) <= 0.
(* within one of a *)
Definition near (s a : Z) : Prop := 0 <= dist s (a - 1) /\ dist s (a + 1) <= 0.

(* ---- timestamps ---- *)
Definition stale (e : env) (t : tcp) (g : seg) : Prop :=
  exists v ec, o_ts (g_opt g) = Some (v, ec) /\ ts_recent t <> 0 /\ dist v (ts_recent t) < 0 /\ u32 (e_now e - ts_age t) <= PAWS_IDLE.

(* ---- the stream ---- *)
Definition ev_bytes (v : ev) : list Z := concat (map (fun o => s_data (snd o)) (v_out v)).
(* fields within their types *)
Definition wf (g : seg) (t : tcp) : Prop := 0 <= snd_cc t /\ 0 <= g_ack g < 4294967296 /\ 0 <= snd_una t < 4294967296.
(* A segment of the peer whose stream is f, with the FIN at position F; the receiver t expects position N.
   Its payload starts at position A. It lies within half the sequence space of N, and a FIN lies within the window. *)
Record segment_of (f : Z -> Z) (F N A : Z) (e : env) (t : tcp) (g : seg) : Prop := {
  so_seq : g_seq g = seqno (A - (if g_fsyn g then 1 else 0));
  so_data : g_data g = stream_from f A (Z.of_nat (length (g_data g)));
  so_end : g_data g <> [] -> A + Z.of_nat (length (g_data g)) <= F;
  so_fin : g_ffin g = true -> A + Z.of_nat (length (g_data g)) = F /\ F <= N + window e t;
  so_lo : N - 2147483648 < A - 1;
  so_hi : A + Z.of_nat (length (g_data g)) + 1 < N + 2147483648;
  so_urg : g_furg g = false \/ oobinline t = true;
  so_env : 0 < e_maxseg e /\ 0 <= e_hiwat e /\ e_space e < 2147483648;
  so_wf : wf g t }.
(* A connection over time: control block, next expected position, bytes handed over, end of stream signalled.
   Anything else that happens to it (output, timers, calls of the user) leaves the receiving side alone. *)
Inductive session (out : tcp -> tcp) (f : Z -> Z) (n0 F : Z) : tcp -> Z -> list Z -> bool -> Prop :=
| ses_start t : synchronized t -> rnxt t = seqno n0 -> tsegq t = [] -> tsegqlen t = 0 -> session out f n0 F t n0 [] false
| ses_other t N d b t1 : session out f n0 F t N d b -> synchronized t -> synchronized t1 -> rview t1 = rview t -> session out f n0 F t1 N d b
| ses_seg t N d b e A g t' v : session out f n0 F t N d b -> synchronized t -> segment_of f F N A e t g ->
    do_segment e out g t = Ret (t', v) ->
    session out f n0 F t' (N + Z.of_nat (length (ev_bytes v)) + (if v_eof v then 1 else 0)) (d ++ ev_bytes v) (b || v_eof v).
