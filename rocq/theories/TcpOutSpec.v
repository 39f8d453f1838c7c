(* Vocabulary for the theorems about TCP output. The user's bytes w are numbered from 0; the byte at position p
   has sequence number wire (b + p), and the FIN takes the position after the last byte. *)
From Verif Require Import Base TcpSeqModel TcpSeqProps TcpOptModel TcpReassModel TcpInModel TcpInSpec SockModel SockSpec SackModel TcpOutModel.

(* n of the user's bytes from position p *)
Definition part (w : list Z) (p n : Z) : list Z := firstn (Z.to_nat n) (skipn (Z.to_nat p) w).
(* The segment carries what the user wrote: its payload is w from position p on and its FIN, if any, ends w, which
   the user has closed. U: position of the oldest unacknowledged byte. (The bounds of p make it the only one for
   this sequence number.) *)
Definition carries (b : Z) (w : list Z) (cl : bool) (U : Z) (q : oseg) : Prop :=
  exists p, U <= p <= zlen w + 1 /\ q_seq q = wire (b + p) /\
    (q_data q <> [] -> q_data q = part w p (zlen (q_data q)) /\ p + zlen (q_data q) <= zlen w) /\
    (q_fin q = true -> cl = true /\ p + zlen (q_data q) = zlen w) /\ q_syn q = false.

(* the smaller of the peer's window and the congestion window *)
Definition swin (s : ost) : Z := Z.min (snd_wnd (tp s)) (cwnd (ox s)).
(* A forced send into a closed window is a probe: either the persist timer is the reason, then everything
   outstanding has been taken back and there is data to probe with, or nothing is being recovered. *)
Definition calm (s : ost) : Prop :=
  force (ox s) = true -> swin s = 0 ->
  (snd_nxt (skip_sacked (tp s) (ox s)) = snd_una (tp s) /\ 0 < snd_cc (tp s)) \/
  (persist (tp s) = false /\ sackp (tp s) && frec (tp s) = false).
(* there is room for payload besides the options; U: position of the oldest unacknowledged byte *)
Definition env_ok (w : oenv) (s : ost) : Prop := 0 <= w_ipopt w /\ 40 + w_ipopt w < maxopd (ox s) <= 65535.
(* a connection after the handshake whose FIN, if one is to be sent, is the end of what the user wrote and is not acknowledged *)
Definition settings (w : list Z) (cl : bool) (U : Z) (s : ost) : Prop :=
  ESTABLISHED <= t_state (tp s) <= TIME_WAIT /\ needsyn (tp s) = false /\
  (out_fin (t_state (tp s)) || needfin (tp s) = true -> cl = true /\ U <= zlen w) /\
  0 <= snd_wnd (tp s) /\ 0 <= cwnd (ox s).
Definition nxt_between (s : ost) : Prop := exists k, 0 <= k <= u32 (snd_max (tp s) - snd_una (tp s)) /\ snd_nxt (tp s) = u32 (snd_una (tp s) + k).
(* the right edge of the window offered to the peer, from what is expected next *)
Definition edge (s : ost) : Z := dist (rcv_adv (tp s)) (rnxt (tp s)).
(* the payloads of the segments, one after the other *)
Definition all_data (qs : list (oseg * pres)) : list Z := concat (map (fun q => q_data (fst q)) qs).

(* A connection over time: b: position of its first byte in sequence space; what the user has written, whether he has
   closed, how much has been acknowledged, the control block. *)
Inductive hist (b : Z) : list Z -> bool -> Z -> ost -> Prop :=
| h_new s : snd_una (tp s) = wire b -> snd_nxt (tp s) = wire b -> snd_max (tp s) = wire b -> snd_cc (tp s) = 0 -> sndb (ox s) = sb_empty ->
    holes (board (ox s)) = [] -> hint (board (ox s)) = None -> numholes (board (ox s)) = 0 -> rexb (board (ox s)) = 0 -> sentfin (ox s) = false -> settings [] false 0 s -> hist b [] false 0 s
(* the user writes: src/ofp_uipc_socket.c, ofp_sbappendstream *)
| h_write w U s m bf t' x' : hist b w false U s -> zlen (pk_data m) <= 65535 -> put_last (fun _ => false) (sndb (ox s)) m = (bf, Queued) ->
    t' = set_snd_cc (sb_cc bf) (tp s) -> x' = mkOx (cwnd (ox s)) (sup (ox s)) (newdata (ox s)) (maxopd (ox s)) (maxseg (ox s)) (rxtshift (ox s)) (board (ox s)) bf (lastidle (ox s)) (morecome (ox s)) (nodelay (ox s)) (noopt (ox s)) (nopush (ox s)) (reqts (ox s)) (force (ox s)) (sentfin (ox s)) (wndupd (ox s)) (sblks (ox s)) (tsoff (ox s)) ->
    hist b (w ++ pk_data m) false U (mkOst t' x')
| h_close w U s : hist b w false U s -> hist b w true U s
(* Anything else: an acknowledgement (or an old one, for events without any) moves snd_una, updates the scoreboard
   (src/ofp_tcp_input.c:2305-2314, 2580-2654) and drops the bytes from the buffer; a timeout may empty the scoreboard;
   snd_nxt moves to any place between snd_una and snd_max; the rest of the control block changes in any way. *)
| h_other w cl U s maxh av opt ack bd bf fr s' U' : hist b w cl U s -> 0 <= maxh -> 0 <= ack < 4294967296 ->
    match opt with Some l => (length l <= 4)%nat /\ Forall (fun r => 0 <= fst r < 4294967296 /\ 0 <= snd r < 4294967296) l | None => True end ->
    on_ack maxh av (sync (tp s) (board (ox s))) opt ack = Ret bd ->
    snd_una (tp s') = una bd -> snd_max (tp s') = snd_max (tp s) -> nxt_between s' ->
    board (ox s') = bd \/ board (ox s') = free_holes bd ->
    U' = U + u32 (una bd - snd_una (tp s)) ->
    sbdrop copy_fuel (sndb (ox s)) (U' - U) = Ret (bf, fr) -> sndb (ox s') = bf -> snd_cc (tp s') = sb_cc bf ->
    sentfin (ox s') = sentfin (ox s) -> settings w cl U' s' -> hist b w cl U' s'
| h_output w cl U s v fuel s' l : hist b w cl U s -> calm s -> env_ok v s -> output fuel v s = Ret (s', l) -> hist b w cl U s'.
