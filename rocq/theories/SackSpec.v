(* Bytes of the stream are numbered by unbounded integers; the wire carries them modulo 2^32.
   What the sender's scoreboard says about byte x, and what the peer has said about it. *)
From Verif Require Import Base TcpSeqModel TcpSeqProps SackModel.

(* byte x lies in the range from s to e of sequence numbers *)
Definition in_range (s e x : Z) : Prop := SEQ_LEQ s (wire x) = true /\ SEQ_LT (wire x) e = true.
(* the scoreboard holds x to be missing at the receiver *)
Definition missing (t : sb) (x : Z) : Prop := exists h, In h (holes t) /\ in_range (hs h) (he h) x.
(* x is missing and has been retransmitted *)
Definition resent (t : sb) (x : Z) : Prop := exists h, In h (holes t) /\ in_range (hs h) (hr h) x.
Definition below_fack (t : sb) (x : Z) : Prop := SEQ_LT (wire x) (fack t) = true.

(* what happens to a connection: an acknowledgement (with the blocks of its SACK option, if
   any), new data sent, a chance to retransmit, a timeout *)
Inductive ev :=
| EAck (av : Z) (opt : option (list (Z * Z))) (ack : Z)
| ESend (n : Z)
| ERexmit (cwin recover mss : Z) (sent : bool)
| ETimeout.
(* the connection together with the true positions of snd_una and snd_max and the bytes the
   peer has reported as received *)
Record conn := mkConn { c_sb : sb; c_una : Z; c_max : Z; c_rep : Z -> Prop }.
Definition too_new (t : sb) (ack : Z) : bool := SEQ_GT ack (smax t).
Definition una_after (c : conn) (ack : Z) : Z :=
  if too_new (c_sb c) ack || SEQ_LEQ ack (una (c_sb c)) then c_una c else c_una c + u32 (ack - una (c_sb c)).
Definition rep_after (c : conn) (opt : option (list (Z * Z))) (ack : Z) (x : Z) : Prop :=
  c_rep c x \/ x < una_after c ack \/
  (too_new (c_sb c) ack = false /\ c_una c <= x < c_max c /\ exists l b, opt = Some l /\ In b l /\ in_range (fst b) (snd b) x).
(* what the input path makes of 32-bit fields *)
Definition word (x : Z) : Prop := 0 <= x < 4294967296.
Definition ev_ok (c : conn) (e : ev) : Prop :=
  match e with
  | EAck _ opt ack => word ack /\ match opt with Some l => (length l <= 4)%nat /\ Forall (fun b => word (fst b) /\ word (snd b)) l | None => True end
  | ESend n => 0 < n /\ c_max c + n - c_una c < 2 ^ 31
  | ERexmit cwin recover mss _ => 0 <= cwin /\ 0 <= mss /\ exists r, recover = wire r /\ c_una c <= r <= c_max c
  | ETimeout => True
  end.
Inductive ev_step (maxh : Z) : conn -> ev -> conn -> Prop :=
| s_ack c av opt ack t : on_ack maxh av (c_sb c) opt ack = Ret t ->
    ev_step maxh c (EAck av opt ack) (mkConn t (una_after c ack) (c_max c) (rep_after c opt ack))
| s_send c n : let t := c_sb c in
    ev_step maxh c (ESend n) (mkConn (mkSb (holes t) (hint t) (numholes t) (rexb t) (fack t) (una t) (u32 (smax t + n)) (nid t)) (c_una c) (c_max c + n) (c_rep c))
| s_rexmit c cwin recover mss sent t r : retransmit (c_sb c) cwin recover mss sent = Ret (t, r) ->
    ev_step maxh c (ERexmit cwin recover mss sent) (mkConn t (c_una c) (c_max c) (c_rep c))
| s_timeout c : ev_step maxh c ETimeout (mkConn (free_holes (c_sb c)) (c_una c) (c_max c) (c_rep c)).
(* a new connection: nothing outstanding from position x on *)
Definition conn0 (x : Z) (f : Z) : conn := mkConn (mkSb [] None 0 0 f (wire x) (wire x) 0) x x (fun y => y < x).
Inductive life (maxh : Z) : conn -> Prop :=
| life0 x f : life maxh (conn0 x f)
| lifeS c e c' : life maxh c -> ev_ok c e -> ev_step maxh c e c' -> life maxh c'.
(* a connection still alive needs its next event to return *)
Definition ev_returns (maxh : Z) (c : conn) (e : ev) : Prop := exists c', ev_step maxh c e c'.

(* ---- receiver ---- *)
(* segments received above rcv_nxt, newest first, as true positions; what a report may contain *)
Definition got (segs : list (Z * Z)) (x : Z) : Prop := exists s, In s segs /\ fst s <= x < snd s.
(* the receiver: next byte expected, the list it keeps, segments accepted so far. A segment
   that leaves a gap, or fills one, updates the list; when nothing is left out of order the
   list is dropped. n': the next byte expected after the segment, never inside it *)
Definition seg_ok (n n' s e : Z) : Prop := n <= s /\ s < e /\ e <= n + 2 ^ 30 /\ n <= n' <= n + 2 ^ 30 /\ (n' < s \/ e <= n').
Inductive rlife : Z -> list (Z * Z) -> list (Z * Z) -> Prop :=
| r_new n : rlife n [] []
| r_seg n l segs n' s e l' : rlife n l segs -> seg_ok n n' s e -> update_list (wire n') l (wire s) (wire e) = Ret l' -> rlife n' l' ((s, e) :: segs)
| r_clean n l segs n' : rlife n l segs -> n <= n' -> rlife n' [] segs.
Definition reported (l : list (Z * Z)) (x : Z) : Prop := exists b, In b l /\ in_range (fst b) (snd b) x.
(* a block of the option that the sender may use: it lies above everything acknowledged and
   below the highest byte sent *)
Definition accepted (c : conn) (opt : option (list (Z * Z))) (ack : Z) (s e : Z) : Prop :=
  una_after c ack < s /\ s < e /\ e <= c_max c /\ exists l, opt = Some l /\ In (wire s, wire e) l.
