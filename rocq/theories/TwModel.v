(* Model of TIME_WAIT: src/ofp_tcp_timewait.c (ofp_tcp_twstart, ofp_tcp_twcheck,
   ofp_tcp_twclose, ofp_tcp_twrespond, tcp_tw_2msl_reset, ofp_tcp_tw_2msl_scan),
   ofp_tcp_slowtimo (src/ofp_tcp_timer.c:121-136), and what closing the socket
   does meanwhile: tcp_usr_close (src/ofp_tcp_usrreq.c:974-1007), tcp_detach
   (:161-216), ofp_soclose and ofp_sofree (src/ofp_uipc_socket.c).
   Everything runs under the tcbinfo write lock, so steps are atomic.  IPv4,
   without OFP_RSS.  A connection is named by an integer.  int overflow is UB;
   freeing twice and using what is freed is UB. *)
From Verif Require Import Base.

Definition TH_FIN : Z := 1.
Definition TH_SYN : Z := 2.
Definition TH_RST : Z := 4.
Definition TH_ACK : Z := 16.
Definition has (fl bit : Z) : bool := negb (Z.land fl bit =? 0).

(* SEQ_GT: include/ofpi_tcp_seq.h *)
Definition seq_gt (a b : Z) : bool := 0 <? s32 (a - b).

(* struct tcptw: include/ofpi_tcp_var.h:325-339; tw_so_options, iss, irs,
   t_starttime are not used by the functions modelled *)
Record tw := mkTw { w_id : Z; w_snd : Z; w_rcv : Z; w_win : Z; w_recent : Z; w_off : Z; w_time : Z }.

(* the parts of struct tcpcb that ofp_tcp_twstart reads *)
Record tcb := mkTcb { c_snd : Z; c_rcv : Z; c_adv : Z; c_scale : Z; c_ts : bool; c_recent : Z; c_off : Z; c_acknow : bool }.

(* a protocol control block and its socket.  p_so: inp_socket is set; p_ref:
   INP_SOCKREF; p_fd: the application holds the descriptor (SS_NOFDREF clear,
   so_count 1); p_proto: SS_PROTOREF; p_tw: inp_ppcb set; p_drop: INP_DROPPED
   (and out of the hash lists) *)
Record pcb := mkP { p_so : bool; p_ref : bool; p_fd : bool; p_proto : bool; p_tw : bool; p_drop : bool;
  p_freed : bool; p_sofreed : bool }.

(* now: ticks (ofp_timer_ticks); msl: ofp_tcp_msl; free: free entries of
   V_tcptw_zone; q: V_twq_2msl *)
Record st := mkS { now : Z; msl : Z; free : nat; q : list tw; pcbs : list (Z * pcb) }.

Fixpoint getp (i : Z) (l : list (Z * pcb)) : option pcb :=
  match l with [] => None | (j, p) :: l => if i =? j then Some p else getp i l end.
Fixpoint setp (i : Z) (p : pcb) (l : list (Z * pcb)) : list (Z * pcb) :=
  match l with [] => [(i, p)] | (j, r) :: l => if i =? j then (i, p) :: l else (j, r) :: setp i p l end.

(* ofp_in_pcbfree and sodealloc *)
Definition pcbfree (p : pcb) : outcome pcb :=
  if p_freed p then UB else Ret (mkP (p_so p) (p_ref p) (p_fd p) (p_proto p) (p_tw p) (p_drop p) true (p_sofreed p)).
(* tcp_detach when INP_TIMEWAIT is set; ofp_in_pcbdetach clears inp_socket *)
Definition detach (p : pcb) : outcome pcb :=
  if p_freed p || negb (p_so p) then UB else
  let p := mkP false (p_ref p) (p_fd p) (p_proto p) (p_tw p) (p_drop p) (p_freed p) (p_sofreed p) in
  if p_drop p then (if p_tw p then UB else pcbfree p) else Ret p.
(* ofp_sofree: src/ofp_uipc_socket.c:672-690, sofree_dispose *)
Definition sofree (p : pcb) : outcome pcb :=
  if p_sofreed p then UB
  else if p_fd p || p_proto p then Ret p
  else obind (detach p) (fun p => Ret (mkP (p_so p) (p_ref p) (p_fd p) (p_proto p) (p_tw p) (p_drop p) (p_freed p) true)).

(* releasing the protocol's reference: lines 265-277 and 395-404 *)
Definition unref (p : pcb) : outcome pcb :=
  sofree (mkP (p_so p) false (p_fd p) false (p_tw p) (p_drop p) (p_freed p) (p_sofreed p)).

(* ofp_soclose from its label drop on: tcp_usr_close and ofp_sofree *)
Definition soclose (p : pcb) : outcome pcb :=
  if p_sofreed p || negb (p_fd p) || p_freed p || negb (p_so p) then UB else
  let p := if p_drop p then p else mkP (p_so p) true (p_fd p) true (p_tw p) (p_drop p) (p_freed p) (p_sofreed p) in
  sofree (mkP (p_so p) (p_ref p) false (p_proto p) (p_tw p) (p_drop p) (p_freed p) (p_sofreed p)).

(* ofp_tcp_twclose, the part that concerns the pcb: lines 366-414 *)
Definition twclose_pcb (p : pcb) : outcome pcb :=
  if p_freed p || negb (p_tw p) then UB else
  let p := mkP (p_so p) (p_ref p) (p_fd p) (p_proto p) false true (p_freed p) (p_sofreed p) in
  if p_so p then (if p_ref p then unref p else Ret p) else pcbfree p.

Definition q_remove (i : Z) (l : list tw) : list tw := filter (fun w => negb (w_id w =? i)) l.

(* ofp_tcp_twclose; with reuse the entry does not go back to the zone *)
Definition twclose (i : Z) (reuse : bool) (s : st) : outcome st :=
  match getp i (pcbs s) with
  | None => UB
  | Some p => obind (twclose_pcb p) (fun p =>
      Ret (mkS (now s) (msl s) (if reuse then free s else S (free s)) (q_remove i (q s)) (setp i p (pcbs s))))
  end.

(* what can be seen *)
Inductive why := Expired | Superseded | Recycled.
Inductive out :=
| Reply (i seq ack win : Z) (ts : option (Z * Z))   (* the ACK of ofp_tcp_twrespond *)
| Ended (i : Z) (w : why)                            (* out of TIME_WAIT *)
| Closed (i : Z)                                     (* never got in *)
| NotFound (i : Z).                                  (* the segment meets no TIME_WAIT *)

(* ofp_tcp_twrespond with OFP_TH_ACK: lines 426-526; tcp_ts_getticks *)
Definition twrespond (s : st) (w : tw) : out :=
  Reply (w_id w) (w_snd w) (w_rcv w) (w_win w)
    (if w_recent w =? 0 then None else Some (u32 (u32 (now s * 10) + w_off w), w_recent w)).

Definition chk (x : Z) : outcome Z := if (INT_MIN <=? x) && (x <=? INT_MAX) then Ret x else UB.

(* tcp_tw_2msl_reset: lines 530-540; rearm removes the entry first *)
Definition reset2msl (w : tw) (s : st) : outcome st :=
  obind (chk (2 * msl s)) (fun d => obind (chk (now s + d)) (fun t =>
  Ret (mkS (now s) (msl s) (free s)
    (q_remove (w_id w) (q s) ++ [mkTw (w_id w) (w_snd w) (w_rcv w) (w_win w) (w_recent w) (w_off w) t]) (pcbs s)))).

(* ofp_tcp_twstart: lines 166-279.  [fd]: the application has not closed the
   socket; otherwise tcp_usr_close has set INP_SOCKREF and SS_PROTOREF *)
Definition live (fd : bool) : pcb := mkP true (negb fd) fd (negb fd) false false false false.
Definition mk_tw (i : Z) (c : tcb) : tw :=
  mkTw i (c_snd c) (c_rcv c)
    (if seq_gt (c_adv c) (c_rcv c) then u16 (Z.shiftr (u32 (c_adv c - c_rcv c)) (c_scale c)) else 0)
    (if c_ts c then c_recent c else 0) (if c_ts c then c_off c else 0) 0.
Definition twstart_with (i : Z) (fd : bool) (c : tcb) (s : st) : outcome (st * list out) :=
  let w := mk_tw i c in
  let p := live fd in
  obind (reset2msl w (mkS (now s) (msl s) (free s) (q s)
           (setp i (mkP (p_so p) (p_ref p) (p_fd p) (p_proto p) true (p_drop p) (p_freed p) (p_sofreed p)) (pcbs s)))) (fun s =>
  match getp i (pcbs s) with
  | None => UB
  | Some p => obind (if p_ref p then unref p else Ret p) (fun p =>
      Ret (mkS (now s) (msl s) (free s) (q s) (setp i p (pcbs s)), if c_acknow c then [twrespond s w] else []))
  end).
Definition twstart (i : Z) (fd : bool) (c : tcb) (s : st) : outcome (st * list out) :=
  match free s with
  | S n => twstart_with i fd c (mkS (now s) (msl s) n (q s) (pcbs s))
  | O => match q s with
      | w :: _ => obind (twclose (w_id w) true s) (fun s =>
          obind (twstart_with i fd c s) (fun '(s, o) => Ret (s, Ended (w_id w) Recycled :: o)))
      | [] => Ret (s, [Closed i])
      end
  end.

(* a segment for the connection: flags, sequence and acknowledgement number
   (host order), length of its data *)
Record seg := mkSeg { g_fl : Z; g_seq : Z; g_ack : Z; g_len : Z }.

Fixpoint q_find (i : Z) (l : list tw) : option tw :=
  match l with [] => None | w :: l => if w_id w =? i then Some w else q_find i l end.

(* ofp_tcp_twcheck: lines 286-363; when it returns 1 the segment looks for a
   listener, which is another model *)
Definition twcheck (w : tw) (g : seg) (s : st) : outcome (st * list out) :=
  if has (g_fl g) TH_RST then Ret (s, [])
  else if has (g_fl g) TH_SYN && seq_gt (g_seq g) (w_rcv w) then
    obind (twclose (w_id w) false s) (fun s => Ret (s, [Ended (w_id w) Superseded]))
  else if negb (has (g_fl g) TH_ACK) then Ret (s, [])
  else
    obind (if has (g_fl g) TH_FIN &&
              (u32 (u32 (g_seq g + g_len g + (if has (g_fl g) TH_SYN then 1 else 0)) + 1) =? w_rcv w)
           then reset2msl w s else Ret s) (fun s =>
    Ret (s, if negb (g_fl g =? TH_ACK) || (g_len g =? 0) || negb (g_seq g =? w_rcv w) || negb (g_ack g =? w_snd w)
            then [twrespond s w] else [])).

(* ofp_tcp_tw_2msl_scan(0): lines 548-563; the loop ends with the queue, so its
   length is fuel enough *)
Fixpoint scan (fuel : nat) (s : st) : outcome (st * list out) :=
  match q s with
  | [] => Ret (s, [])
  | w :: _ =>
    obind (chk (w_time w - now s)) (fun d =>
    if 0 <? d then Ret (s, [])
    else match fuel with
      | O => Diverge
      | S n => obind (twclose (w_id w) false s) (fun s =>
               obind (scan n s) (fun '(s, o) => Ret (s, Ended (w_id w) Expired :: o)))
      end)
  end.

(* events: a connection enters TIME_WAIT, a segment arrives for it, the slow
   timeout, the application closes, time passes, the sysctl net.inet.tcp.msl *)
Inductive ev := Start (i : Z) (fd : bool) (c : tcb) | Segm (i : Z) (g : seg) | Scan | Close (i : Z) | Tick (d : Z) | SetMsl (m : Z).

Definition step (e : ev) (s : st) : outcome (st * list out) :=
  match e with
  | Start i fd c => twstart i fd c s
  | Segm i g => match q_find i (q s) with Some w => twcheck w g s | None => Ret (s, [NotFound i]) end
  | Scan => scan (length (q s)) s
  | Close i => match getp i (pcbs s) with
      | None => UB
      | Some p => obind (soclose p) (fun p => Ret (mkS (now s) (msl s) (free s) (q s) (setp i p (pcbs s)), []))
      end
  | Tick d => Ret (mkS (now s + d) (msl s) (free s) (q s) (pcbs s), [])
  | SetMsl m => Ret (mkS (now s) m (free s) (q s) (pcbs s), [])
  end.

Fixpoint run (l : list ev) (s : st) : outcome (st * list (list out)) :=
  match l with
  | [] => Ret (s, [])
  | e :: l => obind (step e s) (fun '(s, o) => obind (run l s) (fun '(s, os) => Ret (s, o :: os)))
  end.

Definition init (n : nat) (m t : Z) : st := mkS t m n [] [].
