(* Model of the TCP round-trip estimator and of the retransmission, persist and
   keepalive timers: tcp_xmit_timer (src/ofp_tcp_input.c:3245-3319),
   ofp_tcp_timer_rexmt, _persist and _keep (src/ofp_tcp_timer.c:259-560),
   ofp_tcp_setpersist (src/ofp_tcp_output.c:1387-1404), the idle part of
   tcp_do_segment (src/ofp_tcp_input.c:1386-1396).  One tick is 10 ms, hz is
   100 (include/ofpi_timer.h).  int overflow is UB.  What else the handlers do
   (sending, congestion recovery flags, dropping) is in other models. *)
From Verif Require Import Base.

Definition chk (x : Z) : outcome Z := if (INT_MIN <=? x) && (x <=? INT_MAX) then Ret x else UB.

(* ofp_tcp_rexmit_min, ofp_tcp_rexmit_slop: src/ofp_tcp_subr.c:314-317 (3, 20);
   both can be changed by sysctl *)
Record cfg := mkCfg { c_min : Z; c_slop : Z }.
Definition dflt : cfg := mkCfg 3 20.

(* include/ofpi_tcp_timer.h:121 TCPTV_REXMTMAX, :87-88 TCPTV_PERSMIN, PERSMAX,
   :126 TCP_MAXRXTSHIFT *)
Definition REXMTMAX : Z := 6400.
Definition PERSMIN : Z := 500.
Definition PERSMAX : Z := 6000.
Definition MAXSHIFT : Z := 12.

(* src/ofp_tcp_timer.c:138-142 *)
Definition syn_backoff : list Z := [1; 1; 1; 1; 1; 2; 4; 8; 16; 32; 64; 64; 64].
Definition backoff : list Z := [1; 2; 4; 8; 16; 32; 64; 128; 256; 512; 512; 512; 512].
Definition nthz (l : list Z) (i : Z) : outcome Z :=
  if (0 <=? i) && (i <? Z.of_nat (length l)) then Ret (nth (Z.to_nat i) l 0) else UB.

(* the fields of struct tcpcb *)
Record rt := mkRt { srtt : Z; rttvar : Z; rttmin : Z; rttbest : Z; rxtcur : Z; rxtshift : Z }.

(* src/ofp_tcp_subr.c:782-785 *)
Definition rt0 (c : cfg) : rt := mkRt 0 1200 (c_min c) 0 300 0.

(* TCP_REXMTVAL: include/ofpi_tcp_var.h:376-378; max is on unsigned int
   (include/ofpi_systm.h:79) *)
Definition rexmtval (t : rt) : Z :=
  Z.max (u32 (rttmin t)) (u32 (Z.shiftr (Z.shiftr (srtt t) 3 + rttvar t) 2)).

(* TCPT_RANGESET: include/ofpi_tcp_timer.h:139-145; [sum] is value + slop as
   converted to the int tv; tvmin and tvmax are not negative *)
Definition rangeset (sum tvmin tvmax : Z) : Z :=
  let tv := if u64 sum <? tvmin then tvmin else sum in
  if tvmax <? u64 tv then tvmax else tv.

(* the two branches of tcp_xmit_timer (src/ofp_tcp_input.c:3252-3303): new srtt,
   rttvar, rttbest *)
Definition smooth (rtt : Z) (t : rt) : outcome (Z * Z * Z) :=
  if negb (srtt t =? 0) then
    obind (chk (Z.shiftl (rtt - 1) 2 - Z.shiftr (srtt t) 3)) (fun delta =>
    obind (chk (srtt t + delta)) (fun s =>
    let s := if s <=? 0 then 1 else s in
    let delta := if delta <? 0 then - delta else delta in
    let delta := delta - Z.shiftr (rttvar t) 2 in
    obind (chk (rttvar t + delta)) (fun v =>
    let v := if v <=? 0 then 1 else v in
    obind (chk (s + v)) (fun sv =>
    Ret (s, v, if sv <? s32 (rttbest t) then sv else rttbest t)))))
  else
    obind (chk (Z.shiftl rtt 5)) (fun s =>
    obind (chk (Z.shiftl rtt 3)) (fun v =>
    obind (chk (s + v)) (fun sv => Ret (s, v, sv)))).

(* tcp_xmit_timer *)
Definition xmit_timer (c : cfg) (rtt : Z) (t : rt) : outcome rt :=
  obind (smooth rtt t) (fun '(s, v, b) =>
  let t := mkRt s v (rttmin t) b (rxtcur t) 0 in
  Ret (mkRt s v (rttmin t) b
    (rangeset (s32 (rexmtval t + c_slop c)) (Z.max (u32 (rttmin t)) (u32 (rtt + 2))) REXMTMAX) 0)).

(* ofp_tcp_timer_rexmt, lines 459-534; None when the connection is dropped *)
Definition rexmt (c : cfg) (syn : bool) (t : rt) : outcome (option rt) :=
  if MAXSHIFT <? rxtshift t + 1 then Ret None
  else
    let n := rxtshift t + 1 in
    obind (nthz (if syn then syn_backoff else backoff) n) (fun b =>
    let v := s32 (rexmtval t * b) in
    obind (chk (v + c_slop c)) (fun sum =>
    let cur := rangeset sum (u32 (rttmin t)) REXMTMAX in
    Ret (Some (if MAXSHIFT / 4 <? n
               then mkRt 0 (rttvar t + Z.shiftr (srtt t) 5) (rttmin t) (rttbest t) cur n
               else mkRt (srtt t) (rttvar t) (rttmin t) (rttbest t) cur n)))).

(* ofp_tcp_setpersist; returns the interval the persist timer is set to *)
Definition setpersist (c : cfg) (t : rt) : outcome (rt * Z) :=
  let x := Z.shiftr (Z.shiftr (srtt t) 2 + rttvar t) 1 in
  obind (nthz backoff (rxtshift t)) (fun b =>
  obind (chk (x * b)) (fun v =>
  obind (chk (v + c_slop c)) (fun sum =>
  Ret (mkRt (srtt t) (rttvar t) (rttmin t) (rttbest t) (rxtcur t)
         (if rxtshift t <? MAXSHIFT then rxtshift t + 1 else rxtshift t),
       rangeset sum PERSMIN PERSMAX)))).

(* ofp_tcp_timer_persist, lines 390-407: idle is ticks - t_rcvtime; None when
   the connection is dropped.  ofp_tcp_maxpersistidle is TCPTV_KEEP_IDLE
   (720000), tcp_totbackoff 2559 *)
Definition persist (c : cfg) (idle : Z) (t : rt) : outcome (option (rt * Z)) :=
  if (rxtshift t =? MAXSHIFT) && ((720000 <=? s32 idle) || (u32 (rexmtval t * 2559) <=? u32 idle))
  then Ret None
  else obind (setpersist c t) (fun r => Ret (Some r)).

(* what happens to a connection: an acknowledgement that measures a round trip
   (or a SYN|ACK), an expired retransmission timer, an expired persist timer,
   entering the persist state, and output making rxtshift 0 again
   (src/ofp_tcp_output.c:318, 405, 660, 1175) *)
Inductive ev := Sample (rtt : Z) | Rexmt (syn : bool) | Persist (idle : Z) | EnterPersist | Fresh.

(* what one event shows: the interval the timer is set to, or the end *)
Inductive shows := Interval (z : Z) | Nothing | Gone.

Definition step (c : cfg) (e : ev) (t : rt) : outcome (option rt * shows) :=
  match e with
  | Sample r => obind (xmit_timer c r t) (fun t => Ret (Some t, Interval (rxtcur t)))
  | Rexmt syn => obind (rexmt c syn t) (fun o => Ret (o, match o with Some t => Interval (rxtcur t) | None => Gone end))
  | Persist i => obind (persist c i t) (fun o => Ret (match o with Some (t, z) => (Some t, Interval z) | None => (None, Gone) end))
  | EnterPersist => obind (setpersist c (mkRt (srtt t) (rttvar t) (rttmin t) (rttbest t) (rxtcur t) 0)) (fun '(t, z) => Ret (Some t, Interval z))
  | Fresh => Ret (Some (mkRt (srtt t) (rttvar t) (rttmin t) (rttbest t) (rxtcur t) 0), Nothing)
  end.

(* a history; it stops when the connection is gone *)
Fixpoint run (c : cfg) (l : list ev) (t : rt) : outcome (option rt * list shows) :=
  match l with
  | [] => Ret (Some t, [])
  | e :: l =>
    obind (step c e t) (fun '(o, s) =>
    match o with
    | None => Ret (None, [s])
    | Some t => obind (run c l t) (fun '(o, ss) => Ret (o, s :: ss))
    end)
  end.

(* ---- keepalive of an established connection ---- *)

(* TP_KEEPIDLE, TP_KEEPINTVL, TP_KEEPCNT in ticks: include/ofpi_tcp_timer.h:160-164 *)
Record kcfg := mkK { k_idle : Z; k_intvl : Z; k_cnt : Z }.
(* t_rcvtime and when the keepalive timer is due *)
Record kst := mkKs { k_rcv : Z; k_due : Z }.

(* ofp_tcp_timer_activate with TT_KEEP: src/ofp_tcp_timer.c:617-618, 632-635 *)
Definition keep_activate (now delta : Z) : Z := now + (if 6000 <? delta then 6000 else delta).

(* a segment arrives: src/ofp_tcp_input.c:1386-1396 *)
Definition keep_recv (c : kcfg) (now : Z) (s : kst) : kst :=
  if s32 (u32 (k_rcv s + Z.min 100 (k_idle c / 10))) <? now
  then mkKs now (keep_activate now (k_idle c)) else s.

(* ofp_tcp_timer_keep for TCPS_ESTABLISHED .. TCPS_CLOSING with keepalive on
   (always_keepalive is 1): lines 296-327; None: dropped, else a probe is sent *)
Definition keep_fire (c : kcfg) (now : Z) (s : kst) : option kst :=
  if k_idle c + k_cnt c * k_intvl c <=? s32 (u32 (now - k_rcv s)) then None
  else Some (mkKs (k_rcv s) (now + k_intvl c)).

Inductive kev := KRecv (now : Z) | KFire (now : Z).
Inductive kout := Quiet | Probe (now : Z) | Drop (now : Z).
Definition kstep (c : kcfg) (e : kev) (s : kst) : option kst * kout :=
  match e with
  | KRecv now => (Some (keep_recv c now s), Quiet)
  | KFire now => match keep_fire c now s with Some s => (Some s, Probe now) | None => (None, Drop now) end
  end.
Fixpoint krun (c : kcfg) (l : list kev) (s : kst) : option kst * list kout :=
  match l with
  | [] => (Some s, [])
  | e :: l => let '(o, x) := kstep c e s in
    match o with None => (None, [x]) | Some s => let '(o, xs) := krun c l s in (o, x :: xs) end
  end.
