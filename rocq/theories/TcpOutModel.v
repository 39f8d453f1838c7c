(* TCP output: ofp_tcp_output and ofp_tcp_setpersist, src/ofp_tcp_output.c:152-1403. One call is a
   sequence of passes over the code from "again:" to the end; each pass makes at most one segment.
   Left out: segmentation offload (no interface of OFP sets if_hwassist), the change of the congestion window after an
   idle time (195-196: the window may have any value before a call anyway), ECN, TCP-MD5, round trip
   timing, statistics, locking (the PCB lock is held), the IP header; timers other than TT_REXMT and
   TT_PERSIST. The control block is the record of TcpInModel and the fields added here; the scoreboard is
   SackModel's, the options are built by TcpOptModel.addoptions, the payload is copied by SockModel.copy_out. *)
From Verif Require Import Base TcpSeqModel TcpOptModel TcpReassModel TcpInModel SockModel SackModel.

(* more fields of struct tcpcb, include/ofpi_tcp_var.h:94-260, and the send buffer *)
Record oext := mkOx {
  cwnd : Z (* snd_cwnd *);
  sup : Z (* snd_up *);
  newdata : Z (* sack_newdata *);
  maxopd : Z (* t_maxopd *);
  maxseg : Z (* t_maxseg *);
  rxtshift : Z (* t_rxtshift *);
  board : sb (* the scoreboard (its own copies of snd_una and snd_max are not used) *);
  sndb : sbuf (* so_snd *);
  lastidle : bool (* TF_LASTIDLE *);
  morecome : bool (* TF_MORETOCOME *);
  nodelay : bool (* TF_NODELAY *);
  noopt : bool (* TF_NOOPT *);
  nopush : bool (* TF_NOPUSH *);
  reqts : bool (* TF_REQ_TSTMP *);
  force : bool (* TF_FORCEDATA *);
  sentfin : bool (* TF_SENTFIN *);
  wndupd : bool (* TF_WND_UPDATES *);
  sblks : list (Z * Z) (* sackblks[0..rcv_numsacks) *);
  tsoff : Z (* ts_offset *) }.
Definition set_sup (v : Z) (x : oext) : oext := mkOx (cwnd x) v (newdata x) (maxopd x) (maxseg x) (rxtshift x) (board x) (sndb x) (lastidle x) (morecome x) (nodelay x) (noopt x) (nopush x) (reqts x) (force x) (sentfin x) (wndupd x) (sblks x) (tsoff x).
Definition set_rxtshift (v : Z) (x : oext) : oext := mkOx (cwnd x) (sup x) (newdata x) (maxopd x) (maxseg x) v (board x) (sndb x) (lastidle x) (morecome x) (nodelay x) (noopt x) (nopush x) (reqts x) (force x) (sentfin x) (wndupd x) (sblks x) (tsoff x).
Definition set_board (v : sb) (x : oext) : oext := mkOx (cwnd x) (sup x) (newdata x) (maxopd x) (maxseg x) (rxtshift x) v (sndb x) (lastidle x) (morecome x) (nodelay x) (noopt x) (nopush x) (reqts x) (force x) (sentfin x) (wndupd x) (sblks x) (tsoff x).
Definition set_lastidle (v : bool) (x : oext) : oext := mkOx (cwnd x) (sup x) (newdata x) (maxopd x) (maxseg x) (rxtshift x) (board x) (sndb x) v (morecome x) (nodelay x) (noopt x) (nopush x) (reqts x) (force x) (sentfin x) (wndupd x) (sblks x) (tsoff x).
Definition set_sentfin (v : bool) (x : oext) : oext := mkOx (cwnd x) (sup x) (newdata x) (maxopd x) (maxseg x) (rxtshift x) (board x) (sndb x) (lastidle x) (morecome x) (nodelay x) (noopt x) (nopush x) (reqts x) (force x) v (wndupd x) (sblks x) (tsoff x).
Definition set_wndupd (v : bool) (x : oext) : oext := mkOx (cwnd x) (sup x) (newdata x) (maxopd x) (maxseg x) (rxtshift x) (board x) (sndb x) (lastidle x) (morecome x) (nodelay x) (noopt x) (nopush x) (reqts x) (force x) (sentfin x) v (sblks x) (tsoff x).

Record ost := mkOst { tp : tcp; ox : oext }.

(* what became of the segment of a pass: no packet to build it in (ofp_socket_packet_alloc), accepted by
   ofp_ip_output, refused by it (OFP_PKT_CONTINUE or OFP_PKT_DROP; OFP_EPERM, which 1299 treats apart, has the
   same value as OFP_PKT_PROCESSED, so it never comes there) *)
Inductive pres := PNoMem | PSent | PFail.
(* what a call depends on besides the control block *)
Record oenv := mkOenv {
  w_space : Z;  (* sbspace(&so->so_rcv), never negative: include/ofpi_sockbuf.h:215-219 *)
  w_hiwat : Z;  (* so_rcv.sb_hiwat *)
  w_now : Z;    (* tcp_ts_getticks() *)
  w_mss : Z;    (* ofp_tcp_mssopt() *)
  w_ipopt : Z;  (* ipoptlen *)
  w_res : nat -> pres  (* by pass *) }.
(* a segment: what the peer sees, and the maximum segment data the options left *)
Record oseg := mkOseg {
  q_seq : Z; q_ack : Z; q_win : Z; q_syn : bool; q_fin : bool; q_rst : bool; q_fack : bool; q_push : bool;
  q_urp : option Z; q_opts : list Z; q_data : list Z }.

(* include/ofpi_tcp_fsm.h:97-109 tcp_outflags: SYN, FIN, RST, ACK *)
Definition out_syn (s : Z) : bool := (s =? SYN_SENT) || (s =? SYN_RECEIVED).
Definition out_fin (s : Z) : bool := (s =? FIN_WAIT_1) || (s =? CLOSING) || (s =? LAST_ACK).
Definition out_rst (s : Z) : bool := s =? CLOSED.
Definition out_ack (s : Z) : bool := (s =? CLOSED) || (s >=? SYN_RECEIVED).

(* the scoreboard together with snd_una and snd_max *)
Definition sync (t : tcp) (b : sb) : sb := mkSb (holes b) (hint b) (numholes b) (rexb b) (fack b) (snd_una t) (snd_max t) (nid b).
(* 1384-1403 ofp_tcp_setpersist; the panic *)
Definition setpersist (s : ost) : outcome ost :=
  if rexmt (tp s) then UB
  else Ret (mkOst (set_persist true (tp s)) (set_rxtshift (if rxtshift (ox s) <? 12 then rxtshift (ox s) + 1 else rxtshift (ox s)) (ox s))).

(* 200-205: snd_nxt skips what the peer has *)
Definition skip_sacked (t : tcp) (x : oext) : tcp :=
  if sackp t && SEQ_LT (snd_nxt t) (snd_max t) then set_snd_nxt (adjust (sync t (board x)) (snd_nxt t)) t else t.
(* what a pass is about: offset into the send buffer, length, SYN and FIN, the hole if it retransmits from the scoreboard *)
Record plan := mkPlan { l_off : Z; l_len : Z; l_syn : bool; l_fin : bool; l_hole : option hole }.
(* 209-276: retransmission from the scoreboard; result: scoreboard, offset, length, sack_rxmit, sack_bytes_rxmt *)
Definition sack_part (t : tcp) (x : oext) (off0 : Z) : outcome (sb * Z * Z * option hole * Z) :=
  if sackp t && frec t then
    obind (sack_output (sync t (board x))) (fun '(b, p) =>
    match p with
    | None => Ret (b, off0, 0, None, rexb b)
    | Some p =>
      let cwin := Z.max 0 (Z.min (snd_wnd t) (cwnd x) - rexb b) in
      if SEQ_GT (he p) (snd_recover t) && SEQ_GEQ (hr p) (snd_recover t) then Ret (b, off0, 0, None, rexb b)
      else
        let len := Z.min cwin (u32 ((if SEQ_GT (he p) (snd_recover t) then snd_recover t else he p) - hr p)) in
        Ret (b, s32 (u32 (hr p - snd_una t)), len, if 0 <? len then Some p else None, rexb b)
    end)
  else Ret (sync t (board x), off0, 0, None, 0).
(* 293-320: a forced send into a closed window is one byte, without FIN if there is data *)
Definition force_part (s : ost) (off sendwin : Z) (fin : bool) : ost * Z * bool :=
  if force (ox s) then
    if sendwin =? 0 then (s, 1, fin && negb (off <? snd_cc (tp s)))
    else (mkOst (set_persist false (tp s)) (set_rxtshift 0 (ox s)), sendwin, fin)
  else (s, sendwin, fin).
(* 338-371: how much may be sent *)
Definition len_part (t : tcp) (x : oext) (p : option hole) (len off sendwin sackb : Z) : Z :=
  match p with
  | Some _ => len
  | None =>
    if sackb =? 0 then Z.min (snd_cc t) sendwin - off
    else
      let len := Z.min (snd_cc t) (snd_wnd t) - off in
      if 0 <? len then Z.min len (Z.max 0 (cwnd x - u32 (snd_nxt t - newdata x) - sackb)) else len
  end.
(* 200-481: the plan of a pass *)
Definition make_plan (s : ost) : outcome (ost * plan) :=
  let t := skip_sacked (tp s) (ox s) in
  let x := ox s in
  obind (sack_part t x (s32 (u32 (snd_nxt t - snd_una t)))) (fun '(b, off, len, p, sackb) =>
  let fin := out_fin (t_state t) || needfin t in
  let syn := out_syn (t_state t) || needsyn t in
  let '(s, sendwin, fin) := force_part (mkOst t (set_board b x)) off (Z.min (snd_wnd t) (cwnd x)) fin in
  let t := tp s in
  let len := len_part t (ox s) p len off sendwin sackb in
  (* 378-393 *)
  let sent := syn && SEQ_GT (snd_nxt t) (snd_una t) in
  let off := if sent then off - 1 else off in
  let len := if sent then len + 1 else len in
  let syn := syn && (negb sent || (t_state t =? SYN_RECEIVED)) in
  let len := if syn && noopt (ox s) then 0 else len in
  let fin := fin && negb (syn && noopt (ox s)) in
  (* 395-414 *)
  obind (if len <? 0 then
           if sendwin =? 0 then
             let s := mkOst (set_snd_nxt (snd_una t) (set_rexmt false t)) (set_rxtshift 0 (ox s)) in
             if persist t then Ret (s, 0) else obind (setpersist s) (fun s => Ret (s, 0))
           else Ret (s, 0)
         else Ret (s, len)) (fun '(s, len) =>
  (* 482-488 *)
  let from := match p with Some h => hr h | None => snd_nxt (tp s) end in
  let fin := fin && negb (SEQ_LT (u32 (from + len)) (u32 (snd_una (tp s) + snd_cc (tp s)))) in
  Ret (s, mkPlan off len syn fin p))).

(* 503-528: reasons to send data now *)
Definition data_now (idle : bool) (s : ost) (l : plan) : bool :=
  let t := tp s in let x := ox s in
  negb (l_len l =? 0) &&
  ((maxseg x <=? l_len l) ||
   (negb (morecome x) && (idle || nodelay x) && (snd_cc t <=? l_len l + l_off l) && negb (nopush x)) ||
   force x ||
   ((s32 (u32 (max_sndwnd t / 2)) <=? l_len l) && (0 <? max_sndwnd t)) ||
   SEQ_LT (snd_nxt t) (snd_max t) ||
   match l_hole l with Some _ => true | None => false end).
(* 530-534 *)
Definition see_data (s : ost) : ost :=
  if negb (wndupd (ox s)) && negb (rnxt (tp s) =? u32 (irs (tp s) + 1)) then mkOst (tp s) (set_wndupd true (ox s)) else s.
(* 566-601: a window update is due *)
Definition MAXWIN_of (t : tcp) : Z := MAXWIN * 2 ^ rcv_scale t.
Definition update_due (w : oenv) (s : ost) : bool :=
  let t := tp s in
  if (0 <? w_space w) && negb (needsyn t) && negb (delack t) && wndupd (ox s) && negb (HAVERCVDFIN (t_state t)) then
    let oldwin := if SEQ_GT (rcv_adv t) (rnxt t) then s32 (u32 (rcv_adv t - rnxt t)) else 0 in
    let adv := Z.min (w_space w) (MAXWIN_of t) - oldwin in
    if (adv + oldwin) / 2 ^ rcv_scale t <=? oldwin / 2 ^ rcv_scale t then false
    else ((2 * maxseg (ox s) <=? adv) &&
          ((w_hiwat w / 4 <=? adv) || (w_space w <=? w_hiwat w / 8) || (w_hiwat w <=? 8 * maxseg (ox s)))) ||
         (w_hiwat w <=? 2 * adv)
  else false.
(* 607-622: other reasons *)
Definition ctl_now (s : ost) (l : plan) : bool :=
  let t := tp s in
  acknow t || out_rst (t_state t) || (l_syn l && negb (needsyn t)) || SEQ_GT (sup (ox s)) (snd_una t) ||
  (l_fin l && (negb (sentfin (ox s)) || (snd_nxt t =? snd_una t))).
(* 624-676: nothing to send; the timers *)
Definition no_send (s : ost) : outcome ost :=
  let t := tp s in
  if sackp t && SEQ_GT (snd_max t) (snd_una t) && negb (rexmt t) && negb (persist t) then Ret (mkOst (set_rexmt true t) (ox s))
  else if negb (snd_cc t =? 0) && negb (rexmt t) && negb (persist t) then setpersist (mkOst t (set_rxtshift 0 (ox s)))
  else Ret s.

(* 703-748: the options *)
Definition options_of (w : oenv) (s : ost) (syn : bool) : topt :=
  let t := tp s in
  mkOpt (if syn then Some (w_mss w) else None)
        (if syn && req_scale t then Some (req_r_scale t) else None)
        (syn && sackp t)
        (if rcvd_ts t || (syn && reqts (ox s)) then Some (u32 (w_now w + tsoff (ox s)), ts_recent t) else None)
        false
        (if sackp t && negb syn && HAVEESTABLISHED (t_state t) then match sblks (ox s) with [] => None | l => Some l end else None).
(* 1016-1024: the window to offer *)
Definition recwin_of (w : oenv) (s : ost) : Z :=
  let t := tp s in
  let r := w_space w in
  let r := if (r <? w_hiwat w / 4) && (r <? maxseg (ox s)) then 0 else r in
  let r := if SEQ_GT (rcv_adv t) (rnxt t) && (r <? u32 (rcv_adv t - rnxt t)) then u32 (rcv_adv t - rnxt t) else r in
  if MAXWIN_of t <? r then MAXWIN_of t else r.
(* 1363-1369: what has been announced and acknowledged *)
Definition announce (recwin : Z) (s : ost) : ost :=
  let t := tp s in
  let t := if SEQ_GT (u32 (rnxt t + recwin)) (rcv_adv t) then set_rcv_adv (u32 (rnxt t + recwin)) t else t in
  mkOst (set_delack false (set_acknow false (set_last_ack (rnxt t) t))) (ox s).
Definition is_hole (p : option hole) : bool := match p with Some _ => true | None => false end.
(* 1008-1009: the scoreboard records the retransmission; 1301-1302: or takes it back *)
Definition board_add (p : hole) (r n : Z) (b : sb) : sb := mkSb (set_rxmit (hid p) (u32 r) (holes b)) (hint b) (numholes b) (s32 (rexb b + n)) (fack b) (una b) (smax b) (nid b).
(* 1128-1175: transmit state: snd_nxt, snd_max, the retransmission timer *)
Definition advance (len : Z) (syn fin : bool) (p : option hole) (s : ost) : ost :=
  let t := tp s in
  let nxt := u32 (snd_nxt t + (if syn then 1 else 0) + (if fin then 1 else 0)) in
  let x := if fin then set_sentfin true (ox s) else ox s in
  let t := if is_hole p then set_snd_nxt nxt t
           else let nxt := u32 (nxt + len) in
                let t := set_snd_nxt nxt t in
                if SEQ_GT nxt (snd_max t) then set_snd_max nxt t else t in
  if negb (rexmt t) && ((is_hole p && negb (snd_nxt t =? snd_max t)) || negb (snd_nxt t =? snd_una t))
  then mkOst (set_rexmt true (set_persist false t)) (if persist t then set_rxtshift 0 x else x)
  else mkOst t x.
(* 1176-1191: persist state *)
Definition advance_persist (len : Z) (syn fin : bool) (s : ost) : ost :=
  let t := tp s in
  let x := if fin then set_sentfin true (ox s) else ox s in
  let xlen := len + (if syn then 1 else 0) + (if fin then 1 else 0) in
  if SEQ_GT (u32 (snd_nxt t + xlen)) (snd_max t) then mkOst (set_snd_max (u32 (snd_nxt t + len)) t) x else mkOst t x.
(* 1284-1305: the packet was lost *)
Definition back_out (len : Z) (syn : bool) (p : option hole) (s : ost) : ost :=
  if (negb (force (ox s)) || negb (persist (tp s))) && negb syn then
    match p with
    | Some h => mkOst (tp s) (set_board (board_add h (hr h) (- len) (board (ox s))) (ox s))
    | None => mkOst (set_snd_nxt (u32 (snd_nxt (tp s) - len)) (tp s)) (ox s)
    end
  else s.
(* passes enough for the 64 slots of the buffer *)
Definition copy_fuel : nat := 65.
(* 809-885: a packet and the payload; the copy must fill it *)
Definition payload (s : ost) (off len : Z) : outcome (list Z) :=
  if len =? 0 then Ret []
  else if off <? 0 then UB
  else obind (copy_out copy_fuel (sndb (ox s)) off len) (fun d => if zlen d =? len then Ret d else UB).
(* 940-1382: the segment with payload d; n, fin: as the options left them *)
Definition emit (w : oenv) (r : pres) (s : ost) (l : plan) (opts : list Z) (syn fin : bool) (n : Z) (d : list Z) : ost * oseg :=
  let s := if fin && sentfin (ox s) && (snd_nxt (tp s) =? snd_max (tp s)) then mkOst (set_snd_nxt (u32 (snd_nxt (tp s) - 1)) (tp s)) (ox s) else s in
  let t := tp s in
  let seq := match l_hole l with
             | Some h => hr h
             | None => if negb (n =? 0) || syn || fin || persist t then snd_nxt t else snd_max t
             end in
  let x := match l_hole l with Some h => set_board (board_add h (hr h + n) n (board (ox s))) (ox s) | None => ox s end in
  let recwin := recwin_of w s in
  let win := if syn then u16 (Z.min (w_space w) MAXWIN) else u16 (recwin / 2 ^ rcv_scale t) in
  let urg := SEQ_GT (sup x) (snd_nxt t) in
  let q := mkOseg seq (rnxt t) win syn fin (out_rst (t_state t)) (out_ack (t_state t)) (negb (n =? 0) && (l_off l + n =? snd_cc t))
             (if urg then Some (u16 (sup x - snd_nxt t)) else None) opts d in
  let s := mkOst t (if urg then x else set_sup (snd_una t) x) in
  let s := if negb (force (ox s)) || negb (persist (tp s)) then advance n syn fin (l_hole l) s else advance_persist n syn fin s in
  let s := match r with PFail => back_out n syn (l_hole l) s | _ => s end in
  (announce recwin s, q).
(* 678-1382 from "send:" on *)
Definition send (w : oenv) (r : pres) (s : ost) (l : plan) : outcome (ost * option (oseg * pres) * bool) :=
  let syn := l_syn l in
  let opts := if noopt (ox s) then [] else addoptions (options_of w s syn) in
  let s := if negb (noopt (ox s)) && syn then mkOst (set_snd_nxt (iss (tp s)) (tp s)) (ox s) else s in
  let optlen := zlen opts in
  let cut := maxopd (ox s) <? l_len l + optlen + w_ipopt w in
  let fin := l_fin l && negb cut in
  let n := if cut then u32 (maxopd (ox s) - optlen - w_ipopt w) else l_len l in
  let again := cut || is_hole (l_hole l) in
  match r with
  | PNoMem => Ret (announce (w_space w) s, None, again)
  | _ => obind (payload s (l_off l) n) (fun d => let '(s, q) := emit w r s l opts syn fin n d in Ret (s, Some (q, r), again))
  end.

(* one pass *)
Inductive done := Quiet (s : ost) | Made (s : ost) (q : option (oseg * pres)) (again : bool).
Definition pass (w : oenv) (r : pres) (idle : bool) (s : ost) : outcome done :=
  obind (make_plan s) (fun '(s, l) =>
  if data_now idle s l then obind (send w r s l) (fun '(s, q, a) => Ret (Made s q a))
  else
    let s := see_data s in
    if update_due w s || ctl_now s l then obind (send w r s l) (fun '(s, q, a) => Ret (Made s q a))
    else obind (no_send s) (fun s => Ret (Quiet s))).
Fixpoint passes (fuel : nat) (i : nat) (w : oenv) (idle : bool) (s : ost) : outcome (ost * list (oseg * pres)) :=
  match fuel with
  | O => Diverge
  | S fuel =>
    obind (pass w (w_res w i) idle s) (fun d =>
    match d with
    | Quiet s => Ret (s, [])
    | Made s q again =>
      let l := match q with Some q => [q] | None => [] end in
      if again then obind (passes fuel (S i) w idle s) (fun '(s, l') => Ret (s, l ++ l')) else Ret (s, l)
    end)
  end.
(* 183-199: the connection is idle *)
Definition is_idle (s : ost) : bool := lastidle (ox s) || (snd_max (tp s) =? snd_una (tp s)).
Definition output (fuel : nat) (w : oenv) (s : ost) : outcome (ost * list (oseg * pres)) :=
  let idle := is_idle s in
  passes fuel 0 w (idle && negb (morecome (ox s))) (mkOst (tp s) (set_lastidle (idle && morecome (ox s)) (ox s))).
