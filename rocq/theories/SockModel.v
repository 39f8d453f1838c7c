(* Socket buffers and stream/datagram send and receive:
   src/ofp_uipc_sockbuf.c, include/ofpi_sockbuf.h, src/ofp_uipc_socket.c. *)
From Verif Require Import Base.

(* A packet: its handle and its bytes. odp_packet_pull_head changes the packet behind the
   handle; a handle sits in one slot only, so the bytes are kept in the slot. *)
Record pkt := mkPk { pk_id : nat; pk_data : list Z }.
Definition plen (m : pkt) : Z := Z.of_nat (length (pk_data m)).
Definition pull_head (m : pkt) (n : Z) : pkt := mkPk (pk_id m) (skipn (Z.to_nat n) (pk_data m)).
(* odp_packet_copy_to_mem: n bytes from offset off, refused (non-zero) outside the packet *)
Definition copy_to_mem (m : pkt) (off n : Z) : option (list Z) :=
  if (off + n <=? plen m) && (0 <=? off) && (0 <=? n) then Some (firstn (Z.to_nat n) (skipn (Z.to_nat off) (pk_data m))) else None.

(* include/ofpi_sockbuf.h:94-131, the fields the functions below use *)
Definition SOCKBUF_LEN : nat := 64.
Record sbuf := mkSb { sb_mb : nat -> pkt; sb_put : nat; sb_get : nat; sb_cc : Z }.
Definition upd_mb (f : nat -> pkt) (i : nat) (m : pkt) : nat -> pkt := fun j => if Nat.eqb j i then m else f j.
(* if (++i >= SOCKBUF_LEN) i = 0 *)
Definition bump (i : nat) : nat := if (SOCKBUF_LEN <=? i + 1)%nat then 0%nat else (i + 1)%nat.
Definition sb_empty : sbuf := mkSb (fun _ => mkPk 0 []) 0 0 0.

(* sbspace, ofpi_sockbuf.h:214-219; bs = global_param->pkt_pool.buffer_size *)
Definition sbspace (bs : Z) (sb : sbuf) : Z :=
  bs * (if (sb_get sb <=? sb_put sb)%nat
        then Z.of_nat SOCKBUF_LEN - (Z.of_nat (sb_put sb) - Z.of_nat (sb_get sb)) - 1
        else Z.of_nat (sb_get sb) - Z.of_nat (sb_put sb) - 1).

(* What became of a packet handed to a buffer. *)
Inductive fate := Queued | Taken (* by the event function *) | Dropped (* freed, no room *).

(* ofp_sockbuf_put_last, ofp_uipc_sockbuf.c:105-126; takes = the event function accepts the packet *)
Definition put_last (takes : pkt -> bool) (sb : sbuf) (m : pkt) : sbuf * fate :=
  if takes m then (sb, Taken) else
  let next := bump (sb_put sb) in
  if Nat.eqb next (sb_get sb) then (sb, Dropped) else
  (mkSb (upd_mb (sb_mb sb) (sb_put sb) m) next (sb_get sb) (u32 (sb_cc sb + plen m)), Queued).

(* ofp_sockbuf_get_first 128-134 *)
Definition get_first (sb : sbuf) : option pkt :=
  if Nat.eqb (sb_get sb) (sb_put sb) then None else Some (sb_mb sb (sb_get sb)).

(* ofp_sockbuf_remove_first 136-146 *)
Definition remove_first (sb : sbuf) : sbuf * option pkt :=
  if Nat.eqb (sb_get sb) (sb_put sb) then (sb, None)
  else (mkSb (sb_mb sb) (sb_put sb) (bump (sb_get sb)) (sb_cc sb), Some (sb_mb sb (sb_get sb))).

(* sbfree, ofpi_sockbuf.h:234-245 (sb_sndptroff is never made non-zero) *)
Definition sbfree (sb : sbuf) (m : pkt) : sbuf := mkSb (sb_mb sb) (sb_put sb) (sb_get sb) (u32 (sb_cc sb - plen m)).

(* ofp_sockbuf_copy_out 153-183: the two loops; result: the bytes written to dst *)
Fixpoint skip_loop (fuel : nat) (sb : sbuf) (i : nat) (off : Z) : outcome (nat * Z) :=
  match fuel with
  | O => Diverge
  | S f =>
    if Nat.eqb i (sb_put sb) then Ret (i, off) else
    let pl := plen (sb_mb sb i) in
    if pl <=? off then skip_loop f sb (bump i) (off - pl) else Ret (i, off)
  end.
Fixpoint copy_loop (fuel : nat) (sb : sbuf) (i : nat) (off len : Z) : outcome (list Z) :=
  match fuel with
  | O => Diverge
  | S f =>
    if (len =? 0) || Nat.eqb i (sb_put sb) then Ret [] else
    let pl := plen (sb_mb sb i) - off in
    let pl := if len <? pl then len else pl in
    match copy_to_mem (sb_mb sb i) off pl with
    | None => UB                                        (* the copy is refused, dst keeps what it had *)
    | Some d => obind (copy_loop f sb (bump i) 0 (len - pl)) (fun r => Ret (d ++ r))
    end
  end.
Definition copy_out (fuel : nat) (sb : sbuf) (off len : Z) : outcome (list Z) :=
  obind (skip_loop fuel sb (sb_get sb) off) (fun '(i, off) => copy_loop fuel sb i off len).

(* ofp_sbappendaddr_locked 186-214 (no control packet): 0 = full, the caller frees the packet *)
Definition append_addr (sb : sbuf) (m : pkt) : sbuf * Z :=
  let next := bump (sb_put sb) in
  if Nat.eqb next (sb_get sb) then (sb, 0)
  else (mkSb (upd_mb (sb_mb sb) (sb_put sb) m) next (sb_get sb) (u32 (sb_cc sb + plen m)), 1).

(* sbflush_internal 219-226; result: the packets freed *)
Fixpoint flush (fuel : nat) (sb : sbuf) : outcome (sbuf * list pkt) :=
  match fuel with
  | O => Diverge
  | S f =>
    if Nat.eqb (sb_get sb) (sb_put sb) then Ret (sb, []) else
    obind (flush f (mkSb (sb_mb sb) (sb_put sb) (bump (sb_get sb)) (sb_cc sb))) (fun '(sb', l) => Ret (sb', sb_mb sb (sb_get sb) :: l))
  end.

(* sbdrop_internal 301-324; result: the packets freed *)
Fixpoint sbdrop (fuel : nat) (sb : sbuf) (len : Z) : outcome (sbuf * list pkt) :=
  match fuel with
  | O => Diverge
  | S f =>
    if len <=? 0 then Ret (sb, []) else
    match get_first sb with
    | None => Ret (sb, [])
    | Some m =>
      if plen m >? len then
        Ret (mkSb (upd_mb (sb_mb sb) (sb_get sb) (pull_head m len)) (sb_put sb) (sb_get sb) (u32 (sb_cc sb - len)), [])
      else
        let '(sb1, _) := remove_first sb in
        obind (sbdrop f (sbfree sb1 m) (len - plen m)) (fun '(sb2, l) => Ret (sb2, m :: l))
    end
  end.

(* ofp_sbdroprecord_locked 350-362 *)
Definition sbdroprecord (sb : sbuf) : sbuf * list pkt :=
  match remove_first sb with
  | (sb1, Some m) => (sbfree sb1 m, [m])
  | (sb1, None) => (sb1, [])
  end.

(* ---------- receiving from a stream: ofp_soreceive_generic, ofp_uipc_socket.c:1311-1829,
   for TCP (PR_CONNREQUIRED, not PR_ATOMIC, not PR_ADDR), mp0 = NULL as in ofp_recvfrom ---------- *)
(* the socket as the receiver sees it *)
Record rsock := mkR { r_sb : sbuf; r_cant : bool (* SBS_CANTRCVMORE *); r_err : Z (* so_error *); r_oob : Z (* so_oobmark *) }.
(* What other threads do while the buffer lock is not held: packets arrive, the peer
   closes, an error is reported; v_wait is what ofp_sbwait then returns if it was waiting. *)
Record event := mkE { v_pkts : list pkt; v_close : bool; v_err : Z; v_wait : Z }.
Fixpoint arrive (takes : pkt -> bool) (sb : sbuf) (l : list pkt) : sbuf :=
  match l with [] => sb | m :: l => arrive takes (fst (put_last takes sb m)) l end.
Definition others (takes : pkt -> bool) (r : rsock) (e : event) : rsock :=
  mkR (arrive takes (r_sb r) (v_pkts e)) (r_cant r || v_close e) (if r_err r =? 0 then v_err e else r_err r) (r_oob r).

Record rflags := mkF { f_peek : bool; f_waitall : bool; f_nowait : bool (* DONTWAIT, MSG_NBIO or SS_NBIO *); f_conn : bool (* ISCONNECTED or ISCONNECTING *) }.
Definition EWOULDBLOCK : Z := 35.
Definition ENOTCONN : Z := 57.

(* result of a call: error, bytes written to the caller's buffer, uio_resid, socket *)
Record rres := mkRes { q_err : Z; q_out : list Z; q_resid : Z; q_sock : rsock }.

Section RECV.
Variable takes : pkt -> bool.
Variable env : nat -> event.       (* what happens in the k-th unlocked window *)
Variable F : rflags.

(* how the copy loop 1560-1777 ends *)
Inductive lend := LDone (k : nat) (r : rsock) (resid : Z) (out : list Z) | LFail (k : nat) (err : Z) (r : rsock) (resid : Z) (out : list Z).

(* MSG_WAITALL 1750-1776 *)
Fixpoint waitall (fuel k : nat) (r : rsock) (m : option pkt) (resid : Z) : outcome (nat * Z * rsock * option pkt) :=
  match fuel with
  | O => Diverge
  | S f =>
    if f_waitall F && match m with None => true | _ => false end && (resid >? 0) then
      if negb (r_err r =? 0) || r_cant r then Ret (k, 0, r, m) else
      let r := others takes r (env k) in                       (* pru_rcvd *)
      let k := S k in
      match get_first (r_sb r) with
      | None =>
        let e := env k in
        let r := others takes r e in                           (* ofp_sbwait *)
        let k := S k in
        if negb (v_wait e =? 0) then Ret (k, v_wait e, r, m) else waitall f k r (get_first (r_sb r)) resid
      | Some m' => waitall f k r (Some m') resid
      end
    else Ret (k, 0, r, m)
  end.

(* 1633-1721: what becomes of the packet after len bytes of it were copied; new socket, packet and moff *)
Definition consume (r : rsock) (m : pkt) (moff len : Z) : rsock * option pkt * Z :=
  if len =? plen m - moff then
    if f_peek F then (r, Some m, 0)
    else
      let sb := fst (remove_first (sbfree (r_sb r) m)) in
      (mkR sb (r_cant r) (r_err r) (r_oob r), get_first sb, moff)
  else
    if f_peek F then (r, Some m, moff + len)
    else
      let m' := pull_head m len in
      let sb := r_sb r in
      (mkR (mkSb (upd_mb (sb_mb sb) (sb_get sb) m') (sb_put sb) (sb_get sb) (u32 (sb_cc sb - len))) (r_cant r) (r_err r) (r_oob r), Some m', moff).
(* the loop; m is the first packet, moff and off as in the code *)
Fixpoint rloop (fuel k : nat) (r : rsock) (m : option pkt) (moff off resid : Z) (out : list Z) : outcome lend :=
  match fuel with
  | O => Diverge
  | S f =>
    match m with
    | None => Ret (LDone k r resid out)
    | Some m =>
      if resid <=? 0 then Ret (LDone k r resid out) else
      let len := resid in
      let len := if negb (r_oob r =? 0) && (len >? s32 (r_oob r - off)) then r_oob r - off else len in
      let len := if len >? plen m - moff then plen m - moff else len in
      match copy_to_mem m moff len with
      | None => UB
      | Some d =>
        let out := out ++ d in
        let resid := resid - len in
        let r := others takes r (env k) in                      (* unlocked during the copy *)
        let k := S k in
        let '(r, m, moff) := consume r m moff len in
        if negb (r_oob r =? 0) then
          if negb (f_peek F) then
            let r := mkR (r_sb r) (r_cant r) (r_err r) (u64 (r_oob r - len)) in
            if r_oob r =? 0 then Ret (LDone k r resid out) else
            obind (waitall fuel k r m resid) (fun '(k, err, r, m) =>
            if negb (err =? 0) then Ret (LFail k err r resid out) else rloop f k r m moff off resid out)
          else
            let off := off + len in
            if off =? s32 (r_oob r) then Ret (LDone k r resid out) else
            obind (waitall fuel k r m resid) (fun '(k, err, r, m) =>
            if negb (err =? 0) then Ret (LFail k err r resid out) else rloop f k r m moff off resid out)
        else
          obind (waitall fuel k r m resid) (fun '(k, err, r, m) =>
          if negb (err =? 0) then Ret (LFail k err r resid out) else rloop f k r m moff off resid out)
      end
    end
  end.

(* 1356-1429 and 1778-1829; len = the resid the call began with *)
Fixpoint recv_stream (fuel k : nat) (r : rsock) (len : Z) : outcome rres :=
  match fuel with
  | O => Diverge
  | S f =>
    match get_first (r_sb r) with
    | None =>
      if negb (r_err r =? 0) then
        Ret (mkRes (r_err r) [] len (if f_peek F then r else mkR (r_sb r) (r_cant r) 0 (r_oob r)))
      else if r_cant r then Ret (mkRes 0 [] len r)
      else if negb (f_conn F) then Ret (mkRes ENOTCONN [] len r)
      else if len =? 0 then Ret (mkRes 0 [] len r)
      else if f_nowait F then Ret (mkRes EWOULDBLOCK [] len r)
      else
        let e := env k in
        let r := others takes r e in                            (* ofp_sbwait, then unlock and lock again *)
        if negb (v_wait e =? 0) then Ret (mkRes (v_wait e) [] len r) else recv_stream f (S k) r len
    | Some m =>       (* whichever way the test 1369-1374 goes, the code reaches dontblock with m *)
      obind (rloop fuel k r (Some m) 0 0 len []) (fun l =>
      match l with
      | LFail k err r resid out => Ret (mkRes err out resid r)
      | LDone k r resid out =>
        let r := if f_peek F then r else others takes r (env k) in   (* pru_rcvd *)
        let k := if f_peek F then k else S k in
        if (resid =? len) && negb (len =? 0) && negb (r_cant r) then recv_stream f k r len
        else Ret (mkRes 0 out resid r)
      end)
    end
  end.

(* ofp_recvfrom, ofp_syscalls.c:172-197: Some n = n bytes returned in the buffer, None = -1 with ofp_errno *)
Definition recvfrom (fuel : nat) (r : rsock) (len : Z) : outcome (option (list Z) * Z * rsock) :=
  obind (recv_stream fuel 0 r len) (fun q => Ret (if negb (q_err q =? 0) then None else Some (q_out q), q_err q, q_sock q)).
End RECV.

(* ---------- receiving a datagram: ofp_soreceive_dgram 1838-1950 ---------- *)
(* body m: what follows the UDP header of m, as far as memory goes; ulen m: uh_ulen.
   iov = length of the caller's buffer. None: waits. *)
Definition recv_dgram (nowait : bool) (body : pkt -> list Z) (ulen : pkt -> Z) (r : rsock) (iov : Z)
  : outcome (option (Z * list Z * bool * list pkt * rsock)) :=
  match get_first (r_sb r) with
  | None =>
    if negb (r_err r =? 0) then Ret (Some (r_err r, [], false, [], mkR (r_sb r) (r_cant r) 0 (r_oob r)))
    else if r_cant r || (iov =? 0) then Ret (Some (0, [], false, [], r))
    else if nowait then Ret (Some (EWOULDBLOCK, [], false, [], r))
    else Ret None
  | Some m =>
    let sb := sbfree (r_sb r) m in
    let sb := mkSb (sb_mb sb) (sb_put sb) (bump (sb_get sb)) (sb_cc sb) in
    let len := u64 (ulen m - 8) in
    let trunc := len >? iov in
    let len := if trunc then iov else len in
    if len <=? Z.of_nat (length (body m))
    then Ret (Some (0, firstn (Z.to_nat len) (body m), trunc, [m], mkR sb (r_cant r) (r_err r) (r_oob r)))
    else UB                                                     (* memcpy past the packet *)
  end.

(* ---------- sending on a stream: ofp_sosend_generic 1076-1276 for TCP, uio != NULL, no control ---------- *)
(* what else happens between two calls of the protocol: acknowledged bytes leave the front *)
Record sevent := mkSE { w_drop : Z; w_alloc : bool (* a packet could be allocated *); w_queue : bool (* pru_send queued the packet *); w_err : Z (* pru_send's result *); w_wait : Z; w_cant : bool (* SBS_CANTSENDMORE at the check *) }.
Definition EPIPE : Z := 32.
Definition ENOBUFS : Z := 55.
(* error, bytes of the caller's buffer not counted as sent, buffer, and the stream of bytes queued by this call *)
Record sres := mkSR { s_err : Z; s_resid : Z; s_sb : sbuf; s_queued : list Z; s_lost : list Z }.
Section SEND.
Variables (bs lowat : Z) (takes : pkt -> bool) (env : nat -> sevent) (nowait oob : bool).

Definition acked (sb : sbuf) (n : Z) : outcome sbuf := obind (sbdrop (S SOCKBUF_LEN) sb n) (fun '(sb, _) => Ret sb).
(* the inner loop 1195-1258: resid = bytes not yet copied, ures = uio_resid *)
Fixpoint send_inner (fuel k : nat) (sb : sbuf) (buf : list Z) (space ures : Z) (qd lost : list Z)
  : outcome (nat * Z * sbuf * list Z * Z * list Z * list Z) :=
  match fuel with
  | O => Diverge
  | S f =>
    let e := env k in
    if negb (w_alloc e) then Ret (k, ENOBUFS, sb, buf, ures, qd, lost) else
    let resid := Z.of_nat (length buf) in
    let c := resid in
    let c := if c >? bs then bs else c in
    let c := if c >? space then space else c in
    let top := mkPk k (firstn (Z.to_nat c) buf) in
    let buf' := skipn (Z.to_nat c) buf in
    obind (acked sb (w_drop e)) (fun sb =>
    let '(sb, qd, lost) :=
      if w_queue e then                                        (* ofp_sbappendstream in tcp_usr_send *)
        match put_last takes sb top with
        | (sb, Queued) => (sb, qd ++ pk_data top, lost)
        | (sb, _) => (sb, qd, lost ++ pk_data top)
        end
      else (sb, qd, lost) in                                   (* freed by tcp_usr_send *)
    if negb (w_err e =? 0) then Ret (S k, w_err e, sb, buf', ures, qd, lost) else
    let ures := ures - c in
    let space := space - c in
    if (Z.of_nat (length buf') >? 0) && (space >? 0) then send_inner f (S k) sb buf' space ures qd lost
    else Ret (S k, 0, sb, buf', ures, qd, lost))
  end.
Fixpoint send_outer (fuel k : nat) (sb : sbuf) (buf : list Z) (ures : Z) (qd lost : list Z) : outcome sres :=
  match fuel with
  | O => Diverge
  | S f =>
    let e := env k in
    if w_cant e then Ret (mkSR EPIPE ures sb qd lost) else
    let space := sbspace bs sb + (if oob then 1024 else 0) in
    let resid := Z.of_nat (length buf) in
    if (space <? resid) && (space <? lowat) then
      if nowait then Ret (mkSR EWOULDBLOCK ures sb qd lost)
      else obind (acked sb (w_drop e)) (fun sb =>              (* ofp_sbwait *)
           if negb (w_wait e =? 0) then Ret (mkSR (w_wait e) ures sb qd lost) else send_outer f (S k) sb buf ures qd lost)
    else
      obind (send_inner fuel (S k) sb buf space ures qd lost) (fun '(k, err, sb, buf, ures, qd, lost) =>
      if negb (err =? 0) then Ret (mkSR err ures sb qd lost)
      else match buf with [] => Ret (mkSR 0 ures sb qd lost) | _ => send_outer f k sb buf ures qd lost end)
  end.
(* ofp_sendto, ofp_syscalls.c:131-165: None = -1 *)
Definition sendto (fuel : nat) (sb : sbuf) (buf : list Z) : outcome (option Z * sres) :=
  obind (send_outer fuel 0 sb buf (Z.of_nat (length buf)) [] []) (fun s =>
  let err := if Z.of_nat (length buf) =? s_resid s then s_err s else 0 in
  Ret (if negb (err =? 0) then None else Some (Z.of_nat (length buf) - s_resid s), s)).
End SEND.
