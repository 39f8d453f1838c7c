(* TCP sockets: life time of the socket structures and of their protocol
   control blocks, and the two queues of a listening socket.
   Models src/ofp_uipc_socket.c, the socket calls of src/ofp_syscalls.c and the
   attach/detach/close half of src/ofp_tcp_usrreq.c, src/ofp_tcp_subr.c and
   src/ofp_tcp_timewait.c.

   Granularity: one operation of the model is one critical section of the code;
   operations of any number of threads interleave freely.  A system call that
   releases all locks in the middle is split there (close: four parts, accept:
   two, abort of a pending connection: two).  The set-up of a new connection
   runs under the write lock of the PCB list and is one operation.

   Simplifications: stream sockets only; addresses, buffers, timers and
   wake-ups are left out (other files model them); socket events (SS_EVENT) and
   accept filters are not used; PCBs are named by fresh numbers, so that an
   access through a stale pointer is seen as an access to freed memory. *)
From Verif Require Import Base.

Definition OFP_EINVAL := 22.
Definition OFP_EWOULDBLOCK := 35.
Definition OFP_ECONNABORTED := 53.
Definition OFP_ECONNRESET := 54.
Definition OFP_ENOBUFS := 55.
Definition OFP_EISCONN := 56.
Definition OFP_ENOTCONN := 57.
Definition OFP_EOPNOTSUPP := 45.

(* TCP states, include/api/ofp_tcp_fsm.h *)
Definition T_CLOSED := 0.
Definition T_LISTEN := 1.
Definition T_SYN_SENT := 2.
Definition T_SYN_RECEIVED := 3.
Definition T_ESTABLISHED := 4.
Definition T_CLOSE_WAIT := 5.
Definition T_FIN_WAIT_1 := 6.
Definition T_CLOSING := 7.
Definition T_LAST_ACK := 8.
Definition T_FIN_WAIT_2 := 9.

(* so_qstate: include/ofpi_socketvar.h (SQ_INCOMP, SQ_COMP) *)
Inductive qstate := QNone | QInc | QComp.

(* struct socket, include/ofpi_socketvar.h:70-160, the fields of life time *)
Record sock := mkSock {
  so_count : Z;
  so_nofd : bool;        (* SS_NOFDREF *)
  so_protoref : bool;    (* SS_PROTOREF *)
  so_qs : qstate;        (* so_qstate *)
  so_head : option Z;    (* so_head *)
  so_accept : bool;      (* OFP_SO_ACCEPTCONN *)
  so_qlimit : Z;
  so_qinit : bool;       (* so_incomp and so_comp went through TAILQ_INIT *)
  so_incq : list Z;      (* so_incomp *)
  so_compq : list Z;     (* so_comp *)
  so_incqlen : Z;
  so_qlen : Z;
  so_conn : bool;        (* SS_ISCONNECTED *)
  so_conning : bool;     (* SS_ISCONNECTING *)
  so_discing : bool;     (* SS_ISDISCONNECTING *)
  so_disced : bool;      (* SS_ISDISCONNECTED *)
  so_cantrcv : bool;     (* SBS_CANTRCVMORE on so_rcv *)
  so_err : Z;            (* so_error *)
  so_nbio : bool;        (* SS_NBIO *)
  so_linger0 : bool;     (* OFP_SO_LINGER with so_linger = 0 *)
  so_pcb : option Z }.

(* struct inpcb with its tcpcb or tcptw *)
Record pcb := mkPcb {
  p_sock : option Z;     (* inp_socket *)
  p_state : Z;           (* t_state *)
  p_needfin : bool;      (* TF_NEEDFIN *)
  p_tw : bool;           (* INP_TIMEWAIT *)
  p_dropped : bool;      (* INP_DROPPED *)
  p_sockref : bool }.    (* INP_SOCKREF *)

(* which part of a system call is running on a socket; CLost marks (for the
   statements only) a socket whose accept() ended with an error *)
Inductive call := CNone | CClose1 | CClose2 | CAccept | CAbort1 | CAbort2 | CLost.

Record st := mkSt {
  s_so : Z -> option sock;      (* shm->socket_list, None = on the free list *)
  s_free : list Z;              (* shm->free_sockets *)
  s_pcb : Z -> option pcb;      (* allocated PCBs *)
  s_next : Z;                   (* next PCB name *)
  s_user : Z -> bool;           (* descriptors the application holds *)
  s_call : Z -> call }.         (* calls under way *)

(* ---- field updates ---- *)
Definition set_count so c := mkSock c (so_nofd so) (so_protoref so) (so_qs so) (so_head so) (so_accept so) (so_qlimit so) (so_qinit so) (so_incq so) (so_compq so) (so_incqlen so) (so_qlen so) (so_conn so) (so_conning so) (so_discing so) (so_disced so) (so_cantrcv so) (so_err so) (so_nbio so) (so_linger0 so) (so_pcb so).
Definition set_nofd so b := mkSock (so_count so) b (so_protoref so) (so_qs so) (so_head so) (so_accept so) (so_qlimit so) (so_qinit so) (so_incq so) (so_compq so) (so_incqlen so) (so_qlen so) (so_conn so) (so_conning so) (so_discing so) (so_disced so) (so_cantrcv so) (so_err so) (so_nbio so) (so_linger0 so) (so_pcb so).
Definition set_protoref so b := mkSock (so_count so) (so_nofd so) b (so_qs so) (so_head so) (so_accept so) (so_qlimit so) (so_qinit so) (so_incq so) (so_compq so) (so_incqlen so) (so_qlen so) (so_conn so) (so_conning so) (so_discing so) (so_disced so) (so_cantrcv so) (so_err so) (so_nbio so) (so_linger0 so) (so_pcb so).
Definition set_q so q h := mkSock (so_count so) (so_nofd so) (so_protoref so) q h (so_accept so) (so_qlimit so) (so_qinit so) (so_incq so) (so_compq so) (so_incqlen so) (so_qlen so) (so_conn so) (so_conning so) (so_discing so) (so_disced so) (so_cantrcv so) (so_err so) (so_nbio so) (so_linger0 so) (so_pcb so).
Definition set_listen so lim := mkSock (so_count so) (so_nofd so) (so_protoref so) (so_qs so) (so_head so) true lim (so_qinit so) (so_incq so) (so_compq so) (so_incqlen so) (so_qlen so) (so_conn so) (so_conning so) (so_discing so) (so_disced so) (so_cantrcv so) (so_err so) (so_nbio so) (so_linger0 so) (so_pcb so).
Definition set_queues so iq cq il cl := mkSock (so_count so) (so_nofd so) (so_protoref so) (so_qs so) (so_head so) (so_accept so) (so_qlimit so) (so_qinit so) iq cq il cl (so_conn so) (so_conning so) (so_discing so) (so_disced so) (so_cantrcv so) (so_err so) (so_nbio so) (so_linger0 so) (so_pcb so).
Definition set_conn so c ci di dd := mkSock (so_count so) (so_nofd so) (so_protoref so) (so_qs so) (so_head so) (so_accept so) (so_qlimit so) (so_qinit so) (so_incq so) (so_compq so) (so_incqlen so) (so_qlen so) c ci di dd (so_cantrcv so) (so_err so) (so_nbio so) (so_linger0 so) (so_pcb so).
Definition set_cantrcv so := mkSock (so_count so) (so_nofd so) (so_protoref so) (so_qs so) (so_head so) (so_accept so) (so_qlimit so) (so_qinit so) (so_incq so) (so_compq so) (so_incqlen so) (so_qlen so) (so_conn so) (so_conning so) (so_discing so) (so_disced so) true (so_err so) (so_nbio so) (so_linger0 so) (so_pcb so).
Definition set_err so e := mkSock (so_count so) (so_nofd so) (so_protoref so) (so_qs so) (so_head so) (so_accept so) (so_qlimit so) (so_qinit so) (so_incq so) (so_compq so) (so_incqlen so) (so_qlen so) (so_conn so) (so_conning so) (so_discing so) (so_disced so) (so_cantrcv so) e (so_nbio so) (so_linger0 so) (so_pcb so).
Definition set_nbio so b := mkSock (so_count so) (so_nofd so) (so_protoref so) (so_qs so) (so_head so) (so_accept so) (so_qlimit so) (so_qinit so) (so_incq so) (so_compq so) (so_incqlen so) (so_qlen so) (so_conn so) (so_conning so) (so_discing so) (so_disced so) (so_cantrcv so) (so_err so) b (so_linger0 so) (so_pcb so).
Definition set_linger0 so b := mkSock (so_count so) (so_nofd so) (so_protoref so) (so_qs so) (so_head so) (so_accept so) (so_qlimit so) (so_qinit so) (so_incq so) (so_compq so) (so_incqlen so) (so_qlen so) (so_conn so) (so_conning so) (so_discing so) (so_disced so) (so_cantrcv so) (so_err so) (so_nbio so) b (so_pcb so).

Definition p_set_sock q o := mkPcb o (p_state q) (p_needfin q) (p_tw q) (p_dropped q) (p_sockref q).
Definition p_set_state q x := mkPcb (p_sock q) x (p_needfin q) (p_tw q) (p_dropped q) (p_sockref q).
Definition p_set_needfin q := mkPcb (p_sock q) (p_state q) true (p_tw q) (p_dropped q) (p_sockref q).
Definition p_set_tw q := mkPcb (p_sock q) (p_state q) (p_needfin q) true (p_dropped q) (p_sockref q).
Definition p_set_dropped q := mkPcb (p_sock q) (p_state q) (p_needfin q) (p_tw q) true (p_sockref q).
Definition p_set_sockref q b := mkPcb (p_sock q) (p_state q) (p_needfin q) (p_tw q) (p_dropped q) b.

Definition upd {A} (f : Z -> A) (k : Z) (v : A) : Z -> A :=
  fun x => if x =? k then v else f x.

Definition put_so s i so := mkSt (upd (s_so s) i (Some so)) (s_free s) (s_pcb s) (s_next s) (s_user s) (s_call s).
Definition put_pcb s p q := mkSt (s_so s) (s_free s) (upd (s_pcb s) p (Some q)) (s_next s) (s_user s) (s_call s).
Definition free_pcb s p := mkSt (s_so s) (s_free s) (upd (s_pcb s) p None) (s_next s) (s_user s) (s_call s).
Definition set_user s i b := mkSt (s_so s) (s_free s) (s_pcb s) (s_next s) (upd (s_user s) i b) (s_call s).
Definition set_call s i c := mkSt (s_so s) (s_free s) (s_pcb s) (s_next s) (s_user s) (upd (s_call s) i c).
(* write a socket and its PCB *)
Definition put s i so p q := put_pcb (put_so s i so) p q.

(* reads through a pointer: freed memory is undefined behaviour *)
Definition get_so {A} (s : st) (i : Z) (k : sock -> outcome A) : outcome A :=
  match s_so s i with Some so => k so | None => UB end.
Definition get_pcb {A} (s : st) (p : Z) (k : pcb -> outcome A) : outcome A :=
  match s_pcb s p with Some q => k q | None => UB end.
(* sotoinpcb(so): NULL or a PCB that is not this socket's is an error *)
Definition get_sp {A} (s : st) (i : Z) (k : sock -> Z -> pcb -> outcome A) : outcome A :=
  get_so s i (fun so =>
  match so_pcb so with
  | None => UB
  | Some p => get_pcb s p (fun q =>
      match p_sock q with
      | Some j => if j =? i then k so p q else UB
      | None => UB
      end)
  end).

(* ---- socket flags driven by the protocol ---- *)

(* ofp_soisdisconnected, ofp_uipc_socket.c:2444-2462 *)
Definition soisdisconnected so := set_cantrcv (set_conn so false false false true).
(* ofp_soisdisconnecting, ofp_uipc_socket.c:2422-2442 *)
Definition soisdisconnecting so := set_cantrcv (set_conn so (so_conn so) false true (so_disced so)).
(* ofp_soisconnecting, ofp_uipc_socket.c:2363-2372 *)
Definition soisconnecting so := set_conn so false true false (so_disced so).
(* the flag half of ofp_soisconnected, ofp_uipc_socket.c:2375-2382 *)
Definition soisconnected_flags so := set_conn so true false false (so_disced so).

(* ---- protocol half: functions of one socket and its PCB.  The boolean result
   says that the PCB gave up its reference to the socket, so that the caller
   goes on with ofp_sofree. ---- *)

(* ofp_tcp_close, ofp_tcp_subr.c:1004-1034 (with ofp_in_pcbdrop).  The KASSERT
   on SS_PROTOREF is an undefined outcome. *)
Definition tcp_close (so : sock) (q : pcb) : outcome (sock * pcb * bool) :=
  let q := p_set_dropped q in
  let so := soisdisconnected so in
  if p_sockref q then
    if so_protoref so then Ret (set_protoref so false, p_set_sockref q false, true)
    else UB
  else Ret (so, q, false).

(* ofp_tcp_drop, ofp_tcp_subr.c:868-891; TCPS_HAVERCVDSYN is state >= 3 *)
Definition tcp_drop (so : sock) (q : pcb) (err : Z) : outcome (sock * pcb * bool) :=
  let q := if 3 <=? p_state q then p_set_state q T_CLOSED else q in
  tcp_close (set_err so err) q.

(* a close that must leave the socket alone: KASSERT(tp != NULL) *)
Definition noref (r : outcome (sock * pcb * bool)) : outcome (sock * pcb) :=
  obind r (fun x => let '(so, q, rel) := x in if rel then UB else Ret (so, q)).

(* tcp_usrclosed, ofp_tcp_usrreq.c:1784-1838 (without PASSIVE_INET) *)
Definition tcp_usrclosed (so : sock) (q : pcb) : outcome (sock * pcb) :=
  obind
    (let x := p_state q in
     if (x =? T_LISTEN) || (x =? T_CLOSED) then noref (tcp_close so (p_set_state q T_CLOSED))
     else if (x =? T_SYN_SENT) || (x =? T_SYN_RECEIVED) then Ret (so, p_set_needfin q)
     else if x =? T_ESTABLISHED then Ret (so, p_set_state q T_FIN_WAIT_1)
     else if x =? T_CLOSE_WAIT then Ret (so, p_set_state q T_LAST_ACK)
     else Ret (so, q))
    (fun r => let '(so, q) := r in
     if T_FIN_WAIT_2 <=? p_state q then Ret (soisdisconnected so, q) else Ret (so, q)).

(* tcp_disconnect, ofp_tcp_usrreq.c:1743-1772 *)
Definition tcp_disconnect (so : sock) (q : pcb) : outcome (sock * pcb) :=
  if p_state q <? T_ESTABLISHED then noref (tcp_close so q)
  else if so_linger0 so then noref (tcp_drop so q 0)
  else tcp_usrclosed (soisdisconnecting so) q.

(* tcp_usr_disconnect, ofp_tcp_usrreq.c:575-600; the result is the error *)
Definition tcp_usr_disconnect (so : sock) (q : pcb) : outcome (sock * pcb * Z) :=
  if p_tw q || p_dropped q then Ret (so, q, OFP_ECONNRESET)
  else obind (tcp_disconnect so q) (fun r => Ret (fst r, snd r, 0)).

(* "if (!(inp->inp_flags & INP_DROPPED)) ... SS_PROTOREF ... INP_SOCKREF",
   ofp_tcp_usrreq.c:952-957 and 993-998 *)
Definition take_ref (so : sock) (q : pcb) : sock * pcb :=
  if p_dropped q then (so, q) else (set_protoref so true, p_set_sockref q true).

(* tcp_usr_close, ofp_tcp_usrreq.c:967-1002 *)
Definition tcp_usr_close (so : sock) (q : pcb) : outcome (sock * pcb) :=
  obind (if negb (p_tw q) && negb (p_dropped q) then tcp_disconnect so q else Ret (so, q))
        (fun r => Ret (take_ref (fst r) (snd r))).

(* tcp_usr_abort, ofp_tcp_usrreq.c:927-962 *)
Definition tcp_usr_abort (so : sock) (q : pcb) : outcome (sock * pcb) :=
  obind (if negb (p_tw q) && negb (p_dropped q) then noref (tcp_drop so q OFP_ECONNABORTED) else Ret (so, q))
        (fun r => Ret (take_ref (fst r) (snd r))).

(* tcp_usr_shutdown, ofp_tcp_usrreq.c:719-748 *)
Definition tcp_usr_shutdown (so : sock) (q : pcb) : outcome (sock * pcb * Z) :=
  if p_tw q || p_dropped q then Ret (so, q, OFP_ECONNRESET)
  else obind (tcp_usrclosed so q) (fun r => Ret (fst r, snd r, 0)).

(* tcp_usr_listen, ofp_tcp_usrreq.c:350-384, with ofp_solisten_proto_check and
   ofp_solisten_proto, ofp_uipc_socket.c:555-577; the port is taken as bound *)
Definition tcp_usr_listen (somaxconn : Z) (so : sock) (q : pcb) (backlog : Z) : sock * pcb * Z :=
  if p_tw q || p_dropped q then (so, q, OFP_EINVAL)
  else if so_conn so || so_conning so || so_discing so then (so, q, OFP_EINVAL)
  else (set_listen so (if (backlog <? 0) || (somaxconn <? backlog) then somaxconn else backlog),
        p_set_state q T_LISTEN, 0).

(* ofp_soconnect, ofp_uipc_socket.c:884-908, and tcp_usr_connect with
   tcp_connect, ofp_tcp_usrreq.c:440-490 and 1110-1167: a PCB that has a peer
   (any state but CLOSED here) is refused; otherwise [ok] is the outcome of
   address selection. *)
Definition tcp_usr_connect (so : sock) (q : pcb) (ok : bool) : sock * pcb * Z :=
  if so_accept so then (so, q, OFP_EOPNOTSUPP)
  else if so_conn so || so_conning so then (so, q, OFP_EISCONN)
  else let so := set_err so 0 in
  if p_tw q || p_dropped q then (so, q, OFP_EINVAL)
  else if negb (p_state q =? T_CLOSED) then (so, q, OFP_EISCONN)
  else if ok then (soisconnecting so, p_set_state q T_SYN_SENT, 0)
  else (so, q, OFP_ENOBUFS).

(* ---- socket layer ---- *)

(* a fresh PCB: tcp_attach, ofp_tcp_usrreq.c:1694-1735 *)
Definition new_pcb (i : Z) : pcb := mkPcb (Some i) T_CLOSED false false false false.

(* soalloc and the initialisation in ofp_socreate, ofp_uipc_socket.c:329-425 *)
Definition fresh_sock (p : Z) : sock :=
  mkSock 1 false false QNone None false 0 true [] [] 0 0 false false false false false 0 false false (Some p).

(* soalloc and the initialisation in ofp_sonewconn, ofp_uipc_socket.c:459-478:
   so_state, options and linger of the listener are taken over; the queues of
   the new socket are NOT initialised (all-zero memory) *)
Definition child_sock (hs : sock) (h p : Z) : sock :=
  mkSock 0 true (so_protoref hs) QNone (Some h) false 0 false [] [] 0 0
    (so_conn hs) (so_conning hs) (so_discing hs) (so_disced hs) false 0 (so_nbio hs) (so_linger0 hs) (Some p).

(* pop the free list and attach a PCB (both succeed) *)
Definition alloc (s : st) (i : Z) (rest : list Z) (so : sock) : st :=
  let p := s_next s in
  mkSt (upd (s_so s) i (Some so)) rest (upd (s_pcb s) p (Some (new_pcb i))) (p + 1) (s_user s) (s_call s).

Definition rm (i : Z) (l : list Z) : list Z := filter (fun j => negb (j =? i)) l.
Definition mem (i : Z) (l : list Z) : bool := existsb (fun j => j =? i) l.

(* tcp_usr_detach / tcp_detach, ofp_tcp_usrreq.c:163-240 *)
Definition detach (s : st) (i : Z) (so : sock) : outcome st :=
  match so_pcb so with
  | None => UB
  | Some p => get_pcb s p (fun q =>
    match p_sock q with
    | None => UB
    | Some j =>
      if negb (j =? i) then UB
      else if p_tw q then
        if p_dropped q then Ret (free_pcb s p) else Ret (put_pcb s p (p_set_sock q None))
      else if p_dropped q || (p_state q <? T_SYN_SENT) then Ret (free_pcb s p)
      else Ret (put_pcb s p (p_set_sock q None))
    end)
  end.

(* sodealloc, ofp_uipc_socket.c:369-382 *)
Definition sodealloc (s : st) (i : Z) : st :=
  mkSt (upd (s_so s) i None) (i :: s_free s) (s_pcb s) (s_next s) (s_user s) (s_call s).

(* sohasrefs, ofp_uipc_socket.c:645-650 *)
Definition sohasrefs (so : sock) : bool :=
  negb (so_nofd so) || negb (so_count so =? 0) || so_protoref so
  || (match so_qs so with QComp => true | _ => false end).

(* sofree_dequeue, ofp_uipc_socket.c:579-606; removing an element that is not
   on the list, and the failing KASSERTs, are undefined *)
Definition sofree_dequeue (s : st) (i : Z) (so : sock) : outcome st :=
  obind
    (match so_head so with
     | None => match so_qs so with QNone => Ret s | _ => UB end
     | Some h =>
       match so_qs so with
       | QInc => get_so s h (fun hs =>
           if mem i (so_incq hs) then
             Ret (put_so (put_so s h (set_queues hs (rm i (so_incq hs)) (so_compq hs) (so_incqlen hs - 1) (so_qlen hs)))
                    i (set_q so QNone None))
           else UB)
       | _ => UB
       end
     end)
    (fun s => if so_accept so && negb (match so_incq so, so_compq so with [], [] => true | _, _ => false end)
              then UB else Ret s).

(* ofp_sofree with sofree_dispose, ofp_uipc_socket.c:608-691 *)
Definition sofree (s : st) (i : Z) : outcome st :=
  get_so s i (fun so =>
  if sohasrefs so then Ret s
  else obind (sofree_dequeue s i so) (fun s =>
       obind (detach s i so) (fun s => Ret (sodealloc s i)))).

(* ofp_soabort in one go (the caller holds the PCB list lock),
   ofp_uipc_socket.c:846-868 *)
Definition soabort (s : st) (i : Z) : outcome st :=
  get_sp s i (fun so p q =>
  if negb (so_count so =? 0) || so_protoref so || negb (so_nofd so) then UB
  else obind (tcp_usr_abort so q) (fun r => sofree (put s i (fst r) p (snd r)) i)).

(* TAILQ_REMOVE of the first element of so_incomp, ofp_uipc_socket.c:493-498, 738-742 *)
Definition pop_inc (s : st) (h : Z) (hs : sock) (i : Z) (rest : list Z) : outcome st :=
  get_so s i (fun so =>
  Ret (put_so (put_so s h (set_queues hs rest (so_compq hs) (so_incqlen hs - 1) (so_qlen hs)))
         i (set_q so QNone None))).
Definition pop_comp (s : st) (h : Z) (hs : sock) (i : Z) (rest : list Z) : outcome st :=
  get_so s i (fun so =>
  Ret (put_so (put_so s h (set_queues hs (so_incq hs) rest (so_incqlen hs) (so_qlen hs - 1)))
         i (set_q so QNone None))).

(* the loop "while (head->so_incqlen > head->so_qlimit)" of ofp_sonewconn,
   ofp_uipc_socket.c:490-503; an empty list with a count above the limit would
   dereference NULL *)
Fixpoint evict (fuel : nat) (s : st) (h : Z) : outcome st :=
  get_so s h (fun hs =>
  if so_qlimit hs <? so_incqlen hs then
    match fuel, so_incq hs with
    | O, _ => Diverge
    | _, [] => UB
    | S f, i :: rest =>
        obind (pop_inc s h hs i rest) (fun s => obind (soabort s i) (fun s => evict f s h))
    end
  else Ret s).

(* what a call reports *)
Inductive res := ROk | RFd (fd : Z) | RErr (e : Z) | RBlock.

(* ofp_sonewconn(head, 0), ofp_uipc_socket.c:447-522, and the rest of
   syncache_socket, ofp_tcp_syncache.c:568-765; [aok]: a PCB could be
   allocated, [ok]: addresses could be set up.  RErr: no connection. *)
Definition newconn (s : st) (h : Z) (aok ok : bool) : outcome (st * res) :=
  get_so s h (fun hs =>
  if (3 * so_qlimit hs) / 2 <? so_qlen hs then Ret (s, RErr 0)
  else match s_free s with
  | [] => Ret (s, RErr 0)
  | i :: rest =>
    if negb aok then Ret (s, RErr 0)
    else
    let p := s_next s in
    let s := alloc s i rest (child_sock hs h p) in
    obind (evict (S (length (so_incq hs))) s h) (fun s =>
    get_so s h (fun hs => get_so s i (fun so =>
    if negb (so_qinit hs) then UB   (* INSERT_TAIL through a null tqh_last *)
    else
    let s := put_so (put_so s h (set_queues hs (so_incq hs ++ [i]) (so_compq hs) (so_incqlen hs + 1) (so_qlen hs)))
               i (set_q so QInc (Some h)) in
    if ok then get_pcb s p (fun q => Ret (put_pcb s p (p_set_state q T_SYN_RECEIVED), RFd i))
    else obind (soabort s i) (fun s => Ret (s, RErr 0)))))
  end).

(* ofp_socreate, ofp_uipc_socket.c:387-437, as called by ofp_socket *)
Definition socket_call (s : st) (aok : bool) : st * res :=
  match s_free s with
  | [] => (s, RErr OFP_ENOBUFS)
  | i :: rest =>
    if negb aok then (s, RErr OFP_ENOBUFS)
    else (set_user (alloc s i rest (fresh_sock (s_next s))) i true, RFd i)
  end.

(* ofp_accept up to the release of the accept lock, ofp_syscalls.c:222-281.
   RBlock: the call sleeps (nothing changes). *)
Definition accept_take (s : st) (h : Z) : outcome (st * res) :=
  get_so s h (fun hs =>
  if negb (so_accept hs) then Ret (s, RErr OFP_EINVAL)
  else match so_compq hs with
  | [] =>
      if so_nbio hs then Ret (s, RErr OFP_EWOULDBLOCK)
      else if so_err hs =? 0 then
        if so_cantrcv hs then Ret (put_so s h (set_err hs 0), RErr OFP_ECONNABORTED)
        else Ret (s, RBlock)
      else Ret (put_so s h (set_err hs 0), RErr (so_err hs))
  | i :: rest =>
      if so_err hs =? 0 then
        obind (pop_comp s h hs i rest) (fun s =>
        get_so s i (fun so =>
        Ret (set_call (put_so s i (set_nbio (set_count so (so_count so + 1)) (so_nbio so || so_nbio hs))) i CAccept, RFd i)))
      else Ret (put_so s h (set_err hs 0), RErr (so_err hs))
  end).

(* ofp_soaccept and tcp_usr_accept, ofp_uipc_socket.c:870-881,
   ofp_tcp_usrreq.c:616-655, and the end of ofp_accept, ofp_syscalls.c:286-296:
   on an error nothing is undone *)
Definition accept_end (s : st) (i : Z) : outcome (st * res) :=
  get_sp s i (fun so p q =>
  if negb (so_nofd so) then UB
  else
  let s := put_so s i (set_nofd so false) in
  if so_disced so || p_tw q || p_dropped q
  then Ret (set_call s i CLost, RErr OFP_ECONNABORTED)
  else Ret (set_user (set_call s i CNone) i true, RFd i)).

(* ofp_soclose, first part (disconnect), ofp_uipc_socket.c:705-731 *)
Definition close1 (s : st) (i : Z) : outcome (st * res) :=
  get_sp s i (fun so p q =>
  if so_nofd so then UB
  else
  let s := set_call (set_user s i false) i CClose1 in
  if so_conn so && negb (so_discing so) then
    obind (tcp_usr_disconnect so q) (fun r => let '(so, q, e) := r in Ret (put s i so p q, ROk))
  else Ret (s, ROk)).

(* ofp_soclose, "drop:", ofp_uipc_socket.c:733-735 *)
Definition close2 (s : st) (i : Z) : outcome (st * res) :=
  get_sp s i (fun so p q =>
  obind (tcp_usr_close so q) (fun r => Ret (set_call (put s i (fst r) p (snd r)) i CClose2, ROk))).

(* ofp_soclose, one round of the loops over the queues, ofp_uipc_socket.c:736-757:
   so_incomp first, then so_comp *)
Definition drain (s : st) (h : Z) : outcome (st * res) :=
  get_so s h (fun hs =>
  match so_incq hs with
  | i :: rest => obind (pop_inc s h hs i rest) (fun s => Ret (set_call s i CAbort1, RFd i))
  | [] =>
    match so_compq hs with
    | i :: rest => obind (pop_comp s h hs i rest) (fun s => Ret (set_call s i CAbort1, RFd i))
    | [] => Ret (s, ROk)
    end
  end).

(* ofp_soabort, first half: tcp_usr_abort *)
Definition abort1 (s : st) (i : Z) : outcome (st * res) :=
  get_sp s i (fun so p q =>
  if negb (so_count so =? 0) || so_protoref so || negb (so_nofd so) then UB
  else obind (tcp_usr_abort so q) (fun r => Ret (set_call (put s i (fst r) p (snd r)) i CAbort2, ROk))).
(* ofp_soabort, second half: ofp_sofree *)
Definition abort2 (s : st) (i : Z) : outcome (st * res) :=
  get_so s i (fun so =>
  obind (sofree (set_call s i CNone) i) (fun s => Ret (s, ROk))).

(* ofp_soclose, end: SS_NOFDREF and sorele, ofp_uipc_socket.c:758-764,
   ofpi_socketvar.h:255-266 *)
Definition close3 (s : st) (i : Z) : outcome (st * res) :=
  get_so s i (fun so =>
  if so_nofd so then UB
  else if so_count so <=? 0 then UB
  else
  let so := set_count (set_nofd so true) (so_count so - 1) in
  let s := set_call (put_so s i so) i CNone in
  if so_count so =? 0 then obind (sofree s i) (fun s => Ret (s, ROk)) else Ret (s, ROk)).

(* ---- events of the protocol (input, timers), all under the PCB list lock ---- *)

(* the PCB of a full connection and its socket *)
Definition get_ps {A} (s : st) (p : Z) (k : Z -> sock -> pcb -> outcome A) : outcome A :=
  get_pcb s p (fun q =>
  match p_sock q with
  | None => UB
  | Some i => get_so s i (fun so => k i so q)
  end).

Definition finish (s : st) (i : Z) (so : sock) (p : Z) (q : pcb) (rel : bool) : outcome (st * res) :=
  let s := put s i so p q in
  if rel then obind (sofree s i) (fun s => Ret (s, ROk)) else Ret (s, ROk).

(* three-way handshake complete: ofp_soisconnected, ofp_uipc_socket.c:2375-2418,
   called from ofp_tcp_input.c (SYN_SENT and SYN_RECEIVED) *)
Definition p_connected (s : st) (p : Z) : outcome (st * res) :=
  get_ps s p (fun i so q =>
  let q := p_set_state q (if p_needfin q then T_FIN_WAIT_1 else T_ESTABLISHED) in
  let so := soisconnected_flags so in
  match so_head so, so_qs so with
  | Some h, QInc =>
      let s := put s i so p q in
      get_so s h (fun hs =>
      if negb (mem i (so_incq hs)) then UB
      else
      Ret (put_so (put_so s h (set_queues hs (rm i (so_incq hs)) (so_compq hs ++ [i]) (so_incqlen hs - 1) (so_qlen hs + 1)))
             i (set_q so QComp (Some h)), RFd i))
  | _, _ => Ret (put s i so p q, ROk)
  end).

(* the peer's FIN: socantrcvmore and the state change, ofp_tcp_input.c (FIN
   processing of ESTABLISHED, FIN_WAIT_1); also the simultaneous open *)
Definition p_fin (s : st) (p : Z) : outcome (st * res) :=
  get_ps s p (fun i so q =>
  let x := p_state q in
  if x =? T_SYN_SENT then Ret (put s i so p (p_set_state q T_SYN_RECEIVED), ROk)
  else
  let q := if x =? T_ESTABLISHED then p_set_state q T_CLOSE_WAIT
           else if x =? T_FIN_WAIT_1 then p_set_state q T_CLOSING else q in
  Ret (put s i (set_cantrcv so) p q, ROk)).

(* our FIN is acknowledged in FIN_WAIT_1, ofp_tcp_input.c *)
Definition p_finacked (s : st) (p : Z) : outcome (st * res) :=
  get_ps s p (fun i so q =>
  let so := if so_cantrcv so then soisdisconnected so else so in
  Ret (put s i so p (p_set_state q T_FIN_WAIT_2), ROk)).

(* ofp_tcp_drop / ofp_tcp_close from input or a timer *)
Definition p_drop (s : st) (p : Z) (err : Z) : outcome (st * res) :=
  get_ps s p (fun i so q =>
  obind (tcp_drop so q err) (fun r => let '(so, q, rel) := r in finish s i so p q rel)).

(* ofp_tcp_twstart, ofp_tcp_timewait.c:163-276; ok = a tcptw was found *)
Definition p_twstart (s : st) (p : Z) (ok : bool) : outcome (st * res) :=
  get_ps s p (fun i so q =>
  if ok then
    let so := soisdisconnected so in
    let q := p_set_tw q in
    if p_sockref q then
      if so_protoref so then finish s i (set_protoref so false) p (p_set_sockref q false) true
      else UB
    else finish s i so p q false
  else obind (tcp_close so q) (fun r => let '(so, q, rel) := r in finish s i so p q rel)).

(* ofp_tcp_twclose, ofp_tcp_timewait.c:359-417 *)
Definition p_twclose (s : st) (p : Z) : outcome (st * res) :=
  get_pcb s p (fun q =>
  if negb (p_tw q) then UB
  else
  let q := p_set_dropped q in
  match p_sock q with
  | None => Ret (free_pcb s p, ROk)
  | Some i => get_so s i (fun so =>
      if p_sockref q then
        if so_protoref so then finish s i (set_protoref so false) p (p_set_sockref q false) true
        else UB
      else Ret (put_pcb s p q, ROk))
  end).

(* ---- operations ---- *)
Inductive op :=
| Socket (aok : bool) | Listen (fd backlog : Z) | Connect (fd : Z) (ok : bool)
| Shutdown (fd : Z) | ShutRd (fd : Z) | SetLinger (fd : Z) (b : bool) | SetNbio (fd : Z) (b : bool)
| AcceptTake (fd : Z) | AcceptEnd (i : Z)
| Close1 (fd : Z) | Close2 (fd : Z) | Drain (fd : Z) | Abort1 (i : Z) | Abort2 (i : Z) | Close3 (fd : Z)
| NewConn (fd : Z) (aok ok : bool)
| PConnected (p : Z) | PFin (p : Z) | PFinAcked (p : Z) | PDrop (p err : Z)
| PTwStart (p : Z) (ok : bool) | PTwClose (p : Z).

Definition lift3 (s : st) (i p : Z) (r : sock * pcb * Z) : st * res :=
  let '(so, q, e) := r in (put s i so p q, if e =? 0 then ROk else RErr e).

Definition step (somaxconn : Z) (s : st) (o : op) : outcome (st * res) :=
  match o with
  | Socket aok => Ret (socket_call s aok)
  | Listen i b => get_sp s i (fun so p q => Ret (lift3 s i p (tcp_usr_listen somaxconn so q b)))
  | Connect i ok => get_sp s i (fun so p q => Ret (lift3 s i p (tcp_usr_connect so q ok)))
  | Shutdown i => get_sp s i (fun so p q => obind (tcp_usr_shutdown so q) (fun r => Ret (lift3 s i p r)))
  | ShutRd i => get_so s i (fun so => Ret (put_so s i (set_cantrcv so), ROk))
  | SetLinger i b => get_so s i (fun so => Ret (put_so s i (set_linger0 so b), ROk))
  | SetNbio i b => get_so s i (fun so => Ret (put_so s i (set_nbio so b), ROk))
  | AcceptTake i => accept_take s i
  | AcceptEnd i => accept_end s i
  | Close1 i => close1 s i
  | Close2 i => close2 s i
  | Drain i => drain s i
  | Abort1 i => abort1 s i
  | Abort2 i => abort2 s i
  | Close3 i => close3 s i
  | NewConn h aok ok => newconn s h aok ok
  | PConnected p => p_connected s p
  | PFin p => p_fin s p
  | PFinAcked p => p_finacked s p
  | PDrop p e => p_drop s p e
  | PTwStart p ok => p_twstart s p ok
  | PTwClose p => p_twclose s p
  end.

(* ofp_uipc_socket.c:280-310: all N sockets on the free list *)
Definition init (N : nat) : st :=
  mkSt (fun _ => None) (map Z.of_nat (seq 0 N)) (fun _ => None) 0 (fun _ => false) (fun _ => CNone).

(* is_readable, ofp_uipc_socket.c:2856-2885, for a listening socket *)
Definition accept_readable (so : sock) : bool :=
  match so_compq so with [] => false | _ => true end.
