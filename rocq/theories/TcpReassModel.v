(* TCP segment reassembly, src/ofp_tcp_reass.c.
   Simplifications: the LIST of queue entries is a Coq list; tqe_th, which points
   into the packet, is represented by the fields th_seq and the FIN flag of the
   entry; a packet is its bytes from the TCP payload on (the caller has already
   dropped the headers, ofp_tcp_input.c:2787); logging and statistics are left
   out. Whether uma_zalloc succeeds and whether the socket still accepts data
   (SBS_CANTRCVMORE) are inputs of the call. *)
From Verif Require Import Base TcpSeqModel.

(* include/ofpi_tcp_var.h:50-59 struct tseg_qent with the header fields used *)
Record tseg := mkS {
  s_uid : Z;            (* tqe_m *)
  s_seq : Z;            (* tqe_th->th_seq, uint32_t *)
  s_len : Z;            (* tqe_len *)
  s_fin : bool;         (* tqe_th->th_flags & OFP_TH_FIN *)
  s_data : list Z;      (* bytes of tqe_m *)
  s_stack : bool }.     (* the entry is the local variable tqs *)

(* the fields of struct tcpcb used *)
Record tcb := mkTcb { rcv_nxt : Z; segq : list tseg; segqlen : Z; estab : bool }.

(* what a call does besides changing the control block *)
Record teff := mkTE {
  te_out : list (bool * tseg);  (* segments taken off the queue in order: true = appended
                                   to the receive buffer, false = freed (can't receive more) *)
  te_freed : list Z;            (* packets freed otherwise *)
  te_alloc : Z; te_zfree : Z;   (* queue entries allocated / given back *)
  te_ret : bool;                (* FIN flag returned *)
  te_tlen : Z;                  (* *tlenp on return *)
  te_drop : bool }.             (* dropped for lack of queue space *)

Record inseg := mkIn { i_uid : Z; i_seq : Z; i_len : Z; i_fin : bool; i_data : list Z }.

(* odp_packet_pull_head(m, i): fails (and here the result is ignored) if i
   exceeds the length *)
Definition pull (i : Z) (d : list Z) : list Z :=
  if i <=? Z.of_nat (length d) then skipn (Z.to_nat i) d else d.

(* ofp_tcp_reass.c:253-257: entries up to and including p, entries from q on *)
Fixpoint split_at (s : Z) (l : list tseg) : list tseg * list tseg :=
  match l with
  | [] => ([], [])
  | q :: r => if SEQ_GT (s_seq q) s then ([], l)
              else let '(a, b) := split_at s r in (q :: a, b)
  end.

(* ofp_tcp_reass.c:297-314: trim or dequeue succeeding segments; e is
   th_seq + *tlenp. Third component: entries given back, fourth: packets freed *)
Fixpoint trim_succ (e : Z) (l : list tseg) : list tseg * Z * list Z :=
  match l with
  | [] => ([], 0, [])
  | q :: r =>
    let i := s32 (u32 (e - s_seq q)) in
    if i <=? 0 then (l, 0, [])
    else if i <? s_len q then
      (mkS (s_uid q) (u32 (s_seq q + i)) (s_len q - i) (s_fin q) (pull i (s_data q)) (s_stack q) :: r, 0, [])
    else let '(l', n, fd) := trim_succ e r in (l', n + 1, s_uid q :: fd)
  end.

(* ofp_tcp_reass.c:344-361, the do-while loop; nxt is tp->rcv_nxt.
   Result: rcv_nxt, remaining queue, segments taken, last flags *)
Fixpoint present_loop (nxt : Z) (l : list tseg) : Z * list tseg * list tseg * bool :=
  match l with
  | [] => (nxt, [], [], false)
  | q :: r =>
    if s_seq q =? nxt then
      let '(n', l', out, fl) := present_loop (u32 (nxt + s_len q)) r in
      (n', l', q :: out, match out with [] => s_fin q | _ => fl end)
    else (nxt, l, [], false)
  end.

Definition heap_count (l : list tseg) : Z := Z.of_nat (length (filter (fun q => negb (s_stack q)) l)).

(* ofp_tcp_reass.c:330-367 present: and what the call did before it *)
Definition present (cantrcv : bool) (st : tcb) (freed : list Z) (al zf tlen : Z) : tcb * teff :=
  if negb (estab st) then (st, mkTE [] freed al zf false tlen false)
  else
    let '(n', l', out, fl) := present_loop (rcv_nxt st) (segq st) in
    (mkTcb n' l' (segqlen st - Z.of_nat (length out)) (estab st),
     mkTE (map (fun q => (negb cantrcv, q)) out) freed al (zf + heap_count out) fl tlen false).

(* ofp_tcp_reass.c:166-368 ofp_tcp_reass; None is the call with th == NULL *)
Definition tcp_reass (hiwat maxseg : Z) (alloc cantrcv : bool) (st : tcb) (s : option inseg)
  : outcome (tcb * teff) :=
  match s with
  | None => Ret (present cantrcv st [] 0 0 0)
  | Some g =>
    if maxseg =? 0 then UB else      (* division by zero *)
    let missing := negb (negb (i_seq g =? rcv_nxt st) || negb (estab st)) in
    (* 207-219 *)
    if negb missing && (segqlen st >=? hiwat / maxseg + 1)
    then Ret (st, mkTE [] [i_uid g] 0 0 false 0 true)
    (* 228-249 *)
    else if negb alloc && negb missing
    then Ret (st, mkTE [] [i_uid g] 0 0 false 0 true)
    else
      let al := if alloc then 1 else 0 in
      let n1 := segqlen st + 1 in
      let '(pre, post) := split_at (i_seq g) (segq st) in
      (* 264-289 *)
      let i := match rev pre with
               | [] => 0
               | p :: _ => s32 (u32 (s_seq p + s_len p - i_seq g))
               end in
      if (i >? 0) && (i >=? i_len g)
      then Ret (present cantrcv (mkTcb (rcv_nxt st) (segq st) (n1 - 1) (estab st))
                  [i_uid g] al (if alloc then 1 else 0) (i_len g))
      else
        let seq := if i >? 0 then u32 (i_seq g + i) else i_seq g in
        let len := if i >? 0 then i_len g - i else i_len g in
        let data := if i >? 0 then pull i (i_data g) else i_data g in
        let '(post', n, fd) := trim_succ (seq + len) post in
        let te := mkS (i_uid g) seq len (i_fin g) data (negb alloc) in
        Ret (present cantrcv (mkTcb (rcv_nxt st) (pre ++ te :: post') (n1 - n) (estab st)) fd al n len)
  end.

(* ofp_tcp_reass.c:134-149 ofp_tcp_reass_flush: the packets are not freed.
   Result: control block, packets freed, entries given back *)
Definition tcp_reass_flush (st : tcb) : tcb * list Z * Z :=
  (mkTcb (rcv_nxt st) [] (segqlen st - Z.of_nat (length (segq st))) (estab st), [], Z.of_nat (length (segq st))).

(* ofp_tcp_input.c:2784-2852: data segment processing after trimming to the
   window (tlen <= sbspace holds). The common case bypasses the queue. *)
Definition tcp_data (hiwat maxseg : Z) (alloc cantrcv : bool) (st : tcb) (g : inseg) : outcome (tcb * teff) :=
  match segq st with
  | [] =>
    if (i_seq g =? rcv_nxt st) && estab st then
      Ret (mkTcb (u32 (rcv_nxt st + i_len g)) [] (segqlen st) (estab st),
           mkTE [(negb cantrcv, mkS (i_uid g) (i_seq g) (i_len g) (i_fin g) (i_data g) true)] [] 0 0 (i_fin g) (i_len g) false)
    else tcp_reass hiwat maxseg alloc cantrcv st (Some g)
  | _ => tcp_reass hiwat maxseg alloc cantrcv st (Some g)
  end.

(* Events of a connection: a data segment, the flushing call when the handshake
   completes (ofp_tcp_input.c:2262-2280: t_state becomes ESTABLISHED and, if the
   segment carries neither data nor FIN, ofp_tcp_reass(NULL) is called). *)
Inductive tevent :=
| Data (hiwat maxseg : Z) (alloc cantrcv : bool) (g : inseg)
| Establish (call cantrcv : bool).

Definition tstep (st : tcb) (ev : tevent) : outcome (tcb * teff) :=
  match ev with
  | Data hw ms al cr g => tcp_data hw ms al cr st g
  | Establish call cr =>
      let st1 := mkTcb (rcv_nxt st) (segq st) (segqlen st) true in
      if call then tcp_reass 0 1 true cr st1 None
      else Ret (st1, mkTE [] [] 0 0 false 0 false)
  end.

Fixpoint trun (st : tcb) (evs : list tevent) : outcome (tcb * list teff) :=
  match evs with
  | [] => Ret (st, [])
  | ev :: r => obind (tstep st ev) (fun '(st1, e) =>
               obind (trun st1 r) (fun '(st2, es) => Ret (st2, e :: es)))
  end.

(* a connection whose next expected position is n0, before any data *)
Definition tcb_init (n0 : Z) (established : bool) : tcb := mkTcb (u32 n0) [] 0 established.
