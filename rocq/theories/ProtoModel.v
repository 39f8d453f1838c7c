(* The protocol switch: the two tables of src/ofp_in_proto.c and src/ofp_in6_proto.c, the index
   tables built from them at start (src/ofp_ip_init.c, src/ofp_ip6_init.c, src/ofp_ipsec.c),
   the lookup of ofp_socket (src/ofp_uipc_domain.c, src/ofp_uipc_socket.c) and the dispatch of
   received packets (src/ofp_pkt_processing.c).  A pr_input pointer is the name of the function
   it points to.  Built with INET6, without SCTP and RAW, which nothing defines. *)
From Verif Require Import Base.

Inductive handler :=                     (* pr_input *)
| ip_input | udp_input | tcp_input | gre_input | icmp_input | igmp_input | ipsec_input
| ip6_input | udp6_input | tcp6_input | icmp6_input | ip6_unrecognized | ip6_none.
Inductive attach :=                      (* pr_usrreqs->pru_attach *)
| attach_notsupp | udp_attach | tcp_attach | udp6_attach | tcp6_attach.
Record protosw := Sw { pr_type : Z; pr_protocol : Z; pr_input : handler; pr_attach : attach }.

(* include/api/ofp_socket.h:91-93 *)
Definition OFP_SOCK_STREAM := 1.
Definition OFP_SOCK_DGRAM := 2.
Definition OFP_SOCK_RAW := 3.
(* src/ofp_in_proto.c:54-189 ofp_inetsw; protocol numbers of include/api/ofp_in.h *)
Definition ofp_inetsw : list protosw :=
  [ Sw 0 0 ip_input attach_notsupp;
    Sw OFP_SOCK_DGRAM 17 udp_input udp_attach;
    Sw OFP_SOCK_STREAM 6 tcp_input tcp_attach;
    Sw OFP_SOCK_RAW 47 gre_input attach_notsupp;
    Sw OFP_SOCK_RAW 1 icmp_input attach_notsupp;
    Sw OFP_SOCK_RAW 2 igmp_input attach_notsupp;
    Sw OFP_SOCK_RAW 51 ipsec_input attach_notsupp;
    Sw OFP_SOCK_RAW 50 ipsec_input attach_notsupp ].
(* src/ofp_in6_proto.c:93-260 ofp_inet6sw *)
Definition ofp_inet6sw : list protosw :=
  [ Sw 0 41 ip6_input attach_notsupp;
    Sw OFP_SOCK_DGRAM 17 udp6_input udp6_attach;
    Sw OFP_SOCK_STREAM 6 tcp6_input tcp6_attach;
    Sw OFP_SOCK_RAW 58 icmp6_input attach_notsupp;
    Sw OFP_SOCK_RAW 60 ip6_unrecognized attach_notsupp;
    Sw OFP_SOCK_RAW 43 ip6_unrecognized attach_notsupp;
    Sw OFP_SOCK_RAW 44 ip6_unrecognized attach_notsupp;
    Sw OFP_SOCK_RAW 0 ip6_unrecognized attach_notsupp;
    Sw OFP_SOCK_RAW 59 ip6_none attach_notsupp ].

(* ---- sockets ---- *)
(* src/ofp_uipc_domain.c:333-369 ofp_pffindproto *)
Fixpoint find_sw (sw : list protosw) (protocol type : Z) : option protosw :=
  match sw with
  | [] => None
  | pr :: t =>
    if (pr_type pr =? type) && ((negb (protocol =? 0) && (pr_protocol pr =? protocol)) || (protocol =? 0))
    then Some pr else find_sw t protocol type
  end.
Definition ofp_pffindproto (family protocol type : Z) : option protosw :=
  if family =? 0 then None
  else if family =? 2 then find_sw ofp_inetsw protocol type      (* OFP_AF_INET *)
  else if family =? 3 then find_sw ofp_inet6sw protocol type     (* OFP_AF_INET6 *)
  else None.
(* src/ofp_uipc_socket.c:388-436 ofp_socreate up to the call of pru_attach, with room for the
   socket; the result is the protocol's attach function, called with so_type = type *)
Inductive created := Attach (a : attach) | EPROTONOSUPPORT | EPROTOTYPE.
Definition ofp_socreate (dom type proto : Z) : created :=
  match ofp_pffindproto dom proto type with
  | None => EPROTONOSUPPORT
  | Some pr =>
    match pr_attach pr with
    | attach_notsupp => EPROTONOSUPPORT
    | a => if pr_type pr =? 0 then EPROTONOSUPPORT
           else if negb (pr_type pr =? type) then EPROTOTYPE else Attach a
    end
  end.

(* ---- received packets ---- *)
(* a store to and a load from an array *)
Definition store (t : list Z) (i v : Z) : outcome (list Z) :=
  if (0 <=? i) && (i <? Z.of_nat (length t))
  then Ret (firstn (Z.to_nat i) t ++ [v] ++ skipn (S (Z.to_nat i)) t) else UB.
Definition load {A} (t : list A) (i : Z) : outcome A :=
  if 0 <=? i then match nth_error t (Z.to_nat i) with Some v => Ret v | None => UB end else UB.
(* the loops of ofp_ip_init.c:58-63 and ofp_ip6_init.c:87-92; [chk]: the first skips protocol
   numbers from 256, the second does not; indexes are uint8_t *)
Fixpoint fill (chk : bool) (sw : list protosw) (i : Z) (t : list Z) : outcome (list Z) :=
  match sw with
  | [] => Ret t
  | pr :: sw =>
    if chk && negb (pr_protocol pr <? 256) then fill chk sw (i + 1) t
    else obind (store t (pr_protocol pr) (i mod 256)) (fill chk sw (i + 1))
  end.
Definition ofp_ip_init : outcome (list Z) := fill true ofp_inetsw 0 (repeat 0 256).
Definition ofp_ip6_init : outcome (list Z) := fill false ofp_inet6sw 0 (repeat 0 256).
(* src/ofp_ipsec.c:291-298: without security associations AH and ESP are not handled *)
Definition ofp_ipsec_init_protox (max_num_sa : Z) (t : list Z) : outcome (list Z) :=
  if max_num_sa =? 0 then obind (store t 51 0) (fun t => store t 50 0) else Ret t.

(* src/ofp_pkt_processing.c:204-213 ipv4_transport_classifier: the function called *)
Definition ipv4_transport_classifier (protox : list Z) (ip_proto : Z) : outcome handler :=
  obind (load protox ip_proto) (fun i => obind (load ofp_inetsw i) (fun pr => Ret (pr_input pr))).

Inductive ret := CONTINUE | PROCESSED | DROP.
Definition DONE := 257.                  (* OFP_IPPROTO_DONE, include/api/ofp_in.h:237 *)
Definition SP := 260.                    (* OFP_IPPROTO_SP *)

(* What the handlers depend on in a packet.  Its fields stand for the results of the code they
   call; the ICMPv6 part is read from the packet. *)
Record pkt6 := mkPkt6 {
  hook : ret;                (* what the application's OFP_HOOK_LOCAL hooks return *)
  udp_good : bool;           (* length, port and checksum are in order *)
  udp_known : bool;          (* some socket takes it *)
  udp_blackhole : bool;      (* the sysctl ofp_udp_blackhole is set *)
  tcp_long : bool;           (* the TCP header is in the first segment *)
  tcp_ret : ret;             (* what ofp_tcp_input returns *)
  icmp_long : bool;          (* 8 octets of ICMPv6 are in the first segment *)
  icmp_sum : bool;           (* the checksum is right *)
  icmp_type : Z; icmp_code : Z; icmp_len : Z;
  ns_lladdr : bool }.        (* octet 20 behind the header is the source link-layer option *)

(* src/ofp_icmp6.c:419-879 ofp_icmp6_input, the returned value and *nxt; [sp]: built with SP.
   Left out: what is sent, learnt and notified (NdModel, Ic6Model). *)
Definition icmp6_result (sp : bool) (p : pkt6) : ret * Z :=
  let c := icmp_code p in
  if negb (icmp_long p) || (icmp_len p <? 8) || negb (icmp_sum p) then (DROP, DONE)
  else if (1 <=? icmp_type p) && (icmp_type p <=? 4) then (DROP, DONE)     (* deliver or badcode *)
  else if (icmp_type p =? 128) || (icmp_type p =? 129) then
    if negb (c =? 0) then (DROP, DONE) else (PROCESSED, DONE)
  else if icmp_type p =? 135 then
    if negb (c =? 0) || (icmp_len p <? 24) then (DROP, DONE)
    else if sp then (CONTINUE, DONE)
    else if (icmp_len p <? 32) && negb (ns_lladdr p) then (DROP, DONE) else (PROCESSED, DONE)
  else if icmp_type p =? 136 then
    if negb (c =? 0) || (icmp_len p <? 24) then (DROP, DONE) else (CONTINUE, DONE)
  else if icmp_type p =? 138 then
    if negb (c =? 0) && negb (c =? 1) then (DROP, DONE)
    else if icmp_len p <? 16 then (DROP, DONE) else (CONTINUE, DONE)
  else (CONTINUE, DONE).
(* src/ofp_udp6_usrreq.c:188-506 *)
Definition udp6_result (sp : bool) (p : pkt6) : ret * Z :=
  match hook p with
  | CONTINUE =>
    if negb (udp_good p) then (DROP, DONE)
    else if udp_known p then (PROCESSED, DONE)
    else if udp_blackhole p then (DROP, DONE)
    else if sp then (CONTINUE, SP) else (PROCESSED, DONE)
  | r => (r, DONE)
  end.
(* src/ofp_tcp_input.c:511-547 *)
Definition tcp6_result (p : pkt6) : ret * Z :=
  if negb (tcp_long p) then (DROP, DONE)
  else match tcp_ret p with CONTINUE => (CONTINUE, SP) | r => (r, DONE) end.
(* src/ofp_ip6_init.c:101-128 and the above.  An IPv4 function is never called with an IPv6
   packet. *)
Definition handle6 (sp : bool) (h : handler) (p : pkt6) : outcome (ret * Z) :=
  match h with
  | ip6_input => Ret (CONTINUE, SP)
  | ip6_none => Ret (PROCESSED, DONE)
  | ip6_unrecognized => Ret (DROP, DONE)
  | udp6_input => Ret (udp6_result sp p)
  | tcp6_input => Ret (tcp6_result p)
  | icmp6_input => Ret (icmp6_result sp p)
  | _ => UB
  end.
(* src/ofp_pkt_processing.c:221-235 ipv6_transport_classifier; the functions called and the
   value returned *)
Fixpoint classify6 (sp : bool) (fuel : nat) (protox : list Z) (p : pkt6) (nxt : Z) (called : list handler)
  : outcome (list handler * ret) :=
  match fuel with
  | O => Diverge
  | S f =>
    if nxt =? SP then Ret (called, CONTINUE) else
    obind (load protox nxt) (fun i =>
    obind (load ofp_inet6sw i) (fun pr =>
    obind (handle6 sp (pr_input pr) p) (fun r =>
    let called := called ++ [pr_input pr] in
    match r with
    | (CONTINUE, nxt) => classify6 sp f protox p nxt called
    | (r, _) => Ret (called, r)
    end)))
  end.
Definition ipv6_transport_classifier sp fuel protox p ip6_nxt := classify6 sp fuel protox p ip6_nxt [].
