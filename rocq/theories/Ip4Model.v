(* IPv4 input and forwarding (src/ofp_pkt_processing.c:302-461) and ICMP
   (src/ofp_icmp.c:164-339, 421-777). A packet is the list of its bytes from the IP
   header to the end of the data, in one segment. be: host byte order, al: address
   of the IP header. What other modules decide (routes, addresses of interfaces,
   IPsec, hooks, allocation) is an argument. *)
From Verif Require Import Base CksumModel.

(* stores inside the packet; outside is undefined *)
Definition wr (l : list Z) (i : nat) (bs : list Z) : outcome (list Z) :=
  if Nat.leb (i + length bs) (length l) then Ret (firstn i l ++ bs ++ skipn (i + length bs) l) else UB.
Definition be16 (l : list Z) (i : nat) : outcome Z := obind (ld8 l i) (fun a => obind (ld8 l (S i)) (fun b => Ret (a * 256 + b))).
Definition slice (l : list Z) (i n : nat) : outcome (list Z) :=
  if Nat.leb (i + n) (length l) then Ret (firstn n (skipn i l)) else UB.

Definition HL (p : list Z) : Z := nth 0 p 0 mod 16.

(* ---- forwarding ---- *)
Inductive hw := HwNone | HwOk | HwUnknown | HwBad.   (* OFP_L3_CHKSUM_STATUS_VALID and odp_packet_l3_chksum_status *)
Inductive hookres := HCont | HOther (r : Z).
(* a route: local, and a number for the rest of the next hop *)
Record nhop := mkNh { nh_local : bool; nh_id : Z }.
Record env := mkEnv {
  e_addr : list Z; e_bcast : list Z;          (* dev->ip_addr_info[0] *)
  e_hw : hw; e_route : list Z -> option nhop; (* ofp_get_next_hop in the VRF of dev *)
  e_in : bool -> list Z -> bool;              (* ofp_ipsec_inbound_check says drop; argument: is_ours *)
  e_local : list Z -> hookres;                (* OFP_HOOK_LOCAL, OFP_HOOK_LOCAL_IPv4 *)
  e_fwd : list Z -> hookres;                  (* OFP_HOOK_FWD_IPv4 *)
  e_out : list Z -> bool * option nat;        (* ofp_ipsec_out_lookup: drop, SA *)
  e_redirect : bool; e_same_net : nhop -> list Z -> bool }. (* OFP_SEND_ICMP_REDIRECT; conditions 1, 2 *)
Inductive verdict :=
| VDrop | VSlow                            (* OFP_PKT_DROP; OFP_PKT_CONTINUE: to the slow path *)
| VHook (r : Z)
| VReass (p : list Z)                      (* to reassembly; local delivery follows for the result *)
| VLocal (p : list Z)                      (* ipv4_transport_classifier *)
| VExpired (p : list Z)                    (* ofp_icmp_error(TIMXCEED), then dropped *)
| VForward (p : list Z) (nh : option nhop) (sa : option nat) (redirect : bool). (* ofp_ip_output_common_inline *)

(* ofp_pkt_processing.c:430-435 *)
Definition ttl_step (be : bool) (p : list Z) : outcome (list Z) :=
  obind (ld8 p 8) (fun ttl =>
  obind (wr p 8 [u8 (ttl - 1)]) (fun p =>
  let a := u16 (Z.lnot (cpu_to_be_16 be 256)) in
  obind (ld16 be p 10) (fun s =>
  wr p 10 (st16 be (if s >=? a then s - a else u16 (s + cpu_to_be_16 be 256)))))).

Definition local_v4 (e : env) (p : list Z) : verdict :=
  if e_in e true p then VDrop else match e_local e p with HCont => VLocal p | HOther r => VHook r end.
(* ofp_pkt_processing.c:302-461; the reassembled packet re-enters at local_v4 *)
Definition fwd_v4 (be : bool) (al : Z) (e : env) (p : list Z) : outcome verdict :=
  obind (ld8 p 0) (fun b0 =>
  if negb (b0 / 16 =? 4) then Ret VDrop else
  obind (match e_hw e with
         | HwOk => Ret true
         | HwBad => Ret false
         | HwUnknown | HwNone => obind (ofp_cksum_iph be al p (HL p)) (fun c => Ret (c =? 0))
         end) (fun ok =>
  if negb ok then Ret VDrop else
  obind (slice p 16 4) (fun dst =>
  if list_eq_dec Z.eq_dec (e_bcast e) dst then Ret VDrop else
  let ours := (if list_eq_dec Z.eq_dec (e_addr e) dst then true else false) || (nth 0 dst 0 / 16 =? 14) in
  let nh := if ours then None else e_route e dst in
  let ours := ours || match nh with Some n => nh_local n | None => false end in
  if ours then
    obind (be16 p 6) (fun off => if negb (off mod 16384 =? 0) then Ret (VReass p) else Ret (local_v4 e p))
  else
  if e_in e false p then Ret VDrop else
  match e_fwd e p with
  | HOther r => Ret (VHook r)
  | HCont =>
    let '(drop, sa) := e_out e p in
    if drop then Ret VDrop else
    match nh, sa with
    | None, None => Ret VSlow
    | _, _ =>
      obind (ld8 p 8) (fun ttl =>
      if ttl <=? 1 then Ret (VExpired p) else
      obind (ttl_step be p) (fun p =>
      if e_redirect e then
        match nh with
        | None => UB                                             (* nh->port *)
        | Some n => Ret (VForward p nh sa (match sa with None => e_same_net e n p | Some _ => false end))
        end
      else Ret (VForward p nh sa false)))
    end
  end))).

(* ---- ICMP ---- *)
Definition T_ECHOREPLY := 0. Definition T_UNREACH := 3. Definition T_QUENCH := 4. Definition T_REDIRECT := 5.
Definition T_ECHO := 8. Definition T_TIMXCEED := 11. Definition T_PARAMPROB := 12.
Definition T_TSTAMP := 13. Definition T_MASKREQ := 17.
(* include/api/ofp_icmp.h:213-218 *)
Definition infotype (t : Z) : bool :=
  existsb (Z.eqb t) [0; 8; 9; 10; 13; 14; 15; 16; 17; 18].
(* ofp_icmp.c:164-292 up to icmp_reflect; l2: bytes before the IP header; alloc: the
   allocation succeeds. Result: the message to reflect *)
Definition icmp_error (be : bool) (al l2 : Z) (alloc : bool) (p : list Z) (type code : Z) (dest : list Z) (mtu : Z) : outcome (option (list Z)) :=
  let hlen := 4 * HL p in
  let len := u16 (hlen * 2 + 16) in
  let h := Z.to_nat hlen in
  obind (wr p 10 [0; 0]) (fun p =>
  obind (ofp_cksum_iph be al p (HL p)) (fun c =>
  obind (wr p 10 (st16 be c)) (fun p =>
  obind (be16 p 6) (fun off =>
  if negb (off mod 8192 =? 0) then Ret None else
  obind (ld8 p 9) (fun proto =>
  obind (if (proto =? 1) && negb (type =? T_REDIRECT) && (l2 + Z.of_nat (length p) >=? hlen + 8)
         then obind (ld8 p h) (fun t => Ret (negb (infotype t))) else Ret false) (fun iserr =>
  if iserr then Ret None else
  if negb alloc then Ret None else
  obind (slice p 0 (Z.to_nat len)) (fun q =>                                    (* memcpy of icmp_len bytes *)
  obind (slice p 0 h) (fun hdr =>
  obind (wr q (h + 8) hdr) (fun q =>
  obind (ld16 be p 2) (fun raw =>                                               (* ip_len, not converted *)
  let n := u32 (raw - hlen) in
  let n := if 8 >? n then n else 8 in
  obind (slice p h (Z.to_nat n)) (fun d =>
  obind (wr q (h + 8 + h) d) (fun q =>
  obind (wr q h [u8 type]) (fun q =>
  let rest := if type =? T_REDIRECT then dest
              else if type =? T_PARAMPROB then [u8 code; 0; 0; 0]
              else if (type =? T_UNREACH) && (code =? 4) && negb (mtu =? 0) then [0; 0] ++ st16 be (cpu_to_be_16 be (u16 mtu))
              else [0; 0; 0; 0] in
  let code := if type =? T_PARAMPROB then 0 else code in
  obind (wr q (h + 4) rest) (fun q =>
  obind (wr q (h + 1) [u8 code]) (fun q =>
  obind (wr q 2 (st16 be (cpu_to_be_16 be len))) (fun q =>
  obind (wr q 0 [64 + HL q; 0]) (fun q =>                                       (* ip_v, ip_tos *)
  obind (wr q 9 [1]) (fun q => Ret (Some q))))))))))))))))))).

(* ofp_icmp.c:565-747: addresses and options; result: the packet for icmp_send *)
Record renv := mkR {
  r_ifp : bool;                            (* the packet has an input interface *)
  r_ours : list Z -> bool;                 (* ofp_get_ifnet_match finds an interface *)
  r_addr : list Z;                         (* first address of the input interface *)
  r_back : list Z -> option (option (list Z)) }. (* route to the destination: first address of its interface *)
Definition strip_options (be : bool) (q : list Z) : outcome (list Z) :=
  let h := Z.to_nat (4 * HL q) in
  if 4 * HL q - 20 <=? 0 then Ret q else
  if Nat.ltb (length q) h then UB else
  let q := firstn 20 q ++ skipn h q in
  obind (wr q 0 [69]) (fun q =>
  obind (be16 q 2) (fun l => wr q 2 (st16 be (cpu_to_be_16 be (u16 (l - (Z.of_nat h - 20))))))).
Definition reflect (be : bool) (r : renv) (q : list Z) : outcome (option (list Z)) :=
  if negb (r_ifp r) then Ret None else
  obind (slice q 16 4) (fun t =>
  obind (slice q 12 4) (fun src =>
  obind (wr q 16 src) (fun q =>
  obind (if r_ours r t then Ret (Some t)
         else match r_back r src with
              | None => if list_eq_dec Z.eq_dec (r_addr r) [0; 0; 0; 0] then Ret None else Ret (Some (r_addr r))
              | Some None => UB
              | Some (Some a) => Ret (Some a)
              end) (fun t =>
  match t with
  | None => Ret None
  | Some t =>
    obind (wr q 12 t) (fun q =>
    obind (wr q 8 [64]) (fun q =>
    obind (strip_options be q) (fun q => Ret (Some q))))
  end)))).
(* ofp_icmp.c:753-777, then ofp_ip_output: identification and header checksum
   (ofp_pkt_processing.c:1132-1141, 1195-1196) *)
Definition icmp_send (be arm : bool) (fuel : nat) (al : Z) (id : Z) (q : list Z) : outcome (list Z) :=
  let hlen := 4 * HL q in let h := Z.to_nat hlen in
  obind (wr q (h + 2) [0; 0]) (fun q =>
  obind (be16 q 2) (fun len =>
  obind (ofp_cksum be arm fuel [{| seg_addr := al; seg_data := q |}] hlen (len - hlen)) (fun c =>
  obind (wr q (h + 2) (st16 be c)) (fun q =>
  obind (wr q 4 (st16 be (cpu_to_be_16 be (u16 id)))) (fun q =>
  obind (wr q 10 [0; 0]) (fun q =>
  obind (ofp_cksum_iph be al q (HL q)) (fun c => wr q 10 (st16 be c)))))))).

(* ofp_icmp.c:421-539: what ofp_icmp_input does with a message at offset off *)
Inductive icmpin := IDrop | ISlow | IReflect (q : list Z) | IAdvise (proto code : Z).
Definition PRC_UNREACH_NET := 8. Definition PRC_MSGSIZE := 5. Definition PRC_UNREACH_PORT := 11.
Definition PRC_ADMIN := 21. Definition PRC_TIMXCEED := 18. Definition PRC_PARAMPROB := 20. Definition PRC_QUENCH := 4.
(* ofp_icmp.c:313-352 *)
Definition icmp_deliver (p : list Z) (o : nat) (icmplen code : Z) : outcome icmpin :=
  if icmplen <? 36 then Ret IDrop else
  obind (ld8 p (o + 8)) (fun b =>
  if icmplen <? 8 + 4 * (b mod 16) + 8 then Ret IDrop else
  if b mod 16 <? 5 then Ret IDrop else
  obind (ld8 p (o + 17)) (fun proto => Ret (IAdvise proto code))).
Definition icmp_input (be arm : bool) (fuel : nat) (al : Z) (now : list Z) (p : list Z) (o : nat) : outcome icmpin :=
  obind (be16 p 2) (fun icmplen =>
  obind (ofp_cksum be arm fuel [{| seg_addr := al; seg_data := p |}] (Z.of_nat o) (icmplen - 4 * HL p)) (fun c =>
  if negb (c =? 0) then Ret IDrop else
  if icmplen <? 8 then Ret IDrop else
  obind (ld8 p o) (fun t =>
  obind (ld8 p (S o)) (fun code =>
  if t =? T_UNREACH then
    if existsb (Z.eqb code) [0; 1; 5; 6; 7; 8; 11; 12; 14; 15] then icmp_deliver p o icmplen PRC_UNREACH_NET
    else if code =? 4 then icmp_deliver p o icmplen PRC_MSGSIZE
    else if (code =? 2) || (code =? 3) then icmp_deliver p o icmplen PRC_UNREACH_PORT
    else if existsb (Z.eqb code) [9; 10; 13] then icmp_deliver p o icmplen PRC_ADMIN
    else Ret IDrop
  else if t =? T_TIMXCEED then if code >? 1 then Ret IDrop else icmp_deliver p o icmplen (code + PRC_TIMXCEED)
  else if t =? T_PARAMPROB then if code >? 1 then Ret IDrop else icmp_deliver p o icmplen PRC_PARAMPROB
  else if t =? T_QUENCH then if negb (code =? 0) then Ret IDrop else icmp_deliver p o icmplen PRC_QUENCH
  else if t =? T_ECHO then obind (wr p o [T_ECHOREPLY]) (fun q => Ret (IReflect q))
  else if t =? T_TSTAMP then
    if icmplen <? 20 then Ret IDrop else
    obind (wr p o [14]) (fun q => obind (wr q (o + 12) now) (fun q => obind (wr q (o + 16) now) (fun q => Ret (IReflect q))))
  else if t =? T_MASKREQ then Ret IDrop
  else if t =? T_REDIRECT then Ret IDrop
  else Ret ISlow)))).
