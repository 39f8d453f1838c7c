(* Model of the IPv6 upper-layer checksum (src/ofp_in6_cksum.c) and of IPv6 Neighbor
   Discovery (src/ofp_nd6.c, the two message types of src/ofp_icmp6.c, the resolution branch
   of src/ofp_pkt_processing.c).  Memory is a list of bytes as in CksumModel; a read outside
   it is UB. *)
From Verif Require Import Base CksumModel.

(* n bytes at index i *)
Definition slice (m : list Z) (i n : nat) : outcome (list Z) :=
  if (i + n <=? length m)%nat then Ret (firstn n (skipn i m)) else UB.

(* ---- checksum ---- *)

(* include/api/ofp_in6.h:251-279 *)
Definition is_linklocal (a : list Z) : bool :=
  (nth 0 a 0 =? 0xfe) && (Z.land (nth 1 a 0) 0xc0 =? 0x80).
Definition is_multicast (a : list Z) : bool := nth 0 a 0 =? 0xff.
Definition is_mc_linklocal (a : list Z) : bool :=
  is_multicast a && (Z.land (nth 1 a 0) 0x0f =? 2).
Definition is_mc_intfacelocal (a : list Z) : bool :=
  is_multicast a && (Z.land (nth 1 a 0) 0x0f =? 1).

(* src/ofp_in6.c:217-226 *)
Definition in6_getscope (be : bool) (a : list Z) : outcome Z :=
  if is_linklocal a || is_mc_linklocal a || is_mc_intfacelocal a then ld16 be a 2 else Ret 0.

(* the four bytes of a stored odp_cpu_to_be_32(x): network order on either kind of host *)
Definition be32_bytes (x : Z) : list Z :=
  [x / 16777216 mod 256; x / 65536 mod 256; x / 256 mod 256; x mod 256].

(* src/ofp_in6_cksum.c:80-129; [src] [dst] are the 16 bytes of the two addresses *)
Definition in6_cksum_sum (be : bool) (src dst : list Z) (len nxt csum : Z) : outcome Z :=
  let uph := be32_bytes len ++ [0; 0; 0; nxt] in
  obind (add_words be uph 4 0 csum) (fun sum =>
  obind (in6_getscope be src) (fun scope =>
  obind (add_words be src 8 0 sum) (fun sum =>
  let sum := if negb (scope =? 0) then sum - scope else sum in
  obind (in6_getscope be dst) (fun scope =>
  obind (add_words be dst 8 0 sum) (fun sum =>
  Ret (if negb (scope =? 0) then sum - scope else sum)))))).

(* src/ofp_in6_cksum.c:144-166.  The IPv6 header must lie in the first segment. *)
Definition ofp_in6_cksum (be arm : bool) (fuel : nat) (p : pkt) (l3 : Z) (nxt off len : Z)
  : outcome Z :=
  match p with
  | [] => UB
  | s0 :: _ =>
    let ip6 := skipn (Z.to_nat l3) (seg_data s0) in
    obind (slice ip6 8 16) (fun src =>
    obind (slice ip6 24 16) (fun dst =>
    obind (in6_cksum_sum be src dst len nxt 0) (fun sum =>
    obind (ofp_cksum be arm fuel p (u32 (l3 + off)) len) (fun c =>
    obind (int_add sum (u16 (Z.lnot c))) (fun sum =>
    Ret (Z.land (Z.lnot (REDUCE sum)) 65535))))))
  end.

(* ---- output ---- *)

(* the fields of struct ofp_ifnet that are used *)
Record dev := { d_vlan : Z; d_mac : list Z; d_ip6 : list Z }.

(* include/ofpi_util.h:123-126 *)
Definition ip6_is_set (a : list Z) : bool := existsb (fun b => negb (b =? 0)) a.

(* src/ofp_nd6.c:75-93 and 203-221: the Ethernet or VLAN header *)
Definition nd_l2 (be : bool) (d : dev) (dhost : list Z) : list Z :=
  if negb (d_vlan d =? 0)
  then dhost ++ d_mac d ++ st16 be (cpu_to_be_16 be 0x8100)
       ++ st16 be (cpu_to_be_16 be (u16 (d_vlan d))) ++ st16 be (cpu_to_be_16 be 0x86dd)
  else dhost ++ d_mac d ++ st16 be (cpu_to_be_16 be 0x86dd).

(* the 40 bytes of the IPv6 header: ofp_nd6.c:98-117, 137-138; 226-247, 265-266 *)
Definition nd_ip6 (be : bool) (nxt hlim : Z) (src dst : list Z) : list Z :=
  [0x60; 0; 0; 0] ++ st16 be (cpu_to_be_16 be 32) ++ [nxt; hlim] ++ src ++ dst.

(* the 32 bytes of the message: ofp_nd6.c:123-133, 251-261 *)
Definition nd_icmp (type : Z) (cksum target : list Z) (opt : Z) (mac : list Z) : list Z :=
  [type; 0] ++ cksum ++ [0; 0; 0; 0] ++ target ++ [opt; 1] ++ mac.

(* the checksum is computed over the 68 bytes from ip6_plen on, while nxt is 0 and hlim is
   the protocol number (ofp_nd6.c:102-104, 135-138); [al] is the address of ip6_plen *)
Definition nd_packet (be arm : bool) (al : Z) (l2 : list Z) (src dst : list Z)
  (type : Z) (target : list Z) (opt : Z) (mac : list Z) : outcome (list Z) :=
  let tmp := nd_ip6 be 0 58 src dst ++ nd_icmp type [0; 0] target opt mac in
  obind (ofp_cksum_buffer be arm al (skipn 4 tmp) 68) (fun c =>
  Ret (l2 ++ nd_ip6 be 58 255 src dst ++ nd_icmp type (st16 be c) target opt mac)).

(* src/ofp_nd6.c:48-147 after a successful allocation *)
Definition ofp_nd6_ns_output (be arm : bool) (al : Z) (d : dev) (daddr6 taddr6 : list Z)
  : outcome (list Z) :=
  let dst := if ip6_is_set daddr6 then daddr6
             else [0xff; 2; 0; 0; 0; 0; 0; 0; 0; 0; 0; 1; 0xff] ++ skipn 13 taddr6 in
  nd_packet be arm al (nd_l2 be d (repeat 0xff 6)) (d_ip6 d) dst 135 taddr6 1 (d_mac d).

(* src/ofp_nd6.c:176-276 *)
Definition ofp_nd6_na_output (be arm : bool) (al : Z) (d : dev)
  (daddr6 taddr6 tlladdr : list Z) : outcome (list Z) :=
  let dst := if negb (ip6_is_set daddr6)
             then [0xff; 2; 0; 0; 0; 0; 0; 0; 0; 0; 0; 0; 0; 0; 0; 1]
             else daddr6 in
  nd_packet be arm al (nd_l2 be d tlladdr) (d_ip6 d) dst 136 taddr6 2 (d_mac d).

(* ---- input ---- *)
Inductive nd_eff :=
| AddRoute6 (addr : list Z)            (* ofp_set_route6_params(ADD, vrf 0, addr/128, gw ::) *)
| AddMac6 (addr mac : list Z)          (* ofp_add_mac6(ifp, addr, mac) *)
| Sent (frame : list Z).               (* a packet handed to send_pkt_out *)
Inductive nd_ret := NdDrop | NdContinue | NdProcessed | NdOther.

(* src/ofp_nd6.c:19-46; [mem] is the memory from the start of the frame, [ic] the index of
   the ICMPv6 header *)
Definition ofp_nd6_ns_input (mem : list Z) (l3 ic : nat) : outcome (list nd_eff) :=
  obind (ld8 mem (ic + 24)) (fun opt =>
  obind (slice mem (l3 + 8) 16) (fun src =>
  obind (slice mem 6 6) (fun shost =>
  Ret (if (opt =? 1) && ip6_is_set src && negb (is_linklocal src)
       then [AddRoute6 src; AddMac6 src shost] else [])))).

(* src/ofp_nd6.c:149-174 *)
Definition ofp_nd6_na_input (mem : list Z) (ic : nat) : outcome (list nd_eff) :=
  obind (ld8 mem (ic + 24)) (fun opt =>
  if opt =? 2 then
    obind (slice mem (ic + 8) 16) (fun target =>
    obind (slice mem 6 6) (fun shost =>
    Ret [AddRoute6 target; AddMac6 target shost]))
  else Ret []).

(* src/ofp_icmp6.c:412-468, 788-820, 859-884 for an unsegmented packet: [m] are the bytes of
   the packet from its Ethernet header on, [tail] what the buffer holds after them.  Message
   types other than 135 and 136 are not modelled (NdOther).  [al] is where the reply's
   ip6_plen will be. *)
Definition ofp_icmp6_input (be arm : bool) (fuel : nat) (a0 al : Z) (d : dev)
  (m tail : list Z) (l3 off : nat) : outcome (nd_ret * list nd_eff) :=
  let mem := m ++ tail in
  let ic := (l3 + off)%nat in
  if Z.of_nat (length m) <? Z.of_nat off + 8 then Ret (NdDrop, [])
  else
  let len := u32 (Z.of_nat (length m) - Z.of_nat l3 - Z.of_nat off) in
  if len <? 8 then Ret (NdDrop, [])
  else
  obind (ofp_in6_cksum be arm fuel [{| seg_addr := a0; seg_data := m |}]
           (Z.of_nat l3) 58 (Z.of_nat off) len) (fun sum =>
  if negb (sum =? 0) then Ret (NdDrop, [])
  else
  obind (ld8 mem ic) (fun type =>
  obind (ld8 mem (ic + 1)) (fun code =>
  if type =? 135 then
    if negb (code =? 0) then Ret (NdDrop, [])
    else if len <? 24 then Ret (NdDrop, [])
    else
    obind (ofp_nd6_ns_input mem l3 ic) (fun effs =>
    obind (if len <? 32 then ld8 mem (ic + 24) else Ret 0) (fun opt =>
    if (len <? 32) && negb (opt =? 1) then Ret (NdDrop, effs)
    else
    obind (slice mem (l3 + 8) 16) (fun src =>
    obind (slice mem (ic + 8) 16) (fun target =>
    obind (slice mem (ic + 26) 6) (fun lladdr =>
    obind (ofp_nd6_na_output be arm al d src target lladdr) (fun f =>
    Ret (NdProcessed, effs ++ [Sent f])))))))
  else if type =? 136 then
    if negb (code =? 0) then Ret (NdDrop, [])
    else if len <? 24 then Ret (NdDrop, [])
    else
    obind (ofp_nd6_na_input mem ic) (fun effs => Ret (NdContinue, effs))
  else Ret (NdOther, [])))).

(* ---- resolution when a packet for [dst] leaves through next hop (gw, mac):
   src/ofp_pkt_processing.c:1381-1402.  None: the MAC is known and nothing is asked. *)
Definition nd_resolve (be arm : bool) (al : Z) (d : dev) (gw mac dst : list Z)
  : outcome (option (list nd_eff)) :=
  if existsb (fun b => negb (b =? 0)) (firstn 6 mac) then Ret None
  else
  obind (ofp_nd6_ns_output be arm al d gw dst) (fun f =>
  Ret (Some [AddRoute6 dst; Sent f])).
