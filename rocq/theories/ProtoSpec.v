(* Which function serves a protocol, independently of the tables that say so. *)
From Verif Require Import Base ProtoModel.

(* the sockets OFP offers: UDP (protocol 17) as datagram and TCP (6) as stream sockets, for
   IPv4 (family 2) and IPv6 (3); protocol 0 means the default of the type *)
Inductive offered : Z -> Z -> Z -> attach -> Prop :=
| udp_v4 proto : proto = 0 \/ proto = 17 -> offered 2 OFP_SOCK_DGRAM proto udp_attach
| tcp_v4 proto : proto = 0 \/ proto = 6 -> offered 2 OFP_SOCK_STREAM proto tcp_attach
| udp_v6 proto : proto = 0 \/ proto = 17 -> offered 3 OFP_SOCK_DGRAM proto udp6_attach
| tcp_v6 proto : proto = 0 \/ proto = 6 -> offered 3 OFP_SOCK_STREAM proto tcp6_attach.

(* IANA protocol numbers; everything else is for the slow path; [nsa]: the number of IPsec
   security associations configured *)
Definition serves4 (nsa p : Z) (h : handler) : Prop :=
  h = if p =? 17 then udp_input else if p =? 6 then tcp_input else if p =? 1 then icmp_input
      else if p =? 2 then igmp_input else if p =? 47 then gre_input
      else if ((p =? 50) || (p =? 51)) && negb (nsa =? 0) then ipsec_input
      else ip_input.
(* extension headers are not understood; 59 is "no next header" *)
Definition serves6 (p : Z) (h : handler) : Prop :=
  h = if p =? 17 then udp6_input else if p =? 6 then tcp6_input else if p =? 58 then icmp6_input
      else if (p =? 0) || (p =? 43) || (p =? 44) || (p =? 60) then ip6_unrecognized
      else if p =? 59 then ip6_none else ip6_input.

(* an ICMPv6 message that ofp_icmp6_input wants the slow path to see: of a type it does not know, a
   neighbour advertisement, a router renumbering, and with an operating system behind it a
   neighbour solicitation *)
Definition well_formed (p : pkt6) : Prop := icmp_long p = true /\ icmp_sum p = true /\ 8 <= icmp_len p.
Definition for_slow_path (sp : bool) (p : pkt6) : Prop :=
  well_formed p /\
  ((icmp_type p = 136 /\ icmp_code p = 0 /\ 24 <= icmp_len p) \/
   (sp = true /\ icmp_type p = 135 /\ icmp_code p = 0 /\ 24 <= icmp_len p) \/
   (icmp_type p = 138 /\ (icmp_code p = 0 \/ icmp_code p = 1) /\ 16 <= icmp_len p) \/
   ~ In (icmp_type p) [1; 2; 3; 4; 128; 129; 135; 136; 138]).

(* what becomes of an IPv6 packet addressed to this host *)
Definition verdict6 (sp : bool) (p : Z) (k : pkt6) (r : ret) : Prop :=
  (p = 17 -> (hook k <> CONTINUE -> r = hook k) /\
             (hook k = CONTINUE -> udp_good k = false -> r = DROP) /\
             (hook k = CONTINUE -> udp_good k = true -> udp_known k = true -> r = PROCESSED)) /\
  (p = 6 -> r = if tcp_long k then tcp_ret k else DROP) /\
  (p = 58 -> r <> CONTINUE /\ (~ well_formed k -> r = DROP)) /\
  (In p [0; 43; 44; 60] -> r = DROP) /\
  (p = 59 -> r = PROCESSED) /\
  (~ In p [0; 6; 17; 43; 44; 58; 59; 60] -> r = CONTINUE).
