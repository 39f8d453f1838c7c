(* IPv6 pseudo header (RFC 2460 8.1), the Neighbor Solicitation and Advertisement formats
   (RFC 4861 4.3, 4.4) and the address rules the messages must follow. *)
From Verif Require Import Base CksumSpec.

Definition net32 (x : Z) : list Z := net16 (x / 65536) ++ net16 (x mod 65536).

(* source, destination, upper-layer length, zeros, next header; then the message *)
Definition pseudo6 (src dst : list Z) (nxt : Z) (payload : list Z) : list Z :=
  src ++ dst ++ net32 (Z.of_nat (length payload)) ++ [0; 0; 0; nxt] ++ payload.

(* n bytes of the frame from byte i on are b *)
Definition field (f : list Z) (i : nat) (b : list Z) : Prop :=
  firstn (length b) (skipn i f) = b.

(* A well-formed ICMPv6 message of 32 bytes in a frame whose Ethernet (VLAN) header is l2:
   IPv6 version 6, payload length 32, next header 58, hop limit 255, the two addresses, and an
   ICMPv6 checksum that a receiver verifies. *)
Record icmp6_frame (l2 : list Z) (f src dst : list Z) : Prop := {
  if_l2 : field f 0 l2;
  if_len : length f = (length l2 + 72)%nat;
  if_version : field f (length l2) [0x60; 0; 0; 0];
  if_plen : field f (length l2 + 4) (net16 32);
  if_next_hop : field f (length l2 + 6) [58; 255];
  if_src : field f (length l2 + 8) src;
  if_dst : field f (length l2 + 24) dst;
  if_cksum : rfc1071 (pseudo6 src dst 58 (skipn (length l2 + 40) f)) = 0
}.

(* a solicitation (type 135) or advertisement (136) for [target] that carries [mac] in a
   link-layer address option (1 source, 2 target) of length 8 *)
Record nd_message (l2len : nat) (f : list Z) (type : Z) (target : list Z) (opt : Z)
  (mac : list Z) : Prop := {
  nm_type_code : field f (l2len + 40) [type; 0];
  nm_target : field f (l2len + 48) target;
  nm_option : field f (l2len + 64) [opt; 1];
  nm_mac : field f (l2len + 66) mac
}.

Definition bytes_n (n : nat) (l : list Z) : Prop := length l = n /\ bytes_ok l.
Definition ip6_any : list Z := repeat 0 16.
Definition all_nodes : list Z := [0xff; 2; 0; 0; 0; 0; 0; 0; 0; 0; 0; 0; 0; 0; 0; 1].
(* RFC 4291 2.7.1: ff02::1:ff00:0/104 followed by the low 24 bits of the address *)
Definition solicited_node (a : list Z) : list Z :=
  [0xff; 2; 0; 0; 0; 0; 0; 0; 0; 0; 0; 1; 0xff] ++ skipn 13 a.

(* the Ethernet header with an optional 802.1Q tag *)
Definition l2_header (vlan : Z) (dst src : list Z) : list Z :=
  dst ++ src ++ (if vlan =? 0 then [] else [0x81; 0] ++ net16 vlan) ++ [0x86; 0xdd].

(* addresses whose second 16-bit word is free or zero: everything except fe80::/10,
   ffx1::/16 and ffx2::/16 with a non-zero second word *)
Definition scope_free (a : list Z) : Prop :=
  (nth 0 a 0 = 0xfe /\ 0x80 <= nth 1 a 0 < 0xc0) \/
  (nth 0 a 0 = 0xff /\ (nth 1 a 0 mod 16 = 1 \/ nth 1 a 0 mod 16 = 2)) ->
  nth 2 a 0 = 0 /\ nth 3 a 0 = 0.
