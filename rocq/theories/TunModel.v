(* Model of GRE tunnels (src/ofp_gre.c) and of the encapsulation of VXLAN
   (src/ofp_vxlan.c:169-285).  A packet is the list of its bytes in one segment, with
   the offsets of its link and IP headers; be: host byte order.
   Simplified: a packet starts with its link header, if any; headroom suffices; the
   tunnel interface is found or not (argument); fields the output path fills in
   afterwards (id, checksum, VXLAN's source) are arguments here. *)
From Verif Require Import Base CksumModel Ip4Model.

Record pkt := mkP { data : list Z; l2 : nat; l3 : nat }.
Definition pk16 (v : Z) : list Z := [(v / 256) mod 256; v mod 256].          (* odp_cpu_to_be_16 into a uint16_t *)
Definition pk32 (v : Z) : list Z := [(v / 16777216) mod 256; (v / 65536) mod 256; (v / 256) mod 256; v mod 256].
Definition len (p : list Z) : Z := Z.of_nat (length p).

(* ofp_output_ipv4_to_gre, ofp_output_ipv6_to_gre: 121-164, 167-213. has_l2: the packet has a
   link header (from its start to l3); id, lcl, rem: the bytes of ip_id, ip_local, ip_remote *)
Definition gre_out (v6 has_l2 : bool) (id lcl rem : list Z) (p : pkt) : outcome pkt :=
  let ip := l3 p in
  let l2_size := if has_l2 then Z.of_nat (l3 p - l2 p) mod 256 else 0 in
  let offset := 24 - l2_size in
  let room := if 0 <=? offset then repeat 0 (Z.to_nat offset) ++ data p else skipn (Z.to_nat (- offset)) (data p) in
  obind (ld8 (data p) (ip + 1)) (fun tos =>
  obind (ld8 (data p) (ip + (if v6 then 7 else 8))) (fun ttl =>
  obind (be16 (data p) (ip + (if v6 then 4 else 2))) (fun l =>
  let total := (l + (if v6 then 40 else 0) + 24) mod 65536 in
  obind (wr room 0 ([69; if v6 then 0 else tos] ++ pk16 total ++ id ++ [0; 0; ttl; 47; 0; 0] ++ lcl ++ rem ++ [0; 0] ++ (if v6 then [134; 221] else [8; 0])))
    (fun q => Ret (mkP q 0 0))))).

(* the flags of the GRE header, tested in host byte order: 66-75 *)
Definition gre_flags (be : bool) (b0 b1 : Z) : Z := if be then b0 * 256 + b1 else b1 * 256 + b0.
Definition gre_len (f : Z) : nat :=
  (4 + (if Z.testbit f 15 || Z.testbit f 14 then 4 else 0) + (if Z.testbit f 13 then 4 else 0) + (if Z.testbit f 12 then 4 else 0))%nat.
Inductive gin := Inner (p : pkt) (ptype : Z) | NoTunnel | Dropped.
(* ofp_gre_input: 26-119. vlan: the VLAN of the interface it came in by, or 0 *)
Definition gre_in (be : bool) (vlan : Z) (tunnel : bool) (p : pkt) : outcome gin :=
  if negb tunnel then Ret NoTunnel else
  let hdr := if vlan =? 0 then 14%nat else 18%nat in
  obind (slice (data p) (l2 p) 6) (fun d =>
  obind (slice (data p) (l2 p + 6) 6) (fun s =>
  obind (slice (data p) (l3 p + 22) 2) (fun pt =>
  obind (ld8 (data p) (l3 p + 20)) (fun b0 =>
  obind (ld8 (data p) (l3 p + 21)) (fun b1 =>
  obind (ld8 (data p) (l3 p)) (fun v =>
  let off := (l3 p + Z.to_nat (v mod 16) * 4 + gre_len (gre_flags be b0 b1) - hdr)%nat in
  if (length (data p) <=? off)%nat then Ret Dropped            (* odp_packet_pull_head fails *)
  else
    let q := skipn off (data p) in
    (* with a VLAN both addresses are copied to the destination: 92-95 *)
    obind (if vlan =? 0 then wr q 0 (d ++ s ++ pt) else obind (wr q 0 d) (fun q => obind (wr q 0 s) (fun q => wr q 12 ([129; 0] ++ pk16 vlan ++ pt)))) (fun q =>
    Ret (Inner (mkP q 0 hdr) (256 * nth 0 pt 0 + nth 1 pt 0))))))))).

(* ofp_vxlan_prepend_hdr: 228-285. gw: where the destination MAC is reached *)
Definition vx_out (vni : Z) (id src gw : list Z) (p : list Z) : list Z :=
  let size := len p in
  [69; 0] ++ pk16 (size + 36) ++ id ++ [0; 0; 2; 17; 0; 0] ++ src ++ gw ++            (* ofp_ip *)
  pk16 17777 ++ pk16 4789 ++ pk16 (size + 16) ++ [0; 0] ++                           (* udp *)
  [8; 0; 0; 0] ++ pk32 (vni * 256) ++ p.                                             (* vxlan *)
Inductive vin := Frame (p : pkt) (vni : Z) (mac from : list Z) | Other | VDropped.
(* ofp_vxlan_input: 169-226. known: is there an interface of that vni *)
Definition vx_in (known : Z -> bool) (p : pkt) : outcome vin :=
  let b := data p in
  obind (ld8 b (l3 p + 9)) (fun pr =>
  if negb (pr =? 17) then Ret Other else
  obind (ld8 b (l3 p)) (fun v =>
  let hl := (Z.to_nat (v mod 16) * 4)%nat in
  obind (be16 b (l3 p + hl + 2)) (fun port =>
  if negb (port =? 4789) then Ret Other else
  obind (slice b (l3 p + hl + 12) 3) (fun n =>
  let vni := nth 0 n 0 * 65536 + nth 1 n 0 * 256 + nth 2 n 0 in
  if negb (known vni) then Ret Other else
  obind (slice b (l3 p + 12) 4) (fun from =>
  let vxlen := (l3 p + hl + 16)%nat in
  if (length b <=? vxlen)%nat then Ret VDropped else
  let q := skipn vxlen b in
  obind (be16 q 12) (fun et =>
  obind (slice q 6 6) (fun mac =>
  Ret (Frame (mkP q 0 (if et =? 33024 then 18%nat else 14%nat)) vni mac from)))))))).
