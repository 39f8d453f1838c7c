(* Model of the input of UDP datagrams: ofp_udp_input and udp_append
   (src/ofp_udp_usrreq.c:198-277, 298-590) up to the receive buffers.
   Simplified: a datagram is given by its header fields; hooks and VXLAN let it
   pass; one thread; a build without slow path (SP); whether the checksum is
   right is given (C11-C15), as is the result of the PCB look-up (C61). *)
From Verif Require Import Base McastModel.

Record dgram := mkD {
  d_if : Z; d_src : Z; d_dst : Z;          (* interface, IP addresses in host order *)
  d_sport : Z; d_dport : Z; d_ttl : Z;
  d_ck : bool;                             (* uh_sum is 0, or right *)
  d_l2 : nat; d_hl : nat; d_len : nat      (* bytes before the IP header, of it, and from it on *)
}.
(* a PCB with its socket *)
Record sock := mkK' {
  k_v4 : bool; k_laddr : Z; k_lport : Z; k_faddr : Z; k_fport : Z; k_minttl : Z;
  k_reuse : bool;                          (* SO_REUSEPORT or SO_REUSEADDR *)
  k_imo : list mem;                        (* inp_moptions *)
  k_event : bool;                          (* an event function takes packets *)
  k_room : bool                            (* the receive buffer has a free slot *)
}.
(* what becomes of packets: 0 is the packet received, 1, 2, ... its copies *)
Inductive eff :=
| Copied (h : nat)                         (* odp_packet_copy *)
| Queued (s h : nat) | Taken (s h : nat)   (* in the buffer of socket s, or taken by its event function *)
| Freed (h : nat)
| Icmp.                                    (* ofp_icmp_error: port unreachable *)
Inductive res := Processed | Drop | Continue.   (* OFP_PKT_PROCESSED, _DROP, _CONTINUE *)

(* udp_append: 198-277; packet_accepted_as_event (ofp_uipc_sockbuf.c:69-96),
   ofp_sbappendaddr_locked (186-210) *)
Definition append (s : nat) (k : sock) (h : nat) : list eff :=
  if k_event k then [Taken s h] else if k_room k then [Queued s h] else [Freed h].

(* the tests of the loop: 432-491 *)
Definition matches (d : dgram) (k : sock) : bool :=
  (k_lport k =? d_dport d) && k_v4 k && ((k_laddr k =? 0) || (k_laddr k =? d_dst d)) &&
  ((k_faddr k =? 0) || (k_faddr k =? d_src d)) && ((k_fport k =? 0) || (k_fport k =? d_sport d)) &&
  (if is_mc (d_dst d) then match multi_filter (k_imo k) (d_if d) (d_dst d) (d_src d) with Pass => true | _ => false end else true).
(* the loop over the PCBs: 431-513; copy_ok: does odp_packet_copy succeed *)
Fixpoint mloop (copy_ok : nat -> bool) (d : dgram) (l : list (nat * sock)) (last : option (nat * sock)) (h : nat) : list eff * option (nat * sock) :=
  match l with
  | [] => ([], last)
  | (s, k) :: l =>
    if negb (matches d k) then mloop copy_ok d l last h
    else
      let '(e, h) := match last with
                     | None => ([], h)
                     | Some (s', k') => (if copy_ok h then Copied h :: append s' k' h else [], S h)
                     end in
      if k_reuse k then let '(e2, last) := mloop copy_ok d l (Some (s, k)) h in (e ++ e2, last)
      else (e, Some (s, k))
  end.
Definition is_bc (a : Z) : bool := (a =? 4294967295) || (a =? 0).     (* ofp_in_broadcast: 282-295 *)

(* ofp_udp_input: 298-590 *)
Definition input (copy_ok : nat -> bool) (blackhole : bool) (socks : list (nat * sock)) (lookup : dgram -> option (nat * sock)) (d : dgram) : outcome (list eff * res) :=
  if (d_l2 d + d_len d <? d_hl d + 8)%nat then Ret ([], Continue)
  else if (d_len d <? d_hl d + 8)%nat then UB            (* the header is read beyond the packet *)
  else if d_dport d =? 0 then Ret ([], Drop)
  else if negb (d_ck d) then Ret ([], Drop)
  else if is_mc (d_dst d) || is_bc (d_dst d) then
    let '(e, last) := mloop copy_ok d socks None 1 in
    match last with
    | None => Ret (e, Drop)
    | Some (s, k) => Ret (e ++ append s k 0, Processed)
    end
  else
    match lookup d with
    | None => if blackhole then Ret ([], Drop) else Ret ([Icmp], Processed)
    | Some (s, k) =>
      if negb (k_minttl k =? 0) && (d_ttl d <? k_minttl k) then Ret ([Freed 0], Processed)
      else Ret (append s k 0, Processed)
    end.
