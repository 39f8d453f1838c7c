(* Model of the ICMPv6 error path: icmp6_notify_error of src/ofp_icmp6.c and the ports read by
   ofp_udp6_ctlinput.  [m] are the bytes that odp_packet_l3_ptr makes accessible (the
   contiguous part of the packet from its IPv6 header on, ip6len = length m); any read outside
   them is UB. *)
From Verif Require Import Base CksumModel NdModel.

(* include/api/ofp_ip6.h:259-264: ip6f_offlg is tested in memory order *)
Definition IP6F_OFF_MASK (be : bool) : Z := if be then 0xfff8 else 0xf8ff.

(* src/ofp_icmp6.c:926-1016, the loop.  [fin]: index of the final destination, if a routing
   header supplied one.  The comparisons are unsigned; eoff is never negative. *)
Fixpoint err_walk (be : bool) (fuel : nat) (m : list Z) (eoff : nat) (nxt : Z) (fin : option nat)
  : outcome (option (nat * Z * option nat)) :=
  match fuel with
  | O => Diverge
  | S f =>
    if (nxt =? 0) || (nxt =? 60) || (nxt =? 51) then      (* HOPOPTS, DSTOPTS, AH *)
      if (length m <? eoff + 2)%nat then Ret None
      else
      obind (ld8 m (eoff + 1)) (fun len =>
      obind (ld8 m eoff) (fun nx =>
      let step := if nxt =? 51 then Z.shiftl (len + 2) 2 else Z.shiftl (len + 1) 3 in
      err_walk be f m (eoff + Z.to_nat step) nx fin))
    else if nxt =? 43 then                                 (* ROUTING *)
      if (length m <? eoff + 4)%nat then Ret None
      else
      obind (ld8 m (eoff + 1)) (fun len =>
      obind (ld8 m (eoff + 2)) (fun type =>
      obind (ld8 m (eoff + 3)) (fun segleft =>
      obind (ld8 m eoff) (fun nx =>
      let rthlen := Z.to_nat (Z.shiftl (len + 1) 3) in
      if negb (segleft =? 0) && (type =? 0) then
        if (length m <? eoff + rthlen)%nat then Ret None
        else
        let hops := len / 2 in
        let fin := if (len mod 2 =? 0) && negb (hops =? 0)
                   then Some (eoff + 8 + 16 * Z.to_nat (hops - 1))%nat else fin in
        err_walk be f m (eoff + rthlen) nx fin
      else err_walk be f m (eoff + rthlen) nx fin))))
    else if nxt =? 44 then                                 (* FRAGMENT *)
      if (length m <? eoff + 8)%nat then Ret None
      else
      obind (ld16 be m (eoff + 2)) (fun offlg =>
      if negb (Z.land offlg (IP6F_OFF_MASK be) =? 0) then Ret (Some (eoff, nxt, fin))
      else
      obind (ld8 m eoff) (fun nx => err_walk be f m (eoff + 8) nx fin))
    else Ret (Some (eoff, nxt, fin))
  end.

(* what is handed to the protocol's pr_ctlinput: the two addresses, the offset of the
   upper-layer header of the packet the error is about, and its protocol *)
Record notice := { n_dst : list Z; n_src : list Z; n_off : nat; n_nxt : Z }.

(* src/ofp_icmp6.c:889-925, 1017-1056.  [off] is the offset of the ICMPv6 header.  None: the
   packet is dropped without a notice. *)
Definition icmp6_notify_error (be : bool) (fuel : nat) (m : list Z) (off : nat) (icmp6len : Z)
  : outcome (option notice) :=
  if u32 icmp6len <? 48 then Ret None
  else if (length m <? off + 48)%nat then Ret None
  else
  let eip := (off + 8)%nat in
  obind (ld8 m (eip + 6)) (fun nxt =>
  obind (err_walk be fuel m (off + 48) nxt None) (fun r =>
  match r with
  | None => Ret None
  | Some (eoff, nxt, fin) =>
    obind (slice m (match fin with Some i => i | None => eip + 24 end)%nat 16) (fun dst =>
    obind (slice m (eip + 8) 16) (fun src =>
    Ret (Some {| n_dst := dst; n_src := src; n_off := eoff; n_nxt := nxt |})))
  end)).

(* src/ofp_udp6_usrreq.c:551-567: the two ports (source, destination) read at the offset *)
Definition udp6_ctl_ports (be : bool) (m : list Z) (n : notice) : outcome (Z * Z) :=
  obind (ld16 true m (n_off n)) (fun sport =>
  obind (ld16 true m (n_off n + 2)) (fun dport => Ret (sport, dport))).
