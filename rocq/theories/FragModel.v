(* IPv4 fragmentation, src/ofp_pkt_processing.c:794-910, and the choice made by
   ofp_ip_output_common_inline (1198-1210). Packets as in ReassModel: the L3
   data is the header followed by p_data. The environment says, per fragment,
   whether ofp_packet_alloc succeeds, the identity and header address of the new
   packet, and whether ofp_ip_output_continue keeps it. The header checksum
   written by ofp_ip_output_continue (1218-1221, 1131-1141, no offload) is part
   of the fragment; addresses, MAC header and user area are left out. *)
From Verif Require Import Base CksumModel ReassModel.

Definition OFP_IP_DF : Z := 16384.                    (* api/ofp_ip.h:74 *)
Definition opt_number (o : Z) : Z := Z.land o 31.     (* api/ofp_ip.h:145 OFP_IPOPT_NUMBER *)
Definition opt_copied (o : Z) : bool := negb (Z.land o 128 =? 0).   (* api/ofp_ip.h:143 *)

Definition at_ (m : list Z) (i : Z) : option Z := if i <? 0 then None else nth_error m (Z.to_nat i).

(* 817-834; m: the bytes from ip + 1 on (options, then payload); len = iopts_len.
   acc: fopts so far (its size is never exceeded, see copy_opts_len) *)
Fixpoint copy_opts (fuel : nat) (m : list Z) (pos len : Z) (acc : list Z) : outcome (list Z) :=
  match fuel with
  | O => Diverge
  | S k =>
    if pos >=? len then Ret acc else
    match at_ m pos with
    | None => UB
    | Some o =>
      if (opt_number o =? 0) || (opt_number o =? 1) then copy_opts k m (pos + 1) len acc
      else match at_ m (pos + 1) with
           | None => UB
           | Some l0 =>
             let l := if l0 >? len - pos then len - pos else l0 in
             copy_opts k m (pos + l) len (if opt_copied o then acc ++ ztake l (zdrop pos m) else acc)
           end
    end
  end.

(* 836 *)
Definition pad4 (l : list Z) : list Z := l ++ repeat 0 (Z.to_nat ((- zlen l) mod 4)).

Record fenv := mkFE { fe_alloc : bool; fe_uid : Z; fe_al : Z; fe_out : bool }.
Inductive fret := FProcessed | FDrop | FNeedFrag.

(* 889-895 and the checksum of ofp_chksum_insert: the header of a fragment *)
Definition frag_hdr (be : bool) (al : Z) (h : iphdr) (hl len off : Z) (opts : list Z) : outcome iphdr :=
  let h0 := mkH hl (h_tos h) len (h_id h) off (h_ttl h) (h_p h) 0 (h_src h) (h_dst h) opts in
  obind (ofp_cksum_iph be al (hdr_bytes be h0 (cpu_to_be_16 be len) (cpu_to_be_16 be off) 0) hl) (fun sum =>
  Ret (mkH hl (h_tos h) len (h_id h) off (h_ttl h) (h_p h) sum (h_src h) (h_dst h) opts)).

(* 847-906. Result: the fragments handed on, in order, and the return code *)
Fixpoint frag_loop (fuel : nat) (be : bool) (env : nat -> fenv) (k : nat) (h : iphdr) (fopts data : list Z)
  (pl_len mtu pl_pos : Z) (first : bool) : outcome (list ippkt * fret) :=
  match fuel with
  | O => Diverge
  | S fuel' =>
    if pl_pos >=? pl_len then Ret ([], FProcessed) else
    let f_hl := if first then h_hl h else Z.shiftr (20 + zlen fopts) 2 in
    let f_hlen := Z.shiftl f_hl 2 in
    let seg_len := Z.land (mtu - f_hlen) 65528 in
    let flen := if pl_len - pl_pos >? seg_len then seg_len else pl_len - pl_pos in
    if negb (fe_alloc (env k)) then Ret ([], FDrop) else
    if first && (h_hl h <? 5) then UB                     (* 874: memcpy of a negative size *)
    else if zlen data <? pl_pos + flen then Ret ([], FDrop)   (* 882: copy_to_mem fails *)
    else
      let frag_new := u16 (h_off h + pl_pos / 8) in
      let pl_pos' := pl_pos + flen in
      let frag_new := if pl_pos' <? pl_len then Z.lor frag_new OFP_IP_MF else frag_new in
      obind (frag_hdr be (fe_al (env k)) h f_hl (u16 (flen + f_hlen)) frag_new (if first then h_opt h else fopts)) (fun fh =>
      if negb (fe_out (env k)) then Ret ([], FDrop) else
      obind (frag_loop fuel' be env (S k) h fopts data pl_len mtu pl_pos' false) (fun '(l, r) =>
      Ret (mkP (fe_uid (env k)) fh (ztake flen (zdrop pl_pos data)) :: l, r)))
  end.

(* 794-910 *)
Definition fragment_pkt (fuel : nat) (be : bool) (env : nat -> fenv) (p : ippkt) (mtu : Z) : outcome (list ippkt * fret) :=
  let h := p_hdr p in
  let ip_hlen := Z.shiftl (h_hl h) 2 in
  obind (copy_opts fuel (h_opt h ++ p_data p) 0 (ip_hlen - 20) []) (fun fopts =>
  frag_loop fuel be env 0 h (pad4 fopts) (p_data p) (h_len h - ip_hlen) mtu 0 true).

(* 1198-1210: packets small enough are passed on as they are *)
Definition output_mtu (fuel : nat) (be : bool) (env : nat -> fenv) (p : ippkt) (mtu : Z) : outcome (list ippkt * fret) :=
  if h_len (p_hdr p) >? mtu then
    if negb (Z.land (h_off (p_hdr p)) OFP_IP_DF =? 0) then Ret ([], FNeedFrag)
    else fragment_pkt fuel be env p mtu
  else Ret ([p], FProcessed).
