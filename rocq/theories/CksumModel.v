(* Model of src/ofp_in_cksum.c.  [be : bool] is the host byte order (true = big endian);
   the theorems hold for both.  Memory is a list of bytes; an access outside it is UB.
   (An access through a misaligned uint16_t/uint32_t pointer is modelled as the plain load
   x86 and ARMv8 perform; only the bounds are checked.) *)
From Verif Require Import Base.

(* loads of 1, 2 and 4 bytes at index i *)
Definition ld8 (m : list Z) (i : nat) : outcome Z :=
  match nth_error m i with Some b => Ret b | None => UB end.
Definition ld16 (be : bool) (m : list Z) (i : nat) : outcome Z :=
  match nth_error m i, nth_error m (S i) with
  | Some b0, Some b1 => Ret (if be then b0 * 256 + b1 else b0 + b1 * 256)
  | _, _ => UB
  end.
Definition ld32 (be : bool) (m : list Z) (i : nat) : outcome Z :=
  obind (ld16 be m i) (fun w0 => obind (ld16 be m (S (S i))) (fun w1 =>
  Ret (if be then w0 * 65536 + w1 else w0 + w1 * 65536))).
(* bytes of a stored uint16_t *)
Definition st16 (be : bool) (x : Z) : list Z :=
  if be then [x / 256; x mod 256] else [x mod 256; x / 256].
(* odp_cpu_to_be_16 / odp_be_to_cpu_16 *)
Definition cpu_to_be_16 (be : bool) (x : Z) : Z := if be then x else swap16 x.

(* src/ofp_in_cksum.c:15-20 *)
Definition ofp_cksum_fold (sum : Z) : Z :=
  let sum := u64 (Z.shiftr sum 32 + Z.land sum 4294967295) in
  let sum := u64 (Z.shiftr sum 16 + Z.land sum 65535) in
  u16 (sum + Z.shiftr sum 16).

(* n consecutive "sum += *d++" *)
Fixpoint add_dwords (be : bool) (m : list Z) (n : nat) (i : nat) (sum : Z)
  : outcome (nat * Z) :=
  match n with
  | O => Ret (i, sum)
  | S n' => obind (ld32 be m i) (fun d => add_dwords be m n' (i + 4)%nat (u64 (sum + d)))
  end.

(* src/ofp_in_cksum.c:22-62.  [al] is the numeric address of the header; ip_hl is an int.
   The switch runs ip_hl more loads for 1..11 and none otherwise. *)
Definition ofp_cksum_iph (be : bool) (al : Z) (m : list Z) (ip_hl : Z) : outcome Z :=
  let odd_word := negb (Z.land al 2 =? 0) in
  obind (if odd_word
         then obind (ld16 be m 0) (fun w => Ret (2%nat, u64 (0 + w), ip_hl - 1))
         else Ret (0%nat, 0, ip_hl))
  (fun '(i, sum, ip_hl) =>
  obind (add_dwords be m 4 i sum) (fun '(i, sum) =>
  let ip_hl := ip_hl - 4 in
  let n := if (1 <=? ip_hl) && (ip_hl <=? 11) then Z.to_nat ip_hl else 0%nat in
  obind (add_dwords be m n i sum) (fun '(i, sum) =>
  obind (if odd_word then obind (ld16 be m i) (fun w => Ret (u64 (sum + w))) else Ret sum)
  (fun sum => Ret (u16 (Z.lnot (ofp_cksum_fold sum))))))).

(* src/ofp_in_cksum.c:91-103: the 32-byte loop; fuel bounds the iterations *)
Fixpoint cksum_loop32 (be : bool) (m : list Z) (fuel : nat) (i : nat) (nleft : Z) (sum : Z)
  : outcome (nat * Z * Z) :=
  if nleft >=? 32 then
    match fuel with
    | O => Diverge
    | S f => obind (add_dwords be m 8 i sum) (fun '(i, sum) =>
             cksum_loop32 be m f i (nleft - 32) sum)
    end
  else Ret (i, nleft, sum).

(* src/ofp_in_cksum.c:64-130.  [arm] selects the __ARM_ARCH branch (81-88), [al] is the
   numeric address of the buffer, m the readable memory starting there. *)
Definition ofp_cksum_buffer (be arm : bool) (al : Z) (m : list Z) (len : Z) : outcome Z :=
  let nleft := len in
  let sum := 0 in
  obind (if negb (Z.land al 2 =? 0) && (nleft >=? 2)
         then obind (ld16 be m 0) (fun w => Ret (2%nat, nleft - 2, u64 (sum + w)))
         else Ret (0%nat, nleft, sum))
  (fun '(i, nleft, sum) =>
  obind (if arm && negb (Z.land (al + Z.of_nat i) 4 =? 0) && (nleft >=? 4)
         then obind (ld32 be m i) (fun d => Ret ((i + 4)%nat, nleft - 4, u64 (sum + d)))
         else Ret (i, nleft, sum))
  (fun '(i, nleft, sum) =>
  obind (cksum_loop32 be m (Z.to_nat (nleft / 32)) i nleft sum)
  (fun '(i, nleft, sum) =>
  let k := Z.shiftr nleft 2 in
  let n := if (1 <=? k) && (k <=? 7) then Z.to_nat k else 0%nat in
  obind (add_dwords be m n i sum)
  (fun '(i, sum) =>
  let nleft := Z.land nleft 3 in
  obind (if nleft >? 1
         then obind (ld16 be m i) (fun w => Ret ((i + 2)%nat, nleft - 2, u64 (sum + w)))
         else Ret (i, nleft, sum))
  (fun '(i, nleft, sum) =>
  obind (if nleft =? 1
         then obind (ld8 m i) (fun b => Ret (u64 (sum + cpu_to_be_16 be (u16 (b * 256)))))
         else Ret sum)
  (fun sum => Ret (u16 (Z.lnot (ofp_cksum_fold sum))))))))).

(* A packet: its segments in order, each with the numeric address of its data and the data. *)
Record seg := { seg_addr : Z; seg_data : list Z }.
Definition pkt := list seg.

(* src/ofp_in_cksum.c:132-135: REDUCE with ADDCARRY on a non-negative int *)
Definition REDUCE (sum : Z) : Z :=
  let l := u32 sum in
  let s := l mod 65536 + l / 65536 in
  if s >? 65535 then s - 65535 else s.

(* "sum += tmp" on int; overflow is undefined *)
Definition int_add (a b : Z) : outcome Z :=
  let r := a + b in if (INT_MIN <=? r) && (r <=? INT_MAX) then Ret r else UB.

(* src/ofp_in_cksum.c:150-182, the while loop.  Note line 153-156: on [off >= seglen] the
   code subtracts and "continue"s WITHOUT moving to the next segment. *)
Fixpoint cksum_segs (be arm : bool) (fuel : nat) (p : pkt) (off len done sum : Z)
  : outcome Z :=
  match fuel with
  | O => Diverge
  | S f =>
    match p with
    | [] => Ret sum                                   (* seg == ODP_PACKET_SEG_INVALID *)
    | s :: rest =>
      let seglen := Z.of_nat (length (seg_data s)) in
      if off >=? seglen then cksum_segs be arm f p (off - seglen) len done sum
      else
        let cksum_len := if seglen - off >? len then len else seglen - off in
        obind (ofp_cksum_buffer be arm (seg_addr s + off)
                 (skipn (Z.to_nat off) (seg_data s)) cksum_len) (fun t =>
        let tmp := u16 (Z.lnot t) in
        let tmp := if done mod 2 =? 1
                   then Z.lor (Z.shiftl (Z.land tmp 255) 8) (Z.shiftr (Z.land tmp 65280) 8)
                   else tmp in
        obind (int_add sum tmp) (fun sum =>
        let done := u32 (done + cksum_len) in
        if done =? len then Ret sum
        else cksum_segs be arm f rest 0 len done sum))
    end
  end.

(* src/ofp_in_cksum.c:137-186.  Line 161 compares cksum_len with the FULL len, not with what
   is left; that is what cksum_segs does. *)
Definition ofp_cksum (be arm : bool) (fuel : nat) (p : pkt) (off len : Z) : outcome Z :=
  obind (cksum_segs be arm fuel p off len 0 0) (fun sum =>
  Ret (u16 (Z.lnot (REDUCE sum)))).

(* ---- struct ofp_ip as raw bytes (include/api/ofp_ip.h); only what the checksum needs ---- *)
Definition ip_hl_of (h : list Z) : Z := nth 0 h 0 mod 16.
Definition ip_len_of (h : list Z) : Z := nth 2 h 0 * 256 + nth 3 h 0.   (* odp_be_to_cpu_16 *)
Definition ip_p_of (h : list Z) : Z := nth 9 h 0.
Definition ip_src_of (h : list Z) : list Z := firstn 4 (skipn 12 h).
Definition ip_dst_of (h : list Z) : list Z := firstn 4 (skipn 16 h).

(* src/ofp_in_cksum.c:188-194, 210-215: the 20 bytes of the zeroed struct ofp_ipovly after
   the four assignments (ih_x1[9], ih_pr, ih_len, ih_src, ih_dst) *)
Definition ipovly (be : bool) (h : list Z) : list Z :=
  let off := 4 * ip_hl_of h in
  repeat 0 9 ++ [ip_p_of h] ++ st16 be (cpu_to_be_16 be (u16 (ip_len_of h - off)))
  ++ ip_src_of h ++ ip_dst_of h.

(* sum += w[0]; ... sum += w[9]; *)
Fixpoint add_words (be : bool) (m : list Z) (n i : nat) (sum : Z) : outcome Z :=
  match n with
  | O => Ret sum
  | S n' => obind (ld16 be m i) (fun w => obind (int_add sum w) (fun s =>
            add_words be m n' (i + 2)%nat s))
  end.

(* src/ofp_in_cksum.c:196-223.  The header is read through odp_packet_l3_ptr, i.e. from the
   segment data at the l3 offset; it must lie in the first segment.  ip_len is taken from the
   header; a header length larger than ip_len makes the unsigned length wrap (line 219). *)
Definition ofp_in4_cksum (be arm : bool) (fuel : nat) (p : pkt) (l3 : Z) : outcome Z :=
  match p with
  | [] => UB
  | s0 :: _ =>
    let h := skipn (Z.to_nat l3) (seg_data s0) in
    if (length h <? 20)%nat then UB
    else
      let off := 4 * ip_hl_of h in
      obind (add_words be (ipovly be h) 10 0 0) (fun sum =>
      obind (ofp_cksum be arm fuel p (u32 (l3 + off)) (u32 (ip_len_of h - off))) (fun c =>
      obind (int_add sum (u16 (Z.lnot c))) (fun sum =>
      Ret (Z.land (Z.lnot (REDUCE sum)) 65535))))
  end.
