(* TCP selective acknowledgement: src/ofp_tcp_sack.c and the parts of ofp_tcp_input.c and
   ofp_tcp_output.c that call it. Sequence numbers are 32-bit values compared with the
   macros of ofpi_tcp_seq.h. One connection; each call runs under the PCB lock. *)
From Verif Require Import Base TcpSeqModel.

(* struct sackhole, include/ofpi_tcp_var.h:67-72; hid stands for its address *)
Record hole := mkHole { hid : nat; hs : Z; he : Z; hr : Z }.
(* the sender's part of struct tcpcb *)
Record sb := mkSb {
  holes : list hole;            (* snd_holes, in queue order *)
  hint : option nat;            (* sackhint.nexthole *)
  numholes : Z;                 (* snd_numholes *)
  rexb : Z;                     (* sackhint.sack_bytes_rexmit *)
  fack : Z; una : Z; smax : Z;  (* snd_fack, snd_una, snd_max *)
  nid : nat }.                  (* address of the next hole allocated: never that of a live hole *)
(* the scoreboard during one sweep: holes up to and including the current one (current first),
   holes after it in order, and how many holes the zone and the global limit still allow *)
Record work := mkW { left : list hole; right : list hole; whint : option nat; wn : Z; wrex : Z; wnid : nat; wav : Z }.

Definition is_some {A} (x : option A) : bool := match x with Some _ => true | None => false end.
Definition opt_eqb (x : option nat) (i : nat) : bool := match x with Some j => Nat.eqb j i | None => false end.
Definition hd_id (l : list hole) : option nat := match l with [] => None | h :: _ => Some (hid h) end.

(* ofp_tcp_sack.c:243-266 tcp_sackhole_alloc, 289-312 tcp_sackhole_insert: limits *)
Definition can_alloc (maxh : Z) (n av : Z) : bool := negb ((n >=? maxh) || (av <=? 0)).

(* 454-534: the sweep over blocks (last first) and holes (last first) *)
Fixpoint sweep (fuel : nat) (maxh : Z) (w : work) (bs : list (Z * Z)) : outcome work :=
  match fuel with
  | O => Diverge
  | S fuel =>
    match bs, left w with
    | [], _ | _, [] => Ret w
    | (s, e) :: bs', cur :: l =>
      if SEQ_GEQ s (he cur) then sweep fuel maxh w bs' else
      if SEQ_LEQ e (hs cur) then sweep fuel maxh (mkW l (cur :: right w) (whint w) (wn w) (wrex w) (wnid w) (wav w)) bs else
      let rex := s32 (wrex w - u32 (hr cur - hs cur)) in
      let next := fun cur (w : work) =>      (* 524-533, w without cur *)
        let rex := s32 (wrex w + u32 (hr cur - hs cur)) in
        if SEQ_LEQ s (hs cur) then sweep fuel maxh (mkW (left w) (cur :: right w) (whint w) (wn w) rex (wnid w) (wav w)) bs
        else sweep fuel maxh (mkW (cur :: left w) (right w) (whint w) (wn w) rex (wnid w) (wav w)) bs' in
      if SEQ_LEQ s (hs cur) then
        if SEQ_GEQ e (he cur) then           (* 477-488, 317-330 tcp_sackhole_remove *)
          let hint := if opt_eqb (whint w) (hid cur) then hd_id (right w) else whint w in
          sweep fuel maxh (mkW l (right w) hint (wn w - 1) rex (wnid w) (wav w + 1)) bs
        else next (mkHole (hid cur) e (he cur) (SEQ_MAX (hr cur) e)) (mkW l (right w) (whint w) (wn w) rex (wnid w) (wav w))
      else
        if SEQ_GEQ e (he cur) then           (* 496-499 *)
          next (mkHole (hid cur) (hs cur) s (SEQ_MIN (hr cur) s)) (mkW l (right w) (whint w) (wn w) rex (wnid w) (wav w))
        else if can_alloc maxh (wn w) (wav w) then   (* 500-519 *)
          let hint := if is_some (whint w) then whint w else Some (wnid w) in
          let more := SEQ_GT (hr cur) e in
          let temp := mkHole (wnid w) e (he cur) (if more then hr cur else e) in
          let rex := if more then s32 (rex + u32 (hr temp - hs temp)) else rex in
          next (mkHole (hid cur) (hs cur) s (SEQ_MIN (hr cur) s)) (mkW l (temp :: right w) hint (wn w + 1) rex (S (wnid w)) (wav w - 1))
        else next cur (mkW l (right w) (whint w) (wn w) rex (wnid w) (wav w))
    end
  end.

(* 383-391: exchange sort by end *)
Fixpoint bubble (x : Z * Z) (l : list (Z * Z)) : (Z * Z) * list (Z * Z) :=
  match l with
  | [] => (x, [])
  | y :: l => if SEQ_GT (snd x) (snd y) then let r := bubble y l in (fst r, x :: snd r) else let r := bubble x l in (fst r, y :: snd r)
  end.
Fixpoint sort_n (n : nat) (l : list (Z * Z)) : list (Z * Z) :=
  match n, l with S n, x :: l => let r := bubble x l in fst r :: sort_n n (snd r) | _, _ => l end.
Definition sort (l : list (Z * Z)) := sort_n (length l) l.
(* 363-368 *)
Definition valid (una ack smax : Z) (b : Z * Z) : bool :=
  SEQ_GT (snd b) (fst b) && SEQ_GT (fst b) una && SEQ_GT (fst b) ack && SEQ_LT (fst b) smax && SEQ_GT (snd b) una && SEQ_LEQ (snd b) smax.
(* 438-440 *)
Fixpoint skip (fk : Z) (bs : list (Z * Z)) : list (Z * Z) :=
  match bs with b :: t => if SEQ_LT fk (fst b) then skip fk t else bs | [] => [] end.
Definition is_nil {A} (l : list A) : bool := match l with [] => true | _ => false end.

(* 337-535 ofp_tcp_sack_doack; opt: the blocks of the SACK option if there was one (at most
   four: the option has at most 40 bytes) *)
Definition doack (maxh av : Z) (t : sb) (opt : option (list (Z * Z))) (ack : Z) : outcome sb :=
  let b0 := if SEQ_LT (una t) ack && negb (is_nil (holes t)) then [(una t, ack)] else [] in
  let bs := b0 ++ match opt with Some l => filter (valid (una t) ack (smax t)) l | None => [] end in
  let fk := if is_nil (holes t) then SEQ_MAX (una t) ack else fack t in
  match rev (sort bs) with
  | [] => Ret t
  | (s, e) :: rest =>
    let '(w, fk, bs) :=
      if SEQ_LT fk s then
        if can_alloc maxh (numholes t) av then
          let h := mkHole (nid t) fk s fk in
          (mkW (h :: rev (holes t)) [] (if is_some (hint t) then hint t else Some (nid t)) (numholes t + 1) (rexb t) (S (nid t)) (av - 1), e, rest)
        else
          let bs := skip fk ((s, e) :: rest) in
          (mkW (rev (holes t)) [] (hint t) (numholes t) (rexb t) (nid t) av, match bs with b :: _ => if SEQ_LT fk (snd b) then snd b else fk | [] => fk end, bs)
      else (mkW (rev (holes t)) [] (hint t) (numholes t) (rexb t) (nid t) av, if SEQ_LT fk e then e else fk, (s, e) :: rest) in
    obind (sweep (S (length (left w) + length bs)) maxh w bs) (fun w =>
    Ret (mkSb (rev (left w) ++ right w) (whint w) (wn w) (wrex w) fk (una t) (smax t) (wnid w)))
  end.
(* ofp_tcp_input.c:2305-2314, 2580-2606: an acknowledgement arrives *)
Definition on_ack (maxh av : Z) (t : sb) (opt : option (list (Z * Z))) (ack : Z) : outcome sb :=
  if SEQ_GT ack (smax t) then Ret t else
  obind (if is_some opt || negb (is_nil (holes t)) then doack maxh av t opt ack else Ret t) (fun t =>
  if SEQ_LEQ ack (una t) then Ret t else Ret (mkSb (holes t) (hint t) (numholes t) (rexb t) (fack t) ack (smax t) (nid t))).

(* 541-555 ofp_tcp_free_sackholes, each hole by tcp_sackhole_remove (317-330) *)
Definition free_holes (t : sb) : sb :=
  let r := fold_left (fun (x : option nat * Z * list hole) h => let '(i, n, l) := x in (if opt_eqb i (hid h) then hd_id (tl l) else i, n - 1, tl l)) (holes t) (hint t, numholes t, holes t) in
  mkSb [] (fst (fst r)) (snd (fst r)) 0 (fack t) (una t) (smax t) (nid t).

(* 630-648 ofp_tcp_sack_output: the hole to retransmit from, None if the hint points nowhere *)
Fixpoint first_open (l : list hole) : option hole :=
  match l with [] => None | h :: l => if SEQ_LT (hr h) (he h) then Some h else first_open l end.
Fixpoint from_id (i : nat) (l : list hole) : option (list hole) :=
  match l with [] => None | h :: t => if Nat.eqb (hid h) i then Some l else from_id i t end.
Definition sack_output (t : sb) : outcome (sb * option hole) :=
  match hint t with
  | None => Ret (t, None)
  | Some i =>
    match from_id i (holes t) with
    | None | Some [] => UB
    | Some (h :: l) =>
      if SEQ_LT (hr h) (he h) then Ret (t, Some h)
      else match first_open l with
           | Some h => Ret (mkSb (holes t) (Some (hid h)) (numholes t) (rexb t) (fack t) (una t) (smax t) (nid t), Some h)
           | None => Ret (t, None)
           end
    end
  end.
(* ofp_tcp_output.c:236-277, 1008-1009, 1301-1302: retransmit from the hole, at most cwin bytes, up to snd_recover;
   mss: the segment size limit; sent: the packet was sent. Result: sequence number and length *)
Definition set_rxmit (i : nat) (r : Z) (l : list hole) : list hole :=
  map (fun h => if Nat.eqb (hid h) i then mkHole (hid h) (hs h) (he h) r else h) l.
Definition retransmit (t : sb) (cwin recover mss : Z) (sent : bool) : outcome (sb * option (Z * Z)) :=
  obind (sack_output t) (fun r =>
  match r with
  | (t, None) => Ret (t, None)
  | (t, Some p) =>
    let len := if SEQ_GT (he p) recover
               then if SEQ_GEQ (hr p) recover then 0 else Z.min cwin (u32 (recover - hr p))
               else Z.min cwin (u32 (he p - hr p)) in
    let len := Z.min len mss in
    if len <=? 0 then Ret (t, None)
    else if sent then Ret (mkSb (set_rxmit (hid p) (u32 (hr p + len)) (holes t)) (hint t) (numholes t) (s32 (rexb t + len)) (fack t) (una t) (smax t) (nid t), Some (hr p, len))
    else Ret (t, Some (hr p, len))
  end).

(* 655-684 ofp_tcp_sack_adjust: the new snd_nxt *)
Fixpoint adjust_loop (nxt fk : Z) (cur : hole) (l : list hole) : Z :=
  match l with
  | [] => if SEQ_LT nxt (he cur) then nxt else fk
  | p :: l => if SEQ_LT nxt (he cur) then nxt else if SEQ_GEQ nxt (hs p) then adjust_loop nxt fk p l else hs p
  end.
Definition adjust (t : sb) (nxt : Z) : Z :=
  match holes t with
  | [] => nxt
  | cur :: l => if SEQ_GEQ nxt (fack t) then nxt else adjust_loop nxt (fack t) cur l
  end.

(* ---- receiver ---- *)
(* 146-221 ofp_tcp_update_sack_list: sackblks[0..rcv_numsacks) before and after; OFP_MAX_SACK_BLKS = 6 *)
Definition MAX_BLKS : nat := 6.
Fixpoint merge (nxt : Z) (hd : Z * Z) (l : list (Z * Z)) : (Z * Z) * list (Z * Z) :=
  match l with
  | [] => (hd, [])
  | b :: l =>
    if SEQ_GEQ (fst b) (snd b) || SEQ_LEQ (fst b) nxt then merge nxt hd l
    else if SEQ_LEQ (fst hd) (snd b) && SEQ_GEQ (snd hd) (fst b)
    then merge nxt (if SEQ_GT (fst hd) (fst b) then fst b else fst hd, if SEQ_LT (snd hd) (snd b) then snd b else snd hd) l
    else let r := merge nxt hd l in (fst r, b :: snd r)
  end.
(* writing the 7th saved block would be out of bounds *)
Definition update_list (nxt : Z) (l : list (Z * Z)) (s e : Z) : outcome (list (Z * Z)) :=
  let '(h, saved) := merge nxt (s, e) l in
  if Nat.ltb MAX_BLKS (length saved) then UB else
  if SEQ_GT (fst h) nxt then Ret (h :: if Nat.leb MAX_BLKS (length saved) then removelast saved else saved)
  else Ret saved.
(* ofp_tcp_output.c:1506-1533 the blocks put into the option: as many as fit after optlen bytes of other options (in
   network byte order, which the receiver undoes) *)
Definition pad2 (n : Z) : Z := if n =? 0 then 2 else n + (2 - n) mod 4.
Definition option_blocks (optlen : Z) (l : list (Z * Z)) : list (Z * Z) :=
  let o := pad2 optlen in
  if 40 - o <? 10 then [] else firstn (Z.to_nat (Z.min (Z.of_nat (length l)) ((40 - o - 2) / 8))) l.
