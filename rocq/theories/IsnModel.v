(* Model of ofp_tcp_new_isn (src/ofp_tcp_subr.c:1628-1701), which makes the
   initial sequence number of every connection this side opens.  hz is the
   unsigned long 1000000UL / 10000 (include/ofpi_timer.h:27-28), so the
   products with it are computed in 64 bits.  ISN_LOCK makes calls serial.
   V_isn_* are the five statics of lines 1632-1636. *)
From Verif Require Import Base Md5Model.

Record isn := mkIsn { secret : list Z; last : Z; last_reseed : Z; offset : Z; offset_old : Z }.

(* the statics at program start *)
Definition isn0 : isn := mkIsn (repeat 0 32) 0 0 0 0.

(* the bytes, as they are in memory, of the ports and addresses of the pcb *)
Record tuple := mkTuple { fport : list Z; lport : list Z; faddr : list Z; laddr : list Z }.

(* the values ofp_timer_ticks returns at lines 1659, 1661, 1663, 1689, 1691 and
   1696; [k_junk] is what the stack held where isn_ctx.buffer is *)
Record clock := mkClock { k_cond : Z; k_secret : Z; k_seed : Z; k_cmp : Z; k_proj : Z; k_last : Z; k_junk : list Z }.

(* an int as the eight bytes of a uint64_t: lines 1661-1662 *)
Definition cycles (t : Z) : list Z :=
  let x := u64 t in enc4 (u32 x) ++ enc4 (x / 4294967296).

(* lines 1656-1664 *)
Definition reseed (interval : Z) (k : clock) (s : isn) : isn :=
  if (last_reseed s =? 0)
     || (0 <? interval) && (u64 (u32 (last_reseed s) + u64 (u32 interval * 100)) <? u32 (k_cond k))
  then mkIsn (cycles (k_secret k) ++ skipn 8 (secret s)) (last s) (k_seed k) (offset s) (offset_old s)
  else s.

(* lines 1667-1686 *)
Definition hash (t : tuple) (k : clock) (s : isn) : outcome Z :=
  obind (md5 (k_junk k) [fport t; lport t; faddr t; laddr t; secret s]) (fun '(d, _) => Ret (le4 d)).

(* lines 1687-1697; SEQ_GT on line 1692 *)
Definition tick_offset (k : clock) (s : isn) : isn :=
  let off := u32 (offset s + 4096) in
  if negb (k_cmp k =? last s) then
    let projected := u32 (offset_old s + u64 (1048576 / 100 * u64 (s32 (k_proj k - last s)))) in
    let off := if 0 <? s32 (projected - off) then projected else off in
    mkIsn (secret s) (k_last k) (last_reseed s) off off
  else mkIsn (secret s) (last s) (last_reseed s) off (offset_old s).

(* ofp_tcp_new_isn *)
Definition new_isn (interval : Z) (t : tuple) (k : clock) (s : isn) : outcome (isn * Z) :=
  let s := reseed interval k s in
  obind (hash t k s) (fun h =>
  let s := tick_offset k s in
  Ret (s, u32 (h + offset s))).

(* a history of calls, and the numbers they returned *)
Fixpoint calls_of (interval : Z) (l : list (tuple * clock)) (s : isn) : outcome (isn * list Z) :=
  match l with
  | [] => Ret (s, [])
  | (t, k) :: l =>
    obind (new_isn interval t k s) (fun '(s, v) =>
    obind (calls_of interval l s) (fun '(s, vs) => Ret (s, v :: vs)))
  end.
