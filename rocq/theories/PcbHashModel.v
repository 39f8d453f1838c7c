(* The PCB hash tables: their creation (src/ofp_subr_hash.c, src/ofp_in_pcb.c) and the index of
   a chain (include/ofpi_in_pcb.h).  A table is named by where it lies; all its elements are
   empty lists after creation.  malloc succeeds. *)
From Verif Require Import Base.

(* where a table lies: one of the two arrays of the TCP shared memory, or the n-th malloc *)
Inductive place := tcp_hashtbl | tcp_porthashtbl | heap (n : nat).
Record table := mkTable { at_ : place; elems : Z }.              (* elems: how many it has *)
Record pcbinfo := mkInfo { hashbase : table; hashmask : Z; porthashbase : table; porthashmask : Z }.
Definition TCBHASHSIZE := 1024.                                   (* include/ofpi_tcp_shm.h:35 *)
Definition UDBHASHSIZE := 128.                                    (* src/ofp_udp_usrreq.c:82 *)
Definition null := mkTable (heap 0) 0.

(* src/ofp_subr_hash.c:49-62 ofp_tcp_hashinit: initialises hashsize elements, gives the mask, a
   uint64_t *)
Definition ofp_tcp_hashinit (hashsize : Z) (t : table) : outcome Z :=
  if elems t <? hashsize then UB else Ret ((hashsize - 1) mod 2 ^ 64).
(* src/ofp_subr_hash.c:82-84: the loop; hashsize is a long, elements an int *)
Fixpoint double (fuel : nat) (elements hashsize : Z) : outcome Z :=
  match fuel with
  | O => Diverge
  | S f => if hashsize <=? elements
           then if 2 ^ 63 <=? hashsize * 2 then UB else double f elements (hashsize * 2)
           else Ret hashsize
  end.
(* src/ofp_subr_hash.c:67-98 ofp_hashinit_flags; [n]: which malloc it is *)
Definition ofp_hashinit (elements : Z) (n : nat) : outcome (table * Z) :=
  obind (double 64 elements 1) (fun hashsize =>
  let hashsize := Z.shiftr hashsize 1 in
  Ret (mkTable (heap n) hashsize, (hashsize - 1) mod 2 ^ 64)).

(* src/ofp_in_pcb.c:174-188 of ofp_in_pcbinfo_init, for TCP as called by src/ofp_tcp_subr.c:272-285
   without OFP_RSS, and for UDP as called by src/ofp_udp_usrreq.c:142 *)
Definition tcp_info : outcome pcbinfo :=
  let a := mkTable tcp_hashtbl TCBHASHSIZE in
  let b := mkTable tcp_porthashtbl TCBHASHSIZE in
  obind (ofp_tcp_hashinit TCBHASHSIZE a) (fun m =>
  obind (ofp_tcp_hashinit TCBHASHSIZE b) (fun pm =>
  Ret (mkInfo a m b pm))).
Definition udp_info : outcome pcbinfo :=
  obind (ofp_hashinit UDBHASHSIZE 1) (fun a =>
  obind (ofp_hashinit UDBHASHSIZE 2) (fun b =>
  Ret (mkInfo (fst a) (snd a) (fst b) (snd b)))).
(* src/ofp_in_pcb.c:101-149 ofp_tcp_rss_in_pcbinfo_init, one CPU of the loop: with OFP_RSS every
   CPU has a pcbinfo, zeroed with the shared memory; the second mask goes to ipi_hashmask *)
Definition tcp_rss_info1 : outcome pcbinfo :=
  let i := mkInfo null 0 null 0 in
  let a := mkTable tcp_hashtbl TCBHASHSIZE in
  let b := mkTable tcp_porthashtbl TCBHASHSIZE in
  obind (ofp_tcp_hashinit TCBHASHSIZE a) (fun m =>
  let i := mkInfo a m (porthashbase i) (porthashmask i) in
  obind (ofp_tcp_hashinit TCBHASHSIZE b) (fun m =>
  Ret (mkInfo (hashbase i) m b (porthashmask i)))).
Fixpoint tcp_rss_infos (ncpu : nat) : outcome (list pcbinfo) :=
  match ncpu with
  | O => Ret []
  | S n => obind tcp_rss_info1 (fun i => obind (tcp_rss_infos n) (fun l => Ret (i :: l)))
  end.

(* include/ofpi_in_pcb.h:527-530; ports and addresses as they lie in memory, [be]: big-endian
   machine.  faddr is a uint32_t, the ports uint16_t. *)
Definition be16_to_cpu (be : bool) (x : Z) : Z := if be then x else Z.lor (Z.shiftr x 8) (Z.shiftl (Z.land x 255) 8).
Definition INP_PCBHASH (be : bool) (faddr lport fport mask : Z) : Z :=
  Z.land (Z.lxor (Z.lxor faddr (Z.shiftr faddr 16)) (be16_to_cpu be (Z.lxor lport fport))) mask.
Definition INP_PCBPORTHASH (be : bool) (lport mask : Z) : Z := Z.land (be16_to_cpu be lport) mask.
