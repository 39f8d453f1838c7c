(* Model of the MAC table of VXLAN tunnels (src/ofp_vxlan.c:28-167), a hash table
   shared without locks.
   Simplified: a MAC address is its key, the number of its six bytes with the first
   one lowest (memcpy into a uint64_t on a little-endian machine); the time-out runs
   once per tick (restarting its timer never fails). *)
From Verif Require Import Base.

Definition N : Z := 8192.                          (* NUM_MAC_DST_ENTRIES: 47 *)
Definition FREE : Z := 0.                          (* KEY_FREE: 48 *)
Definition RECYCLED : Z := 72057594037927937.      (* KEY_RECYCLED: 49 *)
Definition AGE : Z := 180000.                      (* VXLAN_MAC_IP_AGE_TICKS: 51-53 *)
Definition W : Z := 4294967296.                    (* 2^32 *)

Record slot := mkSlot { key : Z; addr : Z; tmo : Z }.              (* struct mac_dst: 55-59 *)
Definition table := Z -> slot.
Record mem := mkMem { tbl : table; next_check : Z; tick : Z }.     (* struct ofp_vxlan_mem: 61-65 *)
Definition init : mem := mkMem (fun _ => mkSlot 0 0 0) 0 0.        (* ofp_vxlan_init_global: memset, 320 *)

Definition put (t : table) (i : Z) (s : slot) : table := fun j => if j =? i then s else t j.
Definition home (m : Z) : Z := (m / W) mod N.                      (* the last two bytes: 75, 124 *)
(* __atomic_compare_exchange_n on the key of entry i: the table, and what old becomes *)
Definition cas (t : table) (i old new : Z) : table * Z :=
  if key (t i) =? old then (put t i (mkSlot new (addr (t i)) (tmo (t i))), old) else (t, key (t i)).
Definition store_addr (t : table) (i dst : Z) : table := put t i (mkSlot (key (t i)) dst (tmo (t i))).
Definition store_tmo (t : table) (i x : Z) : table := put t i (mkSlot (key (t i)) (addr (t i)) x).

(* ofp_vxlan_set_mac_dst: 71-118: the tables other threads may see one after the
   other: after each atomic operation.  old is not reset between entries *)
Fixpoint set_loop (fuel : nat) (t : table) (i hash m dst now old : Z) : list table :=
  match fuel with
  | O => [t]
  | S fuel =>
    let '(t1, old1) := cas t i old m in
    if (old1 =? FREE) || (old1 =? m) then
      [t1; store_addr t1 i dst; store_tmo (store_addr t1 i dst) i ((now + AGE) mod W)]
    else
      let '(t2, old2) := cas t1 i RECYCLED m in
      if (old2 =? RECYCLED) || (old2 =? m) then
        [t1; t2; store_addr t2 i dst; store_tmo (store_addr t2 i dst) i ((now + AGE) mod W)]
      else
        let j := (i + 1) mod N in
        if j =? hash then [t1; t2]                                  (* no more space *)
        else t1 :: t2 :: set_loop fuel t2 j hash m dst now old2
  end.
Definition set_trace (m dst : Z) (s : mem) : list table :=
  set_loop (Z.to_nat N) (tbl s) (home m) (home m) m dst (tick s) FREE.
Definition set (m dst : Z) (s : mem) : mem := mkMem (last (set_trace m dst s) (tbl s)) (next_check s) (tick s).

(* ofp_vxlan_get_mac_dst: 120-143; 0: none *)
Fixpoint get_loop (fuel : nat) (t : table) (i hash m : Z) : Z :=
  match fuel with
  | O => 0
  | S fuel =>
    if key (t i) =? m then addr (t i)
    else if key (t i) =? FREE then 0
    else let j := (i + 1) mod N in if j =? hash then 0 else get_loop fuel t j hash m
  end.
Definition get_in (t : table) (m : Z) : Z := get_loop (Z.to_nat N) t (home m) (home m) m.
Definition get (m : Z) (s : mem) : Z := get_in (tbl s) m.

(* ofp_vxlan_tmo: 145-167; the sum is one of unsigned longs *)
Definition timeout (s : mem) : mem :=
  let e := tbl s (next_check s) in
  let t := if negb (key e =? FREE) && negb (key e =? RECYCLED) && (tmo e + AGE <? tick s)
           then put (tbl s) (next_check s) (mkSlot RECYCLED (addr e) (tmo e)) else tbl s in
  mkMem t ((next_check s + 1) mod N) ((tick s + 1) mod W).

Inductive ev := Learn (m dst : Z) | Tick.
Definition step (e : ev) (s : mem) : mem := match e with Learn m d => set m d s | Tick => timeout s end.
Definition run (h : list ev) (s : mem) : mem := fold_left (fun s e => step e s) h s.
