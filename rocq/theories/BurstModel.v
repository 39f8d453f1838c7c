(* Model of src/ofp_pkt_send_burst.c: per-port tables in which packets wait until
   a burst is full.  One thread (the tables are thread-local).  The tables are
   one array of pkt_tx_burst_size * NUM_PORTS handles; touching anything outside
   it is UB (the slack of one cache line for alignment is not counted).  Packets
   are integers, 0 is ODP_PACKET_INVALID. *)
From Verif Require Import Base.

(* tx_burst, the array, pkt_tbl_cnt of each port; NUM_PORTS is length (cnt s) *)
Record st := mkS { burst : nat; mem : list Z; cnt : list nat }.

Definition rd {A} (l : list A) (i : nat) : outcome A := match nth_error l i with Some x => Ret x | None => UB end.
Fixpoint wr {A} (l : list A) (i : nat) (x : A) : outcome (list A) :=
  match l, i with
  | [], _ => UB
  | _ :: l, O => Ret (x :: l)
  | y :: l, S i => obind (wr l i x) (fun l => Ret (y :: l))
  end.

(* pkt_tbl[0 .. n-1] of the table that begins at slot a *)
Fixpoint rd_range (l : list Z) (a n : nat) : outcome (list Z) :=
  match n with O => Ret [] | S n => obind (rd l a) (fun x => obind (rd_range l (S a) n) (fun r => Ret (x :: r))) end.

(* what leaves: packets accepted by the interface's queue, packets freed *)
Inductive out := Tx (port : nat) (p : Z) | Free (port : nat) (p : Z).

(* send_table: lines 23-51.  r: what ofp_send_pkt_multi returns, an environment
   choice (negative, or how many of the first packets were accepted) *)
Definition send_table (port : nat) (r : Z) (s : st) : outcome (st * list out) :=
  obind (rd (cnt s) port) (fun n =>
  obind (rd_range (mem s) (burst s * port) n) (fun ps =>
  let k := Z.to_nat (if r <? 0 then 0 else r) in
  obind (wr (cnt s) port O) (fun c =>
  Ret (mkS (burst s) (mem s) c, map (Tx port) (firstn k ps) ++ map (Free port) (skipn k ps))))).

(* send_pkt_out: lines 53-71; r is used if the table is sent *)
Definition send_pkt_out (port : nat) (p : Z) (r : Z) (s : st) : outcome (st * list out) :=
  obind (rd (cnt s) port) (fun n =>
  obind (wr (mem s) (burst s * port + n) p) (fun m =>
  obind (wr (cnt s) port (S n)) (fun c =>
  let s := mkS (burst s) m c in
  if (S n =? burst s)%nat then send_table port r s else Ret (s, [])))).

(* ofp_send_pending_pkt_nocheck: lines 73-90; ports from [port] on, [n] of them *)
Fixpoint flush_from (port n : nat) (r : nat -> Z) (s : st) : outcome (st * list out) :=
  match n with
  | O => Ret (s, [])
  | S n =>
    obind (rd (cnt s) port) (fun c =>
    obind (if (c =? 0)%nat then Ret (s, []) else send_table port (r port) s) (fun '(s, o) =>
    obind (flush_from (S port) n r s) (fun '(s, o2) => Ret (s, o ++ o2))))
  end.
(* ofp_send_pending_pkt: lines 92-97 *)
Definition flush (r : nat -> Z) (s : st) : outcome (st * list out) :=
  if (1 <? burst s)%nat then flush_from 0 (length (cnt s)) r s else Ret (s, []).

(* ofp_send_pkt_out_init_local: lines 101-131, allocation succeeds *)
Definition init (b ports : nat) : st := mkS b (repeat 0 (b * ports)) (repeat O ports).

(* ofp_send_pkt_out_term_local: lines 133-148 *)
Fixpoint term_from (port n : nat) (s : st) : outcome (list out) :=
  match n with
  | O => Ret []
  | S n =>
    obind (rd (cnt s) port) (fun c =>
    obind (rd_range (mem s) (burst s * port) c) (fun ps =>
    obind (term_from (S port) n s) (fun o => Ret (map (Free port) ps ++ o))))
  end.
Definition term (s : st) : outcome (list out) := term_from 0 (length (cnt s)) s.

Inductive ev := Send (port : nat) (p : Z) (r : Z) | Pending (r : nat -> Z).
Definition step (e : ev) (s : st) : outcome (st * list out) :=
  match e with Send port p r => send_pkt_out port p r s | Pending r => flush r s end.
Fixpoint run (l : list ev) (s : st) : outcome (st * list out) :=
  match l with
  | [] => Ret (s, [])
  | e :: l => obind (step e s) (fun '(s, o) => obind (run l s) (fun '(s, o2) => Ret (s, o ++ o2)))
  end.
