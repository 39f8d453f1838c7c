(* What the socket layer promises about addresses and ports, in terms of the sockets'
   own addresses (0: any address, no port) only. *)
From Verif Require Import Base PcbModel.

(* socket i holds its port: bound and not closed *)
Definition holds (d : db) (i : nat) (p : pcb) : Prop := pcbs d i = Some p /\ hashed p = true.
Definition connected_as (d : db) (i : nat) (fa fp la lp : Z) : Prop :=
  exists p, holds d i p /\ faddr p = fa /\ fport p = fp /\ laddr p = la /\ lport p = lp.
Definition bound_to (d : db) (i : nat) (la lp : Z) : Prop :=
  exists p, holds d i p /\ faddr p = 0 /\ laddr p = la /\ lport p = lp.

(* who gets a packet from fa:fp to la:lp *)
Definition receiver (d : db) (fa fp la lp : Z) (r : option nat) : Prop :=
  let conn := fun i => connected_as d i fa fp la lp in
  let spec := fun i => bound_to d i la lp in
  let any := fun i => bound_to d i 0 lp in
  match r with
  | Some i => conn i \/ ((forall j, ~ conn j) /\ spec i) \/ ((forall j, ~ conn j) /\ (forall j, ~ spec j) /\ any i)
  | None => forall j, ~ conn j /\ ~ spec j /\ ~ any j
  end.

(* two local addresses of one port exclude each other *)
Definition overlap (a b : Z) : Prop := a = b \/ a = 0 \/ b = 0.
Definition taken (d : db) (a l : Z) : Prop := exists i p, holds d i p /\ lport p = l /\ overlap (laddr p) a.
(* what stops a socket with the options of p from being bound to a:l: with SO_REUSEADDR or SO_REUSEPORT set on
   it only another unconnected socket bound to exactly that *)
Definition clash (d : db) (wild : bool) (a l : Z) : Prop := if wild then taken d a l else exists i, bound_to d i a l.
Definition conflict (d : db) (p : pcb) (a l : Z) : Prop := clash d (negb (o_addr p) && negb (o_port p)) a l.
(* a new socket, not closed *)
Definition unbound (p : pcb) : Prop := hashed p = false /\ dropped p = false /\ laddr p = 0 /\ lport p = 0 /\ faddr p = 0.
(* the range of automatically chosen ports *)
Definition port_lo (c : conf) := Z.min (p_first c) (p_last c).
Definition port_hi (c : conf) := Z.max (p_first c) (p_last c).
(* an address a socket of VRF f can be bound to *)
Definition usable (c : conf) (f a : Z) : Prop := c_primary c <> None /\ (a = 0 \/ multicast a = true \/ c_local c f a = true).
Definition others_same (d d' : db) (i : nat) : Prop := forall j, j <> i -> pcbs d' j = pcbs d j.

(* sane configuration *)
Definition good_conf (c : conf) : Prop :=
  0 < p_first c <= 65535 /\ 0 < p_last c <= 65535 /\ c_primary c <> Some 0 /\ (forall a, c_route c a <> Some 0).
(* legal use: sockets exist (or are new), UDP calls are not made on sockets closed by TCP,
   a connection accepted has addresses and ports *)
Definition alive (d : db) (i : nat) : Prop := exists p, pcbs d i = Some p /\ dropped p = false.
Definition legal (c : conf) (d : db) (o : op) : Prop :=
  match o with
  | OAlloc i _ => pcbs d i = None
  | OOpts i _ _ => pcbs d i <> None
  | OBind i nam _ _ => pcbs d i <> None
  | OConnU i fa _ _ _ => alive d i /\ (fa = 0 -> c_primary c <> None)
  | OConnT i fa _ _ _ => pcbs d i <> None /\ (fa = 0 -> c_primary c <> None)
  | OSend i fa _ _ _ => alive d i
  | ODisc i => alive d i
  | OAccept i la lp fa fp _ _ => la <> 0 /\ lp <> 0 /\ fa <> 0 /\ fp <> 0 /\
      exists p, pcbs d i = Some p /\ hashed p = false /\ dropped p = false /\ laddr p = 0 /\ lport p = 0
  | ODrop i => pcbs d i <> None
  | OFree i => pcbs d i <> None
  end.
Inductive reach (c : conf) : list op -> db -> Prop :=
| reach0 : reach c [] db0
| reachS ops d o d' e : reach c ops d -> legal c d o -> step c d o = Ret (d', e) -> reach c (o :: ops) d'.
