(* What IPv4 and IPv6 sockets of one table may expect, in terms of their own addresses. *)
From Verif Require Import Base Pcb6Model.

(* socket i is open and bound *)
Definition holds (d : db) (i : nat) (p : pcb) : Prop := pcbs d i = Some p /\ hashed p = true.

(* the IPv6 sockets connected to f:fq at a:q, those bound to a:q *)
Definition conn6 (d : db) (f : addr) (fq : Z) (a : addr) (q : Z) (i : nat) : Prop :=
  exists p, holds d i p /\ v6 p = true /\ fa p = f /\ fp p = fq /\ la p = a /\ lp p = q.
Definition bound6 (d : db) (a : addr) (q : Z) (i : nat) : Prop :=
  exists p, holds d i p /\ v6 p = true /\ fa p = any /\ la p = a /\ lp p = q.
(* the same for the sockets taking part in IPv4, with 32-bit addresses *)
Definition conn4 (d : db) (f fq a q : Z) (i : nat) : Prop :=
  exists p, holds d i p /\ v4 p = true /\ snd (fa p) = f /\ fp p = fq /\ snd (la p) = a /\ lp p = q.
Definition bound4 (d : db) (a q : Z) (i : nat) : Prop :=
  exists p, holds d i p /\ v4 p = true /\ snd (fa p) = 0 /\ snd (la p) = a /\ lp p = q.

(* first choice a connected socket, then one bound to the destination, then one bound to any
   address, then nobody *)
Definition choice (conn spec wild : nat -> Prop) (r : option nat) : Prop :=
  match r with
  | Some i => conn i \/ ((forall j, ~ conn j) /\ spec i) \/
              ((forall j, ~ conn j) /\ (forall j, ~ spec j) /\ wild i)
  | None => forall j, ~ conn j /\ ~ spec j /\ ~ wild j
  end.
Definition receiver6 d f fq a q r := choice (conn6 d f fq a q) (bound6 d a q) (bound6 d any q) r.
Definition receiver4 d f fq a q r := choice (conn4 d f fq a q) (bound4 d a q) (bound4 d 0 q) r.

(* the port is taken for address a; with SO_REUSEADDR or SO_REUSEPORT on the new socket only
   an unconnected socket on exactly the same address counts *)
Definition overlap (a b : addr) : Prop := a = b \/ a = any \/ b = any.
Definition taken6 (d : db) (a : addr) (q : Z) : Prop :=
  exists i p, holds d i p /\ v6 p = true /\ lp p = q /\ overlap (la p) a.
Definition conflict6 (d : db) (p : pcb) (a : addr) (q : Z) : Prop :=
  if share p then exists i, bound6 d a q i else taken6 d a q.

(* legal calls: IPv6 calls on IPv6 sockets and so on; a connect names a peer, and the address
   chosen for this end is one; ports tried are ports *)
Definition legal (d : db) (o : op) : Prop :=
  match o with
  | Attach4 i | Attach6 i _ => pcbs d i = None
  | Share i _ | Close i => pcbs d i <> None
  | Bind4 i a q cands => (exists p, pcbs d i = Some p /\ v6 p = false) /\ Forall (fun x => x <> 0) cands
  | Bind6 i a q cands => (exists p, pcbs d i = Some p /\ v6 p = true) /\ Forall (fun x => x <> 0) cands
  | Connect6 i f fq src cands => (exists p, pcbs d i = Some p /\ v6 p = true) /\ f <> any /\ src <> any /\
      Forall (fun x => x <> 0) cands
  | Disconnect6 i => exists p, pcbs d i = Some p /\ v6 p = true
  end.
Inductive reach (h : hfun) : list op -> db -> Prop :=
| reach0 : reach h [] db0
| reachS ops d o d' e : reach h ops d -> legal d o -> step h d o = Ret (d', e) -> reach h (o :: ops) d'.
