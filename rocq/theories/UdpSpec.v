(* C102, C103: who gets a datagram, and what becomes of the packets. *)
From Verif Require Import Base McastModel McastSpec UdpModel.

(* the packet handed to socket s, if any: how often *)
Definition gets (s : nat) (e : eff) : bool := match e with Queued t _ | Taken t _ => Nat.eqb s t | _ => false end.
Definition times (s : nat) (l : list eff) : nat := length (filter (gets s) l).
(* packet h finds an end *)
Definition ends (h : nat) (e : eff) : bool := match e with Queued _ g | Taken _ g | Freed g => Nat.eqb h g | _ => false end.
Definition born (h : nat) (e : eff) : bool := match e with Copied g => Nat.eqb h g | _ => false end.
Definition count_of (p : eff -> bool) (l : list eff) : nat := length (filter p l).

(* a socket bound to the port, and to the address or to any, not connected
   elsewhere: the datagram is addressed to it *)
Definition addressed (d : dgram) (k : sock) : Prop :=
  k_v4 k = true /\ k_lport k = d_dport d /\ (k_laddr k = 0 \/ k_laddr k = d_dst d) /\
  (k_faddr k = 0 \/ k_faddr k = d_src d) /\ (k_fport k = 0 \/ k_fport k = d_sport d).
(* and, to a group, the socket is a member of it on the interface and takes the source *)
Definition for_it (d : dgram) (k : sock) : Prop :=
  addressed d k /\ (is_mc (d_dst d) = true -> multi_filter (k_imo k) (d_if d) (d_dst d) (d_src d) = Pass).
(* the sockets [order], as configured by ks, with their memberships *)
Definition with_imo (k : sock) (l : list mem) : sock :=
  mkK' (k_v4 k) (k_laddr k) (k_lport k) (k_faddr k) (k_fport k) (k_minttl k) (k_reuse k) l (k_event k) (k_room k).
Definition pcbs (order : list nat) (ks : nat -> sock) (x : list (list mem)) : list (nat * sock) :=
  map (fun s => (s, with_imo (ks s) (nth s x []))) order.
Definition well_formed (d : dgram) : Prop := (d_hl d + 8 <= d_len d)%nat /\ d_dport d <> 0 /\ d_ck d = true.
Definition takes (k : sock) : bool := k_event k || k_room k.
