(* What the configuration calls are meant to do (C98): the addresses of each
   interface, in the order the library documents (the first one is the primary
   address; when an address is removed the last one takes its place:
   src/ofp_portconf.c:2033-2036), and the user's routes. *)
From Verif Require Import Base IfcModel.

Definition addrs := list (Z * Z).                              (* address, mask length *)
(* per interface that exists: VRF, addresses; user routes: VRF, prefix, length, next hop *)
Record conf := mkC { c_if : list (key * (Z * addrs)); c_rt : list (Z * Z * Z * Z) }.
Definition addrs_of (k : key) (c : conf) : addrs := match look k (c_if c) with Some (_, l) => l | None => [] end.

(* remove an address, the last one takes its place *)
Fixpoint srem (a : Z) (l : addrs) : addrs :=
  match l with
  | [] => []
  | x :: t => if fst x =? a then match t with [] => [] | _ => last t x :: removelast t end else x :: srem a t
  end.
(* make (a, n) the primary address *)
Definition primary (a n : Z) (l : addrs) : addrs := match l with [] => [(a, n)] | x :: t => (a, n) :: t ++ [x] end.

(* who has a route, and to what *)
Inductive route_of (c : conf) (v d l : Z) : nhop -> Prop :=
| ro_addr k la n : look k (c_if c) = Some (v, la) -> In (d, n) la -> l = 32 -> route_of c v d l (Local k)
| ro_net k la a : look k (c_if c) = Some (v, la) -> In (a, l) la -> d = netof a l -> route_of c v d l (Net k)
| ro_user x : In (v, d, l, x) (c_rt c) -> route_of c v d l (User x).

(* a route to (v, d, l) would not clash *)
Definition if_free (c : conf) (v d l : Z) : bool :=
  forallb (fun '(_, (v', la)) => negb (v' =? v) ||
    forallb (fun '(a, n) => negb ((l =? 32) && (a =? d)) && negb ((n =? l) && (netof a n =? d))) la) (c_if c).
Definition user_free (c : conf) (v d l : Z) : bool :=
  forallb (fun '(v', d', l', _) => negb ((v' =? v) && (d' =? d) && (l' =? l))) (c_rt c).
Definition fresh (c : conf) (v a n : Z) : bool :=
  if_free c v a 32 && user_free c v a 32 && if_free c v (netof a n) n && user_free c v (netof a n) n.

Definition vlans (c : conf) : nat := length (filter (fun p => negb (snd (fst p) =? 0)) (c_if c)).
Definition addr_ok (a n : Z) : bool := (0 <? a) && (a <? 4294967296) && (1 <=? n) && (n <=? 31).
Definition port_ok (k : key) : bool := (0 <=? fst k) && (fst k <? IF_MAX).

(* the configuration before the new primary address is added *)
Definition before_up (k : key) (v : Z) (c : conf) : conf :=
  mkC (put k (v, match look k (c_if c) with
                 | Some (v', x :: l) => if v' =? v then srem (fst x) (x :: l) else []
                 | _ => []
                 end) (c_if c)) (c_rt c).
Definition apply (e : ev) (c : conf) : conf :=
  match e with
  | Up k v a n => let c := before_up k v c in mkC (put k (v, primary a n (addrs_of k c)) (c_if c)) (c_rt c)
  | AddIp k v a n => mkC (put k (v, addrs_of k c ++ [(a, n)]) (c_if c)) (c_rt c)
  | DelIp k a n => match look k (c_if c) with Some (v, l) => mkC (put k (v, srem a l) (c_if c)) (c_rt c) | None => c end
  | Down k => match look k (c_if c) with
              | Some (v, l) => mkC (if snd k =? 0 then put k (v, []) (c_if c) else del k (c_if c)) (c_rt c)
              | None => c
              end
  | Route v d l x => mkC (c_if c) ((v, d, l, x) :: c_rt c)
  | Unroute v d l => mkC (c_if c) (filter (fun '(v', d', l', _) => negb ((v' =? v) && (d' =? d) && (l' =? l))) (c_rt c))
  end.

(* what the theorem asks of a call: sensible arguments; no two addresses of a VRF
   equal or in the same subnet and no user route in their place; at most seven
   addresses; a VLAN interface is brought up when it does not exist, or has an
   address and stays in its VRF; addresses are added to and removed from
   interfaces that have one; a VLAN interface is left to create *)
Definition clean (num_vrf : Z) (nv : nat) (e : ev) (c : conf) : bool :=
  match e with
  | Up k v a n =>
    port_ok k && (0 <=? v) && (v <? num_vrf) && addr_ok a n && fresh (before_up k v c) v a n &&
    match look k (c_if c) with
    | None => negb (snd k =? 0) && (vlans c <? nv)%nat
    | Some (v', l) => (snd k =? 0) || (v' =? v) && negb (length l =? 0)%nat
    end
  | AddIp k v a n =>
    port_ok k && addr_ok a n && fresh c v a n &&
    match look k (c_if c) with Some (v', l) => (v' =? v) && (0 <? length l)%nat && (length l <? 7)%nat | None => false end
  | DelIp k a n => port_ok k && match look k (c_if c) with Some (_, l) => existsb (fun '(a', n') => (a' =? a) && (n' =? n)) l | None => false end
  | Down k => port_ok k && match look k (c_if c) with Some _ => true | None => false end
  | Route v d l x => (0 <=? v) && (v <? num_vrf) && (0 <=? l) && (l <=? 32) && (netof d l =? d) && if_free c v d l && user_free c v d l
  | Unroute v d l => (v <? num_vrf) && (netof d l =? d) && existsb (fun '(v', d', l', _) => (v' =? v) && (d' =? d) && (l' =? l)) (c_rt c)
  end.
Fixpoint clean_all (num_vrf : Z) (nv : nat) (l : list ev) (c : conf) : bool :=
  match l with [] => true | e :: l => clean num_vrf nv e c && clean_all num_vrf nv l (apply e c) end.
Definition after (l : list ev) (c : conf) : conf := fold_left (fun c e => apply e c) l c.
Definition conf0 : conf := mkC (map (fun p => ((p, 0), (0, []))) [0; 1; 2; 3; 4; 5; 6; 7; 9; 10]) [].

(* ip_addr_info[] that holds the addresses l: each with its mask length and
   broadcast address, then unused entries *)
Definition slot_of (p : Z * Z) : slot := mkSl (fst p) (snd p) (Z.lor (fst p) (4294967295 - (4294967296 - 2 ^ (32 - snd p)))).
Definition emb (c : nat) (l : addrs) : list slot := map slot_of l ++ repeat zslot (c - length l).
