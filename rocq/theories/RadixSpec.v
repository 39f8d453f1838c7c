(* Specification of a routing table: a partial map from prefixes (bit strings) to next hops. *)
From Verif Require Import Base.

Definition routes := list bool -> option Z.
Definition no_routes : routes := fun _ => None.
Definition set_route (r : routes) (p : list bool) (v : option Z) : routes :=
  fun q => if list_eq_dec Bool.bool_dec q p then v else r q.

(* longest-prefix match of the address bits [a] *)
Definition lpm (r : routes) (a : list bool) (res : option Z) : Prop :=
  match res with
  | Some nh => exists n, (n <= length a)%nat /\ r (firstn n a) = Some nh /\
               forall k, (n < k <= length a)%nat -> r (firstn k a) = None
  | None => forall k, (k <= length a)%nat -> r (firstn k a) = None
  end.

(* bits of a byte string, most significant first *)
Definition byte_bits (b : Z) : list bool :=
  [Z.testbit b 7; Z.testbit b 6; Z.testbit b 5; Z.testbit b 4;
   Z.testbit b 3; Z.testbit b 2; Z.testbit b 1; Z.testbit b 0].
Definition bytes_bits (l : list Z) : list bool := flat_map byte_bits l.
(* bits of a 32-bit address in host order, most significant first *)
Definition u32_bits (a : Z) : list bool :=
  map (fun i => Z.testbit a (31 - Z.of_nat i)) (seq 0 32).

(* the 128 bits of an IPv6 address; [m] is the readable memory starting at its first byte *)
Definition addr6_bits (m : list Z) : list bool := firstn 128 (bytes_bits m).

(* what a user asks for, per routing table [vrf]; [A] is the type of addresses *)
Inductive rop (A : Type) :=
| Add (vrf : nat) (a : A) (len : nat) (nh : Z)
| Del (vrf : nat) (a : A) (len : nat).
Arguments Add {A}. Arguments Del {A}.

(* what the library answers *)
Inductive rres :=
| Added            (* the route is installed *)
| AlreadyThere     (* refused: the prefix has a route *)
| NoMemory         (* refused: the node pool is exhausted *)
| Deleted (nh : Z) (* removed, with the next hop it had *)
| NotFound.

(* tables of all VRFs *)
Definition tables := nat -> routes.
Definition no_tables : tables := fun _ => no_routes.
Definition set_table (ts : tables) (v : nat) (r : routes) : tables :=
  fun w => if Nat.eqb w v then r else ts w.

(* one operation with its answer; [keep] says whether adding an installed prefix is refused
   (IPv6) or replaces its next hop (IPv4) *)
Inductive rstep {A} (bits : A -> list bool) (keep : bool) : tables -> rop A -> rres -> tables -> Prop :=
| rs_add ts v a n nh : (keep = true -> ts v (firstn n (bits a)) = None) ->
    rstep bits keep ts (Add v a n nh) Added (set_table ts v (set_route (ts v) (firstn n (bits a)) (Some nh)))
| rs_there ts v a n nh : keep = true -> ts v (firstn n (bits a)) <> None ->
    rstep bits keep ts (Add v a n nh) AlreadyThere ts
| rs_nomem ts v a n nh : rstep bits keep ts (Add v a n nh) NoMemory ts
| rs_del ts v a n nh : ts v (firstn n (bits a)) = Some nh ->
    rstep bits keep ts (Del v a n) (Deleted nh) (set_table ts v (set_route (ts v) (firstn n (bits a)) None))
| rs_notfound ts v a n : ts v (firstn n (bits a)) = None ->
    rstep bits keep ts (Del v a n) NotFound ts.

Inductive rsteps {A} (bits : A -> list bool) (keep : bool) : tables -> list (rop A) -> list rres -> tables -> Prop :=
| rss_nil ts : rsteps bits keep ts [] [] ts
| rss_cons ts o r ts1 os rs ts2 : rstep bits keep ts o r ts1 -> rsteps bits keep ts1 os rs ts2 ->
    rsteps bits keep ts (o :: os) (r :: rs) ts2.

(* forgetting the VRF of an operation *)
Definition on_vrf0 {A} (o : rop A) : rop A :=
  match o with Add _ a n nh => Add 0 a n nh | Del _ a n => Del 0 a n end.

(* total length of a list of prefixes *)
Definition sumlen (L : list (list bool)) : nat := fold_right (fun q n => (length q + n)%nat) 0%nat L.
