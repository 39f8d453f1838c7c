(* Memory zones, src/ofp_uma.c. An ODP pool is a number (None is
   ODP_POOL_INVALID); what ODP returns (a new pool or a failure, a free buffer of
   the pool or a failure) is an input. Logging left out. *)
From Verif Require Import Base.

Definition NPOOLS := 32.                            (* ofpi_uma.h:31 OFP_NUM_UMA_POOLS *)

(* ofp_uma.c:14-17; meta is the buffer handle stored in front of the data of a
   buffer (ofp_uma.c:21-27) *)
Record uma := mkU { pools : list (option Z); num_pools : Z; meta : Z -> option Z }.

(* ofp_uma.c:148-160 *)
Definition uma_init : uma := mkU (repeat None (Z.to_nat NPOOLS)) 0 (fun _ => None).

Fixpoint put {A} (i : nat) (x : A) (l : list A) : list A :=
  match l, i with [], _ => [] | _ :: r, O => x :: r | y :: r, S j => y :: put j x r end.

(* ofp_uma.c:31-61; newpool: result of ofp_pool_create. Result: the zone *)
Definition uma_create (u : uma) (newpool : option Z) : outcome (uma * Z) :=
  if num_pools u >=? NPOOLS then Ret (u, -1)
  else match newpool with
       | None => Ret (u, -1)
       | Some p =>
         let z := num_pools u in
         if (z <? 0) || (NPOOLS <=? z) then UB
         else Ret (mkU (put (Z.to_nat z) (Some p) (pools u)) (z + 1) (meta u), z)
       end.

(* ofp_uma.c:63-78: the comparison lets zone = OFP_NUM_UMA_POOLS through, one
   past the table. Result: pool destroyed, return value (odp: what
   odp_pool_destroy returns) *)
Definition uma_destroy (u : uma) (zone odp : Z) : outcome (uma * option Z * Z) :=
  if (zone >? NPOOLS) || (zone <? 0) then Ret (u, None, -1)
  else match nth_error (pools u) (Z.to_nat zone) with
       | None => UB
       | Some None => Ret (u, None, -1)
       | Some (Some p) => Ret (mkU (put (Z.to_nat zone) None (pools u)) (num_pools u) (meta u), Some p, odp)
       end.

(* ofp_uma.c:80-103; odp p: the buffer ODP takes from pool p. A destroyed pool's
   handle is ODP_POOL_INVALID: undefined. Result: the item, named by its buffer *)
Definition uma_alloc (u : uma) (zone : Z) (odp : Z -> option Z) : outcome (uma * option Z) :=
  if (zone <? 0) || (zone >=? num_pools u) then Ret (u, None)
  else match nth_error (pools u) (Z.to_nat zone) with
       | None => UB
       | Some None => UB
       | Some (Some p) =>
         match odp p with
         | None => Ret (u, None)
         | Some b => Ret (mkU (pools u) (num_pools u) (fun x => if x =? b then Some b else meta u x), Some b)
         end
       end.
(* ofp_uma.c:105-111: the buffer given back to ODP *)
Definition uma_free (u : uma) (item : Z) : outcome (uma * Z) :=
  match meta u item with Some b => Ret (u, b) | None => UB end.

Inductive ucall :=
| UCreate (newpool : option Z) | UDestroy (zone odp : Z) | UAlloc (zone : Z) (odp : Z -> option Z) | UFree (item : Z).
Inductive ures := RZone (z : Z) | RDestroy (p : option Z) (r : Z) | RItem (b : option Z) | RFreed (b : Z).
Definition ustep (u : uma) (c : ucall) : outcome (uma * ures) :=
  match c with
  | UCreate p => obind (uma_create u p) (fun '(u', z) => Ret (u', RZone z))
  | UDestroy z o => obind (uma_destroy u z o) (fun '(u', p, r) => Ret (u', RDestroy p r))
  | UAlloc z o => obind (uma_alloc u z o) (fun '(u', b) => Ret (u', RItem b))
  | UFree i => obind (uma_free u i) (fun '(u', b) => Ret (u', RFreed b))
  end.
Fixpoint urun (u : uma) (cs : list ucall) : outcome (uma * list ures) :=
  match cs with
  | [] => Ret (u, [])
  | c :: r => obind (ustep u c) (fun '(u1, x) => obind (urun u1 r) (fun '(u2, xs) => Ret (u2, x :: xs)))
  end.
