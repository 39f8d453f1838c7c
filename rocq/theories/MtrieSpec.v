(* Specification of the histories for which the MTRIE route table is proved correct.
   Routing tables, operations, answers and longest-prefix match are those of RadixSpec. *)
From Verif Require Import Base RadixSpec.

(* a well-formed IPv4 route operation with a prefix of 1 to 32 bits *)
Definition op4_ok (o : rop Z) : Prop :=
  match o with Add _ a n _ | Del _ a n => 0 <= a < 2 ^ 32 /\ (1 <= n <= 32)%nat end.
Definition is_add (o : rop Z) : Prop := match o with Add _ _ _ _ => True | Del _ _ _ => False end.

(* the tables after an operation that does not run out of memory *)
Definition apply_op (ts : tables) (o : rop Z) : tables :=
  match o with
  | Add v a n nh => set_table ts v (set_route (ts v) (firstn n (u32_bits a)) (Some nh))
  | Del v a n =>
    match ts v (firstn n (u32_bits a)) with
    | Some _ => set_table ts v (set_route (ts v) (firstn n (u32_bits a)) None)
    | None => ts
    end
  end.

(* route p is not the last one longer than 16 bits of its /16, nor the last one longer than 24 bits
   of its /24 *)
Definition not_last_of_block (ts : tables) (v : nat) (p : list bool) : Prop :=
  forall L, L = 16%nat \/ L = 24%nat -> (L < length p)%nat ->
  exists p', p' <> p /\ ts v p' <> None /\ (L < length p')%nat /\ firstn L p' = firstn L p.

(* every deletion of the history that removes a route leaves its blocks with another one *)
Fixpoint blocks_survive (ts : tables) (os : list (rop Z)) : Prop :=
  match os with
  | [] => True
  | o :: os' =>
    match o with
    | Del v a n => ts v (firstn n (u32_bits a)) <> None -> not_last_of_block ts v (firstn n (u32_bits a))
    | Add _ _ _ _ => True
    end /\ blocks_survive (apply_op ts o) os'
  end.
