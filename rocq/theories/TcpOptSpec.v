(* The TCP option area as RFC 793/1323/2018 describe it, without reference to the code. *)
From Coq Require Import ZArith List Bool.
Import ListNotations.
Open Scope Z_scope.

(* The options in an option area: kind 0 ends the list, kind 1 is one byte, every other kind is followed by a
   length that counts kind, length and data. An option whose length byte is missing, below 2 or beyond the
   end of the area ends the list. *)
Definition well_formed_rest (r : list Z) : Prop :=
  exists (data rest : list Z), r = (2 + Z.of_nat (length data)) :: data ++ rest.
Inductive options : list Z -> list (Z * list Z) -> Prop :=
| opts_nil : options [] []
| opts_eol : forall r, options (0 :: r) []
| opts_nop : forall r os, options r os -> options (1 :: r) os
| opts_opt : forall k data r os, k <> 0 -> k <> 1 -> options r os ->
    options (k :: (2 + Z.of_nat (length data)) :: data ++ r) ((k, data) :: os)
| opts_bad : forall k r, k <> 0 -> k <> 1 -> ~ well_formed_rest r -> options (k :: r) [].

(* big-endian integers *)
Fixpoint be (l : list Z) (acc : Z) : Z := match l with [] => acc | b :: l => be l (acc * 256 + b) end.
(* what one option says, if it is well sized *)
Definition says_mss (o : Z * list Z) : option Z :=
  match o with (2, [a; b]) => Some (be [a; b] 0) | _ => None end.
Definition says_ws (o : Z * list Z) : option Z :=
  match o with (3, [a]) => Some (Z.min a 14) | _ => None end.
Definition says_sackok (o : Z * list Z) : option unit :=
  match o with (4, []) => Some tt | _ => None end.
Definition says_ts (o : Z * list Z) : option (Z * Z) :=
  match o with (8, [a; b; c; d; e; f; g; h]) => Some (be [a; b; c; d] 0, be [e; f; g; h] 0) | _ => None end.
Fixpoint blocks (l : list Z) : option (list (Z * Z)) :=
  match l with
  | [] => Some []
  | a :: b :: c :: d :: e :: f :: g :: h :: r =>
      match blocks r with Some bl => Some ((be [a; b; c; d] 0, be [e; f; g; h] 0) :: bl) | None => None end
  | _ => None
  end.
Definition says_sack (o : Z * list Z) : option (list (Z * Z)) :=
  match o with (5, (_ :: _) as d) => blocks d | _ => None end.

(* the last option that says something *)
Fixpoint final {A} (f : Z * list Z -> option A) (os : list (Z * list Z)) : option A :=
  match os with
  | [] => None
  | o :: os => match final f os with Some v => Some v | None => f o end
  end.
