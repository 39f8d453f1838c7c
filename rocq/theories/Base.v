(* Common vocabulary of the models: machine integers as Z with explicit wrap,
   outcomes with undefined behaviour, small list facts. *)
From Coq Require Export List Arith ZArith Lia Bool.
From Coq Require Export ZifyBool ZifyNat.
Export ListNotations.
Global Open Scope Z_scope.

Ltac Zify.zify_post_hook ::= Z.div_mod_to_equations.

(* C unsigned/signed machine types, as wrap functions on Z. *)
Definition u8  (x : Z) : Z := x mod 256.
Definition u16 (x : Z) : Z := x mod 65536.
Definition u32 (x : Z) : Z := x mod 4294967296.
Definition u64 (x : Z) : Z := x mod 18446744073709551616.
(* conversion of an unsigned 32-bit value to int (gcc: two's complement) *)
Definition s32 (x : Z) : Z :=
  let y := x mod 4294967296 in if y <? 2147483648 then y else y - 4294967296.
Definition INT_MAX : Z := 2147483647.
Definition INT_MIN : Z := -2147483648.

(* Outcome of a C computation: a value, undefined behaviour (out-of-bounds
   access, null dereference, signed overflow, over-long shift, read of
   uninitialised memory), or no termination within the given fuel. *)
Inductive outcome (A : Type) : Type :=
| Ret (a : A)
| UB
| Diverge.
Arguments Ret {A} a.
Arguments UB {A}.
Arguments Diverge {A}.

Definition obind {A B} (x : outcome A) (f : A -> outcome B) : outcome B :=
  match x with Ret a => f a | UB => UB | Diverge => Diverge end.

Definition swap16 (x : Z) : Z := (x mod 256) * 256 + x / 256.

Definition is_byte (b : Z) : Prop := 0 <= b < 256.
Definition bytes_ok (l : list Z) : Prop := Forall is_byte l.
