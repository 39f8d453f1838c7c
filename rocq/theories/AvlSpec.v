(* What an ordered multiset of keys is: a sorted list. *)
From Coq Require Export Sorting.Sorted.
From Verif Require Import Base.

(* a comparison function usable for ordering: antisymmetric, transitive, total *)
Definition preorder (cmp : Z -> Z -> Z) : Prop :=
  (forall a b, cmp a b < 0 <-> cmp b a > 0) /\
  (forall a b c, cmp a b <= 0 -> cmp b c <= 0 -> cmp a c <= 0).

Definition sorted (cmp : Z -> Z -> Z) (l : list Z) : Prop := StronglySorted (fun a b => cmp a b <= 0) l.

(* a new key goes before the first key that is not smaller *)
Fixpoint ins_sorted (cmp : Z -> Z -> Z) (k : Z) (l : list Z) : list Z :=
  match l with
  | [] => [k]
  | x :: r => if cmp k x <=? 0 then k :: x :: r else x :: ins_sorted cmp k r
  end.

(* Calls on trees; a tree is named by its number in order of successful creation. *)
Inductive aop := ONew | OFree (i : nat) | OIns (i : nat) (k : Z) | ODel (i : nat) (k : Z).
Inductive ares :=
| RTree (i : option nat)      (* the new tree, or NULL *)
| RKeys (l : list Z)          (* the keys given to the free function, in order *)
| RRc (z : Z)                 (* return code *)
| RDel (o : option Z)         (* the key given to the free function; None: nothing found *)
| RNone.                      (* no such tree: the call is not made *)

(* A tree: its keys in order, and whether every insertion so far succeeded and every deletion found its key. *)
Notation stree := (option (list Z * bool)).
Record spec := mkSpec { s_trees : list stree; s_tfree : nat }.
(* nodes in use: one per key and one per tree *)
Fixpoint used (l : list stree) : nat :=
  match l with [] => 0%nat | None :: l => used l | Some (ks, _) :: l => (length ks + 1 + used l)%nat end.
Fixpoint put {A} (i : nat) (x : A) (l : list A) : list A :=
  match l, i with [] , _ => [] | _ :: l, O => x :: l | y :: l, S i => y :: put i x l end.
Definition live (s : spec) (i : nat) : stree := nth i (s_trees s) None.

(* n nodes in the pool; tree i is ordered by cmpf i *)
Definition sstep (n : nat) (cmpf : nat -> Z -> Z -> Z) (s : spec) (op : aop) (res : ares) (s' : spec) : Prop :=
  match op with
  | ONew =>
      match s_tfree s with
      | O => res = RTree None /\ s' = s
      | S f =>
          if (used (s_trees s) <? n)%nat
          then res = RTree (Some (length (s_trees s))) /\ s' = mkSpec (s_trees s ++ [Some ([], true)]) f
          else res = RTree None /\ s' = mkSpec (s_trees s) f          (* the tree record is lost *)
      end
  | OFree i =>
      match live s i with
      | None => res = RNone /\ s' = s
      | Some (ks, _) => res = RKeys ks /\ s' = mkSpec (put i None (s_trees s)) (S (s_tfree s))
      end
  | OIns i k =>
      match live s i with
      | None => res = RNone /\ s' = s
      | Some (ks, ok) =>
          if (used (s_trees s) <? n)%nat
          then res = RRc 0 /\ s' = mkSpec (put i (Some (ins_sorted (cmpf i) k ks, ok)) (s_trees s)) (s_tfree s)
          else res = RRc (-1) /\ s' = mkSpec (put i (Some (ks, false)) (s_trees s)) (s_tfree s)
      end
  | ODel i k =>
      match live s i with
      | None => res = RNone /\ s' = s
      | Some (ks, ok) =>
          (exists l1 x l2, ks = l1 ++ x :: l2 /\ cmpf i k x = 0 /\ res = RDel (Some x) /\
             s' = mkSpec (put i (Some (l1 ++ l2, ok)) (s_trees s)) (s_tfree s)) \/
          ((forall x, In x ks -> cmpf i k x <> 0) /\ res = RDel None /\
             s' = mkSpec (put i (Some (ks, ok && match ks with [] => true | _ => false end)) (s_trees s)) (s_tfree s))
      end
  end.
Inductive sruns (n : nat) (cmpf : nat -> Z -> Z -> Z) : spec -> list aop -> list ares -> spec -> Prop :=
| sr_nil s : sruns n cmpf s [] [] s
| sr_cons s op r s1 ops rs s2 : sstep n cmpf s op r s1 -> sruns n cmpf s1 ops rs s2 -> sruns n cmpf s (op :: ops) (r :: rs) s2.

(* the calls made by visiting l until iter returns non-zero *)
Fixpoint visit (iter : Z -> Z) (l : list Z) : list Z * Z :=
  match l with
  | [] => ([], 0)
  | x :: l => if negb (iter x =? 0) then ([x], iter x) else (x :: fst (visit iter l), snd (visit iter l))
  end.
