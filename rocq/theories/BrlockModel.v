(* Big reader lock, include/ofpi_brlock.h. n is ODP_THREAD_COUNT_MAX. A spinlock
   (odp_spinlock_t) is a boolean; odp_spinlock_lock on a taken lock cannot step
   until it is free, odp_spinlock_unlock frees it whoever holds it. The state of a
   thread is the place where it is in the code; one step is one spinlock
   operation or one call/return. Sequentially consistent interleaving. *)
From Coq Require Import List Bool Arith Lia.
Import ListNotations.

Inductive pc :=
| Idle              (* holds nothing *)
| RWait             (* in ofp_brlock_read_lock, ofpi_brlock.h:34-37 *)
| RHold             (* returned from it *)
| WAcq (k : nat)    (* in ofp_brlock_write_lock with n = k, ofpi_brlock.h:44-49 *)
| WHold             (* returned from it *)
| WRel (k : nat).   (* in ofp_brlock_write_unlock with n = k, ofpi_brlock.h:51-56 *)

Record bst := mkB { pcs : nat -> pc; lk : nat -> bool }.

Definition upd {A} (f : nat -> A) (i : nat) (x : A) : nat -> A := fun j => if j =? i then x else f j.

(* One step of thread t; None: it has to wait. From Idle it may call read_lock
   (wr = false) or write_lock (wr = true). A thread that holds the lock may
   release it (ofpi_brlock.h:39-42 is one spinlock operation). *)
Definition bstep (n t : nat) (wr : bool) (st : bst) : option bst :=
  match pcs st t with
  | Idle => Some (mkB (upd (pcs st) t (if wr then WAcq 0 else RWait)) (lk st))
  | RWait => if lk st t then None else Some (mkB (upd (pcs st) t RHold) (upd (lk st) t true))
  | RHold => Some (mkB (upd (pcs st) t Idle) (upd (lk st) t false))
  | WAcq k =>
      if k <? n then
        if lk st k then None else Some (mkB (upd (pcs st) t (WAcq (S k))) (upd (lk st) k true))
      else Some (mkB (upd (pcs st) t WHold) (lk st))
  | WHold => Some (mkB (upd (pcs st) t (WRel 0)) (lk st))
  | WRel k =>
      if k <? n then Some (mkB (upd (pcs st) t (WRel (S k))) (upd (lk st) k false))
      else Some (mkB (upd (pcs st) t Idle) (lk st))
  end.

(* ofp_brlock_init, ofpi_brlock.h:27-32 *)
Definition binit : bst := mkB (fun _ => Idle) (fun _ => false).

(* states reachable by the threads 0..n-1 under any schedule *)
Inductive breach (n : nat) : bst -> Prop :=
| br_init : breach n binit
| br_step st t wr st' : breach n st -> t < n -> bstep n t wr st = Some st' -> breach n st'.

(* a run in which no new lock call is made *)
Inductive bfinish (n : nat) : bst -> nat -> bst -> Prop :=
| bf_nil st : bfinish n st 0 st
| bf_step st t wr st1 k st' : t < n -> pcs st t <> Idle -> bstep n t wr st = Some st1 ->
    bfinish n st1 k st' -> bfinish n st (S k) st'.
