(* What sleeping and waking mean, for every history of calls. *)
From Verif Require Import Base SleepModel.

(* the sleepers: asleep (latest first) with their channels, and those woken that have not returned *)
Record sspec := mkS { asleep : list (nat * Z); woken : list (nat * bool) (* by a timer? *); spare : list nat }.
Inductive sop :=
| SSleep (ch : Z) (timeout : bool)
| SReturn (i : nat)                (* a woken sleeper returns from ofp_msleep *)
| SWake (ch : Z) | SWakeOne (ch : Z)
| STimer (ch : Z).                 (* a timer armed by a sleeper on ch fires *)
Inductive sres := SId (o : option nat) | SRet (timedout : bool) | SNone.

Definition on (ch : Z) (x : nat * Z) : bool := ch =? snd x.
Definition wake_all (ch : Z) (s : sspec) : sspec :=
  mkS (filter (fun x => negb (on ch x)) (asleep s)) (map (fun x => (fst x, false)) (filter (on ch) (asleep s)) ++ woken s) (spare s).
Fixpoint take_first {A} (p : A -> bool) (l : list A) : option (A * list A) :=
  match l with
  | [] => None
  | x :: r => if p x then Some (x, r) else match take_first p r with Some (y, r') => Some (y, x :: r') | None => None end
  end.
Definition wake_one (ch : Z) (tmo : bool) (s : sspec) : sspec :=
  match take_first (on ch) (asleep s) with
  | Some (x, r) => mkS r ((fst x, tmo) :: woken s) (spare s)
  | None => s
  end.
Definition selects (ch : Z) (s : sspec) : sspec := if ch =? 0 then s else wake_all 0 s.
Definition sstep (s : sspec) (op : sop) : sspec * sres :=
  match op with
  | SSleep ch _ => match spare s with i :: r => (mkS ((i, ch) :: asleep s) (woken s) r, SId (Some i)) | [] => (s, SId None) end
  | SReturn i => match take_first (fun x => Nat.eqb (fst x) i) (woken s) with
                 | Some (x, r) => (mkS (asleep s) r (i :: spare s), SRet (snd x))
                 | None => (s, SNone) end
  | SWake ch => (wake_all ch (selects ch s), SNone)
  | SWakeOne ch => (wake_one ch false (selects ch s), SNone)
  | STimer ch => (wake_one ch true s, SNone)
  end.
Fixpoint ssteps (s : sspec) (ops : list sop) : sspec * list sres :=
  match ops with
  | [] => (s, [])
  | op :: ops => let '(s, r) := sstep s op in let '(s, rs) := ssteps s ops in (s, r :: rs)
  end.
(* the calls a program can make: only a woken sleeper returns *)
Fixpoint slegal (s : sspec) (ops : list sop) : Prop :=
  match ops with
  | [] => True
  | op :: ops => (match op with SReturn i => In i (map fst (woken s)) | _ => True end) /\ slegal (fst (sstep s op)) ops
  end.
Definition s0 (n : nat) : sspec := mkS [] [] (seq 0 n).

(* the same calls on the model; fuel for at most n sleepers *)
Definition srun1 (n : nat) (st : sl) (op : sop) : outcome (sl * sres) :=
  match op with
  | SSleep ch t => let '(st, o) := sleep_begin st ch t in Ret (st, SId o)
  | SReturn i => let '(st, b) := sleep_end st i in Ret (st, SRet b)
  | SWake ch => obind (wakeup n st ch false) (fun st => Ret (st, SNone))
  | SWakeOne ch => obind (wakeup n st ch true) (fun st => Ret (st, SNone))
  | STimer ch => obind (timer_fires n st ch) (fun st => Ret (st, SNone))
  end.
Fixpoint sruns (n : nat) (st : sl) (ops : list sop) : outcome (sl * list sres) :=
  match ops with
  | [] => Ret (st, [])
  | op :: ops => obind (srun1 n st op) (fun '(st, r) => obind (sruns n st ops) (fun '(st, rs) => Ret (st, r :: rs)))
  end.

(* ---------- threads around one receive buffer ---------- *)
(* A reader holds the buffer lock (sb_mtx) while it looks at the buffer and while it calls
   ofp_sbwait; ofp_msleep's loop 2582-2590 looks at go with the lock held and gives the lock
   up in between. A writer appends and then calls sorwakeup_locked (ofpi_socketvar.h:277-284,
   ofp_sowakeup, ofp_uipc_sockbuf.c:443-481), all with the lock held. ofp_select (ofp_syscalls.c:
   371-386) takes no lock: it looks, and if nothing is readable it sleeps on channel 0. *)
Inductive pc :=
| Idle
| Look                (* reader with the lock, about to look at the buffer *)
| Poll (i : nat)      (* reader in ofp_msleep with the lock *)
| Yield (i : nat)     (* reader in ofp_msleep without the lock *)
| Put                 (* writer with the lock, about to append *)
| Wake                (* writer with the lock, appended, about to wake *)
| SelLook             (* select, about to look *)
| SelGo               (* select found nothing, about to sleep *)
| SelWait (i : nat)   (* select asleep *)
| Other (i : nat).    (* some thread asleep on another channel *)
Record sys := mkSys { y_pc : nat -> pc; y_lock : option nat; y_data : nat; y_flag : bool (* SB_WAIT *); y_sl : sl }.
Definition rch : Z := 1.                                       (* &sb->sb_cc *)
Section SYS.
Variable N : nat.                                              (* number of sleepers *)
Definition setpc (y : sys) (t : nat) (p : pc) : nat -> pc := up (y_pc y) t p.
Inductive step (y : sys) : sys -> Prop :=
| st_lock t : y_pc y t = Idle -> y_lock y = None -> step y (mkSys (setpc y t Look) (Some t) (y_data y) (y_flag y) (y_sl y))
| st_take t : y_pc y t = Look -> y_data y <> O -> step y (mkSys (setpc y t Idle) None (pred (y_data y)) (y_flag y) (y_sl y))
| st_wait t sl i : y_pc y t = Look -> y_data y = O -> sleep_begin (y_sl y) rch false = (sl, Some i) -> step y (mkSys (setpc y t (Poll i)) (y_lock y) (y_data y) true sl)
| st_nowait t sl : y_pc y t = Look -> y_data y = O -> sleep_begin (y_sl y) rch false = (sl, None) -> step y (mkSys (setpc y t Idle) None (y_data y) true sl)
| st_give t i : y_pc y t = Poll i -> s_go (y_sl y) i = false -> step y (mkSys (setpc y t (Yield i)) None (y_data y) (y_flag y) (y_sl y))
| st_back t i : y_pc y t = Yield i -> y_lock y = None -> step y (mkSys (setpc y t (Poll i)) (Some t) (y_data y) (y_flag y) (y_sl y))
| st_up t i sl b : y_pc y t = Poll i -> s_go (y_sl y) i = true -> sleep_end (y_sl y) i = (sl, b) -> step y (mkSys (setpc y t Look) (y_lock y) (y_data y) (y_flag y) sl)
| st_wlock t : y_pc y t = Idle -> y_lock y = None -> step y (mkSys (setpc y t Put) (Some t) (y_data y) (y_flag y) (y_sl y))
| st_put t : y_pc y t = Put -> step y (mkSys (setpc y t Wake) (y_lock y) (S (y_data y)) (y_flag y) (y_sl y))
| st_wake t sl1 sl2 : y_pc y t = Wake -> y_flag y = true -> wakeup N (y_sl y) 0 false = Ret sl1 -> wakeup N sl1 rch false = Ret sl2 ->
    step y (mkSys (setpc y t Idle) None (y_data y) (y_flag y) sl2)
| st_nowake t : y_pc y t = Wake -> y_flag y = false -> step y (mkSys (setpc y t Idle) None (y_data y) (y_flag y) (y_sl y))
| st_sel t : y_pc y t = Idle -> step y (mkSys (setpc y t SelLook) (y_lock y) (y_data y) (y_flag y) (y_sl y))
| st_selready t : y_pc y t = SelLook -> y_data y <> O -> step y (mkSys (setpc y t Idle) (y_lock y) (y_data y) (y_flag y) (y_sl y))
| st_selnot t : y_pc y t = SelLook -> y_data y = O -> step y (mkSys (setpc y t SelGo) (y_lock y) (y_data y) (y_flag y) (y_sl y))
| st_selsleep t sl i : y_pc y t = SelGo -> sleep_begin (y_sl y) 0 false = (sl, Some i) -> step y (mkSys (setpc y t (SelWait i)) (y_lock y) (y_data y) (y_flag y) sl)
| st_selup t i sl b : y_pc y t = SelWait i -> s_go (y_sl y) i = true -> sleep_end (y_sl y) i = (sl, b) -> step y (mkSys (setpc y t Idle) (y_lock y) (y_data y) (y_flag y) sl)
| st_other t ch sl i : y_pc y t = Idle -> ch <> rch -> sleep_begin (y_sl y) ch false = (sl, Some i) -> step y (mkSys (setpc y t (Other i)) (y_lock y) (y_data y) (y_flag y) sl)
| st_otherup t i sl b : y_pc y t = Other i -> s_go (y_sl y) i = true -> sleep_end (y_sl y) i = (sl, b) -> step y (mkSys (setpc y t Idle) (y_lock y) (y_data y) (y_flag y) sl)
| st_stray ch one sl : wakeup N (y_sl y) ch one = Ret sl -> step y (mkSys (y_pc y) (y_lock y) (y_data y) (y_flag y) sl)       (* any wake-up from elsewhere *)
| st_timer ch sl : timer_fires N (y_sl y) ch = Ret sl -> step y (mkSys (y_pc y) (y_lock y) (y_data y) (y_flag y) sl).          (* any timer *)
Definition y0 : sys := mkSys (fun _ => Idle) None O false (sl_init N).
Inductive reach : sys -> Prop :=
| reach0 : reach y0
| reachS y y' : reach y -> step y y' -> reach y'.
End SYS.
