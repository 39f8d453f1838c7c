(* Timer module, src/ofp_timer.c.
   Steps of the model are the regions the C code executes atomically with
   respect to the other threads: the spin-lock protected sections, and single
   calls into ODP (pool allocation / free, timer operations).
   Simplifications:
   - a slot's singly linked list (bufdata->next) is a Coq list of entries;
     the identity of the buffer holding an entry is kept (e_buf), so reuse,
     leaks and double frees are visible;
   - callback + argument bytes are one opaque token (e_cb); the unchecked
     memcpy of arglen bytes is not modelled;
   - odp_timer_t handles of short timers, and whether ODP calls fail, are
     chosen by the environment (the arguments of the events). *)
From Verif Require Import Base.

(* ofp_timer.c:35-42, include/ofpi_timer.h:24 *)
Definition TIMER_NUM_LONG_SLOTS : Z := 8192.
Definition OFP_TIMER_MAX_US : Z := 10000000.
Definition OFP_TIMER_MASK : Z := 9223372036854775808.   (* 1UL << 63 *)

(* ofp_timer.c:22-29 struct ofp_timer_internal *)
Record entry := mkE { e_buf : nat; e_id : Z; e_cb : Z }.

(* A call to ofp_timer_start between the buffer allocation and its locked
   section: the buffer, the callback token and sec. *)
Record flight := mkF { f_buf : nat; f_cb : Z; f_sec : Z }.

(* A short timer owned by ODP: handle, entry, and whether its timeout event is
   already in the queue (expired, no longer cancellable). *)
Record short := mkS { s_h : Z; s_e : entry; s_exp : bool }.

(* The one second timer: armed, its handler one_sec running over the detached
   list (cur = the entry whose callback has run and whose buffer is still to be
   freed), or never again (its restart failed). The nat is its own buffer. *)
Inductive tick_state :=
| Armed (b : nat)
| Running (b : nat) (l : list entry) (cur : option entry)
| Dead.

(* ofp_timer.c:43-55 struct ofp_timer_mem, with the buffer pool's free list and
   the number of timeouts and ODP timers in use *)
Record timers := mkT {
  t_tab : Z -> list entry;       (* long_table *)
  t_sec : Z;                     (* sec_counter *)
  t_id : Z;                      (* id (size_t) *)
  t_free : list nat;             (* free buffers of buf_pool *)
  t_fly : list flight;           (* starts in progress *)
  t_tick : tick_state;
  t_short : list short;
  t_ntmo : Z;                    (* timeouts allocated from pool *)
  t_ntim : Z                     (* timers allocated from socket_timer_pool *)
}.

(* ofp_timer.c:167-237 ofp_timer_init_global, with n buffers left in the pool
   after the one second timer took buffer n *)
Definition timer_init (n : nat) : timers :=
  mkT (fun _ => []) 0 0 (seq 0 n) [] (Armed n) [] 1 1.

(* where the environment makes ODP fail in a short start *)
Inductive odp_fail := NoFail | FailTimeout | FailTimer | FailStart.

Inductive tevent :=
| EStart (cb tmo : Z)                (* ofp_timer_start*, long: up to the lock *)
| EInsert (n : nat)                  (* its locked section (n-th in progress) *)
| EShort (cb tmo h : Z) (f : odp_fail) (* ofp_timer_start*, short *)
| ECancel (t : Z)                    (* ofp_timer_cancel *)
| ETick                              (* one_sec, locked section *)
| ECall                              (* one_sec, next callback *)
| EFree                              (* one_sec, odp_buffer_free *)
| ETickEnd (f : odp_fail)            (* one_sec, restart of the 1 s timer *)
| EExpire (h : Z)                    (* ODP: short timer h expires *)
| EHandle (h : Z).                   (* ofp_timer_handle on its event *)

Inductive tobs :=
| OBusy                              (* call in progress, nothing visible *)
| ODisabled                          (* the event cannot happen here *)
| OStartFail                         (* ODP_TIMER_INVALID returned *)
| OStarted (h cb sec : Z)            (* long timer h started *)
| OShort (h cb : Z)                  (* short timer h started *)
| OCancel (r : Z)                    (* ofp_timer_cancel returned r *)
| OTick                              (* the one second tick *)
| OFired (h cb : Z)                  (* callback of long timer h *)
| OShortFired (h cb : Z).

Definition upd {A} (f : Z -> A) (k : Z) (v : A) : Z -> A :=
  fun x => if x =? k then v else f x.

Fixpoint remove_nth {A} (n : nat) (l : list A) : list A :=
  match n, l with
  | _, [] => []
  | O, _ :: r => r
  | S k, x :: r => x :: remove_nth k r
  end.

(* ofp_timer.c:462-478: walk of the slot list with prev/next; the entry found
   and the list with it unlinked *)
Fixpoint unlink (t : Z) (l : list entry) : option (entry * list entry) :=
  match l with
  | [] => None
  | e :: r => if e_id e =? t then Some (e, r)
              else match unlink t r with
                   | Some (x, r') => Some (x, e :: r')
                   | None => None
                   end
  end.

Fixpoint find_short (h : Z) (l : list short) : option short :=
  match l with
  | [] => None
  | s :: r => if s_h s =? h then Some s else find_short h r
  end.
Definition drop_short (h : Z) (l : list short) : list short :=
  filter (fun s => negb (s_h s =? h)) l.

(* ofp_timer.c:389,395-396: sec, ix and the handle. sec_counter is a
   non-negative int, so sec_counter + sec is computed in uint64_t. *)
Definition long_sec (tmo : Z) : Z := tmo / 1000000.
Definition long_ix (sec_counter sec : Z) : Z := (u64 (sec_counter + sec)) mod TIMER_NUM_LONG_SLOTS.
(* ((id) << 13) | ix | (1 << 63) on 64 bits; ix < 2^13 *)
Definition long_handle (id ix : Z) : Z :=
  Z.lor (Z.lor (u64 (Z.shiftl id 13)) ix) OFP_TIMER_MASK.

(* ofp_timer.c:351-392: ofp_timer_start_cpu_id up to the lock, long; tmo_us is
   a uint64_t *)
Definition start_long (st : timers) (cb tmo : Z) : timers * tobs :=
  if u64 tmo <? OFP_TIMER_MAX_US then (st, ODisabled) else
  match t_free st with
  | [] => (st, OStartFail)                               (* 369-372 *)
  | b :: fr =>
    (mkT (t_tab st) (t_sec st) (t_id st) fr
         (t_fly st ++ [mkF b cb (long_sec (u64 tmo))])
         (t_tick st) (t_short st) (t_ntmo st) (t_ntim st), OBusy)
  end.

(* ofp_timer.c:394-399: the locked section of a long start. The over-long
   timeout (sec > TIMER_NUM_LONG_SLOTS, 390-392) is only logged. *)
Definition start_insert (st : timers) (n : nat) : timers * tobs :=
  match nth_error (t_fly st) n with
  | None => (st, ODisabled)
  | Some f =>
    let ix := long_ix (t_sec st) (f_sec f) in
    let h := long_handle (t_id st) ix in
    (mkT (upd (t_tab st) ix (mkE (f_buf f) h (f_cb f) :: t_tab st ix))
         (t_sec st) (u64 (t_id st + 1)) (t_free st)
         (remove_nth n (t_fly st)) (t_tick st) (t_short st) (t_ntmo st) (t_ntim st),
     OStarted h (f_cb f) (f_sec f))
  end.

(* A handle ODP may return: a live-unique non-zero value whose top bit is
   clear (the assumption OFP_TIMER_MASK makes). *)
Definition odp_handle_ok (st : timers) (h : Z) : bool :=
  (0 <? h) && (h <? OFP_TIMER_MASK) &&
  match find_short h (t_short st) with None => true | Some _ => false end.

(* ofp_timer.c:402-444: short start; failures release what was allocated *)
Definition start_short (st : timers) (cb tmo h : Z) (f : odp_fail) : timers * tobs :=
  if negb (u64 tmo <? OFP_TIMER_MAX_US) || negb (odp_handle_ok st h) then (st, ODisabled) else
  match t_free st with
  | [] => (st, OStartFail)
  | b :: fr =>
    match f with
    | FailTimeout | FailTimer | FailStart => (st, OStartFail)
    | NoFail =>
      (mkT (t_tab st) (t_sec st) (t_id st) fr (t_fly st) (t_tick st)
           (mkS h (mkE b 0 cb) false :: t_short st) (t_ntmo st + 1) (t_ntim st + 1),
       OShort h cb)
    end
  end.

(* ofp_timer.c:448-505 ofp_timer_cancel. For a short handle that ODP cannot
   cancel any more (expired, or unknown) odp_timer_cancel is negative: 0. *)
Definition cancel (st : timers) (t : Z) : timers * tobs :=
  if t =? 0 then (st, OCancel 0) else                      (* 456 *)
  if Z.land t OFP_TIMER_MASK =? 0 then
    match find_short t (t_short st) with
    | Some s => if s_exp s then (st, OCancel 0) else
        (mkT (t_tab st) (t_sec st) (t_id st) (e_buf (s_e s) :: t_free st) (t_fly st)
             (t_tick st) (drop_short t (t_short st)) (t_ntmo st - 1) (t_ntim st - 1),
         OCancel 0)
    | None => (st, OCancel 0)
    end
  else
    let ix := t mod TIMER_NUM_LONG_SLOTS in
    match unlink t (t_tab st ix) with
    | Some (e, l') =>
      (mkT (upd (t_tab st) ix l') (t_sec st) (t_id st) (e_buf e :: t_free st)
           (t_fly st) (t_tick st) (t_short st) (t_ntmo st) (t_ntim st), OCancel 0)
    | None => (st, OCancel (-1))
    end.

(* ofp_timer.c:82-86 *)
Definition tick_lock (st : timers) : timers * tobs :=
  match t_tick st with
  | Armed b =>
    let c := (t_sec st + 1) mod TIMER_NUM_LONG_SLOTS in
    (mkT (upd (t_tab st) c []) c (t_id st) (t_free st) (t_fly st)
         (Running b (t_tab st c) None) (t_short st) (t_ntmo st) (t_ntim st), OTick)
  | _ => (st, ODisabled)
  end.

(* ofp_timer.c:88-90: callback of the next entry *)
Definition tick_call (st : timers) : timers * tobs :=
  match t_tick st with
  | Running b (e :: l) None =>
    (mkT (t_tab st) (t_sec st) (t_id st) (t_free st) (t_fly st)
         (Running b l (Some e)) (t_short st) (t_ntmo st) (t_ntim st),
     OFired (e_id e) (e_cb e))
  | _ => (st, ODisabled)
  end.

(* ofp_timer.c:91-92 *)
Definition tick_free (st : timers) : timers * tobs :=
  match t_tick st with
  | Running b l (Some e) =>
    (mkT (t_tab st) (t_sec st) (t_id st) (e_buf e :: t_free st) (t_fly st)
         (Running b l None) (t_short st) (t_ntmo st) (t_ntim st), OBusy)
  | _ => (st, ODisabled)
  end.

(* ofp_timer.c:95-96 restart by ofp_timer_start (402-444), then 517-519 of
   ofp_timer_handle: free of the expired one second timer's own resources *)
Definition tick_end (st : timers) (f : odp_fail) : timers * tobs :=
  match t_tick st with
  | Running b [] None =>
    match t_free st, f with
    | b' :: fr, NoFail =>
      (mkT (t_tab st) (t_sec st) (t_id st) (b :: fr) (t_fly st)
           (Armed b') (t_short st) (t_ntmo st + 1 - 1) (t_ntim st + 1 - 1), OBusy)
    | fr, _ =>
      (mkT (t_tab st) (t_sec st) (t_id st) (b :: fr) (t_fly st)
           Dead (t_short st) (t_ntmo st - 1) (t_ntim st - 1), OBusy)
    end
  | _ => (st, ODisabled)
  end.

(* ODP moves the timeout event of an armed short timer to the queue *)
Definition expire (st : timers) (h : Z) : timers * tobs :=
  match find_short h (t_short st) with
  | Some s => if s_exp s then (st, ODisabled) else
    (mkT (t_tab st) (t_sec st) (t_id st) (t_free st) (t_fly st) (t_tick st)
         (mkS h (s_e s) true :: drop_short h (t_short st)) (t_ntmo st) (t_ntim st), OBusy)
  | None => (st, ODisabled)
  end.

(* ofp_timer.c:507-520 ofp_timer_handle *)
Definition handle (st : timers) (h : Z) : timers * tobs :=
  match find_short h (t_short st) with
  | Some s => if s_exp s then
    (mkT (t_tab st) (t_sec st) (t_id st) (e_buf (s_e s) :: t_free st) (t_fly st) (t_tick st)
         (drop_short h (t_short st)) (t_ntmo st - 1) (t_ntim st - 1),
     OShortFired h (e_cb (s_e s))) else (st, ODisabled)
  | None => (st, ODisabled)
  end.

Definition tstep (st : timers) (ev : tevent) : timers * tobs :=
  match ev with
  | EStart cb tmo => start_long st cb tmo
  | EInsert n => start_insert st n
  | EShort cb tmo h f => start_short st cb tmo h f
  | ECancel t => cancel st t
  | ETick => tick_lock st
  | ECall => tick_call st
  | EFree => tick_free st
  | ETickEnd f => tick_end st f
  | EExpire h => expire st h
  | EHandle h => handle st h
  end.

(* A run: the events of all threads in the order in which they happen, with
   what each of them shows to its caller. *)
Fixpoint trun (st : timers) (evs : list tevent) : timers * list (tevent * tobs) :=
  match evs with
  | [] => (st, [])
  | ev :: r =>
    let '(st1, o) := tstep st ev in
    let '(st2, tr) := trun st1 r in
    (st2, (ev, o) :: tr)
  end.
