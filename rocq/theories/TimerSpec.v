(* What a user sees of the timer module: a trace of calls and callbacks. *)
From Verif Require Import Base TimerModel.

Definition trace := list (tevent * tobs).

(* one-second ticks in a trace *)
Fixpoint ticks (tr : trace) : Z :=
  match tr with
  | [] => 0
  | (_, OTick) :: r => 1 + ticks r
  | _ :: r => ticks r
  end.

(* long timers started in a trace *)
Fixpoint starts (tr : trace) : Z :=
  match tr with
  | [] => 0
  | (_, OStarted _ _ _) :: r => 1 + starts r
  | _ :: r => starts r
  end.

(* the callback of handle h was run *)
Definition fired (h : Z) (tr : trace) : Prop :=
  exists ev cb, In (ev, OFired h cb) tr.
(* ofp_timer_cancel(h) returned 0 *)
Definition cancelled (h : Z) (tr : trace) : Prop :=
  In (ECancel h, OCancel 0) tr.
(* every tick's callbacks have been run: the handler is not in the middle *)
Definition quiet (st : timers) : Prop :=
  match t_tick st with Running _ [] _ => True | Running _ _ _ => False | _ => True end.

(* What the statement of C16/C17 says about one long timer with handle h,
   callback cb, started for s seconds, over the trace tr following its start. *)
Record life_ok (h cb s : Z) (tr : trace) : Prop := {
  (* C16: it fires on the s-th tick, with its own callback; C17: only once,
     and never together with a successful cancel *)
  lo_fire : forall tr1 ev c tr2, tr = tr1 ++ (ev, OFired h c) :: tr2 ->
     ticks tr1 = s /\ c = cb /\
     ~ fired h tr1 /\ ~ fired h tr2 /\ ~ cancelled h tr1 /\ ~ cancelled h tr2;
  (* C17: cancel tells the truth *)
  lo_cancel_ok : forall tr1 tr2, tr = tr1 ++ (ECancel h, OCancel 0) :: tr2 ->
     ticks tr1 < s /\ ~ fired h tr1 /\ ~ fired h tr2 /\
     ~ cancelled h tr1 /\ ~ cancelled h tr2;
  lo_cancel_no : forall tr1 r tr2, tr = tr1 ++ (ECancel h, OCancel r) :: tr2 ->
     r <> 0 -> r = -1 /\ (ticks tr1 >= s \/ cancelled h tr1);
  (* C16: not later *)
  lo_late : ticks tr > s -> fired h tr \/ cancelled h tr
}.
