(* Sleeping and waking: ofp_msleep, _ofp_wakeup and friends, src/ofp_uipc_socket.c:153-163, 275-283,
   2532-2655. Channels are addresses: 0 is NULL, the channel of ofp_select. Every function body
   between lock and unlock of sleep_lock is one atomic step. *)
From Verif Require Import Base.

(* struct sleeper, an array of them; lists are threaded through next *)
Record sl := mkSl { s_next : nat -> option nat; s_chan : nat -> Z; s_go : nat -> bool; s_wbt : nat -> bool (* woke_by_timer *);
                    s_tmo : nat -> bool (* a timer runs for it *); s_list : option nat; s_free : option nat }.
Definition up {A} (f : nat -> A) (i : nat) (x : A) : nat -> A := fun j => if Nat.eqb j i then x else f j.

(* ofp_socket_init_global 279-283: n sleepers, all free *)
Definition sl_init (n : nat) : sl :=
  mkSl (fun i => if Nat.eqb i (n - 1) then None else Some (S i)) (fun _ => 0) (fun _ => false) (fun _ => false) (fun _ => false)
       None (match n with O => None | _ => Some O end).

(* ofp_msleep 2558-2580: None = out of sleepers (ENOMEM) *)
Definition sleep_begin (st : sl) (ch : Z) (timeout : bool) : sl * option nat :=
  match s_free st with
  | None => (st, None)
  | Some i =>
    (mkSl (up (s_next st) i (s_list st)) (up (s_chan st) i ch) (up (s_go st) i false) (up (s_wbt st) i false) (up (s_tmo st) i timeout)
          (Some i) (s_next st i), Some i)
  end.
(* 2582 sees go, then 2592-2602: true = OFP_EWOULDBLOCK *)
Definition sleep_end (st : sl) (i : nat) : sl * bool :=
  (mkSl (up (s_next st) i (s_free st)) (s_chan st) (s_go st) (s_wbt st) (up (s_tmo st) i false) (s_list st) (Some i), s_wbt st i).

(* _ofp_wakeup 2605-2635 *)
Fixpoint wake_loop (fuel : nat) (st : sl) (prev p : option nat) (ch : Z) (one tmo : bool) : outcome sl :=
  match p with
  | None => Ret st
  | Some i =>
    match fuel with
    | O => Diverge
    | S f =>
      let next := s_next st i in
      if ch =? s_chan st i then
        let st := match prev with
                  | Some q => mkSl (up (s_next st) q next) (s_chan st) (s_go st) (s_wbt st) (s_tmo st) (s_list st) (s_free st)
                  | None => mkSl (s_next st) (s_chan st) (s_go st) (s_wbt st) (s_tmo st) next (s_free st)
                  end in
        let st := if tmo then mkSl (s_next st) (s_chan st) (s_go st) (up (s_wbt st) i true) (up (s_tmo st) i false) (s_list st) (s_free st) else st in
        let st := mkSl (s_next st) (s_chan st) (up (s_go st) i true) (s_wbt st) (s_tmo st) (s_list st) (s_free st) in
        if one then Ret st else wake_loop f st prev next ch one tmo
      else wake_loop f st (Some i) next ch one tmo
    end
  end.
Definition wake1 (fuel : nat) (st : sl) (ch : Z) (one tmo : bool) : outcome sl := wake_loop fuel st None (s_list st) ch one tmo.
(* ofp_wakeup_one 2637-2644, ofp_wakeup 2646-2653 *)
Definition wakeup (fuel : nat) (st : sl) (ch : Z) (one : bool) : outcome sl :=
  obind (if ch =? 0 then Ret st else wake1 fuel st 0 false false) (fun st => wake1 fuel st ch one false).
(* sleep_timeout 2540-2545, run when the timer started by sleeper i fires: it knows only the channel *)
Definition timer_fires (fuel : nat) (st : sl) (ch : Z) : outcome sl := wake1 fuel st ch true true.
