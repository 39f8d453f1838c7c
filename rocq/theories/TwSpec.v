(* What TIME_WAIT should do, in terms of the history of events only. *)
From Verif Require Import Base TwModel.

(* sequence number a lies after b, less than half the space ahead *)
Definition after (a b : Z) : Prop := 0 < (a - b) mod 4294967296 < 2147483648.
Definition afterb (a b : Z) : bool := (0 <? (a - b) mod 4294967296) && ((a - b) mod 4294967296 <? 2147483648).

(* a SYN that may open a new incarnation of a connection that had received
   everything before [c_rcv c] *)
Definition newer (c : tcb) (g : seg) : bool := has (g_fl g) TH_SYN && afterb (g_seq g) (c_rcv c).

(* the segment is the peer's FIN again: it ends exactly at what was received *)
Definition fin_again (c : tcb) (g : seg) : bool :=
  negb (has (g_fl g) TH_RST) && negb (newer c g) && has (g_fl g) TH_ACK && has (g_fl g) TH_FIN &&
  ((g_seq g + g_len g + (if has (g_fl g) TH_SYN then 1 else 0) + 1 - c_rcv c) mod 4294967296 =? 0).

(* for one connection: the time, and how it entered TIME_WAIT (was the
   application still holding the descriptor, the control block) and when its
   2MSL period last began *)
Definition look (i : Z) (a : Z * option (bool * tcb * Z)) (e : ev) : Z * option (bool * tcb * Z) :=
  let '(t, x) := a in
  match e with
  | Tick d => (t + d, x)
  | Start j fd c => if i =? j then (t, Some (fd, c, t)) else a
  | Segm j g => if i =? j then match x with Some (fd, c, _) => if fin_again c g then (t, Some (fd, c, t)) else a | None => a end else a
  | _ => a
  end.
Definition view (t0 : Z) (i : Z) (l : list ev) : Z * option (bool * tcb * Z) := fold_left (look i) l (t0, None).
Definition entered (t0 i : Z) (l : list ev) : option (bool * tcb * Z) := snd (view t0 i l).
Definition clock (t0 : Z) (l : list ev) : Z := fold_left (fun t e => match e with Tick d => t + d | _ => t end) l t0.
Definition closed (i : Z) (l : list ev) : bool := existsb (fun e => match e with Close j => i =? j | _ => false end) l.

(* histories that can happen: a connection enters once, is closed at most once
   by the application, time does not go back; the tick counter (10 ms) stays
   below 2^31, that is 248 days; m is the MSL, constant *)
Definition word (x : Z) : Prop := 0 <= x < 4294967296.
Definition can (t0 m : Z) (l : list ev) (e : ev) : Prop :=
  match e with
  | Start i _ c => entered t0 i l = None /\ word (c_snd c) /\ word (c_rcv c) /\ word (c_adv c) /\ 0 <= c_scale c <= 14
  | Segm _ g => word (g_seq g) /\ word (g_ack g) /\ 0 <= g_len g <= 65535
  | Scan => True
  | Close i => (exists c t, entered t0 i l = Some (true, c, t)) /\ closed i l = false
  | Tick d => 0 <= d /\ clock t0 l + d + 2 * m <= INT_MAX
  | SetMsl _ => False
  end.
Inductive history (t0 m : Z) : list ev -> Prop :=
| h_nil : 0 <= t0 -> 0 <= m -> t0 + 2 * m <= INT_MAX -> history t0 m []
| h_snoc : forall l e, history t0 m l -> can t0 m l e -> history t0 m (l ++ [e]).

(* in TIME_WAIT: entered and not ended *)
Definition ended (i : Z) (os : list out) : Prop := exists w, In (Ended i w) os.
Definition in_tw (t0 i : Z) (l : list ev) (os : list out) : Prop := entered t0 i l <> None /\ ~ ended i os.

(* what the ACK of a connection says, at time t *)
Definition ack_of (i : Z) (c : tcb) (t : Z) : out :=
  Reply i (c_snd c) (c_rcv c) (if afterb (c_adv c) (c_rcv c) then u16 (Z.shiftr (u32 (c_adv c - c_rcv c)) (c_scale c)) else 0)
    (if c_ts c && negb (c_recent c =? 0) then Some (u32 (u32 (t * 10) + c_off c), c_recent c) else None).
(* entering: the ACK that is due; a segment in TIME_WAIT (RFC 793 p. 73,
   RFC 1122 4.2.2.13, RFC 1337): a RST is ignored, a newer SYN ends TIME_WAIT,
   what lacks an ACK is ignored, the rest is acknowledged.  (The last line but
   one is the code's own rule.) *)
Definition acks (i : Z) (c : tcb) (t : Z) : list out := if c_acknow c then [ack_of i c t] else [].
Definition replies (i : Z) (c : tcb) (g : seg) (t : Z) : list out :=
  if has (g_fl g) TH_RST then []
  else if newer c g then [Ended i Superseded]
  else if negb (has (g_fl g) TH_ACK) then []
  else if (g_fl g =? TH_ACK) && negb (g_len g =? 0) && (g_seq g =? c_rcv c) && (g_ack g =? c_snd c) then []
  else [ack_of i c t].

