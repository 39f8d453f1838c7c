(* What TCP reassembly means, in terms of unwrapped stream positions. *)
From Coq Require Import Permutation.
From Verif Require Import Base TcpReassModel.

(* the sequence number of stream position x *)
Definition seqno (x : Z) : Z := x mod 4294967296.

(* the bytes a call hands over to the receive buffer (or discards because the
   reader has shut down), and how many there are *)
Definition bytes_of (e : teff) : list Z := concat (map (fun o => s_data (snd o)) (te_out e)).
Definition nbytes (e : teff) : Z := Z.of_nat (length (bytes_of e)).
(* packets handed over *)
Definition uids_out (e : teff) : list Z := map (fun o => s_uid (snd o)) (te_out e).
Definition uids_q (st : tcb) : list Z := map s_uid (segq st).

(* bytes d are at stream position A on, as far as B says *)
Definition at_pos (B : Z -> Z -> Prop) (A : Z) (d : list Z) : Prop :=
  forall i b, nth_error d i = Some b -> B (A + Z.of_nat i) b.

(* A segment at stream position A is acceptable to a connection that expects
   position N next: not before N, inside half the sequence space, and the
   packet holds exactly the bytes of the segment. *)
Definition acceptable (N A : Z) (g : inseg) : Prop :=
  i_seq g = seqno A /\ N <= A /\ A + i_len g < N + 2147483648 /\
  i_len g = Z.of_nat (length (i_data g)).

(* conn B n0 est0 acc drp st N es: a connection that started at position n0 got
   (accepted) the segments acc, refused drp, is now in state st, expects
   position N; es is what the calls did. N is the start plus the number of
   bytes handed over. Every byte received at position x satisfies B x. *)
Inductive conn (B : Z -> Z -> Prop) (n0 : Z) (est0 : bool)
  : list (Z * inseg) -> list inseg -> tcb -> Z -> list teff -> Prop :=
| conn_init : conn B n0 est0 [] [] (tcb_init n0 est0) n0 []
| conn_data acc drp st N es A g hw ms al cr st' e :
    conn B n0 est0 acc drp st N es ->
    acceptable N A g -> at_pos B A (i_data g) -> 0 < ms -> 0 <= hw ->
    tcp_data hw ms al cr st g = Ret (st', e) ->
    conn B n0 est0 (if te_drop e then acc else (A, g) :: acc) (if te_drop e then g :: drp else drp)
         st' (N + nbytes e) (es ++ [e])
| conn_est acc drp st N es call cr st' e :
    conn B n0 est0 acc drp st N es ->
    tstep st (Establish call cr) = Ret (st', e) ->
    conn B n0 est0 acc drp st' (N + nbytes e) (es ++ [e]).

(* position x is inside an accepted segment *)
Definition received_at (acc : list (Z * inseg)) (x : Z) : Prop :=
  exists A g, In (A, g) acc /\ A <= x < A + i_len g.

(* everything handed over so far, in order *)
Definition delivered (es : list teff) : list Z := concat (map bytes_of es).
Definition stream_from (f : Z -> Z) (n0 : Z) (k : Z) : list Z :=
  map (fun i => f (n0 + Z.of_nat i)) (seq 0 (Z.to_nat k)).

(* the queue holds, from position lo up to hi, non-decreasing disjoint ranges *)
Fixpoint ranges (lo hi : Z) (q : list tseg) : Prop :=
  match q with
  | [] => lo <= hi
  | s :: r => exists p, lo <= p /\ s_seq s = seqno p /\ s_len s = Z.of_nat (length (s_data s)) /\
                        ranges (p + s_len s) hi r
  end.

Definition zsum (l : list Z) : Z := fold_right Z.add 0 l.
