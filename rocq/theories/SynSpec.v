(* Vocabulary for the SYN cache properties (C75-C77). *)
From Verif Require Import Base TcpOptModel SynModel.

Definition w32 (x : Z) : Prop := 0 <= x < 4294967296.
Definition addr_ok (a : addr) : Prop :=
  match a with (a0, a1, a2, a3) => w32 a0 /\ w32 a1 /\ w32 a2 /\ w32 a3 end.
Definition low_only (a : addr) : Prop := match a with (a0, a1, a2, a3) => a0 = 0 /\ a1 = 0 /\ a2 = 0 end.
(* endpoints as tcp_input builds them: an IPv4 address has the other words zero *)
Definition inc_ok (i : inc) : Prop :=
  addr_ok (i_fa i) /\ addr_ok (i_la i) /\ 0 <= i_fport i < 65536 /\ 0 <= i_lport i < 65536 /\ w32 (i_fib i)
  /\ (i_v6 i = false -> low_only (i_fa i) /\ low_only (i_la i)).
(* an IPv6 pair of addresses that is not ::a.b.c.d to ::e.f.g.h *)
Definition not_compat (i : inc) : Prop := i_v6 i = true -> ~ (low_only (i_fa i) /\ low_only (i_la i)).

(* the same connection: family, addresses and ports *)
Definition same_conn (a b : inc) : Prop :=
  i_v6 a = i_v6 b /\ i_fport a = i_fport b /\ i_lport a = i_lport b /\ i_fa a = i_fa b /\ i_la a = i_la b.

Definition opt_ok (t : topt) : Prop :=
  (forall m, o_mss t = Some m -> 0 <= m < 65536) /\ (forall w, o_ws t = Some w -> 0 <= w <= 14)
  /\ (forall v r, o_ts t = Some (v, r) -> w32 v /\ w32 r).
Definition seg_ok (g : sseg) : Prop := w32 (g_seq g) /\ w32 (g_ack g) /\ opt_ok (g_to g).
Definition env_ok (e : env) : Prop :=
  -2147483648 <= e_ticks e < 2147483648 /\ 0 <= e_mssopt e < 65536.
Definition op_ok (o : op) : Prop :=
  match o with
  | Seg _ e i g | SynBegin _ e i g => env_ok e /\ inc_ok i /\ seg_ok g
  | SynEnd _ e => env_ok e
  | Unreach i q => inc_ok i /\ w32 q
  end.
Definition compat_free (o : op) : Prop :=
  match o with Seg _ _ i _ | SynBegin _ _ i _ | Unreach i _ => not_compat i | SynEnd _ _ => True end.
(* a history without overlapping calls *)
Definition whole (o : op) : Prop := match o with SynBegin _ _ _ _ | SynEnd _ _ => False | _ => True end.

(* all entries of the table *)
Definition table (s : st) : list sc := flat_map (fun n => h_l (s_b s (Z.of_nat n))) (seq 0 1024).
(* those with the hash of a connection, newest first *)
Definition row (s : st) (i : inc) : list sc := h_l (s_b s (bucket i)).

Definition count {A} (p : A -> bool) (l : list A) : Z := Z.of_nat (length (filter p l)).
(* entries allocated for calls still running *)
Definition in_hand (s : st) : Z := count (fun q => negb (snd (fst (snd q)))) (s_pend s).

(* a SYN|ACK (a connection) about endpoints, our initial sequence number and
   the peer's next sequence number satisfying P *)
Definition sent_of (P : inc -> Z -> Z -> bool) (v : sev) : bool :=
  match v with ESent k => P (k_inc k) (k_seq k) (k_ack k) | _ => false end.
Definition conn_of (P : inc -> Z -> Z -> bool) (v : sev) : bool :=
  match v with EConn n => P (n_inc n) (n_iss n) (n_rnxt n) | _ => false end.
Definition key_of (P : inc -> Z -> Z -> bool) (x : sc) : bool := P (sc_inc x) (sc_iss x) (u32 (sc_irs x + 1)).

(* states reachable from start-up *)
Definition reach (H : digest) (c : cfg) (s : st) : Prop :=
  exists l evs, Forall op_ok l /\ run H c l init = Ret (s, evs).
(* ... without overlapping calls or IPv4-compatible IPv6 endpoints *)
Definition reach_seq (H : digest) (c : cfg) (s : st) : Prop :=
  exists l evs, Forall op_ok l /\ Forall whole l /\ Forall compat_free l /\ run H c l init = Ret (s, evs).

(* distance from a to b in sequence space *)
Definition dist (a b : Z) : Z := (b - a) mod 4294967296.
