(* What the IPsec databases promise, in terms of the API only: the policies and
   associations installed, the references the client holds, and which answers a
   call may give. No lists, links, counters or free records. *)
From Verif Require Import Base IpsecModel.

(* the client's view. Handles are numbers. *)
Record view := mkView {
  pols : list (nat * option nat);   (* installed policies and the SA bound to each; newest first *)
  ppar : nat -> spar;               (* parameters a policy was created with *)
  pcnt : nat -> Z;                  (* references to a policy the client holds *)
  assocs : list nat;                (* installed SAs; newest first *)
  qpar : nat -> sapar; qdis : nat -> bool; qcnt : nat -> Z;
  qsel : nat -> option nat;         (* inbound: handle of the policy it was bound to ... *)
  qselp : nat -> sel;               (* ... and its selectors *)
  pending : bool }.                 (* an outbound look-up gave an SA not yet used or released *)

Definition view0 : view :=
  mkView [] (fun _ => mkSpar 0 DISCARD None 0 sel0 0 0) (fun _ => 0) [] (fun _ => mkSapar 0 0 0 false false 0 0 0 0)
         (fun _ => false) (fun _ => 0) (fun _ => None) (fun _ => sel0) false.

Definition installed (a : view) (h : nat) : Prop := In h (map fst (pols a)).
Definition used_sp (a : view) (h : nat) : Prop := installed a h \/ 0 < pcnt a h.
Definition used_sa (a : view) (h : nat) : Prop := In h (assocs a) \/ 0 < qcnt a h \/ In (Some h) (map snd (pols a)).

(* addresses: the API gives them in network order, i.e. on this host the first
   byte of the dotted quad is the low byte of the number *)
Definition addr_value (x : Z) : Z :=
  (x mod 256) * 16777216 + (x / 256 mod 256) * 65536 + (x / 65536 mod 256) * 256 + x / 16777216 mod 256.
Definition any_range (first last : Z) : Prop := first = 0 /\ last = 0.
Definition in_range (first last x : Z) : Prop := any_range first last \/ addr_value first <= x <= addr_value last.
(* what a packet looks like to a selector *)
Definition quad (l : list Z) (i : nat) : Z :=
  nth i l 0 * 16777216 + nth (i + 1) l 0 * 65536 + nth (i + 2) l 0 * 256 + nth (i + 3) l 0.
Definition sel_accepts (s : sel) (src dst proto : Z) : Prop :=
  in_range (s_sf s) (s_sl s) src /\ in_range (s_df s) (s_dl s) dst /\ (s_proto s = 0 \/ s_proto s = proto).
Definition pkt_ok (l3 : list Z) : Prop := (20 <= length l3)%nat /\ bytes_ok l3.
Definition sel_accepts_pkt (s : sel) (l3 : list Z) : Prop := sel_accepts s (quad l3 12) (quad l3 16) (nth 9 l3 0).
(* RFC 4301 6.2: an ICMP error is judged by the packet it quotes, reversed; ihl in words *)
Definition icmp_error_for (s : sel) (l3 : list Z) : Prop :=
  let icmp := Z.to_nat (4 * (nth 0 l3 0 mod 16)) in
  nth 9 l3 0 = 1 /\ (icmp + 8 + 20 <= length l3)%nat /\ In (nth icmp l3 0) [3; 4; 11; 12] /\
  sel_accepts s (quad l3 (icmp + 8 + 16)) (quad l3 (icmp + 8 + 12)) (nth (icmp + 8 + 9) l3 0).

(* the policy that decides about a packet: lowest priority number first, newest
   first among equals *)
Definition applies (a : view) (dir_in : bool) (vrf : Z) (l3 : list Z) (h : nat) : Prop :=
  (p_dir (ppar a h) =? DIR_IN) = dir_in /\ p_vrf (ppar a h) = vrf /\ sel_accepts_pkt (p_sel (ppar a h)) l3.
Definition decides (a : view) (dir_in : bool) (vrf : Z) (l3 : list Z) (r : option (nat * option nat)) : Prop :=
  match r with
  | None => forall h b, In (h, b) (pols a) -> ~ applies a dir_in vrf l3 h
  | Some (h, b) => exists newer older, pols a = newer ++ (h, b) :: older /\ applies a dir_in vrf l3 h /\
      (forall h' b', In (h', b') newer -> applies a dir_in vrf l3 h' -> p_prio (ppar a h) < p_prio (ppar a h')) /\
      (forall h' b', In (h', b') older -> applies a dir_in vrf l3 h' -> p_prio (ppar a h) <= p_prio (ppar a h'))
  end.
Definition out_answer (a : view) (r : option (nat * option nat)) (drop : bool) (sa : option nat) : Prop :=
  match r with
  | None => drop = false /\ sa = None
  | Some (h, b) =>
    match p_act (ppar a h) with
    | BYPASS => drop = false /\ sa = None
    | DISCARD => drop = true /\ sa = None
    | PROTECT => match b with
                 | Some j => if qdis a j then drop = true /\ sa = None else drop = false /\ sa = Some j
                 | None => drop = true /\ sa = None
                 end
    end
  end.

Definition supported_sp (p : spar) : Prop :=
  let s := p_sel p in
  s_p1 s = 0 /\ s_p2 s = 0 /\ s_p3 s = 0 /\ s_p4 s = 0 /\ s_type s = SEL_IPV4 /\ p_sa p = None.
Definition supported_sa (q : sapar) : Prop :=
  q_udp q = false /\ q_flabel q = false /\ (q_mode q = MODE_TUNNEL -> q_tun q = TUN_IPV4).
(* an id (for SAs also an inbound SPI) is taken *)
Definition sp_clash (a : view) (p : spar) : Prop := exists h, installed a h /\ p_id (ppar a h) = p_id p.
Definition sa_clash (a : view) (q : sapar) : Prop :=
  exists h, In h (assocs a) /\ (q_id (qpar a h) = q_id q \/
    (q_dir q = DIR_IN /\ q_dir (qpar a h) = DIR_IN /\ q_spi (qpar a h) = q_spi q)).

Definition u32v (x : Z) : Prop := 0 <= x < 4294967296.
Definition LIMIT := 2147483648.

(* the client's obligations. Beyond the API: addresses are not "any", only
   PROTECT policies get an SA, a policy is destroyed once, and iteration goes on
   only from a policy or SA still installed (each is refuted without). *)
Definition few_refs (a : view) : Prop := forall h, pcnt a h < LIMIT /\ qcnt a h < LIMIT.
Definition legal (a : view) (c : call) : Prop :=
  few_refs a /\ (pending a = true -> c = CRelease) /\
  match c with
  | CSpCreate p => let s := p_sel p in
      u32v (s_sf s) /\ u32v (s_sl s) /\ u32v (s_df s) /\ u32v (s_dl s) /\
      ~ any_range (s_sf s) (s_sl s) /\ ~ any_range (s_df s) (s_dl s)
  | CSpDestroy i => installed a i /\ 0 < pcnt a i
  | CSpBind i j => installed a i /\ 0 < pcnt a i /\ 0 < qcnt a j /\ p_act (ppar a i) = PROTECT
  | CSpNext i => installed a i /\ 0 < pcnt a i
  | CSpRef i | CSpUnref i | CSpInfo i => 0 < pcnt a i
  | CSaDestroy i _ o2 => 0 < qcnt a i /\ o2 = true
  | CSaFlush _ _ o2 | CStop _ o2 => o2 = true
  | CSaDone i o2 => In i (assocs a) /\ qdis a i = true /\ o2 = true
  | CSaNext i => In i (assocs a) /\ 0 < qcnt a i
  | CSaRef i | CSaUnref i | CSaInfo i => 0 < qcnt a i
  | CRelease => pending a = true
  | COut _ l | CIn _ l _ _ => pkt_ok l
  | CInput i _ l => 0 < qcnt a i /\ pkt_ok l /\ (nth 9 l 0 <> 1 \/ sel_accepts_pkt (qselp a i) l)
  | CSpFlush _ | CSpFind _ | CSpFirst | CSaCreate _ _ | CSaFind _ | CSaFirst => True
  end.

Definition after_in (x : nat) (l : list nat) : option nat :=
  (fix go l := match l with [] => None | y :: r => if Nat.eqb y x then hd_error r else go r end) l.
Definition handle_is (x : answer) (o : option nat) : Prop := x = AHandle o.

(* which answers a call may give; nsp, nsa: configured table sizes; sync: the
   operation mode of a direction is synchronous *)
Definition sa_destroy_rc (a : view) (o1 : bool) (i : nat) : bool := negb (qdis a i) && o1.
Definition allowed (nsp nsa : nat) (a : view) (c : call) (x : answer) : Prop :=
  match c with
  | CSpCreate p =>
      (supported_sp p /\ ~ sp_clash a p /\ exists h, x = AHandle (Some h) /\ (h < nsp)%nat /\ ~ used_sp a h) \/
      (x = AHandle None /\ (~ supported_sp p \/ sp_clash a p \/ forall h, (h < nsp)%nat -> used_sp a h))
  | CSpDestroy _ | CSpFlush _ | CStop _ _ => x = ARc true
  | CSpBind i j => exists b, x = ARc b /\
      (b = true <-> p_dir (ppar a i) = q_dir (qpar a j) /\ p_vrf (ppar a i) = q_vrf (qpar a j) /\
                    (p_dir (ppar a i) = DIR_IN -> qsel a j = None))
  | CSpFind id => (exists h, x = AHandle (Some h) /\ installed a h /\ p_id (ppar a h) = id) \/
                  (x = AHandle None /\ forall h, installed a h -> p_id (ppar a h) <> id)
  | CSpFirst => x = AHandle (hd_error (map fst (pols a)))
  | CSpNext i => x = AHandle (after_in i (map fst (pols a)))
  | CSpRef _ | CSpUnref _ | CSaRef _ | CSaUnref _ | CRelease => x = AUnit
  | CSpInfo i => exists b, x = ASp b (ppar a i) /\ (b = false <-> installed a i)
  | CSaCreate q odp =>
      (supported_sa q /\ ~ sa_clash a q /\ odp = true /\ exists h, x = AHandle (Some h) /\ (h < nsa)%nat /\ ~ used_sa a h) \/
      (x = AHandle None /\ (~ supported_sa q \/ sa_clash a q \/ odp = false \/ forall h, (h < nsa)%nat -> used_sa a h))
  | CSaDestroy i o1 _ => x = ARc (sa_destroy_rc a o1 i)
  | CSaFlush v o1 _ => x = ARc (forallb (fun i => negb (q_vrf (qpar a i) =? v) || sa_destroy_rc a o1 i) (assocs a))
  | CSaDone _ _ => x = ARc true
  | CSaFind id => (exists h, x = AHandle (Some h) /\ In h (assocs a) /\ q_id (qpar a h) = id) \/
                  (x = AHandle None /\ forall h, In h (assocs a) -> q_id (qpar a h) <> id)
  | CSaFirst => x = AHandle (hd_error (assocs a))
  | CSaNext i => x = AHandle (after_in i (assocs a))
  | CSaInfo i => exists s, x = ASa s (qpar a i) /\
      (s = DESTROYED <-> ~ In i (assocs a)) /\ (In i (assocs a) -> s = if qdis a i then DISABLED else ACTIVE)
  | COut v l => exists r drop sa, x = AOut drop sa /\ decides a false v l r /\ out_answer a r drop sa
  | CIn v l ours decap => exists b, x = ABool b /\
      (b = true <-> ~ (ours = true /\ (nth 9 l 0 = 50 \/ nth 9 l 0 = 51)) /\ decap = false /\
                    exists h s, decides a true v l (Some (h, s)) /\ p_act (ppar a h) <> BYPASS)
  | CInput i v l => exists b, x = ABool b /\
      (b = true <-> qsel a i <> None /\ (sel_accepts_pkt (qselp a i) l \/ icmp_error_for (qselp a i) l) /\ v = q_vrf (qpar a i))
  end.

(* the client's view after the call *)
Definition set {A} (f : nat -> A) (i : nat) (x : A) : nat -> A := fun j => if Nat.eqb j i then x else f j.
Definition give_p (a : view) (o : option nat) (n : Z) : view :=
  match o with None => a | Some i =>
    mkView (pols a) (ppar a) (set (pcnt a) i (pcnt a i + n)) (assocs a) (qpar a) (qdis a) (qcnt a) (qsel a) (qselp a) (pending a) end.
Definition give_q (a : view) (o : option nat) (n : Z) : view :=
  match o with None => a | Some i =>
    mkView (pols a) (ppar a) (pcnt a) (assocs a) (qpar a) (qdis a) (set (qcnt a) i (qcnt a i + n)) (qsel a) (qselp a) (pending a) end.
Definition v_pols (a : view) l := mkView l (ppar a) (pcnt a) (assocs a) (qpar a) (qdis a) (qcnt a) (qsel a) (qselp a) (pending a).
Definition v_assocs (a : view) l := mkView (pols a) (ppar a) (pcnt a) l (qpar a) (qdis a) (qcnt a) (qsel a) (qselp a) (pending a).
Definition v_qdis (a : view) f := mkView (pols a) (ppar a) (pcnt a) (assocs a) (qpar a) f (qcnt a) (qsel a) (qselp a) (pending a).
Definition v_pend (a : view) b := mkView (pols a) (ppar a) (pcnt a) (assocs a) (qpar a) (qdis a) (qcnt a) (qsel a) (qselp a) b.
Definition new_pol (a : view) (h : nat) (p : spar) : view :=
  mkView ((h, None) :: pols a) (set (ppar a) h p) (set (pcnt a) h 1) (assocs a) (qpar a) (qdis a) (qcnt a) (qsel a) (qselp a) (pending a).
Definition new_assoc (a : view) (h : nat) (q : sapar) : view :=
  mkView (pols a) (ppar a) (pcnt a) (h :: assocs a) (set (qpar a) h q) (set (qdis a) h false) (set (qcnt a) h 1)
         (set (qsel a) h None) (qselp a) (pending a).
Definition kill (l : list (nat * option nat)) (dead : nat -> bool) := filter (fun hb => negb (dead (fst hb))) l.
Definition bindp (l : list (nat * option nat)) (i j : nat) := map (fun hb => if Nat.eqb (fst hb) i then (i, Some j) else hb) l.
Definition in_vrf (check : bool) (v w : Z) : bool := negb check || (w =? v).
(* destroying the SAs sel picks *)
Definition kill_sa (a : view) (sync : Z -> bool) (pick : nat -> bool) (o1 : bool) : view :=
  let hit h := pick h && existsb (Nat.eqb h) (assocs a) in
  v_qdis (v_assocs a (filter (fun h => negb (pick h && negb (qdis a h) && o1 && sync (q_dir (qpar a h)))) (assocs a)))
         (fun h => qdis a h || hit h).
Definition after (sync : Z -> bool) (a : view) (c : call) (x : answer) : view :=
  match c, x with
  | CSpCreate p, AHandle (Some h) => new_pol a h p
  | CSpDestroy i, _ => v_pols a (kill (pols a) (Nat.eqb i))
  | CSpFlush v, _ => v_pols a (kill (pols a) (fun h => p_vrf (ppar a h) =? v))
  | CSpBind i j, ARc true =>
      if p_dir (ppar a i) =? DIR_IN
      then mkView (pols a) (ppar a) (pcnt a) (assocs a) (qpar a) (qdis a) (qcnt a) (set (qsel a) j (Some i)) (set (qselp a) j (p_sel (ppar a i))) (pending a)
      else v_pols a (bindp (pols a) i j)
  | CSpFind _, AHandle o | CSpFirst, AHandle o => give_p a o 1
  | CSpNext i, AHandle o => give_p (give_p a o 1) (Some i) (-1)
  | CSpRef i, _ => give_p a (Some i) 1
  | CSpUnref i, _ => give_p a (Some i) (-1)
  | CSaCreate q _, AHandle (Some h) => new_assoc a h q
  | CSaDestroy i o1 _, _ => kill_sa a sync (Nat.eqb i) o1
  | CSaFlush v o1 _, _ => kill_sa a sync (fun h => q_vrf (qpar a h) =? v) o1
  | CSaDone i _, _ => v_assocs a (filter (fun h => negb (Nat.eqb h i)) (assocs a))
  | CSaFind _, AHandle o | CSaFirst, AHandle o => give_q a o 1
  | CSaNext i, AHandle o => give_q (give_q a o 1) (Some i) (-1)
  | CSaRef i, _ => give_q a (Some i) 1
  | CSaUnref i, _ => give_q a (Some i) (-1)
  | CStop o1 _, _ => kill_sa (v_pols a []) sync (fun _ => true) o1
  | COut _ _, AOut _ (Some _) => v_pend a true
  | CRelease, _ => v_pend a false
  | _, _ => a
  end.

(* histories of legal calls *)
Inductive reach (fuel nsp nsa : nat) (sync : Z -> bool) : db -> view -> Prop :=
| r_init : reach fuel nsp nsa sync (db_init nsp nsa) view0
| r_step d a c d' x : reach fuel nsp nsa sync d a -> legal a c -> istep fuel sync d c = Ret (d', x) ->
    reach fuel nsp nsa sync d' (after sync a c x).
