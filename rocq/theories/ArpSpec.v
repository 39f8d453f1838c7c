(* What the ARP properties say, over a recorded history: for every call the state
   of the entry array before it, the call and its result. Sets, hash, per-set
   cache and free list do not appear. *)
From Verif Require Import Base ArpModel.

(* entry number i is in use for address ip of vrf v *)
Definition names (c : acfg) (s : arp) (i : nat) (v ip : Z) : Prop :=
  (1 <= i <= nent c)%nat /\ e_used (ents s i) = true /\ e_vrf (ents s i) = v /\ e_ip (ents s i) = ip.
Definition namesb (c : acfg) (s : arp) (v ip : Z) (i : nat) : bool :=
  Nat.leb 1 i && Nat.leb i (nent c) && e_used (ents s i) && keyeq (ents s i) v ip.

(* the caller's obligations: vrf is a 16-bit number; references are taken on
   entries in use and fewer than 2^32 at a time, and given back at most as often
   as taken; a packet sent through a gateway uses an entry some route holds;
   timers only carry numbers of existing entries *)
Definition op_ok (c : acfg) (s : arp) (op : aop) : Prop :=
  match op with
  | OLearn v _ _ _ _ _ | OResolve v _ _ _ _ | OLookup v _ _ _ => 0 <= v < 65536
  | OInc i => (1 <= i <= nent c)%nat /\ e_used (ents s i) = true /\ e_ref (ents s i) < 4294967295
  | ODec i => (1 <= i <= nent c)%nat /\ e_ref (ents s i) <> 0
  | ORemove i | OGetMac i | OUseTmo i => (i <= nent c)%nat
  | OOutput _ _ true v _ _ _ _ _ _ => 0 <= v < 65536
  | OOutput _ _ false _ _ i _ _ _ _ => (1 <= i <= nent c)%nat /\ e_ref (ents s i) <> 0
  | OAge _ | OFlush => True
  end.

Notation trace := (list (arp * aop * ares)).     (* newest first *)
Inductive history (c : acfg) : trace -> arp -> Prop :=
| h_init : history c [] (arp_init c)
| h_step t s op s' r : history c t s -> op_ok c s op -> astep c s op = Ret (s', r) ->
    history c ((s, op, r) :: t) s'.

(* the call takes the entry of (v, ip) out of the table *)
Definition unref (c : acfg) (s : arp) (i : nat) (n v ip : Z) : bool :=
  namesb c s v ip i && (e_ref (ents s i) =? n).
Definition removes (c : acfg) (s : arp) (op : aop) (v ip : Z) : bool :=
  match op with
  | OFlush => true
  | ORemove i => unref c s i 0 v ip
  | ODec i => unref c s i 1 v ip
  | OAge now => existsb (fun i => unref c s i 0 v ip && negb (e_man (ents s i)) &&
                                  (match e_pkts (ents s i) with [] => true | _ => false end) &&
                                  (now >? e_time (ents s i) + tmo c)) (seq 1 (nent c))
  | _ => false
  end.
Definition learns (op : aop) (r : ares) (v ip : Z) : option Z :=
  match op, r_rc r with
  | OLearn v' ip' mac _ _ _, COk => if (v' =? v) && (ip' =? ip) then Some mac else None
  | _, _ => None
  end.
(* the MAC most recently learned for exactly (v, ip), unless removed since *)
Fixpoint last_mac (c : acfg) (t : trace) (v ip : Z) : option Z :=
  match t with
  | [] => None
  | (s, op, r) :: t' =>
    match learns op r v ip with
    | Some mac => Some mac
    | None => if removes c s op v ip then None else last_mac c t' v ip
    end
  end.

(* references held on entry i: taken minus given back, since the last flush *)
Fixpoint held (t : trace) (i : nat) : Z :=
  match t with
  | [] => 0
  | (_, OInc j, _) :: t' => held t' i + (if Nat.eqb j i then 1 else 0)
  | (_, ODec j, _) :: t' => held t' i - (if Nat.eqb j i then 1 else 0)
  | (_, OFlush, _) :: t' => 0
  | _ :: t' => held t' i
  end.

(* the packets accepted for the address (v, ip) and not yet sent, newest first *)
Definition accepts (c : acfg) (s : arp) (op : aop) (r : ares) (v ip : Z) : list (Z * Z) :=
  match op, r_rc r with
  | OOutput pkt nh local v' ip' idx _ _ _ _, CProcessed =>
      if (if local then (v' =? v) && (ip' =? ip) else namesb c s v ip idx) then [(pkt, nh)] else []
  | _, _ => []
  end.
Fixpoint pending (c : acfg) (t : trace) (v ip : Z) : list (Z * Z) :=
  match t with
  | [] => []
  | (s, op, r) :: t' =>
    match learns op r v ip with
    | Some _ => []
    | None => if removes c s op v ip then [] else accepts c s op r v ip ++ pending c t' v ip
    end
  end.

(* packets accepted (return value OFP_PKT_PROCESSED), sent and dropped on the floor *)
Fixpoint all_accepted (t : trace) : list (Z * Z) :=
  match t with
  | [] => []
  | (_, OOutput pkt nh _ _ _ _ _ _ _ _, mkR CProcessed _ _ _ _) :: t' => (pkt, nh) :: all_accepted t'
  | _ :: t' => all_accepted t'
  end.
Definition all_sent (t : trace) : list (Z * Z) := flat_map (fun x => r_sent (snd x)) t.
Definition all_lost (t : trace) : list (Z * Z) := flat_map (fun x => r_lost (snd x)) t.
