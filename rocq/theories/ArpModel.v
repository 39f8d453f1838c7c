(* IPv4 neighbour (ARP) table, src/ofp_arp.c (the build without OFP_USE_LIBCK).
   Every function of the file that runs with the set lock held is one step.
   STAILQ/SLIST queues are lists of entry numbers; a STAILQ_REMOVE of an entry
   that is not in the queue walks off its end: UB. ODP time is a number. The
   results of ofp_timer_start and ofp_timer_cancel are inputs. Left out: locks,
   logging, the two show functions, start-up and termination. *)
From Verif Require Import Base.

(* ofp_arp.c:37-39: hash stands for ofp_hashword(...) & (NUM_SETS - 1), any
   function of the key; nent = global_param->arp.entries; tmo = entry_timeout *)
Record acfg := mkC { hash : Z -> Z -> nat; nent : nat; nset : nat; tmo : Z }.

(* ofpi_arp.h:38-73; e_ptmo / e_utmo: pkt_tmo / usetime_upd_tmo is not
   ODP_TIMER_INVALID; e_pkts: (packet, next hop), first = most recently saved *)
Record aent := mkE { e_vrf : Z; e_ip : Z; e_used : bool; e_compl : bool; e_man : bool;
  e_mac : Z; e_pkts : list (Z * Z); e_ptmo : bool; e_utmo : bool; e_time : Z; e_ref : Z }.
(* ofp_arp.c:53-78; pfree: number of free pkt_entry cells *)
Record arp := mkA { ents : nat -> aent; afree : list nat; tab : nat -> list nat;
                    cache : nat -> nat; pfree : Z }.

Definition NPKT := 2048.                    (* ofp_arp.c:35 ARP_WAITING_PKTS_SIZE *)

Definition nupd {A} (f : nat -> A) (i : nat) (x : A) : nat -> A :=
  fun j => if Nat.eqb j i then x else f j.
Definition setE (s : arp) (i : nat) (e : aent) := mkA (nupd (ents s) i e) (afree s) (tab s) (cache s) (pfree s).
Definition setF (s : arp) (l : list nat) := mkA (ents s) l (tab s) (cache s) (pfree s).
Definition setT (s : arp) (st : nat) (l : list nat) := mkA (ents s) (afree s) (nupd (tab s) st l) (cache s) (pfree s).
Definition setC (s : arp) (st i : nat) := mkA (ents s) (afree s) (tab s) (nupd (cache s) st i) (pfree s).
Definition setP (s : arp) (n : Z) := mkA (ents s) (afree s) (tab s) (cache s) n.

(* ofpi_arp.h:80-82 ARP_IS_CACHE_HIT, and the comparison of ofp_arp.c:169-170 *)
Definition keyeq (e : aent) (v ip : Z) : bool := (e_vrf e =? v) && (e_ip e =? ip).

(* ofp_arp.c:104-128; cok: ofp_timer_cancel succeeds. Result: entry, rc != 0 *)
Definition entry_reset (e : aent) (cok : bool) : aent * bool :=
  (mkE 0 0 false false false 0 (e_pkts e) false false (e_time e) 0,
   (e_ptmo e && negb cok) || (e_utmo e && negb cok)).

(* ofp_arp.c:129-150 *)
Definition entry_alloc (s : arp) (cok : bool) : arp * option nat :=
  match afree s with
  | [] => (s, None)
  | i :: r =>
    let '(e, bad) := entry_reset (ents s i) cok in
    if bad : bool then (setF (setE s i e) (r ++ [i]), None)
    else (setF (setE s i (mkE (e_vrf e) (e_ip e) (e_used e) (e_compl e) (e_man e) (e_mac e) []
                              (e_ptmo e) (e_utmo e) (e_time e) (e_ref e))) r, Some i)
  end.

(* ofp_arp.c:153-162 *)
Definition entry_free (s : arp) (i : nat) : arp :=
  let e := ents s i in
  let e' := mkE (e_vrf e) (e_ip e) (e_used e) (e_compl e) (e_man e) (e_mac e) (e_pkts e) false (e_utmo e) (e_time e) (e_ref e) in
  setF (setE s i e') (afree s ++ [i]).

(* ofp_arp.c:164-175 *)
Definition arp_lookup (s : arp) (st : nat) (v ip : Z) : option nat :=
  find (fun i => keyeq (ents s i) v ip) (tab s st).

(* ofp_arp.c:177-197 *)
Definition insert_new_entry (s : arp) (st : nat) (v ip : Z) (cok : bool) : arp * option nat :=
  match arp_lookup s st v ip with
  | Some i => (s, Some i)
  | None =>
    match entry_alloc s cok with
    | (s1, None) => (s1, None)
    | (s1, Some i) =>
      let e := ents s1 i in
      let e' := mkE v ip true (e_compl e) (e_man e) (e_mac e) (e_pkts e) (e_ptmo e) false (e_time e) (e_ref e) in
      (setT (setE s1 i e') st (i :: tab s1 st), Some i)
    end
  end.

Fixpoint rm1 (i : nat) (l : list nat) : option (list nat) :=
  match l with
  | [] => None
  | j :: r => if Nat.eqb j i then Some r
              else match rm1 i r with Some r' => Some (j :: r') | None => None end
  end.

(* ofp_arp.c:199-230. The result of cancelling the update timer is only
   returned, and no caller modelled here looks at it *)
Definition remove_entry (s : arp) (st i : nat) : outcome arp :=
  let e := ents s i in
  let s1 := if keyeq (ents s (cache s st)) (e_vrf e) (e_ip e) then setC s st 0%nat else s in
  match rm1 i (tab s1 st) with
  | None => UB
  | Some l =>
    let e' := mkE (e_vrf e) (e_ip e) false false false (e_mac e) (e_pkts e) (e_ptmo e) false (e_time e) (e_ref e) in
    Ret (entry_free (setE (setT s1 st l) i e') i)
  end.

(* ofp_arp.c:295-347. ll: the MAC as a number; send: send_list != NULL. Result:
   new state, entry number, the packets moved to send_list (in list order) *)
Definition insert_entry (c : acfg) (s : arp) (ip ll v : Z) (compl man send : bool) (now : Z) (cok : bool)
  : arp * option (nat * list (Z * Z)) :=
  let st := hash c v ip in
  match insert_new_entry s st v ip cok with
  | (s1, None) => (s1, None)
  | (s1, Some i) =>
    let e := ents s1 i in
    let e1 := mkE (e_vrf e) (e_ip e) (e_used e) (e_compl e || compl) (e_man e || (compl && man)) ll
                  (e_pkts e) (e_ptmo e) (e_utmo e) (e_time e) (e_ref e) in
    if e_compl e1 && send then
      let e2 := mkE (e_vrf e1) (e_ip e1) (e_used e1) (e_compl e1) (e_man e1) (e_mac e1) []
                    (match e_pkts e1 with [] => e_ptmo e1 | _ => false end) (e_utmo e1) now (e_ref e1) in
      (setE s1 i e2, Some (i, e_pkts e1))
    else (setE s1 i e1, Some (i, []))
  end.

(* ofp_arp.c:388-402. Result: state, the packets whose cells were freed. The
   packets themselves are not freed (no odp_packet_free): their handles are lost *)
Definition remove_unref (s : arp) (st i : nat) : outcome (arp * list (Z * Z)) :=
  let e := ents s i in
  if (e_ref e =? 0) && e_used e then
    let e' := mkE (e_vrf e) (e_ip e) (e_used e) (e_compl e) (e_man e) (e_mac e) []
                  (e_ptmo e) (e_utmo e) (e_time e) (e_ref e) in
    let s1 := setP (setE s i e') (pfree s + Z.of_nat (length (e_pkts e))) in
    obind (remove_entry s1 st i) (fun s2 => Ret (s2, e_pkts e))
  else Ret (s, []).

(* ofp_arp.c:404-419 *)
Definition remove_idx (c : acfg) (s : arp) (i : nat) : outcome (arp * list (Z * Z)) :=
  let e := ents s i in remove_unref s (hash c (e_vrf e) (e_ip e)) i.

Definition set_ref (s : arp) (i : nat) (n : Z) : arp :=
  let e := ents s i in
  setE s i (mkE (e_vrf e) (e_ip e) (e_used e) (e_compl e) (e_man e) (e_mac e) (e_pkts e) (e_ptmo e) (e_utmo e) (e_time e) n).
(* ofp_arp.c:421-436 *)
Definition inc_ref (s : arp) (i : nat) : arp := set_ref s i (u32 (e_ref (ents s i) + 1)).
(* ofp_arp.c:438-455 *)
Definition dec_ref (c : acfg) (s : arp) (i : nat) : outcome (arp * list (Z * Z)) :=
  let s1 := set_ref s i (u32 (e_ref (ents s i) - 1)) in
  let e := ents s i in remove_unref s1 (hash c (e_vrf e) (e_ip e)) i.

(* ofp_arp.c:466-480: the use-time timer of an entry expires *)
Definition usetime_tmo (s : arp) (i : nat) : arp :=
  let e := ents s i in
  setE s i (mkE (e_vrf e) (e_ip e) (e_used e) (e_compl e) (e_man e) (e_mac e) (e_pkts e) (e_ptmo e) false (e_time e) (e_ref e)).

(* ofp_arp.c:482-535; tok: ofp_timer_start gives a timer *)
Definition touch (s : arp) (i : nat) (now : Z) (tok : bool) : arp :=
  let e := ents s i in
  if negb (e_man e) && negb (e_utmo e) then
    setE s i (mkE (e_vrf e) (e_ip e) (e_used e) (e_compl e) (e_man e) (e_mac e) (e_pkts e) (e_ptmo e) tok now (e_ref e))
  else s.
Definition lookup_idx (c : acfg) (s : arp) (v ip now : Z) (tok : bool) : arp * option nat :=
  let st := hash c v ip in
  let ci := cache s st in
  if keyeq (ents s ci) v ip then (touch s ci now tok, Some ci)
  else match arp_lookup s st v ip with
       | None => (s, None)
       | Some i => match e_pkts (ents s i) with
                   | _ :: _ => (s, None)
                   | [] => (touch (setC s st i) i now tok, Some i)
                   end
       end.

(* ofp_arp.c:537-558 *)
Definition lookup_mac (c : acfg) (s : arp) (v ip now : Z) (tok : bool) : arp * option Z :=
  match lookup_idx c s v ip now tok with
  | (s1, None) => (s1, None)
  | (s1, Some i) => (s1, if e_compl (ents s1 i) then Some (e_mac (ents s1 i)) else None)
  end.
(* ofp_arp.c:560-571 *)
Definition get_mac_by_idx (s : arp) (i : nat) : option Z :=
  if e_compl (ents s i) then Some (e_mac (ents s i)) else None.

Inductive sres := Processed | Drop.
(* ofp_arp.c:594-658. idx: nh_param->arp_ent_idx; tst: ofp_timer_start gives a
   timer. Result: state, return code, packets lost by a removal *)
Definition save_pkt (c : acfg) (s : arp) (pkt nh ip : Z) (local : bool) (v : Z) (idx : nat) (cok tst : bool)
  : outcome (arp * sres * list (Z * Z)) :=
  let st := hash c v ip in
  let '(s1, who) := if local then insert_new_entry s st v ip cok else (s, Some idx) in
  match who with
  | None => Ret (s1, Drop, [])
  | Some i =>
    let e := ents s1 i in
    if local && e_compl e then Ret (s1, Drop, [])
    else
      let e1 := mkE (e_vrf e) (e_ip e) (e_used e) (e_compl e) (e_man e) (e_mac e) (e_pkts e) (e_ptmo e) (e_utmo e) 0 (e_ref e) in
      let s2 := setE s1 i e1 in
      if pfree s2 <=? 0 then
        match e_pkts e with
        | [] => obind (remove_unref s2 st i) (fun '(s3, lost) => Ret (s3, Drop, lost))
        | _ => Ret (s2, Drop, [])
        end
      else
        let e2 := mkE (e_vrf e) (e_ip e) (e_used e) (e_compl e) (e_man e) (e_mac e) ((pkt, nh) :: e_pkts e)
                      (match e_pkts e with [] => tst | _ => e_ptmo e end) (e_utmo e) 0 (e_ref e) in
        Ret (setP (setE s2 i e2) (pfree s2 - 1), Processed, [])
  end.

(* ofp_arp.c:670-676 *)
Definition timed_out (c : acfg) (e : aent) (now : Z) : bool := now >? e_time e + tmo c.
(* ofp_arp.c:678-709: one set; the successor is read before the entry is removed,
   and only the entry itself is removed, so the walk is over the queue as it was *)
Fixpoint age_set (c : acfg) (s : arp) (st : nat) (l : list nat) (now : Z) : outcome (arp * list (Z * Z)) :=
  match l with
  | [] => Ret (s, [])
  | i :: r =>
    let e := ents s i in
    if negb (e_man e) && (match e_pkts e with [] => true | _ => false end) && timed_out c e now
    then obind (remove_unref s st i) (fun '(s1, lost) =>
         obind (age_set c s1 st r now) (fun '(s2, lost2) => Ret (s2, lost ++ lost2)))
    else age_set c s st r now
  end.
Fixpoint age_from (c : acfg) (s : arp) (sets : list nat) (now : Z) : outcome (arp * list (Z * Z)) :=
  match sets with
  | [] => Ret (s, [])
  | st :: r => obind (age_set c s st (tab s st) now) (fun '(s1, lost) =>
               obind (age_from c s1 r now) (fun '(s2, lost2) => Ret (s2, lost ++ lost2)))
  end.
Definition age (c : acfg) (s : arp) (now : Z) := age_from c s (seq 0 (nset c)) now.

(* ofp_arp.c:796: memset(&entries[0], 1, ...), then pkt_list_head zeroed (758-760) *)
Definition ent0 : aent := mkE 16843009 16843009 true true true 72340172838076673 [] true true
                              72340172838076673 16843009.
(* ofp_arp.c:752-806 (also CLI "arp flush", cli/ofp_cli_arp.c:28-33). The packet
   lists are zeroed and all cells freed: waiting packets are lost *)
Definition init_tables (c : acfg) (s : arp) : arp :=
  mkA (fun i => match i with
                | O => ent0
                | _ => let e := fst (entry_reset (ents s i) true) in
                       mkE (e_vrf e) (e_ip e) (e_used e) (e_compl e) (e_man e) (e_mac e) []
                           (e_ptmo e) (e_utmo e) (e_time e) (e_ref e)
                end)
      (seq 1 (nent c)) (fun _ => []) (fun _ => O) NPKT.
(* ofp_arp.c:835-861: shared memory zeroed, timers invalid, tables initialised *)
Definition arp_init (c : acfg) : arp :=
  init_tables c (mkA (fun _ => mkE 0 0 false false false 0 [] false false 0 0) [] (fun _ => []) (fun _ => O) 0).

(* The calls other modules make *)
Inductive aop :=
| OLearn (v ip mac : Z) (man : bool) (now : Z) (cok : bool)     (* ofp_arp_ipv4_insert: ARP input, CLI *)
| OResolve (v ip now : Z) (tok cok : bool)                      (* ofp_route.c:189-198, entry for a gateway *)
| OInc (i : nat)                                                (* ofp_route.c:204 *)
| ODec (i : nat)                                                (* ofp_route.c:222, 261 *)
| ORemove (i : nat)                  (* ofp_arp_ipv4_remove_entry_idx: ofp_route.c:223; saved-packet timer ofp_arp.c:577-592 *)
| OLookup (v ip now : Z) (tok : bool)                           (* ofp_ipv4_lookup_mac *)
| OGetMac (i : nat)                                             (* ofp_ipv4_get_mac_by_idx *)
| OOutput (pkt nh : Z) (local : bool) (v ip : Z) (idx : nat) (now : Z) (tok cok tst : bool)
                                     (* ofp_get_mac and, if it fails, save: ofp_route.c:111-122, ofp_pkt_processing.c:1002-1008 *)
| OUseTmo (i : nat)
| OAge (now : Z)
| OFlush.

Inductive rcode := COk | CFail | CContinue | CProcessed | CDrop.
Record ares := mkR { r_rc : rcode; r_mac : option Z; r_idx : option nat;
                     r_sent : list (Z * Z);   (* packets handed to ofp_ip_output_common, in order *)
                     r_lost : list (Z * Z) }. (* packets whose only reference was dropped *)

Definition inrange (c : acfg) (i : nat) : bool := Nat.leb i (nent c).
Definition waiting (c : acfg) (s : arp) : list (Z * Z) := flat_map (fun i => e_pkts (ents s i)) (seq 1 (nent c)).

Definition astep (c : acfg) (s : arp) (op : aop) : outcome (arp * ares) :=
  match op with
  | OLearn v ip mac man now cok =>
      (* ofp_arp.c:354-386: cells of the sent packets are freed *)
      match insert_entry c s ip mac v true man true now cok with
      | (s1, None) => Ret (s1, mkR CFail None None [] [])
      | (s1, Some (i, l)) => Ret (setP s1 (pfree s1 + Z.of_nat (length l)), mkR COk None (Some i) l [])
      end
  | OResolve v ip now tok cok =>
      match lookup_idx c s v ip now tok with
      | (s1, Some i) => Ret (s1, mkR COk None (Some i) [] [])
      | (s1, None) =>
        match insert_entry c s1 ip 0 v false false false now cok with
        | (s2, None) => Ret (s2, mkR CFail None None [] [])
        | (s2, Some (i, _)) => Ret (s2, mkR COk None (Some i) [] [])
        end
      end
  | OInc i => if inrange c i then Ret (inc_ref s i, mkR COk None None [] []) else UB
  | ODec i => if inrange c i then obind (dec_ref c s i) (fun '(s1, l) => Ret (s1, mkR COk None None [] l)) else UB
  | ORemove i => if inrange c i then obind (remove_idx c s i) (fun '(s1, l) => Ret (s1, mkR COk None None [] l)) else UB
  | OLookup v ip now tok =>
      let '(s1, m) := lookup_mac c s v ip now tok in
      Ret (s1, mkR (match m with Some _ => COk | None => CFail end) m None [] [])
  | OGetMac i =>
      if inrange c i then let m := get_mac_by_idx s i in
        Ret (s, mkR (match m with Some _ => COk | None => CFail end) m None [] [])
      else UB
  | OOutput pkt nh local v ip idx now tok cok tst =>
      if negb local && negb (inrange c idx) then UB else
      let '(s1, m) := if local then lookup_mac c s v ip now tok else (s, get_mac_by_idx s idx) in
      match m with
      | Some mac => Ret (s1, mkR CContinue (Some mac) None [] [])
      | None => obind (save_pkt c s1 pkt nh ip local v idx cok tst) (fun '(s2, r, l) =>
                Ret (s2, mkR (match r with Processed => CProcessed | Drop => CDrop end) None None [] l))
      end
  | OUseTmo i => if inrange c i then Ret (usetime_tmo s i, mkR COk None None [] []) else UB
  | OAge now => obind (age c s now) (fun '(s1, l) => Ret (s1, mkR COk None None [] l))
  | OFlush => Ret (init_tables c s, mkR COk None None [] (waiting c s))
  end.
