(* The UDP table shared by IPv4 and IPv6 sockets: src/ofp_in6_pcb.c, the parts of
   src/ofp_in_pcb.c that see IPv6 sockets, and the calls of ofp_udp6_usrreq.c and
   ofp_udp_usrreq.c.  Each call runs under the hash lock and is one step.

   An address is (upper 96 bits, lower 32 bits); inp_laddr and inp_faddr of an IPv4 lookup are
   the lower 32 bits of the same field (struct in_addr_4in6, include/ofpi_in_pcb.h), and the
   upper part is 0 for an IPv4 socket.  Simplified: the hash function is a parameter
   (INP_PCBHASH takes the lower 32 bits of the foreign address whatever the family); the port
   hash is a map from ports to lists (the two-level list is modelled in PcbModel.v); malloc
   succeeds; the candidates of the search for a free port are a parameter; the address of the
   outgoing interface of a connect is a parameter.  Left out: IPv4-mapped addresses,
   multicast, credentials, TIME_WAIT (TCP), interface addresses (a bind to an address that is
   not local is refused before anything here happens). *)
From Verif Require Import Base.

Definition addr := (Z * Z)%type.
Definition any : addr := (0, 0).
Definition is_any (a : addr) : bool := (fst a =? 0) && (snd a =? 0).
Definition aeq (a b : addr) : bool := (fst a =? fst b) && (snd a =? snd b).

Record pcb := mkPcb {
  v4 : bool; v6 : bool;              (* inp_vflag & INP_IPV4, INP_IPV6 *)
  only : bool;                       (* IN6P_IPV6_V6ONLY *)
  la : addr; lp : Z; fa : addr; fp : Z;
  hashed : bool;                     (* INP_INHASHLIST *)
  share : bool }.                    (* SO_REUSEADDR or SO_REUSEPORT of the socket *)
Record db := mkDb { pcbs : nat -> option pcb; hash : Z -> list nat; ports : Z -> list nat }.
Definition db0 := mkDb (fun _ => None) (fun _ => []) (fun _ => []).
Definition hfun := Z -> Z -> Z -> Z.

Definition upd {A} (f : nat -> A) (i : nat) (x : A) : nat -> A := fun j => if Nat.eqb j i then x else f j.
Definition updZ {A} (f : Z -> A) (i : Z) (x : A) : Z -> A := fun j => if j =? i then x else f j.
Definition set_pcb d i p := mkDb (upd (pcbs d) i (Some p)) (hash d) (ports d).
Definition get (d : db) (i : nat) : outcome pcb := match pcbs d i with Some p => Ret p | None => UB end.
Definition unlink (i : nat) (l : list nat) : list nat := filter (fun j => negb (Nat.eqb j i)) l.
Definition with_flags p a b := mkPcb a b (only p) (la p) (lp p) (fa p) (fp p) (hashed p) (share p).
Definition with_local p a l := mkPcb (v4 p) (v6 p) (only p) a l (fa p) (fp p) (hashed p) (share p).
Definition with_foreign p a l := mkPcb (v4 p) (v6 p) (only p) (la p) (lp p) a l (hashed p) (share p).
Definition with_hashed p b := mkPcb (v4 p) (v6 p) (only p) (la p) (lp p) (fa p) (fp p) b (share p).
Definition with_share p b := mkPcb (v4 p) (v6 p) (only p) (la p) (lp p) (fa p) (fp p) (hashed p) b.

(* ---- the lookups: the first element of a list satisfying a test, with the loads ---- *)
Fixpoint first_pcb (d : db) (f : pcb -> bool) (l : list nat) : outcome (option nat) :=
  match l with
  | [] => Ret None
  | i :: l => obind (get d i) (fun p => if f p then Ret (Some i) else first_pcb d f l)
  end.
(* the loops that keep the cheapest PCB seen, ofp_in6_pcb.c:802-831 and ofp_in_pcb.c:1246-1283 *)
Fixpoint best_pcb (d : db) (cost : pcb -> option Z) (l : list nat) (m : option nat) (mw : Z) : outcome (option nat) :=
  match l with
  | [] => Ret m
  | i :: l => obind (get d i) (fun p =>
      match cost p with
      | None => best_pcb d cost l m mw
      | Some w => if w <? mw then if w =? 0 then Ret (Some i) else best_pcb d cost l (Some i) w
                  else best_pcb d cost l m mw
      end)
  end.

(* ofp_in6_pcb.c:805-824 *)
Definition cost6 (a : addr) (p : pcb) : option Z :=
  if negb (v6 p) then None else
  let w := if negb (is_any (fa p)) then 1 else 0 in
  if negb (is_any (la p)) then
    if is_any a then Some (w + 1) else if negb (aeq (la p) a) then None else Some w
  else if negb (is_any a) then Some (w + 1) else Some w.
(* ofp_in6_pcb.c:746-835 ofp_in6_pcblookup_local *)
Definition lookup_local6 (h : hfun) (d : db) (a : addr) (l : Z) (wild : bool) : outcome (option nat) :=
  if negb wild
  then first_pcb d (fun p => v6 p && (is_any (fa p) && aeq (la p) a && (lp p =? l))) (hash d (h 0 l 0))
  else best_pcb d (cost6 a) (ports d l) None 3.
(* ofp_in_pcb.c:1248-1275; INP_LOOKUP_MAPPED_PCB_COST = 3 (1179) *)
Definition cost4 (a : Z) (p : pcb) : option Z :=
  if negb (v4 p) then None else
  let w := if v6 p then 3 else 0 in
  let w := if negb (snd (fa p) =? 0) then w + 1 else w in
  if negb (snd (la p) =? 0) then
    if a =? 0 then Some (w + 1) else if negb (snd (la p) =? a) then None else Some w
  else if negb (a =? 0) then Some (w + 1) else Some w.
(* ofp_in_pcb.c:1180-1289 ofp_in_pcblookup_local *)
Definition lookup_local4 (h : hfun) (d : db) (a : Z) (l : Z) (wild : bool) : outcome (option nat) :=
  if negb wild
  then first_pcb d (fun p => v4 p && ((snd (fa p) =? 0) && (snd (la p) =? a) && (lp p =? l))) (hash d (h 0 l 0))
  else best_pcb d (cost4 a) (ports d l) None 6.

(* ofp_in6_pcb.c:1151-1196; the test for an earlier exact match is compiled out *)
Fixpoint wild6 (d : db) (l : list nat) (a : addr) (q : Z) (w e : option nat) : outcome (option nat) :=
  match l with
  | [] => Ret (match e with Some i => Some i | None => w end)
  | i :: l => obind (get d i) (fun p =>
      if negb (v6 p) then wild6 d l a q w e else
      if negb (is_any (fa p)) || negb (lp p =? q) then wild6 d l a q w e else
      if aeq (la p) a then wild6 d l a q w (Some i)
      else if is_any (la p) then wild6 d l a q (Some i) e
      else wild6 d l a q w e)
  end.
(* ofp_in6_pcb.c:1096-1204 ofp_in6_pcblookup_hash_locked *)
Definition lookup6 (h : hfun) (d : db) (f : addr) (fq : Z) (a : addr) (q : Z) (wild : bool) : outcome (option nat) :=
  obind (first_pcb d (fun p => v6 p && (aeq (fa p) f && aeq (la p) a && (fp p =? fq) && (lp p =? q)))
           (hash d (h (snd f) q fq))) (fun r =>
  match r with
  | Some i => Ret (Some i)
  | None => if wild then wild6 d (hash d (h 0 q 0)) a q None None else Ret None
  end).
(* ofp_in_pcb.c:1446-1492; the test of INP_IPV4 and the mapped case are inside
   "#ifdef _INET6", which nothing defines (the rest of the file says INET6) *)
Fixpoint wild4 (d : db) (l : list nat) (a q : Z) (w e : option nat) : outcome (option nat) :=
  match l with
  | [] => Ret (match e with Some i => Some i | None => w end)
  | i :: l => obind (get d i) (fun p =>
      if negb (snd (fa p) =? 0) || negb (lp p =? q) then wild4 d l a q w e else
      match e with
      | Some _ => wild4 d l a q w e
      | None =>
        if snd (la p) =? a then wild4 d l a q w (Some i)
        else if snd (la p) =? 0 then wild4 d l a q (Some i) e
        else wild4 d l a q w e
      end)
  end.
(* ofp_in_pcb.c:1385-1512 in_pcblookup_hash_locked *)
Definition lookup4 (h : hfun) (d : db) (f fq a q : Z) (wild : bool) : outcome (option nat) :=
  obind (first_pcb d (fun p => v4 p && ((snd (fa p) =? f) && (snd (la p) =? a) && (fp p =? fq) && (lp p =? q)))
           (hash d (h f q fq))) (fun r =>
  match r with
  | Some i => Ret (Some i)
  | None => if wild then wild4 d (hash d (h 0 q 0)) a q None None else Ret None
  end).

(* ---- the lists ---- *)
(* ofp_in_pcb.c:1295-1351 *)
Definition inshash (h : hfun) (d : db) (i : nat) : outcome db :=
  obind (get d i) (fun p =>
  if hashed p then UB else
  let k := h (snd (fa p)) (lp p) (fp p) in
  Ret (mkDb (upd (pcbs d) i (Some (with_hashed p true)))
        (updZ (hash d) k (i :: hash d k)) (updZ (ports d) (lp p) (i :: ports d (lp p))))).
(* ofp_in_pcb.c:1626-1653 *)
Definition rehash (h : hfun) (d : db) (i : nat) : outcome db :=
  obind (get d i) (fun p =>
  if negb (hashed p) then UB else
  let k := h (snd (fa p)) (lp p) (fp p) in
  let u := fun b => unlink i (hash d b) in
  Ret (mkDb (pcbs d) (updZ u k (i :: u k)) (ports d))).
(* ofp_in_pcb.c:1659-1682, 1018-1057 *)
Definition pcbfree (d : db) (i : nat) : outcome db :=
  obind (get d i) (fun p =>
  Ret (if hashed p
       then mkDb (upd (pcbs d) i None) (fun b => unlink i (hash d b)) (fun b => unlink i (ports d b))
       else mkDb (upd (pcbs d) i None) (hash d) (ports d))).

Inductive err := OK | EINVAL | EADDRINUSE | EADDRNOTAVAIL | EISCONN | ENOTCONN.

(* ofp_in_pcb.c:489-511: the first candidate that no lookup finds *)
Fixpoint pick (h : hfun) (d : db) (p : pcb) (a : addr) (cands : list Z) : outcome (option Z) :=
  match cands with
  | [] => Ret None
  | q :: t =>
    obind (if v6 p then lookup_local6 h d (la p) q (negb (share p)) else lookup_local4 h d (snd a) q (negb (share p)))
      (fun r => match r with None => Ret (Some q) | Some _ => pick h d p a t end)
  end.

(* ofp_in6_pcb.c:128-333 ofp_in6_pcbbind.  INP_IPV6PROTO is v6 (they differ for IPv4-mapped
   addresses only).  Nothing sets INP_REUSEPORT in inp_flags2, so any
   PCB found means the address is in use. *)
Definition pcbbind6 (h : hfun) (d : db) (i : nat) (nam : option (addr * Z)) (cands : list Z) : outcome (db * err) :=
  obind (get d i) (fun p =>
  if negb (lp p =? 0) || negb (is_any (la p)) then Ret (d, EINVAL) else
  let wild := negb (share p) in
  obind (match nam with
         | None => Ret None
         | Some (a, q) =>
           if q =? 0 then Ret None else
           obind (lookup_local6 h d a q wild) (fun t =>
           match t with
           | Some _ => Ret (Some EADDRINUSE)
           | None =>
             if negb (only p) && is_any a then
               obind (lookup_local4 h d (snd a) q wild) (fun t =>
               match t with
               | Some j => obind (get d j) (fun r =>
                   Ret (if negb (snd (la r) =? 0) || v6 r then Some EADDRINUSE else None))
               | None => Ret None
               end)
             else Ret None
           end)
         end) (fun e =>
  match e with
  | Some e => Ret (d, e)
  | None =>
    let a := match nam with Some (a, _) => a | None => la p end in
    let q := match nam with Some (_, q) => q | None => 0 end in
    if q =? 0 then
      let p' := with_local p a (lp p) in
      obind (pick h d p' a cands) (fun r =>
      match r with
      | None => Ret (d, EADDRNOTAVAIL)
      | Some q => obind (inshash h (set_pcb d i (with_local p a q)) i) (fun d => Ret (d, OK))
      end)
    else obind (inshash h (set_pcb d i (with_local p a q)) i) (fun d => Ret (d, OK))
  end)).

(* ofp_in6_pcb.c:432-479; [src]: the result of ofp_in6_selectsrc *)
Definition pcbconnect6 (h : hfun) (d : db) (i : nat) (f : addr) (fq : Z) (src : addr) (cands : list Z) : outcome (db * err) :=
  obind (get d i) (fun p =>
  if fq =? 0 then Ret (d, EADDRNOTAVAIL) else
  obind (lookup6 h d f fq (if is_any (la p) then src else la p) (lp p) false) (fun t =>
  match t with
  | Some _ => Ret (d, EADDRINUSE)
  | None =>
    obind (if is_any (la p) && (lp p =? 0) then pcbbind6 h d i None cands else Ret (d, OK)) (fun r =>
    match r with
    | (d, OK) =>
      obind (get d i) (fun p =>
      let p := if is_any (la p) then with_local p src (lp p) else p in
      obind (rehash h (set_pcb d i (with_foreign p f fq)) i) (fun d => Ret (d, OK)))
    | _ => Ret r
    end)
  end)).

(* ---- the calls ---- *)
Inductive op :=
| Attach4 (i : nat) | Attach6 (i : nat) (v6only : bool)
| Share (i : nat) (b : bool)
| Bind4 (i : nat) (a q : Z) (cands : list Z)
| Bind6 (i : nat) (a : addr) (q : Z) (cands : list Z)
| Connect6 (i : nat) (f : addr) (fq : Z) (src : addr) (cands : list Z)
| Disconnect6 (i : nat)
| Close (i : nat).

Definition step (h : hfun) (d : db) (o : op) : outcome (db * err) :=
  match o with
  | Attach4 i => (* ofp_udp_usrreq.c:1225-1255, ofp_in_pcb.c:260-300 *)
    Ret (set_pcb d i (mkPcb true false false any 0 any 0 false false), OK)
  | Attach6 i b => (* ofp_udp6_usrreq.c:891-948 *)
    Ret (set_pcb d i (mkPcb (negb b) true b any 0 any 0 false false), OK)
  | Share i b => obind (get d i) (fun p => Ret (set_pcb d i (with_share p b), OK))
  | Bind4 i a q cands => (* ofp_in_pcb.c:530-662 for an IPv4 socket *)
    obind (get d i) (fun p =>
    if negb (lp p =? 0) || negb (is_any (la p)) then Ret (d, EINVAL) else
    let wild := negb (share p) in
    obind (if q =? 0 then pick h d p (0, a) cands else
           obind (lookup_local4 h d a q wild) (fun t => Ret (match t with Some _ => None | None => Some q end))) (fun r =>
    match r with
    | None => Ret (d, if q =? 0 then EADDRNOTAVAIL else EADDRINUSE)
    | Some q => obind (inshash h (set_pcb d i (with_local p (0, a) q)) i) (fun d => Ret (d, OK))
    end))
  | Bind6 i a q cands => (* ofp_udp6_usrreq.c:951-988 *)
    obind (get d i) (fun p =>
    let d := set_pcb d i (with_flags p (negb (only p) && is_any a) true) in
    pcbbind6 h d i (Some (a, q)) cands)
  | Connect6 i f fq src cands => (* ofp_udp6_usrreq.c:1018-1080 *)
    obind (get d i) (fun p =>
    if negb (is_any (fa p)) then Ret (d, EISCONN) else
    let d := set_pcb d i (with_flags p false true) in
    pcbconnect6 h d i f fq src cands)
  | Disconnect6 i => (* ofp_udp6_usrreq.c:1102-1134, ofp_in6_pcb.c:492-504 *)
    obind (get d i) (fun p =>
    if is_any (fa p) then Ret (d, ENOTCONN) else
    obind (rehash h (set_pcb d i (with_foreign p any 0)) i) (fun d =>
    Ret (set_pcb d i (with_local (with_foreign p any 0) any (lp p)), OK)))
  | Close i => obind (pcbfree d i) (fun d => Ret (d, OK))
  end.
