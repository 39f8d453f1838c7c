(* Protocol control blocks of one protocol (UDP or TCP over IPv4): src/ofp_in_pcb.c and its
   callers in ofp_udp_usrreq.c, ofp_tcp_usrreq.c, ofp_tcp_syncache.c. Each call runs under the
   hash lock and is one step. Ports are in host byte order (the code stores them swapped and
   swaps them back in the hash functions). A bucket is the list of the PCBs on it, in
   order. Addresses are numbers in host byte order too. Left out: IPv6 PCBs, TIME_WAIT, credentials (all equal), IP_BINDANY and the
   high/low port ranges. *)
From Verif Require Import Base.

Record pcb := mkPcb {
  laddr : Z; lport : Z; faddr : Z; fport : Z;   (* 0: INADDR_ANY, no port *)
  hashed : bool; dropped : bool;                (* INP_INHASHLIST, INP_DROPPED *)
  o_addr : bool; o_port : bool;                 (* SO_REUSEADDR, SO_REUSEPORT of the socket *)
  reuse2 : bool;                                (* inp_flags2 & INP_REUSEPORT *)
  fib : Z }.
Record db := mkDb {
  pcbs : nat -> option pcb;                     (* allocated PCBs *)
  hash : Z -> list nat;                         (* ipi_hashbase *)
  ports : Z -> list (Z * list nat);             (* ipi_porthashbase: phd_port, phd_pcblist *)
  last_port : Z }.                              (* ipi_lastport *)
(* the rest of the stack *)
Record conf := mkConf {
  c_be : bool; hmask : Z; pmask : Z;
  p_first : Z; p_last : Z;                      (* ofp_ipport_firstauto, lastauto *)
  c_udp : bool;                                 (* the UDP table: random ports *)
  c_primary : option Z;                         (* first address of the first interface; None: no interface *)
  c_local : Z -> Z -> bool;                     (* ofp_ifaddr_elem_get fib addr *)
  c_route : Z -> option Z }.                    (* in_pcbladdr (765-791): address of the outgoing interface, in VRF 0 *)

(* include/ofpi_in_pcb.h:527-530 *)
Definition htonl (be : bool) (a : Z) : Z :=
  if be then a else (a mod 256) * 16777216 + (a / 256 mod 256) * 65536 + (a / 65536 mod 256) * 256 + a / 16777216 mod 256.
Definition pcbhash (c : conf) (fa lp fp : Z) : Z := let fa := htonl (c_be c) fa in Z.land (Z.lxor (Z.lxor fa (Z.shiftr fa 16)) (Z.lxor lp fp)) (hmask c).
Definition porthash (c : conf) (lp : Z) : Z := Z.land lp (pmask c).

Definition upd {A} (f : nat -> A) (i : nat) (x : A) : nat -> A := fun j => if Nat.eqb j i then x else f j.
Definition updZ {A} (f : Z -> A) (i : Z) (x : A) : Z -> A := fun j => if j =? i then x else f j.
Definition set_pcbs d f := mkDb f (hash d) (ports d) (last_port d).
Definition set_hash d f := mkDb (pcbs d) f (ports d) (last_port d).
Definition set_ports d f := mkDb (pcbs d) (hash d) f (last_port d).
Definition set_last d x := mkDb (pcbs d) (hash d) (ports d) x.
Definition set_pcb d i p := set_pcbs d (upd (pcbs d) i (Some p)).
Definition with_local p a l := mkPcb a l (faddr p) (fport p) (hashed p) (dropped p) (o_addr p) (o_port p) (reuse2 p) (fib p).
Definition with_foreign p a l := mkPcb (laddr p) (lport p) a l (hashed p) (dropped p) (o_addr p) (o_port p) (reuse2 p) (fib p).
Definition with_hashed p b := mkPcb (laddr p) (lport p) (faddr p) (fport p) b (dropped p) (o_addr p) (o_port p) (reuse2 p) (fib p).
Definition with_dropped p := mkPcb (laddr p) (lport p) (faddr p) (fport p) (hashed p) true (o_addr p) (o_port p) (reuse2 p) (fib p).
Definition with_opts p a b := mkPcb (laddr p) (lport p) (faddr p) (fport p) (hashed p) (dropped p) a b (reuse2 p) (fib p).

(* reading a PCB found on a list *)
Definition get (d : db) (i : nat) : outcome pcb := match pcbs d i with Some p => Ret p | None => UB end.
(* LIST_REMOVE from whatever bucket the PCB is on *)
Definition unlink (i : nat) (l : list nat) : list nat := filter (fun j => negb (Nat.eqb j i)) l.

(* ---- lookups ---- *)
(* ofp_in_pcb.c:1197-1220: the first unconnected PCB with this address and port *)
Fixpoint find_unconn (d : db) (l : list nat) (la lp : Z) : outcome (option nat) :=
  match l with
  | [] => Ret None
  | i :: l => obind (get d i) (fun p =>
      if (faddr p =? 0) && (laddr p =? la) && (lport p =? lp) then Ret (Some i) else find_unconn d l la lp)
  end.
(* 1246-1283: best fit *)
Fixpoint best_fit (d : db) (l : list nat) (la : Z) (match_ : option nat) (mw : Z) : outcome (option nat) :=
  match l with
  | [] => Ret match_
  | i :: l => obind (get d i) (fun p =>
      let w := if negb (faddr p =? 0) then 1 else 0 in
      let wc := if negb (laddr p =? 0)
                then if la =? 0 then Some (w + 1) else if negb (laddr p =? la) then None else Some w
                else if negb (la =? 0) then Some (w + 1) else Some w in
      match wc with
      | None => best_fit d l la match_ mw
      | Some w => if w <? mw then if w =? 0 then Ret (Some i) else best_fit d l la (Some i) w
                  else best_fit d l la match_ mw
      end)
  end.
Fixpoint find_phd (l : list (Z * list nat)) (lp : Z) : option (list nat) :=
  match l with [] => None | (q, m) :: l => if q =? lp then Some m else find_phd l lp end.
(* 1180-1289 ofp_in_pcblookup_local *)
Definition lookup_local (c : conf) (d : db) (la lp : Z) (wild : bool) : outcome (option nat) :=
  if negb wild then find_unconn d (hash d (pcbhash c 0 lp 0)) la lp
  else match find_phd (ports d (porthash c lp)) lp with
       | None => Ret None
       | Some m => best_fit d m la None 3
       end.
Fixpoint find_exact (d : db) (l : list nat) (fa fp la lp : Z) : outcome (option nat) :=
  match l with
  | [] => Ret None
  | i :: l => obind (get d i) (fun p =>
      if (faddr p =? fa) && (laddr p =? la) && (fport p =? fp) && (lport p =? lp) then Ret (Some i) else find_exact d l fa fp la lp)
  end.
(* 1448-1497; nobody is in a jail *)
Fixpoint find_wild (d : db) (l : list nat) (la lp : Z) (wild exact : option nat) : outcome (option nat) :=
  match l with
  | [] => Ret (match exact with Some i => Some i | None => wild end)
  | i :: l => obind (get d i) (fun p =>
      if negb (faddr p =? 0) || negb (lport p =? lp) then find_wild d l la lp wild exact else
      match exact with
      | Some _ => find_wild d l la lp wild exact
      | None => if laddr p =? la then find_wild d l la lp wild (Some i)
                else if laddr p =? 0 then find_wild d l la lp (Some i) exact
                else find_wild d l la lp wild exact
      end)
  end.
(* 1385-1512 in_pcblookup_hash_locked *)
Definition lookup_hash (c : conf) (d : db) (fa fp la lp : Z) (wild : bool) : outcome (option nat) :=
  obind (find_exact d (hash d (pcbhash c fa lp fp)) fa fp la lp) (fun r =>
  match r with
  | Some i => Ret (Some i)
  | None => if wild then find_wild d (hash d (pcbhash c 0 lp 0)) la lp None None else Ret None
  end).

(* ---- the hash lists ---- *)
Fixpoint add_phd (l : list (Z * list nat)) (lp : Z) (i : nat) : list (Z * list nat) :=
  match l with [] => [] | (q, m) :: l => if q =? lp then (q, i :: m) :: l else (q, m) :: add_phd l lp i end.
(* 1295-1351 in_pcbinshash_internal; mem: malloc succeeds *)
Definition inshash (c : conf) (d : db) (i : nat) (mem : bool) : outcome (db * bool) :=
  obind (get d i) (fun p =>
  if hashed p then UB else
  let b := porthash c (lport p) in
  match (match find_phd (ports d b) (lport p) with
         | Some _ => Some (add_phd (ports d b) (lport p) i)
         | None => if mem then Some ((lport p, [i]) :: ports d b) else None
         end) with
  | None => Ret (d, false)
  | Some l =>
    let d := set_ports d (updZ (ports d) b l) in
    let k := pcbhash c (faddr p) (lport p) (fport p) in
    let d := set_hash d (updZ (hash d) k (i :: hash d k)) in
    Ret (set_pcb d i (with_hashed p true), true)
  end).
(* 1626-1653 ofp_in_pcbrehash, 1588-1617 ofp_in_pcbrehash_mbuf *)
Definition rehash (c : conf) (d : db) (i : nat) : outcome db :=
  obind (get d i) (fun p =>
  if negb (hashed p) then UB else
  let k := pcbhash c (faddr p) (lport p) (fport p) in
  let h := fun b => unlink i (hash d b) in
  Ret (set_hash d (updZ h k (i :: h k)))).
(* removal from the port list, freeing an empty head: 1082-1088, 1670-1676 *)
Definition del_phd (lp : Z) (i : nat) (l : list (Z * list nat)) : list (Z * list nat) :=
  filter (fun x => match snd x with [] => false | _ => true end)
    (map (fun x => if fst x =? lp then (fst x, unlink i (snd x)) else x) l).
Definition unhash (c : conf) (d : db) (i : nat) (p : pcb) : db :=
  if hashed p then
    let d := set_hash d (fun b => unlink i (hash d b)) in
    let b := porthash c (lport p) in
    let d := set_ports d (updZ (ports d) b (del_phd (lport p) i (ports d b))) in
    set_pcb d i (with_hashed p false)
  else d.
(* 1071-1094 ofp_in_pcbdrop *)
Definition pcbdrop (c : conf) (d : db) (i : nat) : outcome db :=
  obind (get d i) (fun p => Ret (unhash c (set_pcb d i (with_dropped p)) i (with_dropped p))).
(* 1018-1057 ofp_in_pcbfree with 1659-1682 in_pcbremlists, nobody else holding a reference *)
Definition pcbfree (c : conf) (d : db) (i : nat) : outcome db :=
  obind (get d i) (fun p => let d := unhash c d i p in Ret (set_pcbs d (upd (pcbs d) i None))).

(* ---- bind ---- *)
(* 411-522 ofp_in_pcb_lport: n tries *)
Fixpoint lport_loop (c : conf) (d : db) (n : nat) (lo hi la : Z) (wild : bool) (last : Z) : outcome (option Z * Z) :=
  match n with
  | O => Ret (None, last)
  | S n =>
    let last := u16 (last + 1) in
    let last := if (last <? lo) || (last >? hi) then lo else last in
    obind (lookup_local c d la last wild) (fun t =>
    match t with Some _ => lport_loop c d n lo hi la wild last | None => Ret (Some last, last) end)
  end.
Definition pick_port (c : conf) (d : db) (la : Z) (wild : bool) (rnd : Z) : outcome (db * option Z) :=
  let lo := Z.min (p_first c) (p_last c) in let hi := Z.max (p_first c) (p_last c) in
  let last := if c_udp c && negb (p_first c =? p_last c) then u16 (lo + rnd mod (hi - lo)) else last_port d in
  obind (lport_loop c d (S (Z.to_nat (hi - lo))) lo hi la wild last) (fun r => Ret (set_last d (snd r), fst r)).

Inductive err := OK | EINVAL | EADDRNOTAVAIL | EADDRINUSE | EAGAIN | EISCONN | ENOTCONN | ENETUNREACH.
Definition multicast (a : Z) : bool := Z.shiftr a 28 =? 14.   (* on the address in host order *)
(* 530-662 ofp_in_pcbbind_setup; nam: the address given; la, lp: the current local ones *)
Definition bind_setup (c : conf) (d : db) (i : nat) (nam : option (Z * Z)) (la lp : Z) (rnd : Z) : outcome (db * err * Z * Z) :=
  obind (get d i) (fun p =>
  match c_primary c with
  | None => Ret (d, EADDRNOTAVAIL, la, lp)
  | Some _ =>
    let wild := negb (o_addr p) && negb (o_port p) in
    let rport := match nam with
                 | Some (a, _) => o_port p || (multicast a && o_addr p)
                 | None => o_port p
                 end in
    if (match nam with Some _ => negb (la =? 0) | None => false end) then Ret (d, EINVAL, la, lp) else
    let anon := fun d a =>
      if negb (lp =? 0) then Ret (d, OK, a, lp) else
      obind (pick_port c d a wild rnd) (fun r => match r with (d, None) => Ret (d, EADDRNOTAVAIL, la, lp) | (d, Some l) => Ret (d, OK, a, l) end) in
    match nam with
    | None => anon d la
    | Some (a, q) =>
      if negb (q =? lp) && negb (lp =? 0) then Ret (d, EINVAL, la, lp) else
      let l := if q =? lp then 0 else q in
      if negb (multicast a) && negb (a =? 0) && negb (c_local c (fib p) a) then Ret (d, EADDRNOTAVAIL, la, lp) else
      if l =? 0 then anon d a else
      obind (lookup_local c d a l wild) (fun t =>
      obind (match t with None => Ret false | Some j => obind (get d j) (fun q => Ret (negb rport || negb (reuse2 q))) end) (fun busy =>
      if busy then Ret (d, EADDRINUSE, la, lp) else Ret (d, OK, a, if negb (lp =? 0) then lp else l)))
    end
  end).
(* 298-323 ofp_in_pcbbind; udp_bind; tcp_usr_bind and tcp_usr_listen refuse dropped PCBs *)
Definition pcbbind (c : conf) (d : db) (i : nat) (nam : option (Z * Z)) (rnd : Z) (mem : bool) : outcome (db * err) :=
  obind (get d i) (fun p =>
  if negb (lport p =? 0) || negb (laddr p =? 0) then Ret (d, EINVAL) else
  obind (bind_setup c d i nam (laddr p) (lport p) rnd) (fun r =>
  let '(d, e, a, l) := r in
  match e with
  | OK => obind (inshash c (set_pcb d i (with_local p a l)) i mem) (fun r =>
      match r with (d, true) => Ret (d, OK) | (d, false) => Ret (set_pcb d i (with_local p 0 0), EAGAIN) end)
  | e => Ret (d, e)
  end)).

(* ---- connect ---- *)
(* 807-897 ofp_in_pcbconnect_setup *)
Definition connect_setup (c : conf) (d : db) (i : nat) (fa fp la lp : Z) (rnd : Z) : outcome (db * err * (Z * Z * Z * Z)) :=
  if fp =? 0 then Ret (d, EADDRNOTAVAIL, (la, lp, 0, 0)) else
  let fa := if fa =? 0 then match c_primary c with Some a => a | None => fa end else fa in
  match (if la =? 0 then c_route c fa else Some la) with
  | None => Ret (d, ENETUNREACH, (la, lp, 0, 0))
  | Some a =>
    obind (lookup_hash c d fa fp a lp false) (fun o =>
    match o with
    | Some _ => Ret (d, EADDRINUSE, (la, lp, 0, 0))
    | None =>
      if lp =? 0 then
        obind (bind_setup c d i None a lp rnd) (fun r => let '(d, e, a', l) := r in
        match e with OK => Ret (d, OK, (a', l, fa, fp)) | e => Ret (d, e, (la, lp, 0, 0)) end)
      else Ret (d, OK, (a, lp, fa, fp))
    end)
  end.
(* 720-759 ofp_in_pcbconnect *)
Definition pcbconnect (c : conf) (d : db) (i : nat) (fa fp : Z) (rnd : Z) (mem : bool) : outcome (db * err) :=
  obind (get d i) (fun p =>
  obind (connect_setup c d i fa fp (laddr p) (lport p) rnd) (fun r =>
  let '(d, e, (a, l, fa, fp)) := r in
  match e with
  | OK =>
    obind (if (laddr p =? 0) && (lport p =? 0) then
             obind (inshash c (set_pcb d i (with_local p a l)) i mem) (fun r =>
             match r with (d, true) => Ret (d, true) | (d, false) => Ret (set_pcb d i (with_local p 0 0), false) end)
           else Ret (d, true)) (fun r =>
    let '(d, ok) := r in
    if negb ok then Ret (d, EAGAIN) else
    obind (get d i) (fun p =>
    obind (rehash c (set_pcb d i (with_foreign (with_local p a l) fa fp)) i) (fun d => Ret (d, OK))))
  | e => Ret (d, e)
  end)).
(* ofp_udp_usrreq.c:1325-1349 udp_connect *)
Definition udp_connect c d i fa fp rnd mem : outcome (db * err) :=
  obind (get d i) (fun p => if negb (faddr p =? 0) then Ret (d, EISCONN) else pcbconnect c d i fa fp rnd mem).
(* ofp_tcp_usrreq.c:1111-1143 tcp_connect (after tcp_usr_connect's test for dropped PCBs) *)
Definition tcp_connect c d i fa fp rnd mem : outcome (db * err) :=
  obind (get d i) (fun p =>
  if dropped p then Ret (d, EINVAL) else
  obind (if lport p =? 0 then pcbbind c d i None rnd mem else Ret (d, OK)) (fun r =>
  let '(d, e) := r in
  match e with
  | OK =>
    obind (get d i) (fun p =>
    obind (connect_setup c d i fa fp (laddr p) (lport p) rnd) (fun r =>
    let '(d, e, (a, l, fa, fp)) := r in
    match e with
    | OK => obind (rehash c (set_pcb d i (with_foreign (with_local p a (lport p)) fa fp)) i) (fun d => Ret (d, OK))
    | e => Ret (d, e)
    end))
  | e => Ret (d, e)
  end)).
(* ofp_udp_usrreq.c:1008-1096 udp_output with a destination: the port of an unbound socket *)
Definition udp_sendto c d i fa fp rnd mem : outcome (db * err) :=
  obind (get d i) (fun p =>
  if negb (faddr p =? 0) then Ret (d, EISCONN) else
  if (laddr p =? 0) || (lport p =? 0) || (fa =? 0) then
    obind (connect_setup c d i fa fp (laddr p) (lport p) rnd) (fun r =>
    let '(d, e, (a, l, _, _)) := r in
    match e with
    | OK =>
      if (laddr p =? 0) && (lport p =? 0) then
        obind (inshash c (set_pcb d i (with_local p 0 l)) i mem) (fun r =>
        match r with (d, true) => Ret (d, OK) | (d, false) => Ret (set_pcb d i (with_local p 0 0), EAGAIN) end)
      else Ret (d, OK)
    | e => Ret (d, e)
    end)
  else Ret (d, OK)).
(* ofp_udp_usrreq.c:1371-1394 udp_disconnect, with 907-916 ofp_in_pcbdisconnect *)
Definition udp_disconnect c d i : outcome (db * err) :=
  obind (get d i) (fun p =>
  if faddr p =? 0 then Ret (d, ENOTCONN) else
  obind (rehash c (set_pcb d i (with_foreign p 0 0)) i) (fun d =>
  obind (get d i) (fun p => Ret (set_pcb d i (with_local p 0 (lport p)), OK)))).
(* ofp_tcp_syncache.c:580-697 syncache_socket: the new connection's PCB i, already allocated *)
Definition accept c d i la lp fa fp rnd mem : outcome (db * err) :=
  obind (get d i) (fun p =>
  obind (inshash c (set_pcb d i (with_local p la lp)) i mem) (fun r =>
  match r with
  | (d, false) => Ret (set_pcb d i (with_local p 0 0), EAGAIN)
  | (d, true) =>
    obind (pcbconnect c d i fa fp rnd mem) (fun r =>
    match r with (d, OK) => Ret (d, OK) | (d, e) => obind (pcbfree c d i) (fun d => Ret (d, e)) end)
  end)).

(* 260-296 ofp_in_pcballoc *)
Definition pcballoc (d : db) (i : nat) (f : Z) : outcome db :=
  match pcbs d i with Some _ => UB | None => Ret (set_pcb d i (mkPcb 0 0 0 0 false false false false false f)) end.
(* setsockopt SO_REUSEADDR, SO_REUSEPORT: socket options only; nothing sets inp_flags2 *)
Definition setopts (d : db) (i : nat) (a b : bool) : outcome db :=
  obind (get d i) (fun p => Ret (set_pcb d i (with_opts p a b))).
Definition db0 : db := mkDb (fun _ => None) (fun _ => []) (fun _ => []) 0.

(* calls of the socket layer *)
Inductive op :=
| OAlloc (i : nat) (f : Z) | OOpts (i : nat) (a b : bool) | OBind (i : nat) (nam : option (Z * Z)) (rnd : Z) (mem : bool)
| OConnU (i : nat) (fa fp rnd : Z) (mem : bool) | OConnT (i : nat) (fa fp rnd : Z) (mem : bool)
| OSend (i : nat) (fa fp rnd : Z) (mem : bool) | ODisc (i : nat)
| OAccept (i : nat) (la lp fa fp rnd : Z) (mem : bool) | ODrop (i : nat) | OFree (i : nat).
Definition step (c : conf) (d : db) (o : op) : outcome (db * err) :=
  let w x := obind x (fun d => Ret (d, OK)) in
  match o with
  | OAlloc i f => w (pcballoc d i f)
  | OOpts i a b => w (setopts d i a b)
  | OBind i nam rnd mem => obind (get d i) (fun p => if dropped p then Ret (d, EINVAL) else pcbbind c d i nam rnd mem)
  | OConnU i fa fp rnd mem => udp_connect c d i fa fp rnd mem
  | OConnT i fa fp rnd mem => tcp_connect c d i fa fp rnd mem
  | OSend i fa fp rnd mem => udp_sendto c d i fa fp rnd mem
  | ODisc i => udp_disconnect c d i
  | OAccept i la lp fa fp rnd mem => accept c d i la lp fa fp rnd mem
  | ODrop i => w (pcbdrop c d i)
  | OFree i => w (pcbfree c d i)
  end.
