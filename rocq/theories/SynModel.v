(* Model of the SYN cache and SYN cookies: src/ofp_tcp_syncache.c, called from
   src/ofp_tcp_input.c:955-1230 for segments to a listening socket.
   The MD5 digest is a parameter H of every definition that uses it (the model
   of ofp_md5c.c is separate); odp_random_data, the tick counter, the success
   of buffer and socket allocation and of packet output are inputs.
   Not modelled: the fields sc_rxttime/sch_nextc (only the timer under
   "#if 0", lines 318-369, reads them), flow labels, IP options (always
   ODP_PACKET_INVALID, line 947), TTL/TOS, the TOE hooks (always NULL). *)
From Verif Require Import Base TcpSeqModel TcpOptModel.

(* include/ofpi_in_pcb.h:85-117 struct in_conninfo; an address is the 16
   bytes of the union as four 32-bit words in memory order, an IPv4 address
   is the last word (in_addr_4in6) *)
Definition addr : Type := (Z * Z * Z * Z)%type.
Definition w0 (a : addr) : Z := fst (fst (fst a)).
Definition w3 (a : addr) : Z := snd a.
Record inc := mkInc { i_v6 : bool; i_fib : Z; i_fport : Z; i_lport : Z; i_fa : addr; i_la : addr }.

(* include/ofpi_tcp_syncache.h:57-82 struct syncache; sc_flags as booleans *)
Record sc := mkSc {
  sc_inc : inc; sc_rxmits : Z; sc_tsreflect : Z; sc_ts : Z; sc_tsoff : Z;
  sc_irs : Z; sc_iss : Z; sc_mss : Z; sc_wnd : Z; sc_s : Z; sc_r : Z;
  f_noopt : bool; f_ws : bool; f_tst : bool; f_unreach : bool; f_sig : bool; f_sack : bool; f_ecn : bool }.

(* include/ofpi_tcp_syncache.h:107-118 struct syncache_head *)
Record head := mkHead {
  h_l : list sc; h_len : Z; h_odd : bool; h_so : list Z; h_se : list Z; h_reseed : Z }.
(* the table, the two counters; s_live counts the entries allocated from
   the zone; s_pend holds the entries of calls between the SCH_UNLOCK at line
   1136 and the end of the call, with the bucket and whether the entry is the
   on-stack one *)
Record st := mkSt {
  s_b : Z -> head; s_cnt : Z; s_live : Z; s_pend : list (Z * (Z * bool * sc)) }.

(* configuration: V_tcp_syncookies, V_tcp_syncookiesonly, V_tcp_do_rfc1323,
   V_tcp_do_ecn, V_tcp_minmss, ofp_sb_max *)
Record cfg := mkCfg { c_cook : bool; c_only : bool; c_1323 : bool; c_ecn : bool; c_minmss : Z; c_sbmax : Z }.
(* what one call depends on: ofp_timer_ticks(0) (an int), the random bytes,
   the allocator's two answers, whether the packet goes out, whether the
   socket can be created, ofp_tcp_mssopt(inc), sbspace of the listening
   socket and its TF_NOOPT *)
Record env := mkEnv { e_ticks : Z; e_rnd : list Z; e_a1 : bool; e_a2 : bool; e_out : bool; e_sock : bool;
  e_mssopt : Z; e_space : Z; e_noopt : bool }.

(* a received segment for the listening socket; g_bcast: link-layer broadcast or multicast *)
Record sseg := mkSseg { g_seq : Z; g_ack : Z; g_fsyn : bool; g_fack : bool; g_frst : bool; g_ffin : bool; g_ece : bool; g_bcast : bool; g_to : topt }.

(* the SYN|ACK sent *)
Record synack := mkSynack { k_inc : inc; k_seq : Z; k_ack : Z; k_win : Z; k_ece : bool;
  k_mss : option Z; k_ws : option Z; k_sack : bool; k_ts : option (Z * Z) }.
(* the control block of the connection created, src/ofp_tcp_syncache.c:680-735 *)
Record conn := mkConn { n_inc : inc; n_iss : Z; n_irs : Z; n_una : Z; n_nxt : Z; n_max : Z; n_rnxt : Z;
  n_wnd : Z; n_adv : Z; n_wl1 : Z; n_rup : Z; n_lastack : Z; n_noopt : bool; n_ws : option (Z * Z);
  n_ts : option (Z * Z); n_sack : bool; n_ecn : bool; n_offer : Z; n_slow : bool }.

(* observable results of a call *)
Inductive sev :=
| ESent (k : synack)       (* SYN|ACK sent *)
| ENone                    (* segment swallowed *)
| EReject                  (* expand returns 0: RST *)
| EAbort                   (* handshake complete but no socket *)
| EConn (n : conn).        (* connection created *)

(* 120-122, include/ofpi_tcp_shm.h:39 *)
Definition LIMIT : Z := 30.
Definition HASHSIZE : Z := 1024.
Definition SECRET : Z := 11235.
Definition LIFETIME : Z := 16.
Definition MAXWIN : Z := 65535.

(* 154-164 SYNCACHE_HASH, SYNCACHE_HASH6 *)
Definition bucket (i : inc) : Z :=
  Z.land
    (if i_v6 i
     then Z.lxor (Z.lxor (Z.lxor (Z.lxor SECRET (w0 (i_fa i))) (w3 (i_fa i))) (i_fport i)) (i_lport i)
     else Z.lxor (Z.lxor (Z.lxor (Z.lxor SECRET (w3 (i_fa i))) (Z.shiftr (w3 (i_fa i)) 16)) (i_fport i)) (i_lport i))
    (HASHSIZE - 1).

(* 166-173 ENDPTS_EQ, ENDPTS6_EQ *)
Definition addr_eqb (a b : addr) : bool :=
  match a, b with (a0, a1, a2, a3), (b0, b1, b2, b3) => (a0 =? b0) && (a1 =? b1) && (a2 =? b2) && (a3 =? b3) end.
Definition endpts4 (a b : inc) : bool :=
  (i_fport a =? i_fport b) && (i_lport a =? i_lport b) && (w3 (i_fa a) =? w3 (i_fa b)) && (w3 (i_la a) =? w3 (i_la b)).
Definition endpts6 (a b : inc) : bool :=
  (i_fport a =? i_fport b) && (i_lport a =? i_lport b) && addr_eqb (i_fa a) (i_fa b) && addr_eqb (i_la a) (i_la b).
(* 371-417 the test of ofp_syncache_lookup *)
Definition matches (i : inc) (s : sc) : bool :=
  if i_v6 i then endpts6 i (sc_inc s)
  else if i_v6 (sc_inc s) then false else endpts4 i (sc_inc s).

(* OFP_TAILQ_FOREACH ... return sc, and the row without that entry *)
Fixpoint take (p : sc -> bool) (l : list sc) : option (sc * list sc) :=
  match l with
  | [] => None
  | s :: r => if p s then Some (s, r) else match take p r with Some (x, r') => Some (x, s :: r') | None => None end
  end.
(* the row with the entry found modified in place *)
Fixpoint modify (p : sc -> bool) (f : sc -> sc) (l : list sc) : list sc :=
  match l with [] => [] | s :: r => if p s then f s :: r else s :: modify p f r end.

Definition upd (f : Z -> head) (b : Z) (h : head) : Z -> head := fun x => if x =? b then h else f x.
Definition set_row (h : head) (l : list sc) (n : Z) : head := mkHead l n (h_odd h) (h_so h) (h_se h) (h_reseed h).

(* 194-229 ofp_syncache_init; the shared memory starts zeroed *)
Definition head0 : head := mkHead [] 0 false (repeat 0 8) (repeat 0 8) 0.
Definition init : st := mkSt (fun _ => head0) 0 0 [].

(* 371-417 ofp_syncache_lookup *)
Definition lookup (s : st) (i : inc) : option sc :=
  match take (matches i) (h_l (s_b s (bucket i))) with Some (x, _) => Some x | None => None end.

(* 277-294 syncache_drop of the entry found by lookup *)
Definition drop_row (s : st) (b : Z) (l : list sc) : st :=
  mkSt (upd (s_b s) b (set_row (s_b s b) l (u32 (h_len (s_b s b) - 1)))) (u32 (s_cnt s - 1)) (s_live s - 1) (s_pend s).

(* 299-316 syncache_timeout: only sc_rxmits++ *)
Definition timeout (x : sc) : sc :=
  mkSc (sc_inc x) (u16 (sc_rxmits x + 1)) (sc_tsreflect x) (sc_ts x) (sc_tsoff x) (sc_irs x) (sc_iss x) (sc_mss x) (sc_wnd x)
       (sc_s x) (sc_r x) (f_noopt x) (f_ws x) (f_tst x) (f_unreach x) (f_sig x) (f_sack x) (f_ecn x).

(* 235-271 syncache_insert *)
Definition insert (x : sc) (b : Z) (s : st) : outcome st :=
  let h := s_b s b in
  obind (if h_len h >=? LIMIT then
           match h_l h with
           | [] => UB
           | l => Ret (drop_row s b (removelast l))
           end
         else Ret s) (fun s =>
  let h := s_b s b in
  Ret (mkSt (upd (s_b s) b (set_row h (timeout x :: h_l h) (u32 (h_len h + 1)))) (u32 (s_cnt s + 1)) (s_live s) (s_pend s))).

(* 1157-1289 syncache_respond: the segment built from an entry *)
Definition respond (c : cfg) (e : env) (x : sc) : synack :=
  let mssopt := if sc_mss x =? 0 then e_mssopt e else Z.max (Z.min (sc_mss x) (e_mssopt e)) (c_minmss c) in
  mkSynack (sc_inc x) (sc_iss x) (u32 (sc_irs x + 1)) (sc_wnd x) (f_ecn x)
    (if f_noopt x then None else Some mssopt)
    (if f_noopt x then None else if f_ws x then Some (sc_r x) else None)
    (if f_noopt x then false else f_sack x)
    (if f_noopt x then None else if f_tst x then Some (sc_ts x, sc_tsreflect x) else None).

(* 1392 tcp_sc_msstab; 1394 time_uptime: int divided by unsigned long *)
Definition msstab : list Z := [0; 256; 468; 536; 996; 1452; 1460; 8960].
Definition uptime (ticks : Z) : Z := u64 ticks / 100.
(* include/ofpi_tcp_seq.h:80-84 tcp_ts_getticks *)
Definition ts_ticks (ticks : Z) : Z := u32 (ticks * 10).

(* 1438-1440: the loop from the last index down *)
Fixpoint mss_index (n : nat) (pmss : Z) : Z :=
  match n with
  | O => 0
  | S k => if nth (S k) msstab 0 <=? pmss then Z.of_nat (S k) else mss_index k pmss
  end.

(* the digest: H secret offset inc irs data, the four words *)
Definition digest : Type := list Z -> Z -> inc -> Z -> Z -> Z -> Z.

(* 1395-1472 syncookie_generate; returns the head and the entry *)
Definition generate (H : digest) (c : cfg) (e : env) (h : head) (x : sc) : head * sc :=
  let up := uptime (e_ticks e) in
  let h := if h_reseed h <? up then
             let odd := negb (h_odd h) in
             mkHead (h_l h) (h_len h) odd (if odd then e_rnd e else h_so h) (if odd then h_se h else e_rnd e) (u32 (up + LIFETIME))
           else h in
  let sec := if h_odd h then h_so h else h_se h in
  let off := Z.land (sc_iss x) 7 in
  let pmss := Z.max (Z.min (sc_mss x) (e_mssopt e)) (c_minmss c) in
  let mss := mss_index 7 pmss in
  let data := Z.lor (Z.lor (Z.b2z (h_odd h)) (Z.shiftl off 1)) (Z.shiftl mss 4) in
  let md k := u32 (H sec off (sc_inc x) (sc_irs x) data k) in
  let iss := Z.lor data (u32 (Z.shiftl (md 0) 7)) in
  let d := Z.lor (Z.lor (Z.lor (Z.lor (Z.b2z (f_sig x)) (Z.shiftl (Z.b2z (f_sack x)) 1)) (Z.shiftl (sc_s x) 2)) (Z.shiftl (sc_r x) 6))
                 (u32 (Z.shiftl (md 2) 10)) in
  let ts := Z.lxor d (md 3) in
  (h, mkSc (sc_inc x) (sc_rxmits x) (sc_tsreflect x) (if f_tst x then ts else sc_ts x)
           (if f_tst x then u32 (ts - ts_ticks (e_ticks e)) else sc_tsoff x)
           (sc_irs x) iss (sc_mss x) (sc_wnd x) (sc_s x) (sc_r x)
           (f_noopt x) (f_ws x) (f_tst x) (f_unreach x) (f_sig x) (f_sack x) (f_ecn x)).

(* 1474-1581 syncookie_lookup *)
Definition cookie_lookup (H : digest) (e : env) (h : head) (i : inc) (g : sseg) : option sc :=
  let ack := u32 (g_ack g - 1) in
  let seq := u32 (g_seq g - 1) in
  let off := Z.land (Z.shiftr ack 1) 7 in
  let mss := Z.land (Z.shiftr ack 4) 7 in
  let flags := Z.land ack 127 in
  let sec := if Z.odd flags then h_so h else h_se h in
  if u32 (h_reseed h + LIFETIME) <? uptime (e_ticks e) then None else
  let md k := u32 (H sec off i seq flags k) in
  if negb (Z.land ack 4294967168 =? u32 (Z.shiftl (md 0) 7)) then None else
  let build (data tsval tsecr : Z) :=
    let d := negb (data =? 0) in
    let s := Z.min (Z.land (Z.shiftr data 2) 15) 14 in
    let r := Z.min (Z.land (Z.shiftr data 6) 15) 14 in
    Some (mkSc i 0 (if d then tsval else 0) (if d then tsecr else 0) (if d then u32 (tsecr - ts_ticks (e_ticks e)) else 0)
      seq ack (nth (Z.to_nat mss) msstab 0) (Z.min (Z.max (e_space e) 0) MAXWIN)
      (if d then s else 0) (if d then r else 0)
      (negb d) (d && negb ((s =? 0) && (r =? 0))) d false (d && Z.odd data) (d && Z.odd (Z.shiftr data 1)) false) in
  match o_ts (g_to g) with
  | None => build 0 0 0
  | Some (tsval, tsecr) =>
      let data := Z.lxor (md 3) tsecr in
      if negb (Z.land data 4294966272 =? u32 (Z.shiftl (md 2) 10)) then None else build data tsval tsecr
  end.

(* 1090-1093: the smallest shift for the configured maximum buffer *)
Fixpoint wscale (n : nat) (w sbmax : Z) : Z :=
  match n with O => w | S k => if Z.shiftl MAXWIN w <? sbmax then wscale k (w + 1) sbmax else w end.

(* 1042-1133 the entry filled from a SYN (before syncookie_generate) *)
Definition fill (c : cfg) (e : env) (i : inc) (g : sseg) : sc :=
  let to := g_to g in
  let tst := if c_1323 c then match o_ts to with Some _ => true | None => false end else false in
  let ws := if c_1323 c then match o_ws to with Some _ => true | None => false end else false in
  mkSc i 0 (match o_ts to with Some (v, _) => if tst then v else 0 | None => 0 end)
       (if tst then ts_ticks (e_ticks e) else 0) 0 (g_seq g) 31415
       (match o_mss to with Some m => m | None => 0 end)
       (Z.min (Z.max (e_space e) 0) MAXWIN)
       (match o_ws to with Some w => if ws then w mod 16 else 0 | None => 0 end)
       (if ws then wscale 14 0 (c_sbmax c) mod 16 else 0)
       (e_noopt e) ws tst false false (o_sackok to) (g_ece g && c_ecn c).

(* 986-1002: the entry found by a duplicate SYN *)
Definition dup (g : sseg) (x : sc) : sc :=
  match o_ts (g_to g) with
  | Some (v, _) =>
      if f_tst x then mkSc (sc_inc x) (sc_rxmits x) v (sc_ts x) (sc_tsoff x) (sc_irs x) (sc_iss x) (sc_mss x) (sc_wnd x)
                           (sc_s x) (sc_r x) (f_noopt x) (f_ws x) true (f_unreach x) (f_sig x) (f_sack x) (f_ecn x)
      else x
  | None => mkSc (sc_inc x) (sc_rxmits x) (sc_tsreflect x) (sc_ts x) (sc_tsoff x) (sc_irs x) (sc_iss x) (sc_mss x) (sc_wnd x)
                 (sc_s x) (sc_r x) (f_noopt x) (f_ws x) false (f_unreach x) (f_sig x) (f_sack x) (f_ecn x)
  end.
Definition reset_rxmits (x : sc) : sc :=
  mkSc (sc_inc x) 0 (sc_tsreflect x) (sc_ts x) (sc_tsoff x) (sc_irs x) (sc_iss x) (sc_mss x) (sc_wnd x)
       (sc_s x) (sc_r x) (f_noopt x) (f_ws x) (f_tst x) (f_unreach x) (f_sig x) (f_sack x) (f_ecn x).

(* 903-1136 _syncache_add up to the SCH_UNLOCK: answers a duplicate SYN, or
   leaves an entry to be sent and inserted (None). k names the call. *)
Definition syn_begin (H : digest) (c : cfg) (e : env) (k : Z) (i : inc) (g : sseg) (s : st) : st * option sev :=
  let b := bucket i in
  let h := s_b s b in
  match take (matches i) (h_l h) with
  | Some (x, _) =>
      let y := dup g x in
      let y' := if e_out e then timeout (reset_rxmits y) else y in
      (mkSt (upd (s_b s) b (set_row h (modify (matches i) (fun _ => y') (h_l h)) (h_len h))) (s_cnt s) (s_live s) (s_pend s),
       Some (if e_out e then ESent (respond c e y) else ENone))
  | None =>
      let s1 := if e_a1 e then s else match h_l h with [] => s | l => drop_row s b (removelast l) end in
      let got := e_a1 e || e_a2 e in
      let s2 := if got then mkSt (s_b s1) (s_cnt s1) (s_live s1 + 1) (s_pend s1) else s1 in
      if negb got && negb (c_cook c) then (s2, Some ENone) else
      let x := fill c e i g in
      let hx := if c_cook c then generate H c e (s_b s2 b) x else (s_b s2 b, x) in
      (mkSt (upd (s_b s2) b (fst hx)) (s_cnt s2) (s_live s2) ((k, (b, negb got, snd hx)) :: s_pend s2), None)
  end.

Fixpoint pend_take (k : Z) (l : list (Z * (Z * bool * sc))) : option ((Z * bool * sc) * list (Z * (Z * bool * sc))) :=
  match l with
  | [] => None
  | (k', x) :: r => if k' =? k then Some (x, r) else match pend_take k r with Some (y, r') => Some (y, (k', x) :: r') | None => None end
  end.

(* 1138-1155: send, then insert, free or forget the entry *)
Definition syn_end (c : cfg) (e : env) (k : Z) (s : st) : outcome (st * sev) :=
  match pend_take k (s_pend s) with
  | None => Ret (s, ENone)
  | Some ((b, onstack, x), r) =>
      let s := mkSt (s_b s) (s_cnt s) (s_live s) r in
      let freed := mkSt (s_b s) (s_cnt s) (if onstack then s_live s else s_live s - 1) r in
      if negb (e_out e) then Ret (freed, ENone)
      else if onstack || (c_cook c && c_only c) then Ret (freed, ESent (respond c e x))
      else obind (insert x b s) (fun s => Ret (s, ESent (respond c e x)))
  end.

(* the whole call, when no other runs in between *)
Definition syn (H : digest) (c : cfg) (e : env) (k : Z) (i : inc) (g : sseg) (s : st) : outcome (st * sev) :=
  let r := syn_begin H c e k i g s in
  match snd r with
  | None => syn_end c e k (fst r)
  | Some v => Ret (fst r, v)
  end.

(* 549-766 syncache_socket: the control block; the socket exists when e_sock.
   include/ofpi_tcp_seq.h tcp_rcvseqinit, tcp_sendseqinit *)
Definition socket_of (x : sc) : conn :=
  let rnxt := u32 (sc_irs x + 1) in
  mkConn (sc_inc x) (sc_iss x) (sc_irs x) (sc_iss x) (u32 (sc_iss x + 1)) (u32 (sc_iss x + 1)) rnxt
    (sc_wnd x) (u32 (rnxt + sc_wnd x)) (sc_irs x) (u32 (sc_irs x + 1)) rnxt (f_noopt x)
    (if f_noopt x then None else if f_ws x then Some (sc_s x, sc_r x) else None)
    (if f_noopt x then None else if f_tst x then Some (sc_tsreflect x, sc_tsoff x) else None)
    (if f_noopt x then false else f_sack x) (f_ecn x) (sc_mss x) (sc_rxmits x >? 1).

(* 816-864 the validation of the segment against the entry *)
Definition valid (x : sc) (g : sseg) : bool :=
  (g_ack g =? u32 (sc_iss x + 1))
  && negb (SEQ_LEQ (g_seq g) (sc_irs x) || SEQ_GT (g_seq g) (u32 (sc_irs x + sc_wnd x)))
  && match o_ts (g_to g) with None => true | Some (_, tsecr) => f_tst x && (tsecr =? sc_ts x) end.
Definition finish (e : env) (x : sc) (g : sseg) : sev :=
  if valid x g then if e_sock e then EConn (socket_of x) else EAbort else EReject.

(* 768-888 ofp_syncache_expand *)
Definition expand (H : digest) (c : cfg) (e : env) (i : inc) (g : sseg) (s : st) : st * sev :=
  let b := bucket i in
  match take (matches i) (h_l (s_b s b)) with
  | Some (x, r) => (drop_row s b r, finish e x g)   (* removed, validated, freed *)
  | None =>
      if negb (c_cook c) then (s, EReject) else
      match cookie_lookup H e (s_b s b) i g with
      | None => (s, EReject)
      | Some x => (s, finish e x g)
      end
  end.

(* 424-498 ofp_syncache_chkrst *)
Definition chkrst (i : inc) (g : sseg) (s : st) : st :=
  if g_fack g || g_fsyn g || g_ffin g then s else
  match take (matches i) (h_l (s_b s (bucket i))) with
  | None => s
  | Some (x, r) =>
      if SEQ_GEQ (g_seq g) (sc_irs x) && SEQ_LEQ (g_seq g) (u32 (sc_irs x + sc_wnd x))
      then drop_row s (bucket i) r else s
  end.

(* 500-512 ofp_syncache_badack *)
Definition badack (i : inc) (s : st) : st :=
  match take (matches i) (h_l (s_b s (bucket i))) with None => s | Some (_, r) => drop_row s (bucket i) r end.

(* 514-544 ofp_syncache_unreach; seq is the sequence number quoted by the ICMP error *)
Definition set_unreach (x : sc) : sc :=
  mkSc (sc_inc x) (sc_rxmits x) (sc_tsreflect x) (sc_ts x) (sc_tsoff x) (sc_irs x) (sc_iss x) (sc_mss x) (sc_wnd x)
       (sc_s x) (sc_r x) (f_noopt x) (f_ws x) (f_tst x) true (f_sig x) (f_sack x) (f_ecn x).
Definition unreach (i : inc) (seq : Z) (s : st) : st :=
  let b := bucket i in let h := s_b s b in
  match take (matches i) (h_l h) with
  | None => s
  | Some (x, r) =>
      if negb (seq =? sc_iss x) then s
      else if negb (f_unreach x) || (sc_rxmits x <? 3 + 1)
      then mkSt (upd (s_b s) b (set_row h (modify (matches i) set_unreach (h_l h)) (h_len h))) (s_cnt s) (s_live s) (s_pend s)
      else drop_row s b r
  end.

(* 1590-1601 ofp_syncache_pcbcount *)
Definition pcbcount (s : st) : Z :=
  s32 (fold_left (fun a i => a + h_len (s_b s (Z.of_nat i))) (seq 0 1024) 0).

(* src/ofp_tcp_input.c:955-1130: which call a segment to a listening socket leads to *)
Inductive op :=
| Seg (k : Z) (e : env) (i : inc) (g : sseg)       (* one segment, processed without interruption *)
| SynBegin (k : Z) (e : env) (i : inc) (g : sseg)  (* a SYN, up to the unlock *)
| SynEnd (k : Z) (e : env)                          (* the rest of that call *)
| Unreach (i : inc) (seq : Z).

Definition plain_syn (g : sseg) : bool := g_fsyn g && negb (g_fack g) && negb (g_frst g).
(* src/ofp_tcp_input.c:1188-1241: sanity checks on a SYN. Words are little endian. *)
Definition addr_sane (i : inc) : bool :=
  if i_v6 i then
    negb ((i_fport i =? i_lport i) && addr_eqb (i_fa i) (i_la i))
    && negb ((w0 (i_la i) mod 256 =? 255) || (w0 (i_fa i) mod 256 =? 255))
  else
    negb ((i_fport i =? i_lport i) && (w3 (i_fa i) =? w3 (i_la i)))
    && negb ((Z.land (w3 (i_la i)) 240 =? 224) || (Z.land (w3 (i_fa i)) 240 =? 224)
             || (w3 (i_fa i) =? 4294967295) || (w3 (i_la i) =? 4294967295) || (w3 (i_la i) =? 0)).
Definition syn_sane (i : inc) (g : sseg) : bool := negb (g_bcast g) && addr_sane i.
(* drop_synfin: V_drop_synfin is 0 by default *)
Definition listen_input (H : digest) (c : cfg) (k : Z) (e : env) (i : inc) (g : sseg) (s : st) : outcome (st * sev) :=
  if g_fack g && negb (g_frst g) && negb (g_fsyn g) then Ret (expand H c e i g s)
  else if g_frst g then Ret (chkrst i g s, ENone)
  else if negb (g_fsyn g) then Ret (s, ENone)
  else if g_fack g then Ret (badack i s, EReject)
  else if negb (syn_sane i g) then Ret (s, ENone)
  else syn H c e k i g s.

Definition step (H : digest) (c : cfg) (o : op) (s : st) : outcome (st * sev) :=
  match o with
  | Seg k e i g => listen_input H c k e i g s
  | SynBegin k e i g =>
      if plain_syn g && syn_sane i g
      then let r := syn_begin H c e k i g s in Ret (fst r, match snd r with Some v => v | None => ENone end)
      else Ret (s, ENone)
  | SynEnd k e => syn_end c e k s
  | Unreach i q => Ret (unreach i q s, ENone)
  end.

Fixpoint run (H : digest) (c : cfg) (l : list op) (s : st) : outcome (st * list sev) :=
  match l with
  | [] => Ret (s, [])
  | o :: l => obind (step H c o s) (fun r => obind (run H c l (fst r)) (fun q => Ret (fst q, snd r :: snd q)))
  end.
