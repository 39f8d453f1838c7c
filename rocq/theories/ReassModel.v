(* IPv4 reassembly, src/ofp_reass.c.
   Simplifications: a chain (next_frag links) and a bucket (next_chain links)
   are Coq lists; packets are single-segment, their L3 data being the IP header
   followed by [p_data]; packet identity (odp_packet_t) is p_uid; nfrags and
   ipq_ttl, kept by the C code in the first fragment of a chain, are fields of
   the chain; the ICMP error sent by slow_tmo is not modelled.
   Reading or moving bytes beyond the packet data is UB. *)
From Verif Require Import Base CksumModel.

(* include/api/ofp_ip.h struct ofp_ip. 16/32-bit fields that the code never
   byte-swaps (id, src, dst) hold the value as loaded by the host; len and off
   are in host byte order. *)
Record iphdr := mkH {
  h_hl : Z; h_tos : Z; h_len : Z; h_id : Z; h_off : Z; h_ttl : Z; h_p : Z; h_sum : Z;
  h_src : Z; h_dst : Z; h_opt : list Z }.
Record ippkt := mkP { p_uid : Z; p_hdr : iphdr; p_data : list Z }.

Definition OFP_IP_MF : Z := 8192.
Definition OFP_IP_OFFMASK : Z := 8191.
Definition maxnipq : Z := 1024.            (* ofp_reass.c:151 *)
Definition maxfragsperpacket : Z := 16.    (* ofp_reass.c:152 *)

(* ofp_reass.c:73-81 struct frag + the packet it heads *)
Record frag := mkFr {
  fr_uid : Z; fr_hdr : iphdr;
  fr_flags : Z;             (* off_hashix without the hash *)
  fr_off : Z; fr_len : Z;   (* ip_off (bytes), ip_len (payload) as rewritten *)
  fr_data : list Z }.

Record chain := mkC { c_frags : list frag; c_nfrags : Z; c_ttl : Z }.

(* ofp_reass.c:83-89 struct ofp_reassembly_mem *)
Record reass := mkR { r_q : Z -> list chain; r_nipq : Z }.

Definition reass_init : reass := mkR (fun _ => []) 0.

Definition rupd {A} (f : Z -> A) (k : Z) (v : A) : Z -> A :=
  fun x => if x =? k then v else f x.

(* ofp_reass.c:56-60 IPREASS_HASH, stored in a uint16_t *)
Definition reass_hash (src id : Z) : Z :=
  Z.land (Z.lxor (Z.lor (Z.land src 15) (Z.shiftl (Z.land (Z.shiftr src 8) 15) 4)) id) 63.

Definition same_key (a b : iphdr) : bool :=
  (h_id a =? h_id b) && (h_src a =? h_src b) && (h_dst a =? h_dst b) && (h_p a =? h_p b).

(* FRAG_IP(chain) in the search loop, ofp_reass.c:238-248 *)
Definition chain_matches (h : iphdr) (c : chain) : bool :=
  match c_frags c with f :: _ => same_key h (fr_hdr f) | [] => false end.

(* the search loop: chains before, the chain found, chains after *)
Fixpoint find_chain (h : iphdr) (l : list chain) : option (list chain * chain * list chain) :=
  match l with
  | [] => None
  | c :: r => if chain_matches h c then Some ([], c, r)
              else match find_chain h r with
                   | Some (a, x, b) => Some (c :: a, x, b)
                   | None => None
                   end
  end.

Definition zlen (l : list Z) : Z := Z.of_nat (length l).
Definition ztake (n : Z) (l : list Z) : list Z := firstn (Z.to_nat n) l.
Definition zdrop (n : Z) (l : list Z) : list Z := skipn (Z.to_nat n) l.

(* memmove(data, data + over, len - over); ip_off += over; ip_len -= over
   ofp_reass.c:322-326 and 363-368 (0 < over < len) *)
Definition cut (f : frag) (over : Z) : outcome frag :=
  if zlen (fr_data f) <? fr_len f then UB else
  let n := fr_len f - over in
  Ret (mkFr (fr_uid f) (fr_hdr f) (fr_flags f) (u16 (fr_off f + over)) (u16 (fr_len f - over))
        (ztake n (zdrop over (fr_data f)) ++ zdrop n (fr_data f))).

(* ofp_reass.c:350-372: trim or dequeue the succeeding fragments; the second
   component are the packets freed *)
Fixpoint trim (prev : frag) (l : list frag) : outcome (list frag * list Z) :=
  match l with
  | [] => Ret ([], [])
  | f :: r =>
    let over := fr_off prev + fr_len prev - fr_off f in
    if over >? 0 then
      if over >=? fr_len f then
        obind (trim prev r) (fun '(r', fd) => Ret (r', fr_uid f :: fd))
      else
        obind (cut f over) (fun f' =>
        obind (trim f' r) (fun '(r', fd) => Ret (f' :: r', fd)))
    else obind (trim f r) (fun '(r', fd) => Ret (f :: r', fd))
  end.

(* ofp_reass.c:295-372: find the place of p in the chain. None: the preceding
   fragment already has all of it (dropfrag). The appended fragment (no
   successor) is not trimmed against its predecessor. *)
Fixpoint place (p : frag) (prev : option frag) (l : list frag)
  : outcome (option (list frag * list Z)) :=
  match l with
  | [] => Ret (Some ([p], []))
  | f :: r =>
    if fr_off p <=? fr_off f then
      match prev with
      | Some q =>
        let over := fr_off q + fr_len q - fr_off p in
        if over >? 0 then
          if over >=? fr_len p then Ret None
          else obind (cut p over) (fun p' =>
               obind (trim p' (f :: r)) (fun '(r', fd) => Ret (Some (p' :: r', fd))))
        else obind (trim p (f :: r)) (fun '(r', fd) => Ret (Some (p :: r', fd)))
      | None => obind (trim p (f :: r)) (fun '(r', fd) => Ret (Some (p :: r', fd)))
      end
    else
      obind (place p (Some f) r) (fun o =>
      Ret (match o with Some (r', fd) => Some (f :: r', fd) | None => None end))
  end.

(* ofp_reass.c:386-408: total length if the fragments follow each other from 0
   and the last one has no MF flag *)
Fixpoint complete (next : Z) (saved : Z) (l : list frag) : option Z :=
  match l with
  | [] => if Z.land saved OFP_IP_MF =? 0 then Some next else None
  | f :: r => if fr_off f =? next then complete (next + fr_len f) (fr_flags f) r else None
  end.

(* ofp_reass.c:432-445: odp_packet_add_data + odp_packet_copy_from_mem of every
   further fragment at nextoff (here relative to the payload) *)
Fixpoint add_frags (data : list Z) (pos : Z) (l : list frag) : outcome (list Z * Z) :=
  match l with
  | [] => Ret (data, pos)
  | f :: r =>
    if (zlen data <? pos) || (zlen (fr_data f) <? fr_len f) then UB else
    add_frags (ztake pos data ++ ztake (fr_len f) (fr_data f) ++ zdrop pos data)
              (pos + fr_len f) r
  end.

(* the bytes of an IP header in memory: len and off given as stored *)
Definition st32 (be : bool) (x : Z) : list Z :=
  if be then st16 be (x / 65536) ++ st16 be (x mod 65536)
  else st16 be (x mod 65536) ++ st16 be (x / 65536).
Definition hdr_bytes (be : bool) (h : iphdr) (len off sum : Z) : list Z :=
  [64 + h_hl h; h_tos h] ++ st16 be len ++ st16 be (h_id h) ++ st16 be off ++
  [h_ttl h; h_p h] ++ st16 be sum ++ st32 be (h_src h) ++ st32 be (h_dst h) ++ h_opt h.

(* ofp_reass.c:446-451: the header of the result; al is its address *)
Definition finish_hdr (be : bool) (al : Z) (h : iphdr) (len : Z) : outcome iphdr :=
  let blen := cpu_to_be_16 be (u16 len) in
  obind (ofp_cksum_iph be al (hdr_bytes be h blen 0 0) (h_hl h)) (fun sum =>
  Ret (mkH (h_hl h) (h_tos h) (u16 len) (h_id h) 0 (h_ttl h) (h_p h) sum (h_src h) (h_dst h) (h_opt h))).

(* what a call does besides changing the state *)
Record effect := mkEff {
  ef_ret : option ippkt;      (* packet returned, None = ODP_PACKET_INVALID *)
  ef_freed : list Z;          (* packets freed *)
  ef_locks : list bool        (* true = lock, false = unlock, in order *)
}.

Definition uids (l : list frag) : list Z := map fr_uid l.

(* ofp_reass.c:193-460 ofp_ip_reass. junk: the byte found in the packet's
   headroom where ipq_ttl of a fragment that becomes the first of an existing
   chain is read later (the code does not initialise it, 334-345); pushed:
   whether odp_packet_push_head succeeds. *)
Definition ip_reass (be : bool) (al junk : Z) (pushed : bool) (st : reass) (p : ippkt)
  : outcome (reass * effect) :=
  let h := p_hdr p in
  let hlen := 4 * h_hl h in
  let ttl := h_ttl h in
  (* 206-207 *)
  if r_nipq st >? maxnipq then Ret (st, mkEff None [p_uid p] [false]) else
  let hash := reass_hash (h_src h) (h_id h) in
  if negb pushed then Ret (st, mkEff None [p_uid p] [true; false]) else
  let found := find_chain h (r_q st hash) in
  (* 259-274 *)
  let len := u16 (h_len h - hlen) in
  if negb (Z.land (h_off h) OFP_IP_MF =? 0) && ((len =? 0) || negb (Z.land len 7 =? 0))
  then
    (* dropfrag, 454-457; chain->nfrags was not incremented yet but is decremented *)
    let st' := match found with
               | Some (a, c, b) =>
                   mkR (rupd (r_q st) hash (a ++ mkC (c_frags c) (u8 (c_nfrags c - 1)) (c_ttl c) :: b)) (r_nipq st)
               | None => st
               end in
    Ret (st', mkEff None [p_uid p] [true; false])
  else
  let fp := mkFr (p_uid p) h (Z.land (h_off h) 57344) (u16 (Z.shiftl (h_off h) 3)) len (p_data p) in
  match found with
  | None =>
    (* 279-284 *)
    Ret (mkR (rupd (r_q st) hash (mkC [fp] 1 (if ttl <? 15 then 15 else ttl) :: r_q st hash))
             (r_nipq st + 1),
         mkEff None [] [true; false])
  | Some (a, c, b) =>
    (* 285-290 *)
    let nfrags := u8 (c_nfrags c + 1) in
    let cttl := if ttl >? c_ttl c then ttl else c_ttl c in
    obind (place fp None (c_frags c)) (fun o =>
    match o with
    | None =>
      Ret (mkR (rupd (r_q st) hash (a ++ mkC (c_frags c) (u8 (nfrags - 1)) cttl :: b)) (r_nipq st),
           mkEff None [p_uid p] [true; false])
    | Some (l', fd) =>
      let nfrags := u8 (nfrags - Z.of_nat (length fd)) in
      (* new first in chain: its ipq_ttl is what the headroom contains *)
      let newfirst := match c_frags c with f :: _ => fr_off fp <=? fr_off f | [] => false end in
      let c' := mkC l' nfrags (if newfirst then junk else cttl) in
      match complete 0 0 l' with
      | None =>
        if nfrags >? maxfragsperpacket
        then Ret (mkR (rupd (r_q st) hash (a ++ b)) (r_nipq st),           (* ip_freef *)
                  mkEff None (fd ++ uids l') [true; false])
        else Ret (mkR (rupd (r_q st) hash (a ++ c' :: b)) (r_nipq st),
                  mkEff None fd [true; false])
      | Some next =>
        if next + hlen >? 65535
        then Ret (mkR (rupd (r_q st) hash (a ++ b)) (r_nipq st),
                  mkEff None (fd ++ uids l') [true; false])
        else
          match l' with
          | [] => UB
          | hd :: rest =>
            if zlen (fr_data hd) <? fr_len hd then UB else
            obind (add_frags (fr_data hd) (fr_len hd) rest) (fun '(data, pos) =>
            obind (finish_hdr be al (fr_hdr hd) (4 * h_hl (fr_hdr hd) + pos)) (fun hd' =>
            Ret (mkR (rupd (r_q st) hash (a ++ b)) (r_nipq st - 1),
                 mkEff (Some (mkP (fr_uid hd) hd' data)) (fd ++ uids rest) [true; false])))
          end
      end
    end)
  end.

(* ofp_reass.c:502-532, one bucket: chains kept and packets freed *)
Fixpoint expire_bucket (l : list chain) : list chain * list Z :=
  match l with
  | [] => ([], [])
  | c :: r =>
    let '(r', fd) := expire_bucket r in
    let ttl := u8 (c_ttl c - 1) in
    if ttl =? 0 then (r', uids (c_frags c) ++ fd)
    else (mkC (c_frags c) (c_nfrags c) ttl :: r', fd)
  end.

Definition nhash : Z := 64.                (* ofp_reass.c:56 IPREASS_NHASH *)
Definition bucket_indices : list Z := map Z.of_nat (seq 0 (Z.to_nat nhash)).

(* ofp_reass.c:495-536 slow_tmo *)
Definition slow_tmo (st : reass) : reass * effect :=
  (mkR (fun i => fst (expire_bucket (r_q st i))) (r_nipq st),
   mkEff None (flat_map (fun i => snd (expire_bucket (r_q st i))) bucket_indices) [true; false]).

(* An event: a fragment arrives (with what the environment decides), or the
   one second timer fires. *)
Inductive revent :=
| Arrive (be : bool) (al junk : Z) (pushed : bool) (p : ippkt)
| SlowTmo.

Definition rstep (st : reass) (ev : revent) : outcome (reass * effect) :=
  match ev with
  | Arrive be al junk pushed p => ip_reass be al junk pushed st p
  | SlowTmo => Ret (slow_tmo st)
  end.

(* the history of events, with what each of them did *)
Fixpoint rrun (st : reass) (evs : list revent) : outcome (reass * list effect) :=
  match evs with
  | [] => Ret (st, [])
  | ev :: r => obind (rstep st ev) (fun '(st1, o) =>
               obind (rrun st1 r) (fun '(st2, os) => Ret (st2, o :: os)))
  end.
