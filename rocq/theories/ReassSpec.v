(* What IPv4 reassembly means, in terms of the packets only. *)
From Verif Require Import Base CksumModel CksumSpec ReassModel.

(* the range of the datagram's payload a fragment claims to carry *)
Definition frag_begin (p : ippkt) : Z := 8 * (h_off (p_hdr p) mod 8192).
Definition frag_len (p : ippkt) : Z := h_len (p_hdr p) - 4 * h_hl (p_hdr p).
Definition frag_end (p : ippkt) : Z := frag_begin p + frag_len p.
Definition more_frags (p : ippkt) : bool := Z.testbit (h_off (p_hdr p)) 13.

Definition same_datagram (a b : iphdr) : Prop :=
  h_src a = h_src b /\ h_dst a = h_dst b /\ h_id a = h_id b /\ h_p a = h_p b.

(* A header as the C struct can hold it, with a legal header length. *)
Record hdr_wf (h : iphdr) : Prop := {
  hw_hl : 5 <= h_hl h <= 15;
  hw_tos : is_byte (h_tos h); hw_ttl : is_byte (h_ttl h); hw_p : is_byte (h_p h);
  hw_id : 0 <= h_id h < 65536; hw_off : 0 <= h_off h < 65536;
  hw_src : 0 <= h_src h < 4294967296; hw_dst : 0 <= h_dst h < 4294967296;
  hw_opt : bytes_ok (h_opt h) /\ Z.of_nat (length (h_opt h)) = 4 * h_hl h - 20 }.

(* The total length of the header is consistent with header and data (the
   receive path of the library does not check this). *)
Definition pkt_wf (p : ippkt) : Prop :=
  hdr_wf (p_hdr p) /\ 4 * h_hl (p_hdr p) <= h_len (p_hdr p) <= 65535 /\
  frag_len p <= Z.of_nat (length (p_data p)).

(* byte b at offset i of the datagram of header h was received *)
Definition received (hist : list ippkt) (h : iphdr) (i b : Z) : Prop :=
  exists q, In q hist /\ same_datagram (p_hdr q) h /\
    frag_begin q <= i < frag_end q /\
    nth_error (p_data q) (Z.to_nat (i - frag_begin q)) = Some b.

Fixpoint arrivals (evs : list revent) : list ippkt :=
  match evs with
  | [] => []
  | Arrive _ _ _ _ p :: r => p :: arrivals r
  | SlowTmo :: r => arrivals r
  end.

(* the reassembly queue of the datagram of header h: its fragments, its
   fragment count, its remaining time *)
Definition queued (st : reass) (h : iphdr) : option chain :=
  match find_chain h (r_q st (reass_hash (h_src h) (h_id h))) with
  | Some (_, c, _) => Some c
  | None => None
  end.

(* the hash buckets, and the number of datagrams being reassembled *)
Definition buckets : list Z := map Z.of_nat (seq 0 64).
Definition live (st : reass) : Z :=
  fold_right Z.add 0 (map (fun i => Z.of_nat (length (r_q st i))) buckets).
(* the packets held in the queues *)
Definition held (st : reass) : list Z :=
  flat_map (fun i => flat_map (fun c => map fr_uid (c_frags c)) (r_q st i)) buckets.
Definition freed (es : list effect) : list Z := flat_map ef_freed es.
Definition returned (es : list effect) : list ippkt :=
  flat_map (fun e => match ef_ret e with Some d => [d] | None => [] end) es.
Definition arrivals_wf (evs : list revent) : Prop := Forall pkt_wf (arrivals evs).

(* A packet d returned when fragment p arrived after the fragments hist: it is
   the datagram of p, every one of its [total] payload bytes was received at
   exactly that offset, total is the end of a received last fragment, and its
   header (checksum included) is consistent. The length field is 16 bits. *)
Definition delivered_ok (be : bool) (hist : list ippkt) (p d : ippkt) : Prop :=
  exists total,
    same_datagram (p_hdr d) (p_hdr p) /\
    0 <= total <= Z.of_nat (length (p_data d)) /\
    total + 4 * h_hl (p_hdr p) <= 65535 /\
    (forall i, 0 <= i < total -> exists b,
       nth_error (p_data d) (Z.to_nat i) = Some b /\ received hist (p_hdr p) i b) /\
    (exists q, In q hist /\ same_datagram (p_hdr q) (p_hdr p) /\
       more_frags q = false /\ frag_end q = total) /\
    h_len (p_hdr d) = (4 * h_hl (p_hdr d) + total) mod 65536 /\
    h_off (p_hdr d) = 0 /\
    (forall al', ofp_cksum_iph be al'
       (hdr_bytes be (p_hdr d) (cpu_to_be_16 be (h_len (p_hdr d))) 0 (h_sum (p_hdr d)))
       (h_hl (p_hdr d)) = Ret 0) /\
    (* the rest of the header is that of a received first fragment *)
    (exists q, In q hist /\ same_datagram (p_hdr q) (p_hdr p) /\ frag_begin q = 0 /\
       h_hl (p_hdr d) = h_hl (p_hdr q) /\ h_tos (p_hdr d) = h_tos (p_hdr q) /\
       h_ttl (p_hdr d) = h_ttl (p_hdr q) /\ h_opt (p_hdr d) = h_opt (p_hdr q)).

(* ps are the fragments, in order, of a datagram's payload from offset n on *)
Fixpoint tiles (n : Z) (ps : list ippkt) : Prop :=
  match ps with
  | [] => False
  | [p] => frag_begin p = n /\ more_frags p = false
  | p :: r => frag_begin p = n /\ more_frags p = true /\ 0 < frag_len p /\ tiles (n + frag_len p) r
  end.
Definition frag_payload (p : ippkt) : list Z := firstn (Z.to_nat (frag_len p)) (p_data p).
(* the payload of the datagram cut into ps *)
Definition datagram (ps : list ippkt) : list Z := concat (map frag_payload ps).
Definition same_datagramb (a b : iphdr) : bool :=
  (h_src a =? h_src b) && (h_dst a =? h_dst b) && (h_id a =? h_id b) && (h_p a =? h_p b).
(* the arrivals of the datagram of header h *)
Definition own (h : iphdr) (l : list ippkt) : list ippkt := filter (fun p => same_datagramb (p_hdr p) h) l.
(* no timeout, and the fragments of h find headroom *)
Definition undisturbed (h : iphdr) (ev : revent) : Prop :=
  match ev with
  | Arrive _ _ _ pushed p => same_datagramb (p_hdr p) h = true -> pushed = true
  | SlowTmo => False
  end.

(* a fragment that cannot be part of any legal fragmentation: more fragments
   follow but its length is zero or not a multiple of 8 *)
Definition malformed (p : ippkt) : Prop :=
  more_frags p = true /\ (frag_len p = 0 \/ frag_len p mod 8 <> 0).

(* d is the whole datagram of header h cut into ps *)
Definition whole (be : bool) (h : iphdr) (ps : list ippkt) (d : ippkt) : Prop :=
  let total := Z.of_nat (length (datagram ps)) in
  firstn (length (datagram ps)) (p_data d) = datagram ps /\
  same_datagram (p_hdr d) h /\
  h_len (p_hdr d) = 4 * h_hl (p_hdr d) + total /\ h_off (p_hdr d) = 0 /\
  (forall al', ofp_cksum_iph be al'
     (hdr_bytes be (p_hdr d) (cpu_to_be_16 be (h_len (p_hdr d))) 0 (h_sum (p_hdr d))) (h_hl (p_hdr d)) = Ret 0).

Fixpoint timeouts (n : nat) (st : reass) : reass :=
  match n with O => st | S k => timeouts k (fst (slow_tmo st)) end.
