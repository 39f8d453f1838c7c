(* What IPv4 forwarding and ICMP promise, in terms of the packet's bytes. *)
From Verif Require Import Base CksumSpec.

Definition sub (l : list Z) (i n : nat) : list Z := firstn n (skipn i l).
Definition hdr_words (p : list Z) : Z := nth 0 p 0 mod 16.              (* header length field *)
Definition hdr_len (p : list Z) : nat := Z.to_nat (4 * hdr_words p).
Definition total_len (p : list Z) : Z := nth 2 p 0 * 256 + nth 3 p 0.
Definition ttl (p : list Z) : Z := nth 8 p 0.
(* RFC 791 / RFC 1071: the header sums to all ones *)
Definition header_sum_ok (p : list Z) : Prop := rfc1071_sum (firstn (hdr_len p) p) = 65535.
(* a header that is there and has at least 5 words *)
Definition header_there (p : list Z) : Prop := bytes_ok p /\ 5 <= hdr_words p /\ (hdr_len p <= length p)%nat.
Definition version (p : list Z) : Z := nth 0 p 0 / 16.
(* only the time to live and the header checksum differ *)
Definition same_but_ttl (p p' : list Z) : Prop :=
  length p' = length p /\ forall i, i <> 8%nat -> i <> 10%nat -> i <> 11%nat -> nth i p' 0 = nth i p 0.

(* an ICMP error [s] about [p]: RFC 792, quoting header and 8 bytes; the quoted
   header checksum (bytes 10, 11) may be rewritten *)
Definition icmp_error_msg (p s src : list Z) (type code : Z) (rest : list Z) : Prop :=
  let h := hdr_len p in
  length s = (20 + 8 + h + 8)%nat /\ nth 0 s 0 = 69 /\ total_len s = Z.of_nat (length s) /\
  ttl s = 64 /\ nth 9 s 0 = 1 /\ sub s 12 4 = src /\ sub s 16 4 = sub p 12 4 /\ header_sum_ok s /\
  sub s 20 2 = [type; code] /\ sub s 24 4 = rest /\ rfc1071_sum (skipn 20 s) = 65535 /\
  sub s 28 10 = sub p 0 10 /\ sub s 40 (h - 12 + 8) = sub p 12 (h - 12 + 8).
(* when no error may be sent about p (RFC 1122 3.2.2): fragments but the first, and
   ICMP errors themselves (redirects excepted by the code's rule) *)
Definition query_types : list Z := [0; 8; 9; 10; 13; 14; 15; 16; 17; 18].
Definition later_fragment (p : list Z) : Prop := (nth 6 p 0 * 256 + nth 7 p 0) mod 8192 <> 0.
Definition is_icmp_error (p : list Z) : Prop := nth 9 p 0 = 1 /\ ~ In (nth (hdr_len p) p 0) query_types.
(* an echo reply [s] to the request [p]: same identifier, sequence number and data,
   options removed *)
Definition echo_reply_to (p s src : list Z) : Prop :=
  let h := hdr_len p in let n := Z.to_nat (total_len p) in
  total_len s = total_len p - Z.of_nat h + 20 /\ length s = (length p - h + 20)%nat /\
  nth 0 s 0 = 69 /\ ttl s = 64 /\ sub s 12 4 = src /\ sub s 16 4 = sub p 12 4 /\ header_sum_ok s /\
  nth 20 s 0 = 0 /\ nth 21 s 0 = nth (h + 1) p 0 /\
  sub s 24 (n - h - 4) = sub p (h + 4) (n - h - 4) /\
  rfc1071_sum (sub s 20 (n - h)) = 65535.
(* the second word of an ICMP error (RFC 792, RFC 1191) and its code: redirects carry the
   gateway, parameter problems the offset (and code 0), "fragmentation needed" the MTU *)
Definition err_rest (type code : Z) (gw : list Z) (mtu : Z) : list Z :=
  if type =? 5 then gw else if type =? 12 then [code; 0; 0; 0]
  else if (type =? 3) && (code =? 4) && negb (mtu =? 0) then [0; 0] ++ net16 mtu else [0; 0; 0; 0].
Definition err_code (type code : Z) : Z := if type =? 12 then 0 else code.
