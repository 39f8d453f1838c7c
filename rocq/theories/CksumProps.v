(* C11-C15.  The checksum is compared as the two bytes it occupies in memory/on the wire:
   [st16 be c] are the bytes of the returned uint16_t on a host of byte order [be],
   [net16 (rfc1071 d)] the bytes RFC 1071 prescribes. *)
From Verif Require Import Base CksumModel CksumSpec CksumProof CksumProof2 CksumProof3.

(* C11: every content, every length up to 256 KiB, every address, both byte orders, both
   code variants.  Memory is [data ++ rest]; with rest = [] any read past the buffer would be
   UB, so Ret also says no byte outside is read. *)
Theorem cksum_buffer_rfc1071 : forall be arm al data rest,
  bytes_ok data -> Z.of_nat (length data) <= 262144 ->
  exists c, ofp_cksum_buffer be arm al (data ++ rest) (Z.of_nat (length data)) = Ret c /\
            st16 be c = net16 (rfc1071 data).
Proof.
  exact (fun be arm al data rest Hb Hl =>
    match cksum_buffer_good be arm al data rest Hb Hl with
    | ex_intro _ c (conj E G) => ex_intro _ c (conj E (proj2 (GoodSum_rfc be data c Hb G)))
    end).
Qed.
Print Assumptions cksum_buffer_rfc1071.

Example cksum_buffer_ex :
  bytes_ok [0x45; 0; 0; 0x73; 0xb8; 0x61; 0xc0] /\
  ofp_cksum_buffer false false 2 [0x45; 0; 0; 0x73; 0xb8; 0x61; 0xc0] 7 = Ret 0x2a42 /\
  rfc1071 [0x45; 0; 0; 0x73; 0xb8; 0x61; 0xc0] = 0x422a.
Proof. split; [bok; unfold is_byte; lia|]. split; vm_compute; reflexivity. Qed.

(* C12: storing the computed checksum in the zeroed field makes the whole verify to 0 ... *)
Theorem cksum_stored_verifies : forall be arm al al' pre post c,
  bytes_ok pre -> bytes_ok post -> Nat.even (length pre) = true ->
  Z.of_nat (length (pre ++ [0; 0] ++ post)) <= 262144 ->
  ofp_cksum_buffer be arm al (pre ++ [0; 0] ++ post) (Z.of_nat (length (pre ++ [0; 0] ++ post))) = Ret c ->
  ofp_cksum_buffer be arm al' (pre ++ st16 be c ++ post) (Z.of_nat (length (pre ++ st16 be c ++ post))) = Ret 0.
Proof. exact cksum_stored_verifies_lemma. Qed.
Print Assumptions cksum_stored_verifies.

(* ... and a change of one aligned word, unless it only exchanges the two representations of
   zero (0x0000 / 0xffff), makes it fail. *)
Theorem cksum_detects_word_change : forall be arm al al' pre x y x' y' post,
  bytes_ok (pre ++ [x; y] ++ post) -> bytes_ok (pre ++ [x'; y'] ++ post) ->
  Nat.even (length pre) = true ->
  Z.of_nat (length (pre ++ [x; y] ++ post)) <= 262144 ->
  (256 * x + y) mod 65535 <> (256 * x' + y') mod 65535 ->
  ofp_cksum_buffer be arm al (pre ++ [x; y] ++ post) (Z.of_nat (length (pre ++ [x; y] ++ post))) = Ret 0 ->
  ofp_cksum_buffer be arm al' (pre ++ [x'; y'] ++ post) (Z.of_nat (length (pre ++ [x'; y'] ++ post))) <> Ret 0.
Proof. exact cksum_detects_lemma. Qed.
Print Assumptions cksum_detects_word_change.

Example cksum_stored_ex :
  let hdr := [0x45; 0; 0; 0x1c; 0; 1; 0; 0; 64; 17; 0; 0; 10; 0; 0; 1; 10; 0; 0; 2] in
  ofp_cksum_buffer false false 0 hdr 20 = Ret 0xce66 /\ st16 false 0xce66 = [0x66; 0xce] /\
  ofp_cksum_buffer false false 0
    [0x45; 0; 0; 0x1c; 0; 1; 0; 0; 64; 17; 0x66; 0xce; 10; 0; 0; 1; 10; 0; 0; 2] 20 = Ret 0 /\
  ofp_cksum_buffer false false 0
    [0x45; 0; 0; 0x1c; 0; 1; 0; 0; 63; 17; 0x66; 0xce; 10; 0; 0; 1; 10; 0; 0; 2] 20 <> Ret 0.
Proof. cbv zeta. splits; try (vm_compute; reflexivity). vm_compute. discriminate. Qed.

(* C13 *)
Theorem cksum_iph_rfc1071 : forall be al hdr rest hl,
  bytes_ok hdr -> 5 <= hl <= 15 -> Z.of_nat (length hdr) = 4 * hl ->
  exists c, ofp_cksum_iph be al (hdr ++ rest) hl = Ret c /\ st16 be c = net16 (rfc1071 hdr).
Proof.
  exact (fun be al hdr rest hl Hb Hhl Hl =>
    match iph_good be al hdr rest hl Hb Hhl Hl with
    | ex_intro _ c (conj E G) => ex_intro _ c (conj E (proj2 (GoodSum_rfc be hdr c Hb G)))
    end).
Qed.
Print Assumptions cksum_iph_rfc1071.

Example cksum_iph_ex :
  let hdr := [0x45; 0; 0; 0x1c; 0; 1; 0; 0; 64; 17; 0; 0; 10; 0; 0; 1; 10; 0; 0; 2] in
  bytes_ok hdr /\ Z.of_nat (length hdr) = 4 * 5 /\ ofp_cksum_iph false 2 hdr 5 = Ret 0xce66.
Proof. cbv zeta. splits; [bok; unfold is_byte; lia|reflexivity|vm_compute; reflexivity]. Qed.

(* C14, the part that holds: [off] inside the first segment, and the range ends inside the
   first segment or exactly at the end of a later one (here: after s0 and p1, q being the
   remaining segments).  Missing: ranges starting in a later segment, ranges ending in the
   middle of a later segment, empty segments; for these the statement is false, see below. *)
Theorem cksum_packet_rfc1071_partial : forall be arm s0 p1 q off len fuel,
  Forall (fun s => seg_data s <> []) p1 ->
  Forall (fun s => bytes_ok (seg_data s)) (s0 :: p1) -> Forall (fun s => bytes_ok (seg_data s)) q ->
  0 <= off < Z.of_nat (length (seg_data s0)) -> 0 <= len <= 262144 ->
  (off + len <= Z.of_nat (length (seg_data s0)) \/
   (p1 <> [] /\ off + len = Z.of_nat (length (flat (map seg_data (s0 :: p1)))))) ->
  Z.of_nat (length p1) < 32768 -> (length p1 < fuel)%nat ->
  exists c, ofp_cksum be arm fuel ((s0 :: p1) ++ q) off len = Ret c /\
    st16 be c = net16 (rfc1071
      (firstn (Z.to_nat len) (skipn (Z.to_nat off) (flat (map seg_data ((s0 :: p1) ++ q)))))).
Proof.
  exact (fun be arm s0 p1 q off len fuel H1 H2 H3 H4 H5 H6 H7 H8 =>
    match cksum_packet_rfc be arm s0 p1 q off len fuel H1 H2 H3 H4 H5 H6 H7 H8 with
    | ex_intro _ c (conj E (conj _ R)) => ex_intro _ c (conj E R)
    end).
Qed.
Print Assumptions cksum_packet_rfc1071_partial.

Example cksum_packet_ex :
  ofp_cksum false false 10 [mkseg [9; 1; 2]; mkseg [3]; mkseg [4; 5; 6]; mkseg [7]] 1 6
  = ofp_cksum false false 10 [mkseg [1; 2; 3; 4; 5; 6]] 0 6.
Proof. vm_compute. reflexivity. Qed.

(* C14 is false in general: a range starting beyond the first segment is summed over the
   wrong bytes, *)
Theorem cksum_packet_later_start_refuted :
  exists c, ofp_cksum false false 100 [mkseg [1; 2]; mkseg [3; 4; 5; 6]] 2 4 = Ret c /\
    st16 false c <> net16 (rfc1071 (firstn 4 (skipn 2 (flat [[1; 2]; [3; 4; 5; 6]])))).
Proof. exact cksum_off_cex. Qed.
Print Assumptions cksum_packet_later_start_refuted.

(* a range ending inside a later segment includes bytes after its end, *)
Theorem cksum_packet_later_end_refuted :
  exists c, ofp_cksum false false 100 [mkseg [1; 2]; mkseg [3; 4; 5; 6]] 0 4 = Ret c /\
    st16 false c <> net16 (rfc1071 (firstn 4 (skipn 0 (flat [[1; 2]; [3; 4; 5; 6]])))).
Proof. exact cksum_tail_cex. Qed.
Print Assumptions cksum_packet_later_end_refuted.

(* and with an empty first segment the loop never ends, whatever the fuel. *)
Theorem cksum_packet_empty_segment_diverges_refuted : forall be arm s p len off,
  seg_data s = [] -> 0 <= off ->
  forall fuel, ofp_cksum be arm fuel (s :: p) off len = Diverge.
Proof. exact cksum_empty_seg_diverges. Qed.
Print Assumptions cksum_packet_empty_segment_diverges_refuted.

(* C15, under the same restriction on segmentation as C14.  The header (bytes h at the l3
   offset) must lie in the first segment together with the first payload byte. *)
Theorem in4_cksum_rfc1071_partial : forall be arm fuel s0 p1 q l3,
  let h := skipn (Z.to_nat l3) (seg_data s0) in
  let off := 4 * ip_hl_of h in
  let len := ip_len_of h - off in
  let payload := firstn (Z.to_nat len) (skipn (Z.to_nat (l3 + off)) (flat (map seg_data ((s0 :: p1) ++ q)))) in
  Forall (fun s => seg_data s <> []) p1 ->
  Forall (fun s => bytes_ok (seg_data s)) (s0 :: p1) -> Forall (fun s => bytes_ok (seg_data s)) q ->
  (20 <= length h)%nat -> 0 <= len ->
  0 <= l3 -> l3 + off < Z.of_nat (length (seg_data s0)) -> Z.of_nat (length (seg_data s0)) < 4294967296 ->
  (l3 + off + len <= Z.of_nat (length (seg_data s0)) \/
   (p1 <> [] /\ l3 + off + len = Z.of_nat (length (flat (map seg_data (s0 :: p1)))))) ->
  Z.of_nat (length p1) < 32000 -> (length p1 < fuel)%nat ->
  exists c, ofp_in4_cksum be arm fuel ((s0 :: p1) ++ q) l3 = Ret c /\
   st16 be c = net16 (rfc1071 (pseudo4 (ip_src_of h) (ip_dst_of h) (ip_p_of h) payload)).
Proof. exact in4_cksum_rfc. Qed.
Print Assumptions in4_cksum_rfc1071_partial.

(* the receiver's side: a datagram whose checksum field (even offset) was filled with the
   value for the zeroed field has checksum 0 *)
Theorem in4_cksum_stored_verifies : forall src dst proto pre post,
  bytes_ok src -> bytes_ok dst -> is_byte proto -> bytes_ok pre -> bytes_ok post ->
  length src = 4%nat -> length dst = 4%nat -> Nat.even (length pre) = true ->
  Z.of_nat (length (pre ++ [0; 0] ++ post)) <= 65535 ->
  rfc1071 (pseudo4 src dst proto
    (pre ++ net16 (rfc1071 (pseudo4 src dst proto (pre ++ [0; 0] ++ post))) ++ post)) = 0.
Proof. exact in4_stored_verifies_lemma. Qed.
Print Assumptions in4_cksum_stored_verifies.

Example in4_cksum_ex :
  let udp := [0; 53; 0x30; 0x39; 0; 9; 0; 0; 65] in
  let p := [mkseg ([0x45; 0; 0; 29; 0; 1; 0; 0; 64; 17; 0; 0; 10; 0; 0; 1; 10; 0; 0; 2] ++ udp)] in
  exists c, ofp_in4_cksum false false 5 p 0 = Ret c /\
    st16 false c = net16 (rfc1071 (pseudo4 [10; 0; 0; 1] [10; 0; 0; 2] 17 udp)).
Proof. cbv zeta. eexists. split; vm_compute; reflexivity. Qed.
