(* What fragmentation means, in terms of the packets only. *)
From Verif Require Import Base CksumModel ReassModel ReassSpec FragModel.

(* legal option lists, and the options with the copy flag, in order *)
Inductive options : list Z -> list Z -> Prop :=
| o_nil : options [] []
| o_one o r c : o mod 32 = 0 \/ o mod 32 = 1 -> options r c -> options (o :: r) c
| o_opt o l body r c : o mod 32 <> 0 -> o mod 32 <> 1 -> 0 <= o < 256 -> l = 2 + Z.of_nat (length body) -> options r c ->
    options (o :: l :: body ++ r) ((if 128 <=? o then o :: l :: body else []) ++ c).

(* ps carry consecutive ranges from offset n on, the last with flag mf *)
Fixpoint consecutive (n : Z) (mf : bool) (ps : list ippkt) : Prop :=
  match ps with
  | [] => False
  | [p] => frag_begin p = n /\ more_frags p = mf /\ 0 < frag_len p
  | p :: r => frag_begin p = n /\ more_frags p = true /\ 0 < frag_len p /\ frag_len p mod 8 = 0 /\
              consecutive (n + frag_len p) mf r
  end.

(* f is a well formed fragment of p: it fits the MTU, carries exactly its range,
   the rest of its header is that of p and its header checksum verifies *)
Definition fragment_of (be : bool) (p : ippkt) (mtu : Z) (opts : list Z) (f : ippkt) : Prop :=
  pkt_wf f /\ h_len (p_hdr f) <= mtu /\ Z.of_nat (length (p_data f)) = frag_len f /\
  same_datagram (p_hdr f) (p_hdr p) /\ h_tos (p_hdr f) = h_tos (p_hdr p) /\ h_ttl (p_hdr f) = h_ttl (p_hdr p) /\
  h_off (p_hdr f) / 16384 = h_off (p_hdr p) / 16384 /\
  h_opt (p_hdr f) = opts /\
  forall al, ofp_cksum_iph be al (hdr_bytes be (p_hdr f) (cpu_to_be_16 be (h_len (p_hdr f)))
     (cpu_to_be_16 be (h_off (p_hdr f))) (h_sum (p_hdr f))) (h_hl (p_hdr f)) = Ret 0.

(* no fragment but the last could have carried 8 bytes more *)
Fixpoint greedy (mtu : Z) (ps : list ippkt) : Prop :=
  match ps with
  | p :: ((_ :: _) as r) => mtu < h_len (p_hdr p) + 8 /\ greedy mtu r
  | _ => True
  end.

Definition fragmentation (be : bool) (p : ippkt) (mtu : Z) (fs : list ippkt) : Prop :=
  consecutive (frag_begin p) (more_frags p) fs /\ datagram fs = frag_payload p /\ greedy mtu fs /\
  exists copied n, options (h_opt (p_hdr p)) copied /\ (n < 4)%nat /\
    match fs with
    | [] => False
    | f :: r => fragment_of be p mtu (h_opt (p_hdr p)) f /\
                Forall (fragment_of be p mtu (copied ++ repeat 0 n)) r
    end.
