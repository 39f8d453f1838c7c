(* C58-C60: IPv4 forwarding, ICMP errors and ICMP input. *)
From Verif Require Import Base CksumModel CksumSpec CksumProof CksumProof2 CksumProof3 Ip4Model Ip4Spec Ip4Proof Ip4Icmp Ip4Reply Ip4Msgs Ip4Echo.
Ltac Zify.zify_post_hook ::= idtac.

(* ---- C58 ---- *)
(* A packet is forwarded only if it is IPv4 with a correct header checksum, lives for another
   hop, and is for somebody else; it leaves with the TTL one lower, a correct checksum
   and every other byte as it came, towards the next hop of its destination. *)
Theorem ip4_forward_partial : forall be al e p p' nh sa red, header_there p -> hw_ok e p ->
  fwd_v4 be al e p = Ret (VForward p' nh sa red) ->
  version p = 4 /\ header_sum_ok p /\ 1 < ttl p /\
  ttl p' = ttl p - 1 /\ same_but_ttl p p' /\ header_there p' /\ header_sum_ok p' /\
  ~ for_us e (sub p 16 4) /\ e_bcast e <> sub p 16 4 /\ nh = e_route e (sub p 16 4) /\
  e_fwd e p = HCont /\ e_in e false p = false /\ e_out e p = (false, sa).
Proof. exact forward_ok. Qed.
Print Assumptions ip4_forward_partial.

(* any chain of such routers *)
Inductive hops (be : bool) : nat -> list Z -> list Z -> Prop :=
| hop0 p : hops be 0 p p
| hopS n p q r al e nh sa red : hw_ok e p -> fwd_v4 be al e p = Ret (VForward q nh sa red) -> hops be n q r -> hops be (S n) p r.
(* loops end: a packet crosses at most TTL - 1 of them *)
Theorem ip4_forward_hops : forall be n p p', header_there p -> hops be (S n) p p' ->
  ttl p' = ttl p - Z.of_nat (S n) /\ 1 <= ttl p' /\ same_but_ttl p p' /\ header_sum_ok p' /\ (S n <= 254)%nat.
Proof.
  intros be n. induction n as [|n IH]; intros p p' H Hp; inversion Hp as [|n0 p0 q r al e nh sa red Hw F Hq]; subst.
  - inversion Hq; subst. destruct (forward_ok be al e p p' nh sa red H Hw F) as (_ & _ & T & T' & Sm & _ & S' & _).
    split; [lia|]. split; [lia|]. split; [exact Sm|]. split; [exact S'|]. lia.
  - destruct (forward_ok be al e p q nh sa red H Hw F) as (_ & _ & T & T' & (Sl & Sn) & H' & S' & _).
    destruct (IH q p' H' Hq) as (T2 & T3 & (Sl2 & Sn2) & S2 & _).
    assert (Tb : ttl p <= 255).
    { destruct H as (B & _). unfold ttl. destruct (nth_in_or_default 8 p 0) as [I|D]; [|rewrite D; lia]. unfold bytes_ok in B. rewrite Forall_forall in B. specialize (B _ I). unfold is_byte in B. lia. }
    split; [lia|]. split; [lia|]. split; [|split; [exact S2|lia]].
    split; [congruence|]. intros i n8 n10 n11. rewrite Sn2, Sn by assumption. reflexivity.
Qed.
Print Assumptions ip4_forward_hops.

(* Without the redirect option the path never runs into undefined behaviour, and exactly
   which packets are forwarded and which expire is determined. *)
Theorem ip4_forward_decides : forall be al e p n sa, header_there p -> hw_ok e p -> e_hw e <> HwBad ->
  version p = 4 -> header_sum_ok p -> ~ for_us e (sub p 16 4) -> e_bcast e <> sub p 16 4 ->
  e_route e (sub p 16 4) = Some n -> e_fwd e p = HCont -> e_in e false p = false -> e_out e p = (false, sa) ->
  (ttl p <= 1 -> fwd_v4 be al e p = Ret (VExpired p)) /\
  (1 < ttl p -> exists p' red, fwd_v4 be al e p = Ret (VForward p' (Some n) sa red)).
Proof.
  intros be al e p n sa H Hw Hb V S Fu Nb Er Ef Ei Eo. destruct (fwd_v4_run be al e p H Hw) as (_ & _ & F). specialize (F V S Hb). cbv zeta in F. rewrite Er, Ef, Ei, Eo in F.
  unfold for_us, is_group in Fu. destruct (list_eq_dec Z.eq_dec (e_bcast e) (sub p 16 4)); [contradiction|].
  destruct (list_eq_dec Z.eq_dec (e_addr e) (sub p 16 4)); [tauto|]. cbn [orb] in F. destruct (Z.eqb_spec (nth 0 (sub p 16 4) 0 / 16) 14); [tauto|]. cbn [orb] in F.
  assert (Nl : nh_local n = false) by (destruct (nh_local n) eqn:En; [exfalso; apply Fu; right; right; exists n; auto|reflexivity]). rewrite Nl in F. split; intros T.
  - destruct (Z.leb_spec (ttl p) 1); [exact F|lia].
  - destruct (Z.leb_spec (ttl p) 1); [lia|]. destruct (ttl_step_spec be p H S ltac:(lia)) as (q & Eq & _). rewrite Eq in F. cbn [obind] in F.
    destruct (e_redirect e); eexists _, _; exact F.
Qed.
Print Assumptions ip4_forward_decides.

Theorem ip4_forward_defined_partial : forall be al e p, header_there p -> hw_ok e p -> e_redirect e = false ->
  exists v, fwd_v4 be al e p = Ret v.
Proof.
  intros be al e p H Hw Hr. destruct (fwd_v4_run be al e p H Hw) as (F1 & F2 & F3).
  destruct (Z.eq_dec (version p) 4) as [V|V]; [|rewrite (F1 V); eauto].
  destruct (Z.eq_dec (rfc1071_sum (firstn (hdr_len p) p)) 65535) as [S|S]; [|rewrite (F2 S); eauto].
  assert (Dh : e_hw e = HwBad \/ e_hw e <> HwBad) by (destruct (e_hw e); [right|right|right|left]; congruence). destruct Dh as [Eh|Eh].
  { unfold fwd_v4. rewrite Eh. destruct (there_ok p H) as [_ L20]. destruct (open20 p L20) as (x0&x1&x2&x3&x4&x5&x6&x7&x8&x9&x10&x11&x12&x13&x14&x15&x16&x17&x18&x19&t&E). rewrite E. cbn [ld8 nth_error obind]. destruct (negb (x0 / 16 =? 4)); eexists; reflexivity. }
  rewrite (F3 V S Eh). cbv zeta. rewrite Hr.
  assert (D : 1 < ttl p -> exists q, ttl_step be p = Ret q) by (intros T; destruct (ttl_step_spec be p H S T) as (q & Eq & _); eauto).
  destruct (list_eq_dec Z.eq_dec (e_bcast e) (sub p 16 4)); [eauto|].
  match goal with |- context [if ?c then (if _ then Ret (VReass p) else _) else _] => destruct c end; [match goal with |- context [if ?c then _ else _] => destruct c end; eauto|].
  destruct (e_in e false p); [eauto|]. destruct (e_fwd e p); [|eauto]. destruct (e_out e p) as [[] sa]; [eauto|].
  match goal with |- context [match ?o with Some _ => _ | None => _ end] => destruct o end; try destruct sa; eauto;
    destruct (Z.leb_spec (ttl p) 1); eauto; (destruct D as (q & ->); [lia|cbn [obind]; eauto]).
Qed.
Print Assumptions ip4_forward_defined_partial.

Definition udp_hdr (ttl c1 c2 : Z) : list Z := [69; 0; 0; 72; 1; 2; 0; 0; ttl; 17; c1; c2; 10; 0; 0; 2; 10; 9; 0; 7].
Definition udp_pkt (ttl c1 c2 : Z) : list Z := udp_hdr ttl c1 c2 ++ [0; 100; 0; 200; 0; 52; 0; 0; 1; 2; 3; 4; 5; 6; 7; 8] ++ repeat 7 36.
Definition ex_env : env := mkEnv [10;0;0;1] [10;0;0;255] HwNone
  (fun d => if list_eq_dec Z.eq_dec (firstn 2 d) [10; 9] then Some (mkNh false 5) else None)
  (fun _ _ => false) (fun _ => HCont) (fun _ => HCont) (fun _ => (false, None)) false (fun _ _ => false).
Example ip4_forward_ex : header_there (udp_pkt 9 156 146) /\ hw_ok ex_env (udp_pkt 9 156 146) /\ header_sum_ok (udp_pkt 9 156 146) /\
  fwd_v4 false 0 ex_env (udp_pkt 9 156 146) = Ret (VForward (udp_pkt 8 157 146) (Some (mkNh false 5)) None false) /\
  hops false 2 (udp_pkt 9 156 146) (udp_pkt 7 158 146).
Proof.
  split; [|split; [|split; [|split]]].
  - split; [|split]; [unfold bytes_ok; repeat (apply Forall_cons; [unfold is_byte; lia|]); apply Forall_nil|vm_compute; discriminate|vm_compute; lia].
  - discriminate.
  - reflexivity.
  - vm_compute. reflexivity.
  - apply (hopS false _ _ (udp_pkt 8 157 146) _ 0 ex_env (Some (mkNh false 5)) None false); [discriminate|vm_compute; reflexivity|].
    apply (hopS false _ _ (udp_pkt 7 158 146) _ 0 ex_env (Some (mkNh false 5)) None false); [discriminate|vm_compute; reflexivity|]. constructor.
Qed.
Example ip4_expired_ex : fwd_v4 false 0 ex_env (udp_pkt 1 164 146) = Ret (VExpired (udp_pkt 1 164 146)).
Proof. vm_compute. reflexivity. Qed.

(* The header length and the total length are not checked: a header of four words, and a
   packet shorter than it says, are forwarded. *)
Theorem ip4_forward_bad_length_refuted :
  (exists p p' nh, hdr_words p < 5 /\ fwd_v4 false 0 ex_env p = Ret (VForward p' (Some nh) None false)) /\
  (exists p p' nh, header_there p /\ Z.of_nat (length p) < total_len p /\ fwd_v4 false 0 ex_env p = Ret (VForward p' (Some nh) None false)).
Proof.
  split.
  - exists ([68;0;0;72;1;2;0;0;9;17;167;162;10;0;0;2;10;9;0;7] ++ repeat 0 52). do 2 eexists. split; [vm_compute; reflexivity|]. vm_compute. reflexivity.
  - exists ([69;0;4;0;1;2;0;0;9;17;152;218;10;0;0;2;10;9;0;7] ++ repeat 0 52). do 2 eexists. split; [|split; [vm_compute; reflexivity|]].
    + split; [|split]; [unfold bytes_ok; cbn [app repeat]; repeat (apply Forall_cons; [unfold is_byte; lia|]); apply Forall_nil|vm_compute; discriminate|vm_compute; lia].
    + vm_compute. reflexivity.
Qed.
Print Assumptions ip4_forward_bad_length_refuted.

(* With redirects compiled in, a packet for an IPsec SA without a route dereferences NULL. *)
Definition ex_env_redirect : env := mkEnv [10;0;0;1] [10;0;0;255] HwNone (fun _ => None)
  (fun _ _ => false) (fun _ => HCont) (fun _ => HCont) (fun _ => (false, Some 1%nat)) true (fun _ _ => false).
Theorem ip4_forward_redirect_refuted : exists p, header_there p /\ header_sum_ok p /\ fwd_v4 false 0 ex_env_redirect p = UB.
Proof.
  exists (udp_pkt 9 156 146). split; [apply ip4_forward_ex|]. split; [reflexivity|]. vm_compute. reflexivity.
Qed.
Print Assumptions ip4_forward_redirect_refuted.

(* ---- C59 ---- *)
(* The error sent about p: complete, with correct checksums, addressed to p's source,
   quoting p's header and the first 8 bytes of its data. *)
Theorem icmp_error_message_partial : forall be arm fuel al al' l2 id p type code dest mtu r a q,
  header_there p -> (2 * hdr_len p + 16 <= length p)%nat -> quote_ok be p -> 0 <= l2 ->
  length dest = 4%nat -> bytes_ok dest -> 0 <= type < 256 -> 0 <= code < 256 -> 0 <= mtu < 65536 ->
  r_ifp r = true -> reply_source r (sub p 16 4) (sub p 12 4) a -> length a = 4%nat -> bytes_ok a -> (0 < fuel)%nat ->
  icmp_error be al l2 true p type code dest mtu = Ret (Some q) ->
  exists m s, reflect be r q = Ret (Some m) /\ icmp_send be arm fuel al' id m = Ret s /\ bytes_ok s /\
    icmp_error_msg p s a type (err_code type code) (err_rest type code dest mtu).
Proof. exact icmp_error_whole. Qed.
Print Assumptions icmp_error_message_partial.

(* when one is sent *)
Theorem icmp_error_when : forall be al l2 alloc p type code dest mtu,
  header_there p -> (2 * hdr_len p + 16 <= length p)%nat -> quote_ok be p -> 0 <= l2 -> length dest = 4%nat ->
  exists o, icmp_error be al l2 alloc p type code dest mtu = Ret o /\
    (o = None <-> later_fragment p \/ (is_icmp_error p /\ type <> 5) \/ alloc = false).
Proof.
  intros be al l2 alloc p type code dest mtu H L Q L2 Ld.
  destruct (icmp_error_run be al l2 alloc p type code dest mtu H L Q L2 Ld) as (x0&x1&x2&x3&x4&x5&x6&x7&x8&x9&x10&x11&x12&x13&x14&x15&x16&x17&x18&x19&opts&t8&more&s1&s2&k1&k2&Ep&Lo&L8&Er&_).
  eexists. split; [exact Er|]. pose proof (suppressed_iff l2 p type) as S.
  destruct (suppressed l2 p type); cbn [orb].
  - split; [intros _|reflexivity]. destruct S as [S _]. specialize (S eq_refl). tauto.
  - destruct alloc; cbn [negb].
    + split; [discriminate|]. intros K. assert (false = true) by (apply S; destruct K as [K|[K|K]]; [auto|auto|discriminate]). discriminate.
    + split; [intros _; auto|reflexivity].
Qed.
Print Assumptions icmp_error_when.

(* No error about an error: what the stack sends as an ICMP error never provokes one
   (other than a redirect), at this or any other node running it. *)
Theorem icmp_no_error_about_error : forall be al l2 alloc p s src type code rest type' code' dest mtu,
  icmp_error_msg p s src type code rest -> bytes_ok s -> ~ In type query_types -> 0 <= l2 -> type' <> 5 ->
  icmp_error be al l2 alloc s type' code' dest mtu = Ret None.
Proof.
  intros be al l2 alloc p s src type code rest type' code' dest mtu (Ls & V & _ & _ & P & _ & _ & _ & T & _) B Nq L2 Nt.
  assert (Hw : hdr_words s = 5) by (unfold hdr_words; rewrite V; reflexivity).
  assert (Hl : hdr_len s = 20%nat) by (unfold hdr_len; rewrite Hw; reflexivity).
  apply suppress_run; [|lia|exact L2|].
  - split; [exact B|]. lia.
  - apply suppressed_iff. right. split; [|exact Nt]. split; [exact P|]. rewrite Hl.
    assert (E : nth 20 s 0 = type).
    { unfold sub in T. destruct (skipn 20 s) as [|z0 [|z1 zs]] eqn:Ez; try discriminate T. injection T as -> _.
      rewrite <- (firstn_skipn 20 s), Ez. rewrite app_nth2; rewrite firstn_length_le by lia; [reflexivity|lia]. }
    rewrite E. exact Nq.
Qed.
Print Assumptions icmp_no_error_about_error.

Definition ex_r : renv := mkR true (fun d => if list_eq_dec Z.eq_dec d [10;0;0;1] then true else false) [10;0;0;1] (fun _ => Some (Some [10;0;0;1])).
Definition err_ex : outcome (option (list Z)) :=
  obind (icmp_error false 0 14 true (udp_pkt 1 164 146) 11 0 [0;0;0;0] 0) (fun o => match o with None => Ret None | Some q =>
  obind (reflect false ex_r q) (fun o => match o with None => Ret None | Some m => obind (icmp_send false false 5 0 77 m) (fun s => Ret (Some s)) end) end).
Example icmp_error_ex : quote_ok false (udp_pkt 1 164 146) /\ reply_source ex_r (sub (udp_pkt 1 164 146) 16 4) (sub (udp_pkt 1 164 146) 12 4) [10;0;0;1] /\
  exists s, err_ex = Ret (Some s) /\ icmp_error_msg (udp_pkt 1 164 146) s [10;0;0;1] 11 0 [0;0;0;0].
Proof.
  split; [right; vm_compute; discriminate|]. split; [right; left; split; reflexivity|]. eexists. split; [vm_compute; reflexivity|].
  unfold icmp_error_msg. repeat (split; [vm_compute; reflexivity|]). vm_compute. reflexivity.
Qed.

(* The error copies 2 * header + 16 bytes of the offending packet whatever its length: about
   a small packet it reads beyond its end. *)
Theorem icmp_error_short_packet_refuted : exists p, header_there p /\ header_sum_ok p /\ total_len p = Z.of_nat (length p) /\
  icmp_error false 0 14 true p 11 0 [0;0;0;0] 0 = UB.
Proof.
  exists [69;0;0;28;1;2;0;0;64;1;101;221;10;0;0;2;10;0;0;1;8;0;10;10;0;1;0;2]. split; [|split; [|split]]; try (vm_compute; reflexivity).
  split; [|split]; [unfold bytes_ok; repeat (apply Forall_cons; [unfold is_byte; lia|]); apply Forall_nil|vm_compute; discriminate|vm_compute; lia].
Qed.
Print Assumptions icmp_error_short_packet_refuted.

(* The length field is used without conversion: on a little-endian machine the error about a
   packet of 5120 bytes quotes none of its data. *)
Definition big_pkt : list Z := [69;0;20;0;1;2;0;0;1;17;144;218;10;0;0;2;10;9;0;7] ++ [1;2;3;4;5;6;7;8] ++ repeat 7 (Z.to_nat 5092).
Theorem icmp_error_quote_refuted : header_there big_pkt /\ header_sum_ok big_pkt /\ total_len big_pkt = Z.of_nat (length big_pkt) /\
  exists q, icmp_error false 0 14 true big_pkt 11 0 [0;0;0;0] 0 = Ret (Some q) /\ sub q 48 8 <> sub big_pkt 20 8.
Proof.
  assert (B : forallb (fun x => (0 <=? x) && (x <=? 255)) big_pkt = true) by (vm_compute; reflexivity).
  split; [|split; [vm_compute; reflexivity|split; [vm_compute; reflexivity|]]].
  - split; [|split]; [|vm_compute; discriminate|].
    + apply Forall_forall. intros x I. rewrite forallb_forall in B. specialize (B x I). apply andb_true_iff in B. unfold is_byte. lia.
    + apply Nat.leb_le. vm_compute. reflexivity.
  - eexists. split; [vm_compute; reflexivity|]. vm_compute. discriminate.
Qed.
Print Assumptions icmp_error_quote_refuted.

(* The error about a first fragment is itself marked as a fragment. *)
Theorem icmp_error_more_fragments_refuted : exists p q m s, header_there p /\ header_sum_ok p /\
  icmp_error false 0 14 true p 11 0 [0;0;0;0] 0 = Ret (Some q) /\ reflect false ex_r q = Ret (Some m) /\
  icmp_send false false 5 0 77 m = Ret s /\ sub s 6 2 = [32; 0].
Proof.
  exists ([69;0;0;72;1;2;32;0;1;17;132;146;10;0;0;2;10;9;0;7] ++ repeat 7 52). do 3 eexists.
  split; [|split; [|split; [|split; [|split]]]]; try (vm_compute; reflexivity).
  split; [|split]; [unfold bytes_ok; cbn [app repeat]; repeat (apply Forall_cons; [unfold is_byte; lia|]); apply Forall_nil|vm_compute; discriminate|vm_compute; lia].
Qed.
Print Assumptions icmp_error_more_fragments_refuted.

(* ---- C60 ---- *)
(* An echo request with a correct checksum is answered by an echo reply with the same
   identifier, sequence number and data, to its source, without IP options. *)
Theorem icmp_echo_answered : forall be arm fuel al al' id now p r a, header_there p -> version p = 4 ->
  (hdr_len p + 8 <= Z.to_nat (total_len p) <= length p)%nat -> (0 < fuel)%nat ->
  rfc1071_sum (sub p (hdr_len p) (Z.to_nat (total_len p) - hdr_len p)) = 65535 -> nth (hdr_len p) p 0 = 8 ->
  r_ifp r = true -> reply_source r (sub p 16 4) (sub p 12 4) a -> length a = 4%nat -> bytes_ok a ->
  exists q m s, icmp_input be arm fuel al now p (hdr_len p) = Ret (IReflect q) /\ reflect be r q = Ret (Some m) /\
    icmp_send be arm fuel al' id m = Ret s /\ bytes_ok s /\ echo_reply_to p s a.
Proof. exact echo_whole. Qed.
Print Assumptions icmp_echo_answered.
(* a message with a wrong checksum is dropped *)
Theorem icmp_bad_checksum_dropped : forall be arm fuel al now p, header_there p ->
  (hdr_len p + 8 <= Z.to_nat (total_len p) <= length p)%nat -> (0 < fuel)%nat ->
  rfc1071_sum (sub p (hdr_len p) (Z.to_nat (total_len p) - hdr_len p)) <> 65535 ->
  icmp_input be arm fuel al now p (hdr_len p) = Ret IDrop.
Proof. intros. destruct (icmp_input_run be arm fuel al now p H H0 H1) as [K _]. exact (K H2). Qed.
Print Assumptions icmp_bad_checksum_dropped.
(* only echo and timestamp requests are answered: no reply to a reply, an error or a redirect *)
Theorem icmp_replies_only_to_requests : forall be arm fuel al now p o q,
  icmp_input be arm fuel al now p o = Ret (IReflect q) -> nth o p 0 = 8 \/ nth o p 0 = 13.
Proof. exact reflect_only_queries. Qed.
Print Assumptions icmp_replies_only_to_requests.

Definition echo_pkt : list Z := [70;0;0;36;1;2;0;0;64;1;98;211;10;0;0;2;10;0;0;1;1;1;1;1; 8;0;228;232;1;2;0;3;9;9;9;9].
Example icmp_echo_ex : header_there echo_pkt /\ version echo_pkt = 4 /\ header_sum_ok echo_pkt /\
  (hdr_len echo_pkt + 8 <= Z.to_nat (total_len echo_pkt) <= length echo_pkt)%nat /\
  rfc1071_sum (sub echo_pkt 24 12) = 65535 /\ reply_source ex_r (sub echo_pkt 16 4) (sub echo_pkt 12 4) [10;0;0;1].
Proof.
  split; [|split; [reflexivity|split; [vm_compute; reflexivity|split; [vm_compute; lia|split; [vm_compute; reflexivity|left; split; reflexivity]]]]].
  split; [|split]; [unfold bytes_ok; repeat (apply Forall_cons; [unfold is_byte; lia|]); apply Forall_nil|vm_compute; discriminate|vm_compute; lia].
Qed.

(* The minimum lengths are compared with the length of the whole IP packet: a message of four
   bytes is answered, and a timestamp request of eight bytes makes the stack write
   beyond the end of the packet. *)
Theorem icmp_short_message_refuted :
  (exists p q, header_there p /\ total_len p = Z.of_nat (length p) /\ total_len p - Z.of_nat (hdr_len p) = 4 /\
     icmp_input false false 5 0 [0;0;0;0] p 20 = Ret (IReflect q)) /\
  (exists p, header_there p /\ header_sum_ok p /\ total_len p = Z.of_nat (length p) /\ icmp_input false false 5 0 [0;0;0;0] p 20 = UB).
Proof.
  split.
  - exists [69;0;0;24;1;2;0;0;64;1;101;225;10;0;0;2;10;0;0;1;8;0;247;255]. eexists. split; [|split; [|split]]; try (vm_compute; reflexivity).
    split; [|split]; [unfold bytes_ok; repeat (apply Forall_cons; [unfold is_byte; lia|]); apply Forall_nil|vm_compute; discriminate|vm_compute; lia].
  - exists [69;0;0;28;1;2;0;0;64;1;101;221;10;0;0;2;10;0;0;1;13;0;242;252;0;1;0;2]. split; [|split; [|split]]; try (vm_compute; reflexivity).
    split; [|split]; [unfold bytes_ok; repeat (apply Forall_cons; [unfold is_byte; lia|]); apply Forall_nil|vm_compute; discriminate|vm_compute; lia].
Qed.
Print Assumptions icmp_short_message_refuted.
