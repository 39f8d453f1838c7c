(* C115, C116: the protocol switch. *)
From Verif Require Import Base ProtoModel ProtoSpec.
Ltac Zify.zify_post_hook ::= idtac.

(* ---- C115 ---- *)
(* ofp_socket makes exactly the sockets offered; *)
Theorem socket_offered : forall dom type proto a,
  ofp_socreate dom type proto = Attach a <-> offered dom type proto a.
Proof.
  intros dom type proto a. split.
  - unfold ofp_socreate, ofp_pffindproto.
    destruct (Z.eqb_spec dom 0); [discriminate|].
    destruct (Z.eqb_spec dom 2) as [->|]; [|destruct (Z.eqb_spec dom 3) as [->|]; [|discriminate]];
      unfold ofp_inetsw, ofp_inet6sw; cbn [find_sw pr_type pr_protocol].
    all: unfold OFP_SOCK_DGRAM, OFP_SOCK_STREAM, OFP_SOCK_RAW;
      repeat match goal with |- context [?x =? ?y] =>
        destruct (Z.eqb_spec x y); subst; cbn [andb orb negb pr_attach pr_type]; try discriminate; try (exfalso; lia) end;
      cbn; intros E; try discriminate; try (exfalso; lia);
      injection E as <-; constructor; lia.
  - intros H. destruct H as [p [->| ->]|p [->| ->]|p [->| ->]|p [->| ->]]; reflexivity.
Qed.
Print Assumptions socket_offered.

(* and every other request fails with EPROTONOSUPPORT. *)
Theorem socket_refused : forall dom type proto, (forall a, ~ offered dom type proto a) ->
  ofp_socreate dom type proto = EPROTONOSUPPORT.
Proof.
  intros dom type proto N.
  destruct (ofp_socreate dom type proto) as [a| |] eqn:E; [|reflexivity|].
  - destruct (N a). apply socket_offered. exact E.
  - exfalso. revert E. unfold ofp_socreate.
    assert (T : forall sw pr, find_sw sw proto type = Some pr -> pr_type pr = type).
    { induction sw as [|x sw IH]; intros pr; cbn [find_sw]; [discriminate|].
      destruct (pr_type x =? type) eqn:Q; cbn [andb]; [|apply IH].
      destruct ((negb (proto =? 0) && (pr_protocol x =? proto)) || (proto =? 0)); [|apply IH].
      intros [= <-]. apply Z.eqb_eq, Q. }
    assert (T' : forall pr, ofp_pffindproto dom proto type = Some pr -> pr_type pr = type).
    { unfold ofp_pffindproto. intros pr. destruct (dom =? 0); [discriminate|].
      destruct (dom =? 2); [apply T|]. destruct (dom =? 3); [apply T|discriminate]. }
    destruct (ofp_pffindproto dom proto type) as [pr|]; [|discriminate].
    rewrite (T' pr eq_refl), Z.eqb_refl. destruct (pr_attach pr), (type =? 0); discriminate.
Qed.
Print Assumptions socket_refused.

(* ---- C116 ---- *)
(* everything that can be said of the 256 protocol numbers by looking at each *)
Lemma all_protocols (P : Z -> Prop) (b : Z -> bool) : (forall p, b p = true -> P p) ->
  forallb b (map Z.of_nat (seq 0 256)) = true -> forall p, 0 <= p < 256 -> P p.
Proof.
  intros H F p R. apply H. rewrite forallb_forall in F. apply F, in_map_iff.
  exists (Z.to_nat p). split; [lia|]. apply in_seq. lia.
Qed.
Definition heqb (a b : handler) : bool :=
  match a, b with
  | ip_input, ip_input | udp_input, udp_input | tcp_input, tcp_input | gre_input, gre_input
  | icmp_input, icmp_input | igmp_input, igmp_input | ipsec_input, ipsec_input
  | ip6_input, ip6_input | udp6_input, udp6_input | tcp6_input, tcp6_input
  | icmp6_input, icmp6_input | ip6_unrecognized, ip6_unrecognized | ip6_none, ip6_none => true
  | _, _ => false
  end.
Lemma heqb_eq a b : heqb a b = true -> a = b.
Proof. destruct a, b; (reflexivity || discriminate). Qed.

(* Every IPv4 packet for this host is given to the function that serves its protocol. *)
Theorem ip4_dispatch : forall nsa, exists t0 t, ofp_ip_init = Ret t0 /\ ofp_ipsec_init_protox nsa t0 = Ret t /\
  forall p, 0 <= p < 256 -> exists h, ipv4_transport_classifier t p = Ret h /\ serves4 nsa p h.
Proof.
  intros nsa. eexists. unfold ofp_ipsec_init_protox, serves4. destruct (nsa =? 0) eqn:Z0.
  - eexists. split; [vm_compute; reflexivity|]. split; [vm_compute; reflexivity|].
    match goal with |- forall p, _ -> exists h, ipv4_transport_classifier ?t p = _ /\ _ =>
    eapply all_protocols with (b := fun p =>
      match ipv4_transport_classifier t p with
      | Ret h => heqb h (if p =? 17 then udp_input else if p =? 6 then tcp_input else if p =? 1 then icmp_input
        else if p =? 2 then igmp_input else if p =? 47 then gre_input else ip_input)
      | _ => false end) end.
    + intros p. cbv beta. destruct (ipv4_transport_classifier _ p) as [h| |]; try discriminate. intros E.
      apply heqb_eq in E. exists h. split; [reflexivity|]. rewrite andb_false_r. exact E.
    + vm_compute. reflexivity.
  - eexists. split; [vm_compute; reflexivity|]. split; [reflexivity|].
    match goal with |- forall p, _ -> exists h, ipv4_transport_classifier ?t p = _ /\ _ =>
    eapply all_protocols with (b := fun p =>
      match ipv4_transport_classifier t p with
      | Ret h => heqb h (if p =? 17 then udp_input else if p =? 6 then tcp_input else if p =? 1 then icmp_input
        else if p =? 2 then igmp_input else if p =? 47 then gre_input
        else if (p =? 50) || (p =? 51) then ipsec_input else ip_input)
      | _ => false end) end.
    + intros p. cbv beta. destruct (ipv4_transport_classifier _ p) as [h| |]; try discriminate. intros E.
      apply heqb_eq in E. exists h. split; [reflexivity|]. rewrite andb_true_r. exact E.
    + vm_compute. reflexivity.
Qed.
Print Assumptions ip4_dispatch.

Lemma dispatch6 : exists t, ofp_ip6_init = Ret t /\ length t = 256%nat /\
  forall p, 0 <= p < 256 -> exists i pr, load t p = Ret i /\ load ofp_inet6sw i = Ret pr /\ serves6 p (pr_input pr).
Proof.
  eexists. split; [vm_compute; reflexivity|]. split; [reflexivity|].
  match goal with |- forall p, _ -> exists i pr, load ?t p = _ /\ _ =>
  eapply all_protocols with (b := fun p =>
    match load t p with
    | Ret i => match load ofp_inet6sw i with
      | Ret pr => heqb (pr_input pr) (if p =? 17 then udp6_input else if p =? 6 then tcp6_input else if p =? 58 then icmp6_input
        else if (p =? 0) || (p =? 43) || (p =? 44) || (p =? 60) then ip6_unrecognized
        else if p =? 59 then ip6_none else ip6_input)
      | _ => false end
    | _ => false end) end.
  + intros p. cbv beta. destruct (load _ p) as [i| |]; try discriminate. destruct (load ofp_inet6sw i) as [pr| |] eqn:L; try discriminate.
    intros E. apply heqb_eq in E. exists i, pr. unfold serves6. auto.
  + vm_compute. reflexivity.
Qed.

(* the ICMPv6 messages for which the loop goes on *)
Lemma icmp6_continue sp k : fst (icmp6_result sp k) = CONTINUE <-> for_slow_path sp k.
Proof.
  unfold for_slow_path, well_formed, icmp6_result.
  destruct (icmp_long k); cbn [negb orb fst]; [|split; [discriminate|intros [[]]; discriminate]].
  destruct (icmp_sum k); [|rewrite orb_true_r; split; [discriminate|intros [(_ & ? & _)]; discriminate]].
  rewrite orb_false_r.
  destruct (Z.ltb_spec (icmp_len k) 8); [split; [discriminate|lia]|].
  destruct (Z.leb_spec 1 (icmp_type k)); [destruct (Z.leb_spec (icmp_type k) 4)|]; cbn [andb].
  { split; [discriminate|]. intros [_ Hsl]. exfalso. cbn [In] in Hsl. lia. }
  all: destruct (Z.eqb_spec (icmp_type k) 128) as [E|];
    [cbn [orb]; rewrite E; destruct (icmp_code k =? 0); (split; [discriminate|]; intros [_ Hsl]; exfalso; cbn [In] in Hsl; lia)|];
    destruct (Z.eqb_spec (icmp_type k) 129) as [E|];
    [cbn [orb]; rewrite E; destruct (icmp_code k =? 0); (split; [discriminate|]; intros [_ Hsl]; exfalso; cbn [In] in Hsl; lia)|];
    cbn [orb];
    destruct (Z.eqb_spec (icmp_type k) 135) as [E|];
    [rewrite E; destruct (Z.eqb_spec (icmp_code k) 0), (Z.ltb_spec (icmp_len k) 24); cbn [negb orb];
      try destruct sp; try (destruct ((icmp_len k <? 32) && negb (ns_lladdr k)));
      (split; [try discriminate; intros _; cbn [In]; intuition lia|try reflexivity; intros [_ Hsl]; exfalso; cbn [In] in Hsl; intuition (discriminate || lia)])|];
    destruct (Z.eqb_spec (icmp_type k) 136) as [E|];
    [rewrite E; destruct (Z.eqb_spec (icmp_code k) 0), (Z.ltb_spec (icmp_len k) 24); cbn [negb orb];
      (split; [try discriminate; intros _; cbn [In]; intuition lia|try reflexivity; intros [_ Hsl]; exfalso; cbn [In] in Hsl; intuition (discriminate || lia)])|];
    destruct (Z.eqb_spec (icmp_type k) 138) as [E|];
    [rewrite E; destruct (Z.eqb_spec (icmp_code k) 0), (Z.eqb_spec (icmp_code k) 1), (Z.ltb_spec (icmp_len k) 16); cbn [negb andb orb];
      (split; [try discriminate; intros _; cbn [In]; intuition lia|try reflexivity; intros [_ Hsl]; exfalso; cbn [In] in Hsl; intuition (discriminate || lia)])|];
    (split; [intros _; cbn [In]; intuition lia|reflexivity]).
Qed.

(* An IPv6 packet for this host whose next header is p is given to the function that serves p
   and to no other, and the loop ends with the verdict specified -- unless it is an ICMPv6 message
   for the slow path. *)
Theorem ip6_dispatch_partial : exists t, ofp_ip6_init = Ret t /\
  forall sp p k, 0 <= p < 256 -> ~ (p = 58 /\ for_slow_path sp k) ->
  exists h r, (forall fuel, (2 <= fuel)%nat -> ipv6_transport_classifier sp fuel t k p = Ret ([h], r)) /\
    serves6 p h /\ verdict6 sp p k r.
Proof.
  destruct dispatch6 as (t & T & _ & D). exists t. split; [exact T|]. intros sp p k R N.
  destruct (D p R) as (i & pr & L1 & L2 & S).
  assert (Np : p =? SP = false) by (apply Z.eqb_neq; unfold SP; lia).
  assert (Go : forall r n, handle6 sp (pr_input pr) k = Ret (r, n) -> (r = CONTINUE -> n = SP) ->
    forall fuel, (2 <= fuel)%nat -> ipv6_transport_classifier sp fuel t k p = Ret ([pr_input pr], r)).
  { intros r n H C fuel F. destruct fuel as [|[|f]]; [lia|lia|]. unfold ipv6_transport_classifier.
    cbn [classify6]. rewrite Np, L1. cbn [obind]. rewrite L2. cbn [obind]. rewrite H. cbn [obind app].
    destruct r; [rewrite (C eq_refl); reflexivity|reflexivity|reflexivity]. }
  assert (HR : exists r n, handle6 sp (pr_input pr) k = Ret (r, n) /\ (r = CONTINUE -> n = SP) /\ verdict6 sp p k r).
  { unfold serves6 in S. unfold verdict6.
    destruct (Z.eqb_spec p 17) as [->|]; [rewrite S; cbn [handle6]|
    destruct (Z.eqb_spec p 6) as [->|]; [rewrite S; cbn [handle6]|
    destruct (Z.eqb_spec p 58) as [->|]; [rewrite S; cbn [handle6]|
    destruct ((p =? 0) || (p =? 43) || (p =? 44) || (p =? 60)) eqn:X; [rewrite S; cbn [handle6]|
    destruct (Z.eqb_spec p 59) as [->|]; rewrite S; cbn [handle6]]]]].
    - exists (fst (udp6_result sp k)), (snd (udp6_result sp k)).
      split; [destruct (udp6_result sp k); reflexivity|].
      unfold udp6_result. destruct (hook k), (udp_good k), (udp_known k), (udp_blackhole k), sp; cbn [negb fst snd];
        (split; [try discriminate; reflexivity|]; split; [intros _; repeat split; intros; congruence|];
         split; [lia|]; split; [lia|]; split; [cbn [In]; lia|]; split; [lia|]; cbn [In]; lia).
    - exists (fst (tcp6_result k)), (snd (tcp6_result k)).
      split; [destruct (tcp6_result k); reflexivity|].
      unfold tcp6_result. destruct (tcp_long k), (tcp_ret k); cbn [negb fst snd];
        (split; [try discriminate; reflexivity|]; split; [lia|]; split; [reflexivity|]; split; [lia|];
         split; [cbn [In]; lia|]; split; [lia|]; cbn [In]; lia).
    - exists (fst (icmp6_result sp k)), (snd (icmp6_result sp k)).
      split; [destruct (icmp6_result sp k); reflexivity|].
      assert (C : fst (icmp6_result sp k) <> CONTINUE) by (intros C; apply N; split; [reflexivity|apply icmp6_continue, C]).
      split; [intros; contradiction|]. split; [lia|]. split; [lia|]. split.
      + intros _. split; [exact C|]. intros W. unfold well_formed, icmp6_result in *.
        destruct (icmp_long k), (icmp_sum k), (Z.ltb_spec (icmp_len k) 8); cbn [negb orb] in *; try reflexivity.
        exfalso. apply W. auto.
      + split; [cbn [In]; lia|]. split; [lia|]. cbn [In]; lia.
    - exists DROP, DONE. split; [reflexivity|]. split; [discriminate|].
      split; [lia|]. split; [lia|]. split; [lia|]. split; [reflexivity|]. split.
      + intros ->. discriminate.
      + intros NI. exfalso. apply NI. cbn [In].
        repeat (apply orb_prop in X; destruct X as [X|X]); apply Z.eqb_eq in X; lia.
    - exists PROCESSED, DONE. split; [reflexivity|]. split; [discriminate|].
      split; [lia|]. split; [lia|]. split; [lia|]. split; [cbn [In]; lia|]. split; [reflexivity|]. cbn [In]; lia.
    - exists CONTINUE, SP. split; [reflexivity|]. split; [reflexivity|].
      split; [lia|]. split; [lia|]. split; [lia|].
      split; [|split; [lia|reflexivity]].
      cbn [In]. intros I. exfalso. apply orb_false_elim in X. destruct X as [X X4]. apply orb_false_elim in X.
      destruct X as [X X3]. apply orb_false_elim in X. destruct X as [X1 X2].
      apply Z.eqb_neq in X1, X2, X3, X4. lia. }
  destruct HR as (r & n & H & C & V). exists (pr_input pr), r. split; [eapply Go; eassumption|]. auto.
Qed.
Print Assumptions ip6_dispatch_partial.

(* For those the function returns "continue" with next header OFP_IPPROTO_DONE = 257 and the
   loop reads element 257 of an array of 256: every neighbour advertisement, and every message of
   an unknown type, makes the stack read and use what lies behind ofp_ip6_protox. *)
Theorem ip6_dispatch_overrun_refuted : exists t, ofp_ip6_init = Ret t /\
  forall sp k, for_slow_path sp k -> forall fuel, (2 <= fuel)%nat -> ipv6_transport_classifier sp fuel t k 58 = UB.
Proof.
  destruct dispatch6 as (t & T & Ln & D). exists t. split; [exact T|]. intros sp k Sl fuel F.
  destruct (D 58 ltac:(lia)) as (i & pr & L1 & L2 & S). unfold serves6 in S. change (pr_input pr = icmp6_input) in S.
  destruct fuel as [|[|f]]; [lia|lia|]. unfold ipv6_transport_classifier. cbn [classify6].
  change (58 =? SP) with false. cbv iota. rewrite L1. cbn [obind]. rewrite L2. cbn [obind]. rewrite S. cbn [handle6 obind].
  assert (E : icmp6_result sp k = (CONTINUE, DONE)).
  { pose proof (proj2 (icmp6_continue sp k) Sl) as C. revert C. unfold icmp6_result.
    repeat match goal with |- context [if ?b then _ else _] => destruct b; try reflexivity; try discriminate end. }
  rewrite E. change (DONE =? SP) with false. cbv iota.
  unfold load at 1. change (0 <=? DONE) with true. cbv iota. change (Z.to_nat DONE) with 257%nat.
  assert (Nn : nth_error t 257 = None) by (apply nth_error_None; lia). rewrite Nn. reflexivity.
Qed.
Print Assumptions ip6_dispatch_overrun_refuted.

(* a neighbour advertisement as RFC 4861 has it *)
Example ip6_na_overrun : for_slow_path false (mkPkt6 CONTINUE true true false true PROCESSED true true 136 0 32 false).
Proof. split; [repeat split; cbn; lia|]. left. cbn. lia. Qed.
Example ip6_dispatch_ex : ~ (58 = 58 /\ for_slow_path false (mkPkt6 CONTINUE true true false true PROCESSED true true 128 0 64 false)) /\
  offered 3 1 6 tcp6_attach /\ (forall a, ~ offered 2 3 1 a).
Proof.
  split; [|split].
  - intros [_ [_ H]]. cbn [icmp_type In] in H. destruct H as [H|[H|[H|H]]]; [lia|lia|lia|]. apply H. auto 10.
  - constructor. lia.
  - intros a H. inversion H.
Qed.
