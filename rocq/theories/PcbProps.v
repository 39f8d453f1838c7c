(* C61-C63: who receives a packet, who may bind what, which connections can exist. *)
From Verif Require Import Base PcbModel PcbSpec PcbProof PcbProof2 PcbProof3 PcbProof4.
Ltac Zify.zify_post_hook ::= idtac.

(* ---- C61 ---- *)
(* no history of calls makes the tables dangle: every legal call on a reachable state returns *)
Theorem pcb_calls_return : forall c ops d o, good_conf c -> reach c ops d -> legal c d o -> exists d' e, step c d o = Ret (d', e).
Proof. intros c ops d o G R L. destruct (step_ok c d o G (reach_inv c ops d G R) L) as (d' & e & K & _). exists d', e. exact K. Qed.
(* a packet goes to the socket connected to its sender at its destination, else to a socket
   bound to the destination address and port, else to one bound to the port on any address,
   else to nobody, whatever the hash table sizes *)
Theorem pcb_delivery_partial : forall c ops d fa fp la lp, good_conf c -> reach c ops d ->
  exists r, lookup_hash c d fa fp la lp true = Ret r /\ receiver d fa fp la lp r.
Proof. intros c ops d fa fp la lp G R. apply lookup_receiver. apply (reach_inv c ops d G R). Qed.
(* so a connected socket receives only what its peer sent to it, and a socket only what was sent to its port and address *)
Theorem pcb_delivery_only : forall c ops d fa fp la lp i, good_conf c -> reach c ops d -> lookup_hash c d fa fp la lp true = Ret (Some i) ->
  exists p, holds d i p /\ lport p = lp /\ (laddr p = la \/ laddr p = 0) /\ (faddr p <> 0 -> faddr p = fa /\ fport p = fp /\ laddr p = la).
Proof.
  intros c ops d fa fp la lp i G R E. destruct (pcb_delivery_partial c ops d fa fp la lp G R) as (r & Er & K). rewrite E in Er. injection Er as <-.
  destruct K as [(p & H & K1 & K2 & K3 & K4)|[(_ & p & H & K1 & K2 & K3)|(_ & _ & p & H & K1 & K2 & K3)]]; exists p; split; auto; split; auto; split; auto; intros; congruence.
Qed.

(* ---- C62 ---- *)
Theorem pcb_bind_named_partial : forall c ops d i p a q rnd mem, good_conf c -> reach c ops d -> pcbs d i = Some p -> unbound p -> q <> 0 ->
  exists d' e, step c d (OBind i (Some (a, q)) rnd mem) = Ret (d', e) /\ others_same d d' i /\
  (e = OK \/ e = EADDRNOTAVAIL \/ e = EADDRINUSE \/ e = EAGAIN) /\
  (e = EADDRNOTAVAIL <-> ~ usable c (fib p) a) /\ (e = EADDRINUSE <-> usable c (fib p) a /\ conflict d p a q) /\ (e = EAGAIN -> mem = false) /\
  (e = OK -> bound_to d' i a q) /\ (e <> OK -> pcbs d' i = pcbs d i).
Proof.
  intros c ops d i p a q rnd mem G R E (U1 & U2 & U3 & U4 & U5) Nq. pose proof (reach_inv c ops d G R) as I.
  destruct (bind_ok c d i p (Some (a, q)) rnd mem G I E U2 U3 U4) as (d' & e & K1 & K2 & K3). exists d', e. cbn [step]. unfold get. rewrite E. cbn [obind]. rewrite U2. split; [exact K1|].
  assert (Ud : usable c (fib p) a \/ ~ usable c (fib p) a).
  { unfold usable. destruct (c_primary c); [|right; tauto]. destruct (Z.eq_dec a 0) as [->|]; [left; split; [discriminate|auto]|]. destruct (multicast a); [left; split; [discriminate|auto]|]. destruct (c_local c (fib p) a); [left; split; [discriminate|auto]|].
    right. intros (_ & [?|[?|?]]); [contradiction|discriminate|discriminate]. }
  unfold conflict. fold (wild_of p). destruct K3 as [(-> & a' & l & J1 & J2 & J3 & J4 & J5 & J6)|[J Je]].
  - subst a'. destruct J6 as [[? _]|[_ ->]]; [contradiction|]. split; [exact J2|]. split; [auto|]. split; [split; [discriminate|contradiction]|]. split; [split; [discriminate|]|].
    + intros [_ K]. destruct (J3 K).
    + split; [discriminate|]. split; [|contradiction]. intros _. destruct J1 as (p' & H & A1 & A2 & A3 & A4 & _). exists p'. auto.
  - split; [intros j _; apply J|]. destruct Je as [[-> Hm]|[[-> [Hu|[? _]]]|(-> & _ & Hu & Hc)]]; try contradiction.
    + (* out of memory *) 
      assert (Nu : usable c (fib p) a /\ ~ clash d (wild_of p) a q).
      { revert K1. unfold pcbbind, get. rewrite E. cbn [obind]. rewrite U3, U4. cbn [negb Z.eqb orb]. destruct (bind_setup_some c d i p a q rnd G I E) as (x & e & a' & l' & S1 & S2 & S3). rewrite S1. cbn [obind].
        destruct S2 as [[S2 ->]|[(S2 & ? & _)|(S2 & _ & [(-> & -> & Sf)|[-> Sf]])]]; try contradiction; try discriminate. intros _. split; [exact S2|exact Sf]. }
      split; [auto|]. split; [split; [discriminate|intros K; destruct (K (proj1 Nu))]|]. split; [split; [discriminate|intros [_ K]; destruct (proj2 Nu K)]|]. split; [auto|]. split; [discriminate|]. intros _. rewrite J. exact E.
    + split; [auto|]. split; [split; [auto|reflexivity]|]. split; [split; [discriminate|intros [K _]; contradiction]|]. split; [discriminate|]. split; [discriminate|]. intros _. rewrite J. exact E.
    + split; [auto|]. split; [split; [discriminate|contradiction]|]. split; [split; auto|]. split; [discriminate|]. split; [discriminate|]. intros _. rewrite J. exact E.
Qed.
(* no port given: one of the range is chosen that does not conflict; only if there is none does the call fail *)
Theorem pcb_bind_auto : forall c ops d i p a rnd mem, good_conf c -> reach c ops d -> pcbs d i = Some p -> unbound p ->
  exists d' e, step c d (OBind i (Some (a, 0)) rnd mem) = Ret (d', e) /\ others_same d d' i /\
  ((e = OK /\ usable c (fib p) a /\ exists l, port_lo c <= l <= port_hi c /\ ~ conflict d p a l /\ bound_to d' i a l) \/
   (pcbs d' i = pcbs d i /\
    ((e = EAGAIN /\ mem = false) \/ (e = EADDRNOTAVAIL /\ (~ usable c (fib p) a \/ forall l, port_lo c <= l <= port_hi c -> conflict d p a l))))).
Proof.
  intros c ops d i p a rnd mem G R E (U1 & U2 & U3 & U4 & U5). pose proof (reach_inv c ops d G R) as I.
  destruct (bind_ok c d i p (Some (a, 0)) rnd mem G I E U2 U3 U4) as (d' & e & K1 & K2 & K3). exists d', e. cbn [step]. unfold get. rewrite E. cbn [obind]. rewrite U2. split; [exact K1|].
  unfold conflict. fold (wild_of p). destruct K3 as [(-> & a' & l & J1 & J2 & J3 & J4 & J5 & J6)|[J Je]].
  - subst a'. split; [exact J2|]. left. split; [reflexivity|]. split; [exact J4|]. destruct J6 as [[_ J6]|[? _]]; [|contradiction]. exists l. split; [exact J6|]. split; [exact J3|]. destruct J1 as (p' & H & A1 & A2 & A3 & A4 & _). exists p'. auto.
  - split; [intros j _; apply J|]. right. split; [rewrite J; exact E|]. destruct Je as [[-> Hm]|[[-> [Hu|[_ Hu]]]|(_ & ? & _)]]; try contradiction; auto.
Qed.
(* an open socket that has an address or a port keeps it: a second bind changes nothing *)
Theorem pcb_bind_twice : forall c d i p nam rnd mem, pcbs d i = Some p -> laddr p <> 0 \/ lport p <> 0 -> step c d (OBind i nam rnd mem) = Ret (d, EINVAL).
Proof.
  intros c d i p nam rnd mem E H. cbn [step]. unfold get. rewrite E. cbn [obind]. destruct (dropped p); [reflexivity|]. unfold pcbbind, get. rewrite E. cbn [obind].
  destruct H as [H|H]; apply Z.eqb_neq in H; rewrite H; cbn [negb]; [rewrite Bool.orb_true_r|]; reflexivity.
Qed.

(* histories *)
Definition no_opts (ops : list op) := forall i a b, ~ In (OOpts i a b) ops.
Definition no_disc (ops : list op) := forall i, ~ In (ODisc i) ops.
Definition no_send (ops : list op) := forall i fa fp rnd mem, ~ In (OSend i fa fp rnd mem) ops.
Definition no_uconn (ops : list op) := forall i fa fp rnd mem, ~ In (OConnU i fa fp rnd mem) ops.
Definition plain (d : db) := forall i p, pcbs d i = Some p -> o_addr p = false /\ o_port p = false.
Lemma is_at_pcb d i p la lp fa fp p' : is_at d i p la lp fa fp -> pcbs d i = Some p' -> laddr p' = la /\ lport p' = lp /\ faddr p' = fa /\ fport p' = fp /\ same_opts p p'.
Proof. intros (x & H & A & B & C & D & S & _) E. destruct H as [Hx _]. rewrite E in Hx. injection Hx as <-. auto. Qed.
Lemma step_inv c ops d o d' e : good_conf c -> reach c ops d -> legal c d o -> step c d o = Ret (d', e) -> exists i, eff c d d' o i.
Proof. intros G R L S. destruct (step_ok c d o G (reach_inv c ops d G R) L) as (d1 & e1 & K1 & _ & i & K). exists i. congruence. Qed.
Lemma plain_reach c ops d : good_conf c -> reach c ops d -> no_opts ops -> plain d.
Proof.
  intros G R. induction R as [|ops d o d' e R IH L S]; intros N; [intros i p E; discriminate|].
  assert (Pd : plain d) by (apply IH; intros i a b K; apply (N i a b); right; exact K). destruct (step_inv c ops d o d' e G R L S) as (i & K).
  intros j q E. destruct K as [K|[O K]]; [rewrite K in E; apply (Pd j q E)|]. destruct (Nat.eq_dec j i) as [->|Nj]; [|rewrite (O j Nj) in E; apply (Pd j q E)].
  destruct K as [(_ & K1 & K2)|[(a & b & p & K & _)|(p & Ep & K)]].
  - destruct (pcbs d i) as [p|] eqn:Ep; [|apply (K2 eq_refl q E)]. destruct (K1 p q eq_refl E) as (S1 & S2 & _). destruct (Pd i p Ep). split; congruence.
  - destruct (N i a b). left. exact K.
  - assert (Sm : exists la lp fa fp, is_at d' i p la lp fa fp).
    { destruct K as [(a & l & _ & K & _)|[(a & l & fa & fp & rnd & mem & _ & _ & _ & K & _)|[(a & l & fa & fp & _ & K & _)|[(a & l & fa & fp & fa0 & fp0 & rnd & mem & _ & _ & _ & K & _)|(_ & l & K)]]]]; eauto. }
    destruct Sm as (la & lp & fa & fp & Sm). destruct (is_at_pcb _ _ _ _ _ _ _ q Sm E) as (_ & _ & _ & _ & S1 & S2 & _). destruct (Pd i p Ep). split; congruence.
Qed.
Lemma bound_taken d i a l b : bound_to d i a l -> overlap a b -> taken d b l.
Proof. intros (p & H & _ & A & L) O. exists i, p. split; [exact H|]. split; [exact L|]. rewrite A. exact O. Qed.
Lemma plain_wild d i p : plain d -> pcbs d i = Some p -> wild_of p = true.
Proof. intros P E. destruct (P i p E) as [A B]. unfold wild_of. rewrite A, B. reflexivity. Qed.

(* what one call does to the bound sockets *)
Lemma bound_step c d d' o i : eff c d d' o i -> (forall k, o <> ODisc k) -> forall j a l, bound_to d' j a l ->
  bound_to d j a l \/ (exists p, j = i /\ pcbs d i = Some p /\ ~ clash d (wild_of p) a l) \/
  (a = 0 /\ exists p b fa fp rnd mem, o = OSend i fa fp rnd mem /\ b <> 0 /\ j = i /\ pcbs d i = Some p /\ ~ clash d (wild_of p) b l).
Proof.
  intros K Nd j a l (q & [E Hh] & A1 & A2 & A3). assert (Same : pcbs d j = Some q -> bound_to d j a l) by (intros Es; exists q; split; [split; assumption|auto]).
  destruct K as [K|[O K]]; [left; apply Same; rewrite <- K; exact E|]. destruct (Nat.eq_dec j i) as [->|Nj]; [|left; apply Same; rewrite <- (O j Nj); exact E].
  destruct K as [(K & _)|[(x & y & p & _ & Ep & K)|(p & Ep & K)]].
  - rewrite E in K. cbn in K. congruence.
  - left. rewrite E in K. injection K as ->. exists p. split; [split; [exact Ep|exact Hh]|auto].
  - destruct K as [(b & m & _ & K & F)|[(b & m & fa & fp & rnd & mem & Eo & Nb & _ & K & F)|[(b & m & fa & fp & Nf & K & _)|[(b & m & fa & fp & fa0 & fp0 & rnd & mem & _ & Nf & _ & K & _)|(Eo & _)]]]].
    + destruct (is_at_pcb _ _ _ _ _ _ _ q K E) as (B1 & B2 & _). right. left. exists p. split; [reflexivity|]. split; [exact Ep|]. rewrite <- A2, <- A3, B1, B2. exact F.
    + destruct (is_at_pcb _ _ _ _ _ _ _ q K E) as (B1 & B2 & _). right. right. split; [congruence|]. exists p, b, fa, fp, rnd, mem. split; [exact Eo|]. split; [exact Nb|]. split; [reflexivity|]. split; [exact Ep|]. rewrite <- A3, B2. exact F.
    + destruct (is_at_pcb _ _ _ _ _ _ _ q K E) as (_ & _ & B3 & _). congruence.
    + destruct (is_at_pcb _ _ _ _ _ _ _ q K E) as (_ & _ & B3 & _). congruence.
    + destruct (Nd i Eo).
Qed.
(* no two unconnected sockets ever hold the same address and port, as long as no socket is
   disconnected, and either no reuse options are set or nothing is sent from unbound sockets *)
Theorem pcb_bound_once_partial : forall c ops d, good_conf c -> reach c ops d -> no_disc ops -> no_opts ops \/ no_send ops ->
  forall i j a l, bound_to d i a l -> bound_to d j a l -> i = j.
Proof.
  intros c ops d G R. induction R as [|ops d o d' e R IH L S]; intros Nd No i j a l Hi Hj; [destruct Hi as (p & [E _] & _); discriminate|].
  assert (IHd : forall i j a l, bound_to d i a l -> bound_to d j a l -> i = j).
  { apply IH; [intros k K; apply (Nd k); right; exact K|]. destruct No as [No|No]; [left; intros k x y K; apply (No k x y); right; exact K|right; intros k fa fp rnd mem K; apply (No k fa fp rnd mem); right; exact K]. }
  assert (Ndo : forall k, o <> ODisc k) by (intros k ->; apply (Nd k); left; reflexivity).
  destruct (step_inv c ops d o d' e G R L S) as (i0 & K).
  assert (Cl : forall k p, bound_to d k a l -> pcbs d i0 = Some p -> clash d (wild_of p) a l) by (intros k p B _; unfold clash; destruct (wild_of p); [apply (bound_taken d k a l a B); left; reflexivity|exists k; exact B]).
  assert (Cs : forall k p b fa fp rnd mem, o = OSend i0 fa fp rnd mem -> bound_to d k 0 l -> pcbs d i0 = Some p -> clash d (wild_of p) b l).
  { intros k p b fa fp rnd mem -> B Ep. destruct No as [No|No]; [|destruct (No i0 fa fp rnd mem); left; reflexivity].
    rewrite (plain_wild d i0 p); [apply (bound_taken d k 0 l b B); right; left; reflexivity| |exact Ep]. apply (plain_reach c ops d G R). intros k' x y K'. apply (No k' x y). right. exact K'. }
  destruct (bound_step c d d' o i0 K Ndo i a l Hi) as [Bi|[(p & -> & Ep & F)|(-> & p & b & fa & fp & rnd & mem & Eo & Nb & -> & Ep & F)]];
  destruct (bound_step c d d' o i0 K Ndo j _ l Hj) as [Bj|[(p' & -> & Ep' & F')|(Ea & p' & b' & fa' & fp' & rnd' & mem' & Eo' & Nb' & -> & Ep' & F')]]; try reflexivity.
  - apply (IHd i j a l Bi Bj).
  - destruct (F' (Cl i p' Bi Ep')).
  - subst a. destruct (F' (Cs i p' b' _ _ _ _ Eo' Bi Ep')).
  - destruct (F (Cl j p Bj Ep)).
  - destruct (F (Cs j p b _ _ _ _ Eo Bj Ep)).
Qed.
(* without reuse options, disconnects and sends from unbound sockets, not even overlapping addresses *)
Theorem pcb_bound_exclusive_partial : forall c ops d, good_conf c -> reach c ops d -> no_disc ops -> no_opts ops -> no_send ops ->
  forall i j a b l, bound_to d i a l -> bound_to d j b l -> overlap a b -> i = j.
Proof.
  intros c ops d G R. induction R as [|ops d o d' e R IH L S]; intros Nd No Ns i j a b l Hi Hj Ov; [destruct Hi as (p & [E _] & _); discriminate|].
  assert (No' : no_opts ops) by (intros k x y K; apply (No k x y); right; exact K).
  assert (IHd : forall i j a b l, bound_to d i a l -> bound_to d j b l -> overlap a b -> i = j).
  { apply IH; [intros k K; apply (Nd k); right; exact K|exact No'|intros k fa fp rnd mem K; apply (Ns k fa fp rnd mem); right; exact K]. }
  assert (Ndo : forall k, o <> ODisc k) by (intros k ->; apply (Nd k); left; reflexivity). pose proof (plain_reach c ops d G R No') as Pl.
  destruct (step_inv c ops d o d' e G R L S) as (i0 & K).
  assert (Cl : forall k p x y, bound_to d k x l -> pcbs d i0 = Some p -> overlap x y -> clash d (wild_of p) y l) by (intros k p x y B Ep O; rewrite (plain_wild d i0 p Pl Ep); apply (bound_taken d k x l y B O)).
  destruct (bound_step c d d' o i0 K Ndo i a l Hi) as [Bi|[(p & -> & Ep & F)|(_ & p & b0 & fa & fp & rnd & mem & Eo & _)]]; [| |subst o; destruct (Ns i0 fa fp rnd mem); left; reflexivity];
  (destruct (bound_step c d d' o i0 K Ndo j b l Hj) as [Bj|[(p' & -> & Ep' & F')|(_ & p' & b0' & fa & fp & rnd & mem & Eo & _)]]; [| |subst o; destruct (Ns i0 fa fp rnd mem); left; reflexivity]); try reflexivity.
  - apply (IHd i j a b l Bi Bj Ov).
  - destruct (F' (Cl i p' a b Bi Ep' Ov)).
  - destruct (F (Cl j p b a Bj Ep ltac:(unfold overlap in *; intuition congruence))).
Qed.

(* ---- C63 ---- *)
Theorem pcb_udp_connect : forall c ops d i p fa fp rnd mem, good_conf c -> reach c ops d -> pcbs d i = Some p -> dropped p = false -> faddr p = 0 -> fa <> 0 -> lport p <> 0 ->
  exists d' e, step c d (OConnU i fa fp rnd mem) = Ret (d', e) /\ others_same d d' i /\
  let src := if laddr p =? 0 then c_route c fa else Some (laddr p) in
  match fp =? 0, src with
  | true, _ => e = EADDRNOTAVAIL /\ pcbs d' i = Some p
  | _, None => e = ENETUNREACH /\ pcbs d' i = Some p
  | _, Some a => (e = EADDRINUSE /\ pcbs d' i = Some p /\ exists j, connected_as d j fa fp a (lport p)) \/
                 (e = OK /\ connected_as d' i fa fp a (lport p) /\ forall j, ~ connected_as d j fa fp a (lport p))
  end.
Proof.
  intros c ops d i p fa fp rnd mem G R E D F Nfa Lp. pose proof (reach_inv c ops d G R) as I. cbn [step]. unfold udp_connect, get. rewrite E. cbn [obind]. rewrite F. cbn [Z.eqb negb].
  destruct (pcbconnect_ok c d i p fa fp rnd mem G I E D ltac:(intros; contradiction)) as (d' & e & K1 & K2 & K3). exists d', e. split; [exact K1|].
  assert (Pa : peer_addr c fa = fa) by (unfold peer_addr; apply Z.eqb_neq in Nfa; rewrite Nfa; reflexivity). unfold conn_post, source_addr in K3. rewrite Pa in K3. cbv zeta.
  destruct K3 as [(-> & Nf & a & l & Es & J1 & J2 & J3)|[J Je]].
  - split; [exact J2|]. apply Z.eqb_neq in Nf. rewrite Nf, Es. destruct J3 as [(_ & -> & J3)|(? & _)]; [|contradiction]. right. split; [reflexivity|]. split; [|exact J3]. destruct J1 as (p' & H & A1 & A2 & A3 & A4 & _). exists p'. auto.
  - split; [intros j _; apply J|]. rewrite J, E. destruct Je as [(_ & _ & ?)|[(-> & [->|(? & _)])|[[-> Es]|(-> & _ & a & j & Es & Hj)]]]; try contradiction.
    + cbn [Z.eqb]. auto.
    + rewrite Es. destruct (Z.eqb_spec fp 0) as [->|Nf]; [|auto]. exfalso. revert K1. unfold pcbconnect, get. rewrite E. cbn [obind]. unfold connect_setup. cbn [Z.eqb obind]. discriminate.
    + rewrite Es. destruct (Z.eqb_spec fp 0) as [->|Nf]; [|left; split; [reflexivity|split; [reflexivity|exists j; exact Hj]]]. exfalso. revert K1. unfold pcbconnect, get. rewrite E. cbn [obind]. unfold connect_setup. cbn [Z.eqb obind]. discriminate.
Qed.
(* at most one socket per connection, as long as either no reuse options are set or no UDP
   socket is connected: in particular always for TCP *)
Theorem pcb_connection_unique_partial : forall c ops d, good_conf c -> reach c ops d -> no_opts ops \/ no_uconn ops ->
  forall i j fa fp la lp, fa <> 0 -> connected_as d i fa fp la lp -> connected_as d j fa fp la lp -> i = j.
Proof.
  intros c ops d G R. induction R as [|ops d o d' e R IH L S]; intros No i j fa fp la lp Nfa Hi Hj; [destruct Hi as (p & [E _] & _); discriminate|].
  assert (IHd : forall i j fa fp la lp, fa <> 0 -> connected_as d i fa fp la lp -> connected_as d j fa fp la lp -> i = j).
  { apply IH. destruct No as [No|No]; [left; intros k x y K; apply (No k x y); right; exact K|right; intros k x y z w K; apply (No k x y z w); right; exact K]. }
  destruct (step_inv c ops d o d' e G R L S) as (i0 & K).
  assert (St : forall k, connected_as d' k fa fp la lp -> connected_as d k fa fp la lp \/ (k = i0 /\ forall m, m <> i0 -> ~ connected_as d m fa fp la lp)).
  { intros k (q & [E Hh] & A1 & A2 & A3 & A4). assert (Same : pcbs d k = Some q -> connected_as d k fa fp la lp) by (intros Es; exists q; split; [split; assumption|auto]).
    destruct K as [K|[O K]]; [left; apply Same; rewrite <- K; exact E|]. destruct (Nat.eq_dec k i0) as [->|Nj]; [|left; apply Same; rewrite <- (O k Nj); exact E].
    destruct K as [(K & _)|[(x & y & p & _ & Ep & K)|(p & Ep & K)]].
    - rewrite E in K. cbn in K. congruence.
    - left. rewrite E in K. injection K as ->. exists p. split; [split; [exact Ep|exact Hh]|auto].
    - destruct K as [(b & m & _ & K & F)|[(b & m & xfa & xfp & rnd & mem & Eo & Nb & _ & K & F)|[(b & m & xfa & xfp & Nf & K & F)|[(b & m & xfa & xfp & fa0 & fp0 & rnd & mem & Eo & Nf & _ & K & F)|(Eo & m & K)]]]];
        destruct (is_at_pcb _ _ _ _ _ _ _ q K E) as (B1 & B2 & B3 & B4 & _); try congruence.
      + right. split; [reflexivity|]. rewrite <- A1, <- A2, <- A3, <- A4, B1, B2, B3, B4. exact F.
      + right. split; [reflexivity|]. destruct No as [No|No]; [|destruct (No i0 fa0 fp0 rnd mem); left; exact Eo].
        rewrite (plain_wild d i0 p) in F; [| |exact Ep]; [|apply (plain_reach c ops d G R); intros k' x y K'; apply (No k' x y); right; exact K'].
        intros k Nk (z & Hz & Z1 & Z2 & Z3 & Z4). apply F. exists k, z. split; [exact Hz|]. split; [congruence|]. left. congruence. }
  destruct (St i Hi) as [Bi|[Ei Fi]]; destruct (St j Hj) as [Bj|[Ej Fj]].
  - apply (IHd i j fa fp la lp Nfa Bi Bj).
  - destruct (Nat.eq_dec i i0) as [->|N]; [congruence|destruct (Fj i N Bi)].
  - destruct (Nat.eq_dec j i0) as [->|N]; [congruence|destruct (Fi j N Bj)].
  - congruence.
Qed.

(* ---- what does not hold ---- *)
Definition ex_conf : conf := mkConf false 511 511 50000 50001 true (Some 167772161) (fun f a => a =? 167772161) (fun _ => Some 167772161).
Lemma ex_good : good_conf ex_conf.
Proof. repeat split; cbn; try lia; try discriminate. Qed.
Definition run c (ops : list op) : db := fold_left (fun d o => match step c d o with Ret (d', _) => d' | _ => d end) ops db0.
Definition trace c ops : list err := snd (fold_left (fun s o => match step c (fst s) o with Ret (d', e) => (d', snd s ++ [e]) | _ => s end) ops (db0, [])).

Fixpoint legal_all (c : conf) (d : db) (ops : list op) : Prop :=
  match ops with [] => True | o :: t => legal c d o /\ exists r, step c d o = Ret r /\ legal_all c (fst r) t end.
Lemma run_reach c ops d pre : reach c pre d -> legal_all c d ops -> reach c (rev ops ++ pre) (fold_left (fun d o => match step c d o with Ret (d', _) => d' | _ => d end) ops d).
Proof.
  revert d pre. induction ops as [|o t IH]; intros d pre R L; [exact R|]. destruct L as (L1 & [d' e] & S & L2). cbn [fold_left rev]. rewrite S. rewrite <- app_assoc. cbn [app]. apply IH; [|exact L2]. eapply reachS; eassumption.
Qed.
Lemma run_ok c ops : legal_all c db0 ops -> reach c (rev ops) (run c ops).
Proof. intros L. pose proof (run_reach c ops db0 [] (reach0 c) L) as H. rewrite app_nil_r in H. exact H. Qed.

(* SO_REUSEPORT on both sockets does not let them share a port *)
Theorem pcb_reuseport_refuted : exists c d d' i j p q a l, good_conf c /\ (exists ops, reach c ops d) /\ i <> j /\ pcbs d i = Some p /\ unbound p /\ holds d j q /\
  o_port p = true /\ o_port q = true /\ bound_to d j a l /\ usable c (fib p) a /\ step c d (OBind i (Some (a, l)) 0 true) = Ret (d', EADDRINUSE).
Proof.
  set (ops := [OAlloc 0 0; OOpts 0 false true; OBind 0 (Some (0, 5000)) 0 true; OAlloc 1 0; OOpts 1 false true]).
  exists ex_conf, (run ex_conf ops). eexists. exists 1%nat, 0%nat. eexists. eexists. exists 0, 5000. split; [apply ex_good|]. split.
  - exists (rev ops). apply run_ok. cbn. repeat (split; [cbn; try reflexivity; try discriminate|eexists; split; [vm_compute; reflexivity|cbn [fst]]]). exact Logic.I.
  - split; [discriminate|]. split; [vm_compute; reflexivity|]. split; [repeat split|]. split; [split; vm_compute; reflexivity|]. split; [reflexivity|]. split; [reflexivity|].
    split; [eexists; split; [split; vm_compute; reflexivity|repeat split; reflexivity]|]. split; [split; [discriminate|left; reflexivity]|]. vm_compute. reflexivity.
Qed.
(* sockets of different VRFs share one port space *)
Theorem pcb_vrf_separation_refuted : exists c d d' i p a l, good_conf c /\ (exists ops, reach c ops d) /\ pcbs d i = Some p /\ unbound p /\ usable c (fib p) a /\
  (forall j q, holds d j q -> fib q <> fib p) /\ step c d (OBind i (Some (a, l)) 0 true) = Ret (d', EADDRINUSE).
Proof.
  set (ops := [OAlloc 0 0; OBind 0 (Some (0, 5000)) 0 true; OAlloc 1 1]).
  exists ex_conf, (run ex_conf ops). eexists. exists 1%nat. eexists. exists 0, 5000. split; [apply ex_good|]. split.
  - exists (rev ops). apply run_ok. cbn. repeat (split; [cbn; try reflexivity; try discriminate|eexists; split; [vm_compute; reflexivity|cbn [fst]]]). exact Logic.I.
  - split; [vm_compute; reflexivity|]. split; [repeat split|]. split; [split; [discriminate|left; reflexivity]|]. split.
    + intros j q [Ej Hj]. destruct j as [|[|j]]; [vm_compute in Ej; injection Ej as <-; discriminate|vm_compute in Ej; injection Ej as <-; discriminate|vm_compute in Ej; discriminate].
    + vm_compute. reflexivity.
Qed.
(* disconnecting a UDP socket widens its address: two sockets end up on ANY and one port *)
Theorem pcb_disconnect_bound_once_refuted : exists c ops d i j a l, good_conf c /\ reach c ops d /\ no_opts ops /\ no_send ops /\ i <> j /\ bound_to d i a l /\ bound_to d j a l.
Proof.
  set (c := mkConf false 511 511 50000 50001 true (Some 167772161) (fun f a => (a =? 167772161) || (a =? 167772162)) (fun _ => Some 167772161)).
  set (ops := [OAlloc 0 0; OBind 0 (Some (167772161, 5000)) 0 true; OConnU 0 134744072 53 0 true; OAlloc 1 0; OBind 1 (Some (167772162, 5000)) 0 true; OConnU 1 134744072 53 0 true; ODisc 0; ODisc 1]).
  exists c, (rev ops), (run c ops), 0%nat, 1%nat, 0, 5000. split; [repeat split; cbn; try lia; try discriminate|]. split.
  - apply run_ok. cbn [legal_all ops]. repeat (split; [cbn; try reflexivity; try discriminate; try (eexists; split; [vm_compute; reflexivity|reflexivity]); try (split; [eexists; split; [vm_compute; reflexivity|reflexivity]|discriminate])|eexists; split; [vm_compute; reflexivity|cbn [fst]]]). exact Logic.I.
  - split; [intros i a b K; cbn in K; intuition discriminate|]. split; [intros i a b x y K; cbn in K; intuition discriminate|]. split; [discriminate|].
    split; (eexists; split; [split; vm_compute; reflexivity|repeat split; reflexivity]).
Qed.
(* a send from an unbound socket takes ANY and a port that another socket holds on one address *)
Theorem pcb_sendto_exclusive_refuted : exists c ops d i j a b l, good_conf c /\ reach c ops d /\ no_opts ops /\ no_disc ops /\ i <> j /\ bound_to d i a l /\ bound_to d j b l /\ overlap a b.
Proof.
  set (c := mkConf false 511 511 50000 50000 true (Some 167772161) (fun f a => (a =? 167772161) || (a =? 167772162)) (fun _ => Some 167772161)).
  set (ops := [OAlloc 0 0; OBind 0 (Some (167772162, 50000)) 0 true; OAlloc 1 0; OSend 1 134744072 53 0 true]).
  exists c, (rev ops), (run c ops), 0%nat, 1%nat, 167772162, 0, 50000. split; [repeat split; cbn; try lia; try discriminate|]. split.
  - apply run_ok. cbn [legal_all ops]. repeat (split; [cbn; try reflexivity; try discriminate; try (eexists; split; [vm_compute; reflexivity|reflexivity]); try (split; [eexists; split; [vm_compute; reflexivity|reflexivity]|discriminate])|eexists; split; [vm_compute; reflexivity|cbn [fst]]]). exact Logic.I.
  - split; [intros i a b K; cbn in K; intuition discriminate|]. split; [intros i K; cbn in K; intuition discriminate|]. split; [discriminate|].
    split; [eexists; split; [split; vm_compute; reflexivity|repeat split; reflexivity]|]. split; [eexists; split; [split; vm_compute; reflexivity|repeat split; reflexivity]|]. right. right. reflexivity.
Qed.
(* with SO_REUSEADDR two UDP sockets get the same connection *)
Theorem pcb_connection_unique_refuted : exists c ops d i j fa fp la lp, good_conf c /\ reach c ops d /\ i <> j /\ fa <> 0 /\ connected_as d i fa fp la lp /\ connected_as d j fa fp la lp.
Proof.
  set (c := mkConf false 511 511 50000 50000 true (Some 167772161) (fun f a => a =? 167772161) (fun _ => Some 167772161)).
  set (ops := [OAlloc 0 0; OConnU 0 134744072 53 0 true; OAlloc 1 0; OOpts 1 true false; OConnU 1 134744072 53 0 true]).
  exists c, (rev ops), (run c ops), 0%nat, 1%nat, 134744072, 53, 167772161, 50000. split; [repeat split; cbn; try lia; try discriminate|]. split.
  - apply run_ok. cbn [legal_all ops]. repeat (split; [cbn; try reflexivity; try discriminate; try (split; [eexists; split; [vm_compute; reflexivity|reflexivity]|discriminate])|eexists; split; [vm_compute; reflexivity|cbn [fst]]]). exact Logic.I.
  - split; [discriminate|]. split; [discriminate|]. split; (eexists; split; [split; vm_compute; reflexivity|repeat split; reflexivity]).
Qed.

(* ---- the hypotheses can be met ---- *)
Definition ex_ops : list op :=
  [OAlloc 0 0; OBind 0 (Some (0, 5000)) 0 true; OAlloc 1 0; OConnU 1 134744072 53 7 true; OAlloc 2 0; OBind 2 (Some (167772161, 6000)) 0 true; OAlloc 3 0].
Example ex_reach : reach ex_conf (rev ex_ops) (run ex_conf ex_ops).
Proof.
  apply run_ok. cbn [legal_all ex_ops]. repeat (split; [cbn; try reflexivity; try discriminate; try (split; [eexists; split; [vm_compute; reflexivity|reflexivity]|discriminate])|eexists; split; [vm_compute; reflexivity|cbn [fst]]]). exact Logic.I.
Qed.
Example ex_lookup : let d := run ex_conf ex_ops in
  lookup_hash ex_conf d 134744072 53 167772161 50001 true = Ret (Some 1%nat) /\ lookup_hash ex_conf d 134744072 54 167772161 50001 true = Ret None /\
  lookup_hash ex_conf d 1 2 167772161 6000 true = Ret (Some 2%nat) /\ lookup_hash ex_conf d 1 2 3 5000 true = Ret (Some 0%nat).
Proof. vm_compute. auto. Qed.
Example ex_bind : let d := run ex_conf ex_ops in exists p, pcbs d 3 = Some p /\ unbound p /\ conflict d p 167772161 5000 /\ ~ conflict d p 167772161 6001 /\ usable ex_conf (fib p) 167772161.
Proof.
  cbv zeta. eexists. split; [vm_compute; reflexivity|]. split; [repeat split|]. split.
  - exists 0%nat. eexists. split; [split; vm_compute; reflexivity|]. split; [reflexivity|right; left; reflexivity].
  - split; [|split; [discriminate|right; right; reflexivity]]. intros (i & q & [Ei Hi] & Li & _). destruct i as [|[|[|[|i]]]]; vm_compute in Ei; try discriminate; injection Ei as <-; discriminate.
Qed.
Example ex_trace : trace ex_conf (ex_ops ++ [OBind 3 (Some (167772161, 5000)) 0 true; OBind 3 (Some (5, 7000)) 0 true; OBind 3 (Some (0, 0)) 0 true])
  = [OK; OK; OK; OK; OK; OK; OK; EADDRINUSE; EADDRNOTAVAIL; OK].
Proof. vm_compute. reflexivity. Qed.

Print Assumptions pcb_calls_return.
Print Assumptions pcb_delivery_partial.
Print Assumptions pcb_delivery_only.
Print Assumptions pcb_bind_named_partial.
Print Assumptions pcb_bind_auto.
Print Assumptions pcb_bind_twice.
Print Assumptions pcb_bound_once_partial.
Print Assumptions pcb_bound_exclusive_partial.
Print Assumptions pcb_udp_connect.
Print Assumptions pcb_connection_unique_partial.
Print Assumptions pcb_reuseport_refuted.
Print Assumptions pcb_vrf_separation_refuted.
Print Assumptions pcb_disconnect_bound_once_refuted.
Print Assumptions pcb_sendto_exclusive_refuted.
Print Assumptions pcb_connection_unique_refuted.
