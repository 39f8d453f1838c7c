(* C102, C103: delivery of UDP datagrams to groups, and their packets. *)
From Verif Require Import Base McastModel McastSpec McastMerge McastGroup McastInv McastStep McastProps UdpModel UdpSpec.
Ltac Zify.zify_post_hook ::= idtac.

Lemma times_app : forall s l l2, times s (l ++ l2) = (times s l + times s l2)%nat.
Proof. intros. unfold times. rewrite filter_app, app_length. reflexivity. Qed.
Lemma count_app : forall p l l2, count_of p (l ++ l2) = (count_of p l + count_of p l2)%nat.
Proof. intros. unfold count_of. rewrite filter_app, app_length. reflexivity. Qed.

Lemma times_append : forall s t k h, times s (append t k h) = if Nat.eqb s t && takes k then 1%nat else 0%nat.
Proof. intros s t k h. unfold append, takes, times. destruct (k_event k), (k_room k); cbn [filter gets orb andb]; destruct (Nat.eqb s t); reflexivity. Qed.

Definition okall (_ : nat) : bool := true.

(* who gets it: a matching socket, if all matching ones before it share the port *)
Fixpoint served (d : dgram) (l : list (nat * sock)) (s : nat) : bool :=
  match l with
  | [] => false
  | (t, k) :: l => if negb (matches d k) then served d l s else (Nat.eqb s t && takes k) || (k_reuse k && served d l s)
  end.
Definition last_times (s : nat) (o : option (nat * sock)) : nat := match o with Some (t, k) => if Nat.eqb s t && takes k then 1%nat else 0%nat | None => 0%nat end.

Lemma served_in : forall d l s, served d l s = true -> In s (map fst l).
Proof.
  intros d. induction l as [|[t k] l IH]; cbn [served map fst In]; intros s H; [discriminate|]. destruct (matches d k); cbn [negb] in H; [|right; auto].
  apply orb_true_iff in H. destruct H as [H|H]; apply andb_true_iff in H; destruct H as [H1 H2]; [left; apply Nat.eqb_eq in H1; congruence|right; auto].
Qed.
Lemma mloop_times : forall d s l last h, NoDup (map fst l) -> (forall t k, last = Some (t, k) -> ~ In t (map fst l)) ->
  (times s (fst (mloop okall d l last h)) + last_times s (snd (mloop okall d l last h)) = (if served d l s then 1 else 0) + last_times s last)%nat.
Proof.
  intros d s. induction l as [|[t k] l IH]; intros last h N L; cbn [mloop served].
  - cbn [fst snd times filter length]. reflexivity.
  - cbn [map fst] in N. inversion N as [|? ? N1 N2]; subst. destruct (matches d k) eqn:M; cbn [negb].
    2: { apply IH; [exact N2|]. intros t' k' E X. apply (L t' k' E). right. exact X. }
    assert (A : exists e h', match last with None => ([], h) | Some (s', k') => (if okall h then Copied h :: append s' k' h else [], S h) end = (e, h') /\ times s e = last_times s last).
    { destruct last as [[s' k']|]; eexists; eexists; (split; [reflexivity|]); [|reflexivity]. cbn [okall last_times].
      change (Copied h :: append s' k' h) with ([Copied h] ++ append s' k' h). rewrite times_app, times_append. reflexivity. }
    destruct A as (e & h' & -> & TE). destruct (k_reuse k) eqn:R.
    + specialize (IH (Some (t, k)) h' N2 ltac:(intros t' k' E X; injection E as <- <-; contradiction)).
      destruct (mloop okall d l (Some (t, k)) h') as [e2 la] eqn:E2. cbn [fst snd] in *. rewrite times_app, TE. cbn [andb]. rewrite <- Nat.add_assoc, IH.
      unfold last_times at 2. destruct (Nat.eqb s t) eqn:Q; cbn [andb orb].
      * apply Nat.eqb_eq in Q. subst t. destruct (served d l s) eqn:SV; [apply served_in in SV; contradiction|]. destruct (takes k); cbn [orb]; lia.
      * destruct (served d l s); lia.
    + cbn [fst snd last_times andb]. rewrite TE, orb_false_r. destruct (Nat.eqb s t && takes k); lia.
Qed.
Lemma mloop_none : forall c d l last h, snd (mloop c d l last h) = None <-> last = None /\ forallb (fun p => negb (matches d (snd p))) l = true.
Proof.
  intros c d. induction l as [|[t k] l IH]; intros last h; cbn [mloop forallb snd]; [tauto|]. destruct (matches d k) eqn:M; cbn [negb andb]; [|apply IH].
  split; [|intros [_ X]; discriminate]. intros X. exfalso.
  destruct (match last with None => _ | _ => _ end) as [e h']. destruct (k_reuse k); [|discriminate].
  specialize (IH (Some (t, k)) h'). destruct (mloop c d l (Some (t, k)) h') as [e2 la]. cbn [snd] in *. apply IH in X. destruct X; discriminate.
Qed.

Lemma matches_addressed : forall d k, matches d k = true <->
  for_it d k.
Proof.
  intros d k. unfold for_it, matches, addressed. rewrite !andb_true_iff, !orb_true_iff, !Z.eqb_eq. destruct (is_mc (d_dst d)).
  - destruct (multi_filter (k_imo k) (d_if d) (d_dst d) (d_src d)); intuition (try discriminate; try congruence).
  - intuition discriminate.
Qed.

Lemma group_delivery : forall blackhole socks lookup d, NoDup (map fst socks) -> well_formed d -> is_mc (d_dst d) = true \/ is_bc (d_dst d) = true ->
  (forall s k, In (s, k) socks -> matches d k = true -> k_reuse k = true /\ takes k = true) ->
  exists e r, input okall blackhole socks lookup d = Ret (e, r) /\
    forall s k, In (s, k) socks -> times s e = if matches d k then 1%nat else 0%nat.
Proof.
  intros blackhole socks lookup d N (W1 & W2 & W3) G A. unfold input.
  replace (d_l2 d + d_len d <? d_hl d + 8)%nat with false by (symmetry; apply Nat.ltb_ge; lia). replace (d_len d <? d_hl d + 8)%nat with false by (symmetry; apply Nat.ltb_ge; lia).
  replace (d_dport d =? 0) with false by (symmetry; apply Z.eqb_neq; exact W2). rewrite W3. cbn [negb].
  replace (is_mc (d_dst d) || is_bc (d_dst d)) with true by (destruct G as [-> | ->]; rewrite ?orb_true_r; reflexivity).
  assert (SV : forall s k, In (s, k) socks -> served d socks s = matches d k).
  { clear - N A. induction socks as [|[t q] l IH]; [intros s k []|]. cbn [map fst] in N. inversion N as [|? ? N1 N2]; subst.
    assert (A' : forall s k, In (s, k) l -> matches d k = true -> k_reuse k = true /\ takes k = true) by (intros s k X; apply (A s); right; exact X).
    intros s k [X|X]; cbn [served].
    - injection X as -> ->. destruct (matches d k) eqn:M; cbn [negb].
      + destruct (A s k (or_introl eq_refl) M) as [_ ->]. rewrite Nat.eqb_refl. reflexivity.
      + destruct (served d l s) eqn:SV; [|reflexivity]. apply served_in in SV. contradiction.
    - specialize (IH N2 A' s k X). destruct (matches d q) eqn:M; cbn [negb]; [|exact IH]. destruct (A t q (or_introl eq_refl) M) as [-> _].
      destruct (Nat.eqb s t) eqn:Q; [|exact IH]. apply Nat.eqb_eq in Q. subst t. apply (in_map fst) in X. contradiction. }
  destruct (mloop okall d socks None 1) as [e last] eqn:E.
  assert (T : forall s, (times s e + last_times s last = if served d socks s then 1 else 0)%nat).
  { intros s. pose proof (mloop_times d s socks None 1%nat N ltac:(discriminate)) as X. rewrite E in X. cbn [fst snd last_times] in X. lia. }
  destruct last as [[t q]|].
  - eexists. eexists. split; [reflexivity|]. intros s k I. rewrite times_app, times_append. specialize (T s). cbn [last_times] in T. rewrite (SV s k I) in T. exact T.
  - eexists. eexists. split; [reflexivity|]. intros s k I. specialize (T s). cbn [last_times] in T. rewrite (SV s k I) in T. lia.
Qed.


(* C102: every socket a multicast or broadcast datagram is for gets one copy,
   and no other socket gets any, if all of them share the port *)
Theorem udp_group_delivery : forall blackhole socks lookup d, NoDup (map fst socks) -> well_formed d -> is_mc (d_dst d) = true \/ is_bc (d_dst d) = true ->
  (forall s k, In (s, k) socks -> for_it d k -> k_reuse k = true /\ takes k = true) ->
  exists e r, input okall blackhole socks lookup d = Ret (e, r) /\
    forall s k, In (s, k) socks -> (for_it d k -> times s e = 1%nat) /\ (~ for_it d k -> times s e = 0%nat).
Proof.
  intros blackhole socks lookup d N W G A.
  destruct (group_delivery blackhole socks lookup d N W G ltac:(intros s k I M; apply (A s k I); apply matches_addressed; exact M)) as (e & r & E & T).
  exists e, r. split; [exact E|]. intros s k I. specialize (T s k I). pose proof (matches_addressed d k) as MA. destruct (matches d k).
  - split; [intros _; exact T|]. intros X. exfalso. apply X, MA. reflexivity.
  - split; [|intros _; exact T]. intros X. apply MA in X. discriminate.
Qed.
Print Assumptions udp_group_delivery.

Lemma upd_length : forall A (l : list A) j x, length (upd l j x) = length l.
Proof. intros A. induction l as [|y l IH]; intros j x; [reflexivity|]. destruct j; cbn [upd length]; [reflexivity|]. rewrite IH. reflexivity. Qed.
Lemma sstep_length : forall a b e x, length (fst (sstep a b e x)) = length x.
Proof.
  intros a b e x. unfold sstep. destruct (sock_of e) as [s|]; [|reflexivity]. destruct (nth_error x s) as [l|]; [|reflexivity].
  destruct (scall a b e l) as [l' r]. cbn [fst]. apply upd_length.
Qed.
Lemma srun_length : forall a b h x, length (fst (srun a b h x)) = length x.
Proof.
  intros a b. induction h as [|e h IH]; intros x; cbn [srun]; [reflexivity|]. pose proof (sstep_length a b e x) as S. destruct (sstep a b e x) as [y r]. cbn [fst] in S.
  specialize (IH y). destruct (srun a b h y) as [z rs]. cbn [fst] in *. congruence.
Qed.

(* C102: after any history of multicast calls, a datagram to a group reaches the
   sockets bound to its port that want its source, once; no other *)
Theorem udp_multicast_partial : forall maxsock maxgrp maxmem U n h, fits maxsock maxgrp maxmem U n h ->
  exists x, run maxsock maxgrp maxmem h (init n) = Ret (x, snd (srun maxsock maxmem h (repeat [] n))) /\
    forall ks order blackhole lookup d, NoDup order -> (forall s, In s order -> (s < n)%nat) -> well_formed d -> is_mc (d_dst d) = true ->
      let sp := fst (srun maxsock maxmem h (repeat [] n)) in
      let hears s := addressed d (ks s) /\ wanted (nth s sp []) (d_if d) (d_dst d) (d_src d) = Pass in
      (forall s, In s order -> hears s -> k_reuse (ks s) = true /\ takes (ks s) = true) ->
      (forall s j m, In s order -> member (nth s sp []) (Some (d_if d)) (d_dst d) = Some (j, m) -> excluding (d_src d) m = false) ->
      exists e r, input okall blackhole (pcbs order ks (socks x)) lookup d = Ret (e, r) /\
        forall s, In s order -> (hears s -> times s e = 1%nat) /\ (~ hears s -> times s e = 0%nat).
Proof.
  intros maxsock maxgrp maxmem U n h F. destruct (mcast_filter_partial maxsock maxgrp maxmem U n h F) as (x & E & P). exists x. split; [exact E|].
  destruct (mcast_api maxsock maxgrp maxmem U n h F) as (x' & E' & P'). rewrite E in E'. assert (x' = x) by congruence. subst x'. clear E'.
  intros ks order blackhole lookup d N L W G sp hears A NB.
  assert (LN : length sp = n) by (unfold sp; rewrite srun_length, repeat_length; reflexivity).
  assert (Q : forall s, In s order -> for_it d (with_imo (ks s) (nth s (socks x) [])) <-> hears s).
  { intros s I. specialize (L s I). destruct (nth_error sp s) as [sl|] eqn:N2; [|apply nth_error_None in N2; lia].
    specialize (P' s 0 0). fold sp in P', P. rewrite N2 in P'. destruct (nth_error (socks x) s) as [l|] eqn:N1; [|contradiction].
    pose proof (nth_error_nth _ _ [] N1) as X1. pose proof (nth_error_nth _ _ [] N2) as X2.
    specialize (P s l sl (d_if d) (d_dst d) (d_src d) N1 N2). unfold for_it, hears. rewrite X1, X2. cbn [with_imo k_imo addressed k_v4 k_lport k_laddr k_faddr k_fport].
    rewrite P by (intros j m M; apply (NB s j m I); rewrite X2; exact M). unfold addressed, with_imo. cbn [k_v4 k_lport k_laddr k_faddr k_fport]. tauto. }
  assert (PC : forall s k, In (s, k) (pcbs order ks (socks x)) -> In s order /\ k = with_imo (ks s) (nth s (socks x) [])).
  { intros s k I. unfold pcbs in I. apply in_map_iff in I. destruct I as (t & X & I). assert (t = s) by congruence. subst t. split; [exact I|congruence]. }
  destruct (udp_group_delivery blackhole (pcbs order ks (socks x)) lookup d) as (e & r & EI & T).
  - unfold pcbs. rewrite map_map. cbn [fst]. rewrite map_id. exact N.
  - exact W.
  - left. exact G.
  - intros s k I FI. destruct (PC s k I) as [I2 ->]. destruct (A s I2 (proj1 (Q s I2) FI)) as [A1 A2]. split; [exact A1|exact A2].
  - exists e, r. split; [exact EI|]. intros s I. rewrite <- (Q s I). apply T. unfold pcbs. apply in_map_iff. exists s. split; [reflexivity|exact I].
Qed.
Print Assumptions udp_multicast_partial.

(* ---- C103: packets ---- *)
Lemma cnt_append : forall p t k h, (forall x, p (Copied x) = false) ->
  count_of p (append t k h) = if k_event k then (if p (Taken t h) then 1 else 0)%nat else if k_room k then (if p (Queued t h) then 1 else 0)%nat else if p (Freed h) then 1%nat else 0%nat.
Proof. intros p t k h _. unfold append, count_of. destruct (k_event k), (k_room k); cbn [filter]; destruct (p _); reflexivity. Qed.
Lemma ends_append : forall g t k h, count_of (ends g) (append t k h) = if Nat.eqb g h then 1%nat else 0%nat.
Proof. intros. unfold append, count_of. destruct (k_event k), (k_room k); cbn [filter ends]; destruct (Nat.eqb g h); reflexivity. Qed.
Lemma born_append : forall g t k h, count_of (born g) (append t k h) = 0%nat.
Proof. intros. unfold append, count_of. destruct (k_event k), (k_room k); reflexivity. Qed.

(* the copies of the loop: numbered from h on, each made at most once and ended once *)
Lemma mloop_ends : forall c d l last h g, let e := fst (mloop c d l last h) in
  count_of (ends g) e = count_of (born g) e /\ (count_of (born g) e <= 1)%nat /\ ((g < h)%nat -> count_of (born g) e = 0%nat).
Proof.
  intros c d. induction l as [|[t k] l IH]; intros last h g; cbn [mloop].
  - cbn. repeat split; lia.
  - destruct (matches d k); cbn [negb]; [|apply IH].
    assert (A : exists e h', match last with None => ([], h) | Some (s', k') => (if c h then Copied h :: append s' k' h else [], S h) end = (e, h') /\ (h <= h')%nat /\
      count_of (ends g) e = count_of (born g) e /\ count_of (born g) e = if (Nat.eqb g h && Nat.ltb h h' && c h)%bool then 1%nat else 0%nat).
    { destruct last as [[s' k']|]; eexists; eexists; (split; [reflexivity|]).
      - split; [lia|]. replace (Nat.ltb h (S h)) with true by (symmetry; apply Nat.ltb_lt; lia). rewrite andb_true_r. destruct (c h).
        + change (Copied h :: append s' k' h) with ([Copied h] ++ append s' k' h). rewrite !count_app, ends_append, born_append, andb_true_r. unfold count_of. cbn [filter ends born]. destruct (Nat.eqb g h); cbn [length]; lia.
        + rewrite andb_false_r. split; reflexivity.
      - split; [lia|]. replace (Nat.ltb h h) with false by (symmetry; apply Nat.ltb_ge; lia). rewrite andb_false_r. split; reflexivity. }
    destruct A as (e & h' & -> & Hh & E1 & E2). destruct (k_reuse k).
    + specialize (IH (Some (t, k)) h' g). destruct (mloop c d l (Some (t, k)) h') as [e2 la]. cbn [fst] in *. rewrite !count_app. destruct IH as (I1 & I2 & I3).
      rewrite E1, I1. split; [lia|]. rewrite E2. destruct (Nat.eqb g h) eqn:Q.
      * apply Nat.eqb_eq in Q. subst g. destruct (Nat.ltb h h') eqn:L.
        -- apply Nat.ltb_lt in L. rewrite (I3 L). cbn [andb]. split; [destruct (c h); lia|intros; lia].
        -- cbn [andb]. split; [lia|intros; lia].
      * cbn [andb]. split; [lia|]. intros G. apply Nat.eqb_neq in Q. rewrite I3 by lia. reflexivity.
    + cbn [fst]. split; [exact E1|]. rewrite E2. destruct (Nat.eqb g h) eqn:Q; cbn [andb]; [|split; lia]. apply Nat.eqb_eq in Q. split; [destruct (_ && _); lia|intros; lia].
Qed.

(* C103: whatever the datagram and the sockets, every copy made is handed to a
   socket or freed, once; so is the packet, unless the caller gets it back *)
Theorem udp_packets : forall copy_ok blackhole socks lookup d e r, input copy_ok blackhole socks lookup d = Ret (e, r) -> ~ In Icmp e ->
  (forall h, (h > 0)%nat -> count_of (ends h) e = count_of (born h) e /\ (count_of (born h) e <= 1)%nat) /\
  count_of (born 0) e = 0%nat /\ count_of (ends 0) e = match r with Processed => 1%nat | _ => 0%nat end.
Proof.
  intros c b socks lookup d e r. unfold input.
  assert (Z0 : forall q, (forall h, (h > 0)%nat -> count_of (ends h) [] = count_of (born h) [] /\ (count_of (born h) [] <= 1)%nat) /\ count_of (born 0) [] = 0%nat /\ count_of (ends 0) [] = match q with Processed => 0%nat | _ => 0%nat end).
  { intros q. cbn. repeat split; try lia. destruct q; reflexivity. }
  destruct (_ <? _)%nat; [intros X; injection X as <- <-; intros _; apply (Z0 Continue)|]. destruct (_ <? _)%nat; [discriminate|].
  destruct (_ =? 0); [intros X; injection X as <- <-; intros _; apply (Z0 Drop)|]. destruct (d_ck d); cbn [negb]; [|intros X; injection X as <- <-; intros _; apply (Z0 Drop)].
  assert (AP : forall s k, (forall h, (h > 0)%nat -> count_of (ends h) (append s k 0) = count_of (born h) (append s k 0) /\ (count_of (born h) (append s k 0) <= 1)%nat) /\ count_of (born 0) (append s k 0) = 0%nat /\ count_of (ends 0) (append s k 0) = 1%nat).
  { intros s k. split; [|rewrite born_append, ends_append; split; reflexivity]. intros h H. rewrite born_append, ends_append. destruct h; [lia|]. cbn [Nat.eqb]. lia. }
  destruct (is_mc (d_dst d) || is_bc (d_dst d)).
  - pose proof (mloop_ends c d socks None 1%nat) as M. destruct (mloop c d socks None 1) as [e1 last] eqn:E. cbn [fst] in M. destruct last as [[s k]|]; intros X; injection X as <- <-; intros _.
    + destruct (AP s k) as (A1 & A2 & A3). split; [|rewrite !count_app, A2, A3; destruct (M 0%nat) as (M1 & M2 & M3); specialize (M3 ltac:(lia)); lia].
      intros h H. rewrite !count_app, born_append. destruct (M h) as (M1 & M2 & M3). rewrite ends_append. destruct h; [lia|]. cbn [Nat.eqb]. lia.
    + split; [|destruct (M 0%nat) as (M1 & M2 & M3); specialize (M3 ltac:(lia)); lia]. intros h H. destruct (M h) as (M1 & M2 & M3). lia.
  - destruct (lookup d) as [[s k]|].
    + destruct (_ && _); intros X; injection X as <- <-; intros _; [|apply AP]. split; [|split; reflexivity]. intros h H. unfold count_of. cbn [filter ends born]. destruct h; [lia|]. cbn. lia.
    + destruct b; intros X; injection X as <- <-; [intros _; apply (Z0 Drop)|]. intros NI. exfalso. apply NI. left. reflexivity.
Qed.
Print Assumptions udp_packets.

(* C103 refuted: a datagram for which no socket is bound is answered by ICMP, but
   its packet is neither freed nor given back: it is lost to the pool *)
Theorem udp_closed_port_refuted : forall copy_ok socks lookup d, well_formed d -> is_mc (d_dst d) = false -> is_bc (d_dst d) = false -> lookup d = None ->
  exists e, input copy_ok false socks lookup d = Ret (e, Processed) /\ count_of (ends 0) e = 0%nat.
Proof.
  intros c socks lookup d (W1 & W2 & W3) G1 G2 L. exists [Icmp]. split; [|reflexivity]. unfold input.
  replace (d_l2 d + d_len d <? d_hl d + 8)%nat with false by (symmetry; apply Nat.ltb_ge; lia). replace (d_len d <? d_hl d + 8)%nat with false by (symmetry; apply Nat.ltb_ge; lia).
  replace (d_dport d =? 0) with false by (symmetry; apply Z.eqb_neq; exact W2). rewrite W3, G1, G2, L. reflexivity.
Qed.
Print Assumptions udp_closed_port_refuted.

(* C103: a unicast datagram goes to the socket the look-up names, to no other *)
Theorem udp_unicast : forall copy_ok blackhole socks lookup d s k, well_formed d -> is_mc (d_dst d) = false -> is_bc (d_dst d) = false ->
  lookup d = Some (s, k) -> takes k = true -> (k_minttl k = 0 \/ k_minttl k <= d_ttl d) ->
  exists e, input copy_ok blackhole socks lookup d = Ret (e, Processed) /\ forall t, times t e = if Nat.eqb t s then 1%nat else 0%nat.
Proof.
  intros c b socks lookup d s k (W1 & W2 & W3) G1 G2 L T M. exists (append s k 0). split.
  - unfold input. replace (d_l2 d + d_len d <? d_hl d + 8)%nat with false by (symmetry; apply Nat.ltb_ge; lia). replace (d_len d <? d_hl d + 8)%nat with false by (symmetry; apply Nat.ltb_ge; lia).
    replace (d_dport d =? 0) with false by (symmetry; apply Z.eqb_neq; exact W2). rewrite W3, G1, G2, L. cbn [negb orb].
    destruct M as [-> | M]; [reflexivity|]. replace (d_ttl d <? k_minttl k) with false by (symmetry; apply Z.ltb_ge; lia). rewrite andb_false_r. reflexivity.
  - intros t. rewrite times_append, T, andb_true_r. reflexivity.
Qed.
Print Assumptions udp_unicast.

(* nothing is read beyond the packet, if the bytes before the IP header do not count *)
Theorem udp_header_partial : forall copy_ok blackhole socks lookup d, (d_hl d + 8 <= d_len d)%nat \/ d_l2 d = O -> input copy_ok blackhole socks lookup d <> UB.
Proof.
  intros c b socks lookup d H. unfold input. destruct (d_l2 d + d_len d <? d_hl d + 8)%nat eqn:Q; [discriminate|]. apply Nat.ltb_ge in Q.
  replace (d_len d <? d_hl d + 8)%nat with false by (symmetry; apply Nat.ltb_ge; lia). destruct (_ =? 0); [discriminate|]. destruct (d_ck d); cbn [negb]; [|discriminate].
  destruct (_ || _); [destruct (mloop _ _ _ _ _) as [e [[s k]|]]; discriminate|]. destruct (lookup d) as [[s k]|]; [destruct (_ && _); discriminate|destruct b; discriminate].
Qed.
Print Assumptions udp_header_partial.
(* C103 refuted: with a link header, a packet of k < 8 bytes of UDP is read beyond its end *)
Theorem udp_header_refuted : forall copy_ok blackhole socks lookup d, (d_len d < d_hl d + 8)%nat -> (d_hl d + 8 <= d_l2 d + d_len d)%nat ->
  input copy_ok blackhole socks lookup d = UB.
Proof.
  intros c b socks lookup d H1 H2. unfold input. replace (d_l2 d + d_len d <? d_hl d + 8)%nat with false by (symmetry; apply Nat.ltb_ge; lia).
  replace (d_len d <? d_hl d + 8)%nat with true by (symmetry; apply Nat.ltb_lt; lia). reflexivity.
Qed.
Print Assumptions udp_header_refuted.

(* ---- cases ---- *)
Definition k0 (port : Z) (reuse : bool) (imo : list mem) : sock := mkK' true 0 port 0 0 0 reuse imo false true.
Definition grp : Z := 3758096640.                     (* 224.0.1.0 *)
Definition dg (dst : Z) : dgram := mkD 1 167772161 dst 1000 53 64 true 14 20 100.
Definition in_grp : list mem := [mkM 1 grp (mkF Exc Exc [])].
(* C102 refuted: a socket that does not share its port hides the ones behind it *)
Theorem udp_group_refuted : exists socks d, well_formed d /\ is_mc (d_dst d) = true /\ NoDup (map fst socks) /\
  (forall s k, In (s, k) socks -> for_it d k /\ takes k = true) /\
  forall copy_ok blackhole lookup, exists e, input copy_ok blackhole socks lookup d = Ret (e, Processed) /\ times 2 e = 0%nat /\ In 2%nat (map fst socks).
Proof.
  exists [(1%nat, k0 53 false in_grp); (2%nat, k0 53 true in_grp)], (dg grp). split; [repeat split; cbn; lia|]. split; [reflexivity|]. split.
  - cbn [map fst]. repeat constructor; cbn [In]; intuition discriminate.
  - split.
    + intros s k I. split; [apply matches_addressed|]; destruct I as [I|[I|[]]]; injection I as <- <-; reflexivity.
    + intros c b lk. eexists. split; [reflexivity|]. split; [reflexivity|]. cbn. tauto.
Qed.
Print Assumptions udp_group_refuted.

Example three_sockets : exists e, input okall true [(1%nat, k0 53 true in_grp); (2%nat, k0 53 true []); (3%nat, k0 54 true in_grp); (4%nat, k0 53 true in_grp)] (fun _ => None) (dg grp) = Ret (e, Processed)
  /\ e = [Copied 1; Queued 1 1; Queued 4 0].
Proof. eexists. split; reflexivity. Qed.
Example broadcast_case : input okall true [(1%nat, k0 53 true []); (2%nat, k0 53 true [])] (fun _ => None) (dg 4294967295) = Ret ([Copied 1; Queued 1 1; Queued 2 0], Processed).
Proof. reflexivity. Qed.
