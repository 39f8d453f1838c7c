(* C31, C32, C33: the IPv4 neighbour table. *)
From Verif Require Import Base ArpModel ArpSpec ArpProof ArpStep ArpHist.
From Coq Require Import Permutation.
Ltac Zify.zify_post_hook ::= idtac.

(* ---- a concrete history, used below: 3 entries, 2 sets; all even addresses collide ---- *)
Definition cfg3 : acfg := mkC (fun v ip => Z.to_nat ((v + ip) mod 2)) 3 2 100.
Lemma cfg3_hash a b : (hash cfg3 a b < nset cfg3)%nat.
Proof. cbn. pose proof (Z.mod_pos_bound (a + b) 2). lia. Qed.
Definition op_okb (c : acfg) (s : arp) (op : aop) : bool :=
  match op with
  | OLearn v _ _ _ _ _ | OResolve v _ _ _ _ | OLookup v _ _ _ => (0 <=? v) && (v <? 65536)
  | OInc i => Nat.leb 1 i && Nat.leb i (nent c) && e_used (ents s i) && (e_ref (ents s i) <? 4294967295)
  | ODec i => Nat.leb 1 i && Nat.leb i (nent c) && negb (e_ref (ents s i) =? 0)
  | ORemove i | OGetMac i | OUseTmo i => Nat.leb i (nent c)
  | OOutput _ _ true v _ _ _ _ _ _ => (0 <=? v) && (v <? 65536)
  | OOutput _ _ false _ _ i _ _ _ _ => Nat.leb 1 i && Nat.leb i (nent c) && negb (e_ref (ents s i) =? 0)
  | OAge _ | OFlush => true
  end.
Lemma op_okb_ok c s op : op_okb c s op = true -> op_ok c s op.
Proof.
  destruct op as [v ip mac man now cok|v ip now tok cok|i|i|i|v ip now tok|i|pkt nh lo v ip idx now tok cok tst|i|now|];
    try destruct lo; cbn [op_ok op_okb]; rewrite ?andb_true_iff, ?Nat.leb_le, ?negb_true_iff, ?Z.eqb_neq, ?Z.ltb_lt, ?Z.leb_le; auto; try tauto; try lia; intros; repeat match goal with H : _ /\ _ |- _ => destruct H end; repeat split; auto.
Qed.
Fixpoint play (c : acfg) (t : trace) (s : arp) (ops : list aop) : option (trace * arp) :=
  match ops with
  | [] => Some (t, s)
  | op :: r => if op_okb c s op then match astep c s op with Ret (s', x) => play c ((s, op, x) :: t) s' r | _ => None end else None
  end.
Lemma play_ok c ops : forall t s t' s', history c t s -> play c t s ops = Some (t', s') -> history c t' s'.
Proof.
  induction ops as [|op ops IH]; intros t s t' s' H E; cbn in E.
  - now injection E as <- <-.
  - destruct (op_okb c s op) eqn:B; [|discriminate]. destruct (astep c s op) as [[s1 x]| |] eqn:A; try discriminate.
    apply (IH _ _ _ _ (h_step c t s op s1 x H (op_okb_ok _ _ _ B) A) E).
Qed.
Lemma play_history c ops : match play c [] (arp_init c) ops with Some (t, s) => history c t s | None => True end.
Proof. destruct (play _ _ _ _) as [[t s]|] eqn:E; [|exact I]. eapply play_ok; eauto. constructor. Qed.
Definition rcs (t : trace) : list (rcode * option Z * option nat * list (Z * Z) * list (Z * Z)) :=
  map (fun x => (r_rc (snd x), r_mac (snd x), r_idx (snd x), r_sent (snd x), r_lost (snd x))) (rev t).

(* ---- no call of a history is undefined ---- *)
Theorem arp_calls_defined c t s op : history c t s -> op_ok c s op -> exists s' r, astep c s op = Ret (s', r).
Proof.
  intros H OK. destruct (hist_inv c t s H) as [I P]. destruct (astep_good c s op I P OK) as (s' & r & E & _). eauto.
Qed.
Print Assumptions arp_calls_defined.

(* ---- C31 ---- *)
Theorem arp_lookup_last_learned c t s v ip now tok s' r :
  (forall a b, (hash c a b < nset c)%nat) -> history c t s -> 0 <= v < 65536 ->
  astep c s (OLookup v ip now tok) = Ret (s', r) ->
  r_mac r = last_mac c t v ip /\ (r_rc r = COk <-> last_mac c t v ip <> None) /\ (r_rc r = CFail <-> last_mac c t v ip = None).
Proof.
  intros HH H Hv E. destruct (hist_eff c t s (OLookup v ip now tok) s' r H Hv E) as (I & I' & EF).
  pose proof (hist_view c t s v ip HH H) as V. unfold view in V. injection V as V _.
  inversion EF; subst. cbn. rewrite V. split; [auto|]. destruct (last_mac c t v ip); split; split; congruence.
Qed.
Print Assumptions arp_lookup_last_learned.

(* reading by entry number gives the MAC learned for the address that entry is in use for *)
Theorem arp_get_mac_by_idx_last_learned c t s i v ip s' r :
  (forall a b, (hash c a b < nset c)%nat) -> history c t s -> names c s i v ip ->
  astep c s (OGetMac i) = Ret (s', r) -> r_mac r = last_mac c t v ip.
Proof.
  intros HH H N E. assert (OK : op_ok c s (OGetMac i)) by (cbn; destruct N; lia).
  destruct (hist_eff c t s _ s' r H OK E) as (I & I' & EF).
  pose proof (hist_view c t s v ip HH H) as V. unfold view in V. injection V as V _.
  inversion EF; subst. cbn. rewrite <- V, (known_at c s v ip i I N). reflexivity.
Qed.
Print Assumptions arp_get_mac_by_idx_last_learned.

(* entries 2 and 4 of vrf 0 and entry 2 of vrf 2 share a set; the set's cache
   holds (0,2) when (0,4) is asked for and when (0,2) is learned again *)
Example arp_lookup_case :
  match play cfg3 [] (arp_init cfg3)
    [OLearn 0 2 102 false 1 true; OLearn 0 4 104 false 1 true; OLookup 0 2 2 true; OLookup 0 4 2 true;
     OLearn 0 2 202 false 3 true; OLearn 2 2 222 true 3 true; OLearn 0 6 106 false 3 true; OLookup 0 2 4 true; ORemove 2; OLookup 0 4 5 true;
     OLookup 2 2 5 false; OAge 1000; OLookup 0 2 1001 true; OLookup 2 2 1001 true; OLearn 1 1 111 false 1002 true; OLookup 1 1 1003 true] with
  | Some (t, s) => map (fun x => match x with (r, m, _, _, _) => (r, m) end) (rcs t) =
      [(COk, None); (COk, None); (COk, Some 102); (COk, Some 104); (COk, None); (COk, None); (CFail, None); (COk, Some 202);
       (COk, None); (CFail, None); (COk, Some 222); (COk, None); (CFail, None); (COk, Some 222); (COk, None); (COk, Some 111)] /\
      last_mac cfg3 t 1 1 = Some 111 /\ last_mac cfg3 t 2 2 = Some 222 /\ last_mac cfg3 t 0 2 = None
  | None => False end.
Proof. vm_compute. auto. Qed.

(* ---- C32 ---- *)
Lemma NoDup_app_intro' {A} (l m : list A) : NoDup l -> NoDup m -> (forall x, In x l -> In x m -> False) -> NoDup (l ++ m).
Proof.
  induction l as [|a l IH]; intros H1 H2 H3; [auto|]. apply NoDup_cons_iff in H1. destruct H1 as [H0 H1]. cbn. constructor.
  - rewrite in_app_iff. intros [X|X]; [contradiction|]. apply (H3 a); [now left|auto].
  - apply IH; auto. intros x X Y. apply (H3 x); [now right|auto].
Qed.

(* the reference count of an entry is the number of references taken and not given back *)
Theorem arp_refcount_exact c t s i : history c t s -> (1 <= i <= nent c)%nat -> e_ref (ents s i) = held t i.
Proof. intros H R. now apply (hist_held c t s i). Qed.
Print Assumptions arp_refcount_exact.

(* a referenced entry survives every call but a flush and its last release *)
Theorem arp_referenced_entry_kept_partial c t s op s' r i v ip : history c t s -> op_ok c s op -> astep c s op = Ret (s', r) ->
  names c s i v ip -> 0 < held t i -> op <> OFlush -> ~ (op = ODec i /\ held t i = 1) ->
  names c s' i v ip.
Proof.
  intros H OK E N HP NF ND. destruct (hist_eff c t s op s' r H OK E) as (I & I' & EF).
  assert (R : rng c i) by apply N. rewrite <- (hist_held c t s i H R) in *.
  apply (keep_step c s op s' r i v ip); auto. lia.
Qed.
Print Assumptions arp_referenced_entry_kept_partial.

(* references on i taken minus given back in a piece of history *)
Fixpoint net (t : trace) (i : nat) : Z :=
  match t with
  | [] => 0
  | (_, OInc j, _) :: t' => net t' i + (if Nat.eqb j i then 1 else 0)
  | (_, ODec j, _) :: t' => net t' i - (if Nat.eqb j i then 1 else 0)
  | _ :: t' => net t' i
  end.
Lemma held_app p t i : Forall (fun x => snd (fst x) <> OFlush) p -> held (p ++ t) i = net p i + held t i.
Proof.
  induction p as [|[[s op] r] p IH]; intros F; [cbn; lia|]. apply Forall_cons_iff in F. destruct F as [F1 F2]. specialize (IH F2). cbn in F1.
  cbn [app held net]. destruct op; try (rewrite IH; lia); congruence.
Qed.
Lemma hist_app c p : forall t s', history c (p ++ t) s' -> exists s, history c t s.
Proof. induction p as [|x p IH]; intros t s' H; [eauto|]. cbn in H. inversion H; subst. eauto. Qed.

(* the entry number a route keeps goes on naming its gateway, as long as the
   route's own reference is not given back and the table is not flushed *)
Theorem arp_route_index_stable_partial c p t s1 r1 s' i v ip :
  history c (p ++ (s1, OInc i, r1) :: t) s' -> names c s1 i v ip ->
  Forall (fun x => snd (fst x) <> OFlush) p ->
  (forall a b, p = a ++ b -> 0 <= net b i) ->
  names c s' i v ip.
Proof.
  revert s'. induction p as [|[[s op] r] p IH]; intros s' H N F G.
  - cbn in H. inversion H as [|t0 s0 op0 s0' r0 H' OK E]; subst. destruct (hist_eff c t s1 (OInc i) s' r1 H' OK E) as (I & I' & EF). inversion EF; subst.
    destruct N as (? & ? & <- & <-). auto.
  - cbn in H. inversion H as [|t0 s0 op0 s0' r0 H' OK E]; subst.
    apply Forall_cons_iff in F. destruct F as [F1 F2]. cbn in F1.
    assert (G' : forall a b, p = a ++ b -> 0 <= net b i) by (intros a b X; apply (G ((s, op, r) :: a)); now rewrite X).
    pose proof (IH s H' N F2 G') as NS.
    destruct (hist_app c p _ _ H') as (s2 & H2). inversion H2 as [|t3 s3 op3 s3' r3 H3 OK3 E3]; subst.
    assert (HB : 1 <= held ((s1, OInc i, r1) :: t) i).
    { cbn [held]. rewrite Nat.eqb_refl. destruct OK3 as (R & U & W). rewrite <- (hist_held c t s1 i H3 R).
      destruct (hist_inv c t s1 H3) as [I _]. destruct (used_ok c s1 i I R U) as (_ & _ & X). lia. }
    pose proof (held_app p ((s1, OInc i, r1) :: t) i F2) as HA.
    pose proof (G' [] p eq_refl) as G0.
    apply (arp_referenced_entry_kept_partial c _ s op s' r i v ip H' OK E NS); [lia|auto|].
    intros [-> Hh]. pose proof (G [] ((s, ODec i, r) :: p) eq_refl) as G1. cbn [net] in G1. rewrite Nat.eqb_refl in G1. lia.
Qed.
Print Assumptions arp_route_index_stable_partial.

(* every entry is either free or in exactly one set, once *)
Theorem arp_pool_partition c t s : (forall a b, (hash c a b < nset c)%nat) -> history c t s ->
  Permutation (afree s ++ flat_map (tab s) (seq 0 (nset c))) (seq 1 (nent c)).
Proof.
  intros HH H. destruct (hist_inv c t s H) as [I _].
  assert (ND : forall l, NoDup l -> NoDup (flat_map (tab s) l)).
  { induction l as [|st l IH]; intros N; cbn; [constructor|]. apply NoDup_cons_iff in N. destruct N as [N1 N2].
    apply NoDup_app_intro'; [apply (i_tnd _ _ I)|auto|]. intros x X Y. apply in_flat_map in Y. destruct Y as (st2 & Y1 & Y2).
    apply (i_tab _ _ I) in X. apply (i_tab _ _ I) in Y2. destruct X as (_ & _ & <-). destruct Y2 as (_ & _ & Y2). subst st2. contradiction. }
  apply NoDup_Permutation.
  - apply NoDup_app_intro'; [apply (i_fnd _ _ I)|apply ND, seq_NoDup|]. intros x X Y. apply (i_fre _ _ I) in X.
    apply in_flat_map in Y. destruct Y as (st & _ & Y). apply (i_tab _ _ I) in Y. destruct X as [_ X], Y as (_ & Y & _). congruence.
  - apply seq_NoDup.
  - intros x. rewrite in_app_iff, in_flat_map, in_seq, (i_fre _ _ I x). split.
    + intros [[R _]|(st & _ & X)]; [unfold rng in R; lia|]. apply (i_tab _ _ I) in X. destruct X as [R _]. unfold rng in R. lia.
    + intros R. assert (R' : rng c x) by (unfold rng; lia). destruct (e_used (ents s x)) eqn:U; [right|left; auto].
      eexists. split; [|apply (i_tab _ _ I); eauto]. apply in_seq. split; [lia|]. cbn. apply HH.
Qed.
Print Assumptions arp_pool_partition.

(* two routes through 0/4, ageing and clean-up timers in between: entry 1 stays *)
Example arp_route_case :
  match play cfg3 [] (arp_init cfg3)
    [OResolve 0 4 1 true true; OInc 1; OLearn 0 4 104 false 2 true; OResolve 0 4 3 true true; OInc 1;
     OAge 5000; ORemove 1; ODec 1; OAge 9000; OLearn 0 6 106 false 9001 true] with
  | Some (t, s) => names cfg3 s 1 0 4 /\ held t 1 = 1 /\ get_mac_by_idx s 1 = Some 104 /\ afree s = [3%nat]
  | None => False end.
Proof. vm_compute. repeat split; auto; lia. Qed.

(* "arp flush" recycles an entry a route still refers to: the route to gateway
   0/4 now sends to the MAC of 0/6 *)
Theorem arp_flush_recycles_route_entry_refuted :
  exists t s, history cfg3 t s /\
    rcs t = [(COk, None, Some 1%nat, [], []); (COk, None, None, [], []); (COk, None, None, [], []);
             (COk, None, Some 1%nat, [], [])] /\
    map (fun x => snd (fst x)) (rev t) = [OResolve 0 4 1 true true; OInc 1; OFlush; OLearn 0 6 106 false 3 true] /\
    get_mac_by_idx s 1 = Some 106 /\ last_mac cfg3 t 0 4 = None.
Proof.
  pose proof (play_history cfg3 [OResolve 0 4 1 true true; OInc 1; OFlush; OLearn 0 6 106 false 3 true]) as H.
  destruct (play _ _ _ _) as [[t s]|] eqn:E; [|exfalso; vm_compute in E; discriminate].
  exists t, s. split; [exact H|]. clear H. vm_compute in E. injection E as <- <-. vm_compute. auto.
Qed.
Print Assumptions arp_flush_recycles_route_entry_refuted.

(* add_route finds the entry and takes its reference in two separate critical
   sections: ageing between them recycles the entry for another address *)
Definition cfg1 : acfg := mkC (fun v ip => Z.to_nat ((v + ip) mod 2)) 1 2 100.
Theorem arp_add_route_race_refuted :
  exists t s, history cfg1 t s /\
    map (fun x => snd (fst x)) (rev t) = [OResolve 0 4 1 true true; OAge 5000; OLearn 0 6 106 false 5001 true; OInc 1] /\
    r_idx (snd (last t (s, OFlush, mkR COk None None [] []))) = Some 1%nat /\
    held t 1 = 1 /\ names cfg1 s 1 0 6 /\ get_mac_by_idx s 1 = Some 106.
Proof.
  pose proof (play_history cfg1 [OResolve 0 4 1 true true; OAge 5000; OLearn 0 6 106 false 5001 true; OInc 1]) as H.
  destruct (play _ _ _ _) as [[t s]|] eqn:E; [|exfalso; vm_compute in E; discriminate].
  exists t, s. split; [exact H|]. clear H. vm_compute in E. injection E as <- <-. vm_compute. repeat split; auto.
Qed.
Print Assumptions arp_add_route_race_refuted.

(* ---- C33 ---- *)
(* every accepted packet is, at any time, exactly one of: waiting, handed to
   output, or dropped without being freed; so none is sent twice *)
Theorem arp_packets_conserved_partial c t s : history c t s ->
  Permutation (waiting c s ++ all_sent t ++ all_lost t) (all_accepted t) /\
  pfree s + Z.of_nat (length (waiting c s)) = NPKT /\ 0 <= pfree s.
Proof. intros H. split; [now apply hist_conserve|]. now destruct (hist_inv c t s H) as [_ P]. Qed.
Print Assumptions arp_packets_conserved_partial.

(* when the address resolves, exactly the packets accepted for it since it was
   last resolved or removed are handed to output, each once, newest first *)
Theorem arp_learn_sends_pending_partial c t s v ip mac man now cok s' r :
  (forall a b, (hash c a b < nset c)%nat) -> history c t s -> 0 <= v < 65536 ->
  astep c s (OLearn v ip mac man now cok) = Ret (s', r) -> r_rc r = COk ->
  r_sent r = pending c t v ip /\ r_lost r = [].
Proof.
  intros HH H Hv E RC. destruct (hist_eff c t s (OLearn v ip mac man now cok) s' r H Hv E) as (I & I' & EF).
  pose proof (hist_view c t s v ip HH H) as V. unfold view in V. injection V as _ V.
  inversion EF; subst; [|discriminate]. cbn. split; [|auto]. rewrite <- V. unfold pend.
  match goal with X : names c s _ v ip \/ _ |- _ => rename X into X0 end. destruct X0 as [X|[X Y]].
  - apply (lookup_some c s v ip _ I) in X. now rewrite X.
  - destruct (arp_lookup s (hash c v ip) v ip) eqn:L.
    + apply (lookup_some c s v ip _ I) in L. now apply Y in L.
    + now destruct (free_compl c s _ I X) as (_ & -> & _).
Qed.
Print Assumptions arp_learn_sends_pending_partial.

(* a packet is refused, not queued, exactly when no entry or no cell is left;
   otherwise it waits, and packets already waiting are untouched *)
Theorem arp_output_outcome c t s pkt nh lo v ip idx now tok cok tst s' r :
  history c t s -> op_ok c s (OOutput pkt nh lo v ip idx now tok cok tst) ->
  astep c s (OOutput pkt nh lo v ip idx now tok cok tst) = Ret (s', r) ->
  r_sent r = [] /\ r_lost r = [] /\
  ((r_rc r = CContinue /\ r_mac r <> None /\ waiting c s' = waiting c s) \/
   (r_rc r = CDrop /\ r_mac r = None /\ Permutation (waiting c s') (waiting c s)) \/
   (r_rc r = CProcessed /\ r_mac r = None /\ Permutation (waiting c s') ((pkt, nh) :: waiting c s))).
Proof.
  intros H OK E. destruct (hist_eff c t s _ s' r H OK E) as (I & I' & EF). pose proof (conserve c s _ s' r I OK EF) as C.
  inversion EF; subst; cbn in C |- *; rewrite ?app_nil_r in C; (split; [auto|]; split; [auto|]).
  - left. split; [auto|]. split; [discriminate|]. now apply waiting_quiet.
  - right. left. auto.
  - right. left. auto.
  - right. right. auto.
Qed.
Print Assumptions arp_output_outcome.

(* arrival order is not kept, and packets whose entry times out are not freed *)
Theorem arp_waiting_order_refuted :
  exists t s, history cfg3 t s /\
    all_accepted t = [(72, 0); (71, 0)] /\         (* newest first: 71 arrived before 72 *)
    all_sent t = [(72, 0); (71, 0)] /\             (* handed to output in this order *)
    map (fun x => snd (fst x)) (rev t) =
      [OOutput 71 0 true 0 4 0 1 true true true; OOutput 72 0 true 0 4 0 1 true true true; OLearn 0 4 104 false 2 true].
Proof.
  pose proof (play_history cfg3 [OOutput 71 0 true 0 4 0 1 true true true; OOutput 72 0 true 0 4 0 1 true true true; OLearn 0 4 104 false 2 true]) as H.
  destruct (play _ _ _ _) as [[t s]|] eqn:E; [|exfalso; vm_compute in E; discriminate].
  exists t, s. split; [exact H|]. clear H. vm_compute in E. injection E as <- <-. vm_compute. auto.
Qed.
Print Assumptions arp_waiting_order_refuted.
Theorem arp_timeout_leaks_packets_refuted :
  exists t s, history cfg3 t s /\ all_accepted t = [(71, 0)] /\ all_sent t = [] /\ waiting cfg3 s = [] /\ all_lost t = [(71, 0)] /\
    map (fun x => snd (fst x)) (rev t) = [OOutput 71 0 true 0 4 0 1 true true true; ORemove 1].
Proof.
  pose proof (play_history cfg3 [OOutput 71 0 true 0 4 0 1 true true true; ORemove 1]) as H.
  destruct (play _ _ _ _) as [[t s]|] eqn:E; [|exfalso; vm_compute in E; discriminate].
  exists t, s. split; [exact H|]. clear H. vm_compute in E. injection E as <- <-. vm_compute. auto 10.
Qed.
Print Assumptions arp_timeout_leaks_packets_refuted.

(* two addresses with packets waiting, one through a gateway *)
Example arp_pending_case :
  match play cfg3 [] (arp_init cfg3)
    [OResolve 0 4 1 true true; OInc 1; OOutput 70 9 false 0 4 1 2 true true true; OOutput 71 0 true 0 8 0 2 true true true;
     OOutput 72 9 false 0 4 1 3 true true true; OOutput 73 0 true 0 4 0 3 true true true] with
  | Some (t, s) => pending cfg3 t 0 4 = [(73, 0); (72, 9); (70, 9)] /\ pending cfg3 t 0 8 = [(71, 0)] /\
      match astep cfg3 s (OLearn 0 4 104 false 4 true) with
      | Ret (s', r) => r_sent r = [(73, 0); (72, 9); (70, 9)] /\ waiting cfg3 s' = [(71, 0)] /\ pfree s' = 2047
      | _ => False end
  | None => False end.
Proof. vm_compute. auto. Qed.
