(* C113, C114. *)
From Verif Require Import Base Pcb6Model Pcb6Spec Pcb6Proof Pcb6Step.
Ltac Zify.zify_post_hook ::= idtac.

Definition opsock (o : op) : nat :=
  match o with
  | Attach4 i | Attach6 i _ | Share i _ | Bind4 i _ _ _ | Bind6 i _ _ _ | Connect6 i _ _ _ _ | Disconnect6 i | Close i => i
  end.
Definition clash (d : db) (s : bool) (a : addr) (q : Z) : Prop :=
  if s then exists j, bound6 d a q j else taken6 d a q.
(* what can become of the socket of a call *)
Definition fate (d d' : db) (o : op) : Prop :=
  pcbs d' (opsock o) = None \/
  exists p', pcbs d' (opsock o) = Some p' /\
    ((share p' = false /\ hashed p' = false) \/
     exists p, pcbs d (opsock o) = Some p /\ (share p' = share p \/ exists b, o = Share (opsock o) b) /\
       (hashed p' = false \/ v6 p' = false \/ fa p' <> any \/ o = Disconnect6 (opsock o) \/
        (hashed p = true /\ v6 p' = v6 p /\ la p' = la p /\ lp p' = lp p /\ fa p' = fa p) \/
        ~ clash d (share p) (la p') (lp p'))).

Lemma holds_set d i p p' j q : pcbs d i = Some p -> hashed p = false -> hashed p' = false ->
  (holds (set_pcb d i p') j q <-> holds d j q).
Proof.
  intros E H1 H2. unfold holds, set_pcb. cbn [pcbs]. destruct (Nat.eq_dec j i) as [->|N].
  - rewrite upd_eq. split; intros [A B]; [injection A as <-; congruence|congruence].
  - rewrite upd_ne by exact N. reflexivity.
Qed.
Lemma clash_set d i p p' s a q : pcbs d i = Some p -> hashed p = false -> hashed p' = false ->
  (clash (set_pcb d i p') s a q <-> clash d s a q).
Proof.
  intros E H1 H2. unfold clash, bound6, taken6. destruct s.
  - split; intros (j & r & H & K); exists j, r; (split; [|exact K]); apply (holds_set d i p p' j r E H1 H2); exact H.
  - split; intros (j & r & H & K); exists j, r; (split; [|exact K]); apply (holds_set d i p p' j r E H1 H2); exact H.
Qed.

Lemma step_ok h d o : Inv h d -> legal d o ->
  exists d' e, step h d o = Ret (d', e) /\ Inv h d' /\ same_but d d' (opsock o) /\ fate d d' o.
Proof.
  intros I L. destruct o as [i|i b|i b|i a q cands|i a q cands|i f fq src cands|i|i]; cbn [step opsock]; cbn [legal] in L.
  - eexists _, OK. split; [reflexivity|]. split; [apply inv_new; auto|].
    split; [intros j N; unfold set_pcb; cbn [pcbs]; apply upd_ne, N|].
    right. cbn [opsock]. unfold set_pcb. cbn [pcbs]. rewrite upd_eq. eexists. split; [reflexivity|]. left. auto.
  - eexists _, OK. split; [reflexivity|]. split; [apply inv_new; auto; discriminate|].
    split; [intros j N; unfold set_pcb; cbn [pcbs]; apply upd_ne, N|].
    right. cbn [opsock]. unfold set_pcb. cbn [pcbs]. rewrite upd_eq. eexists. split; [reflexivity|]. left. auto.
  - destruct (pcbs d i) as [p|] eqn:E; [|congruence]. rewrite (get_some _ _ _ E). cbn [obind].
    eexists _, OK. split; [reflexivity|].
    split; [apply (inv_set h d i p); auto; [intros H; apply (i_new _ _ I i p E H)|intros V; apply (i_v _ _ I i p E V)]|].
    split; [intros j N; unfold set_pcb; cbn [pcbs]; apply upd_ne, N|].
    right. cbn [opsock]. unfold set_pcb. cbn [pcbs]. rewrite upd_eq. eexists. split; [reflexivity|]. right.
    exists p. split; [exact E|]. split; [right; eauto|].
    destruct (hashed p) eqn:Hp; [right; right; right; right; left; auto 10|left; exact Hp].
  - destruct L as ((p & E & V) & Hc). rewrite (get_some _ _ _ E). cbn [obind].
    assert (Same : fate d d (Bind4 i a q cands)).
    { right. cbn [opsock]. exists p. split; [exact E|]. right. exists p. split; [exact E|]. auto. }
    destruct (negb (lp p =? 0) || negb (is_any (la p))) eqn:B.
    { exists d, EINVAL. split; [reflexivity|]. split; [exact I|]. split; [intros j _; reflexivity|exact Same]. }
    apply orb_false_iff in B. destruct B as [B1 B2]. apply negb_false_iff in B1, B2. apply Z.eqb_eq in B1.
    assert (Hh : hashed p = false).
    { destruct (hashed p) eqn:Hp; [|reflexivity]. destruct (i_lp _ _ I i p (conj E Hp) B1). }
    destruct (i_new _ _ I i p E Hh) as (L1 & L2 & L3 & L4). destruct (i_v _ _ I i p E V) as (V4 & _ & _).
    assert (Ins : forall q', q' <> 0 -> exists d' e, obind (inshash h (set_pcb d i (with_local p (0, a) q')) i) (fun d => Ret (d, OK)) = Ret (d', e) /\
              Inv h d' /\ same_but d d' i /\ fate d d' (Bind4 i a q cands)).
    { intros q' Nq. destruct (inv_insert h d i p (with_local p (0, a) q') I E Hh Hh Nq L3 L4) as (d' & Ed & I' & S & P).
      { intros _. cbn. rewrite L3. auto. }
      rewrite Ed. cbn [obind]. exists d', OK. split; [reflexivity|]. split; [exact I'|]. split; [exact S|].
      right. cbn [opsock]. eexists. split; [exact P|]. right. exists p. split; [exact E|]. split; [left; reflexivity|]. right. left. exact V. }
    destruct (q =? 0) eqn:Q.
    + destruct (pick_spec h d p (0, a) I cands Hc) as (r & Er & R). rewrite Er. cbn [obind]. destruct r as [q'|].
      * apply Ins. apply R.
      * exists d, EADDRNOTAVAIL. split; [reflexivity|]. split; [exact I|]. split; [intros j _; reflexivity|exact Same].
    + destruct (local4_some h d a q (negb (share p)) I) as (t & Et & _). rewrite Et. cbn [obind]. destruct t as [j|].
      * exists d, EADDRINUSE. split; [reflexivity|]. split; [exact I|]. split; [intros x _; reflexivity|exact Same].
      * apply Ins. apply Z.eqb_neq. exact Q.
  - destruct L as ((p & E & V) & Hc). rewrite (get_some _ _ _ E). cbn [obind]. cbv zeta.
    set (p1 := with_flags p (negb (only p) && is_any a) true).
    assert (I1 : Inv h (set_pcb d i p1)).
    { apply (inv_set h d i p); auto; [intros H; apply (i_new _ _ I i p E H)|intros V1; discriminate]. }
    assert (E1 : pcbs (set_pcb d i p1) i = Some p1) by (unfold set_pcb; cbn [pcbs]; apply upd_eq).
    assert (S1 : same_but d (set_pcb d i p1) i) by (intros j N; unfold set_pcb; cbn [pcbs]; apply upd_ne, N).
    assert (Same : fate d (set_pcb d i p1) (Bind6 i a q cands)).
    { right. cbn [opsock]. exists p1. split; [exact E1|]. right. exists p. split; [exact E|]. split; [left; reflexivity|].
      destruct (hashed p) eqn:Hp; [|left; exact Hp]. right. right. right. right. left. split; [reflexivity|]. split; [symmetry; exact V|]. auto. }
    destruct (hashed p) eqn:Hp.
    + unfold pcbbind6. rewrite (get_some _ _ _ E1). cbn [obind].
      assert (B : negb (lp p1 =? 0) = true).
      { apply negb_true_iff, Z.eqb_neq. apply (i_lp _ _ I i p (conj E Hp)). }
      rewrite B. cbn [orb]. exists (set_pcb d i p1), EINVAL. auto.
    + destruct (bind6_new h _ i p1 (Some (a, q)) cands I1 E1 eq_refl Hp Hc) as (d' & e & Ee & I' & S & K).
      exists d', e. split; [exact Ee|]. split; [exact I'|].
      split; [intros j N; rewrite (S j N); apply S1, N|].
      destruct K as [(_ & q' & P & C & _)|(-> & _)]; [|exact Same].
      right. cbn [opsock]. eexists. split; [exact P|]. right. exists p. split; [exact E|]. split; [left; reflexivity|].
      right. right. right. right. right. intros C'. apply C. apply (clash_set d i p p1 _ _ _ E Hp Hp) in C'. exact C'.
  - destruct L as ((p & E & V) & Nf & Ns & Hc). rewrite (get_some _ _ _ E). cbn [obind].
    destruct (is_any (fa p)) eqn:F; cbn [negb].
    2:{ exists d, EISCONN. split; [reflexivity|]. split; [exact I|]. split; [intros j _; reflexivity|].
        right. cbn [opsock]. exists p. split; [exact E|]. right. exists p. apply any_false in F. auto 10. }
    apply any_iff in F. set (p1 := with_flags p false true).
    assert (I1 : Inv h (set_pcb d i p1)).
    { apply (inv_set h d i p); auto; [intros H; apply (i_new _ _ I i p E H)|intros V1; discriminate]. }
    assert (E1 : pcbs (set_pcb d i p1) i = Some p1) by (unfold set_pcb; cbn [pcbs]; apply upd_eq).
    assert (S1 : same_but d (set_pcb d i p1) i) by (intros j N; unfold set_pcb; cbn [pcbs]; apply upd_ne, N).
    assert (Same : fate d (set_pcb d i p1) (Connect6 i f fq src cands)).
    { right. cbn [opsock]. exists p1. split; [exact E1|]. right. exists p. split; [exact E|]. split; [left; reflexivity|].
      destruct (hashed p) eqn:Hp; [|left; exact Hp]. right. right. right. right. left. split; [reflexivity|]. split; [symmetry; exact V|]. auto. }
    unfold pcbconnect6. rewrite (get_some _ _ _ E1). cbn [obind].
    destruct (fq =? 0) eqn:Q. { exists (set_pcb d i p1), EADDRNOTAVAIL. auto. }
    destruct (lookup6_exact h (set_pcb d i p1) f fq (if is_any (la p1) then src else la p1) (lp p1) I1) as (t & Et & _).
    rewrite Et. cbn [obind]. destruct t as [x|]. { exists (set_pcb d i p1), EADDRINUSE. auto. }
    assert (Fin : forall d2 p2, Inv h d2 -> same_but (set_pcb d i p1) d2 i -> holds d2 i p2 -> v6 p2 = true -> share p2 = share p ->
      exists d' e, obind (get d2 i) (fun p => obind (rehash h (set_pcb d2 i (with_foreign (if is_any (la p) then with_local p src (lp p) else p) f fq)) i)
         (fun d => Ret (d, OK))) = Ret (d', e) /\ Inv h d' /\ same_but d d' i /\ fate d d' (Connect6 i f fq src cands)).
    { intros d2 p2 I2 S2 H2 V2 Sh. rewrite (get_some _ _ _ (proj1 H2)). cbn [obind].
      set (p3 := with_foreign (if is_any (la p2) then with_local p2 src (lp p2) else p2) f fq).
      assert (A : hashed p3 = true /\ lp p3 = lp p2 /\ fa p3 = f /\ v6 p3 = true /\ share p3 = share p).
      { unfold p3. destruct H2 as [_ H2]. destruct (is_any (la p2)); cbn; auto. }
      destruct A as (A1 & A2 & A3 & A4 & A5).
      destruct (inv_rehash h d2 i p2 p3 I2 H2 A1 A2) as (d' & Ed & I' & S' & P).
      { intros Z. congruence. } { intros Z. congruence. }
      rewrite Ed. cbn [obind]. exists d', OK. split; [reflexivity|]. split; [exact I'|].
      split; [intros j N; rewrite (S' j N), (S2 j N); apply S1, N|].
      right. cbn [opsock]. exists p3. split; [exact P|]. right. exists p. split; [exact E|]. split; [left; exact A5|].
      right. right. left. congruence. }
    destruct (is_any (la p1) && (lp p1 =? 0)) eqn:B.
    + apply andb_prop in B. destruct B as [_ B]. apply Z.eqb_eq in B.
      assert (Hp : hashed p1 = false).
      { destruct (hashed p1) eqn:Hp; [|reflexivity]. destruct (i_lp _ _ I1 i p1 (conj E1 Hp) B). }
      destruct (bind6_new h _ i p1 None cands I1 E1 eq_refl Hp Hc) as (d2 & e & Ee & I2 & S2 & K). rewrite Ee. cbn [obind].
      destruct K as [(-> & q' & P & _)|(-> & [->| ->] & _)].
      * apply (Fin d2 _ I2 S2 (conj P eq_refl)); reflexivity.
      * exists (set_pcb d i p1), EADDRINUSE. auto.
      * exists (set_pcb d i p1), EADDRNOTAVAIL. auto.
    + cbn [obind]. assert (Hp : hashed p1 = true).
      { destruct (hashed p1) eqn:Hp; [reflexivity|]. destruct (i_new _ _ I1 i p1 E1 Hp) as (L1 & L2 & _).
        rewrite L1, L2 in B. discriminate. }
      apply (Fin (set_pcb d i p1) p1 I1); [intros j _; reflexivity|split; assumption|reflexivity|reflexivity].
  - destruct L as (p & E & V). rewrite (get_some _ _ _ E). cbn [obind].
    assert (Fate : forall d', (pcbs d' i = None \/ exists p', pcbs d' i = Some p' /\ share p' = share p) -> fate d d' (Disconnect6 i)).
    { intros d' [Z|(p' & Z & Sh)]; [left; exact Z|]. right. cbn [opsock]. exists p'. split; [exact Z|]. right.
      exists p. split; [exact E|]. split; [left; exact Sh|]. auto. }
    destruct (is_any (fa p)) eqn:F.
    { exists d, ENOTCONN. split; [reflexivity|]. split; [exact I|]. split; [intros j _; reflexivity|]. apply Fate. right. eauto. }
    apply any_false in F. assert (Hp : hashed p = true).
    { destruct (hashed p) eqn:Hp; [reflexivity|]. destruct (i_new _ _ I i p E Hp) as (_ & _ & L3 & _). congruence. }
    destruct (inv_rehash h d i p (with_foreign p any 0) I (conj E Hp) Hp eq_refl) as (d' & Ed & I' & S & P).
    { intros _. reflexivity. } { intros Z. cbn in Z. congruence. }
    rewrite Ed. cbn [obind].
    eexists _, OK. split; [reflexivity|].
    split; [apply (inv_set h d' i (with_foreign p any 0)); auto; intros Z; cbn in Z; congruence|].
    split; [intros j N; unfold set_pcb; cbn [pcbs]; rewrite upd_ne by exact N; apply S, N|].
    apply Fate. right. unfold set_pcb. cbn [pcbs]. rewrite upd_eq. eexists. split; reflexivity.
  - destruct (pcbs d i) as [p|] eqn:E; [|congruence].
    destruct (inv_free h d i p I E) as (d' & Ed & I' & S & P). rewrite Ed. cbn [obind].
    exists d', OK. split; [reflexivity|]. split; [exact I'|]. split; [exact S|]. left. exact P.
Qed.

Lemma inv0 h : Inv h db0.
Proof.
  constructor; unfold db0, holds; cbn; try discriminate.
  - intros k i. split; [intros []|]. intros (p & [E _] & _). discriminate.
  - intros k i. split; [intros []|]. intros (p & [E _] & _). discriminate.
  - intros i p [E _]. discriminate.
  - intros i p [E _]. discriminate.
Qed.
Lemma reach_inv h ops d : reach h ops d -> Inv h d.
Proof.
  induction 1 as [|ops d o d' e R IH L E]; [apply inv0|].
  destruct (step_ok h d o IH L) as (d'' & e' & E' & I' & _). rewrite E in E'. injection E' as -> _. exact I'.
Qed.

(* ---- C113 ---- *)
(* Every legal call of a history returns; *)
Theorem udp6_calls_return : forall h ops d o, reach h ops d -> legal d o -> exists d' e, step h d o = Ret (d', e).
Proof.
  intros h ops d o R L. destruct (step_ok h d o (reach_inv _ _ _ R) L) as (d' & e & E & _). eauto.
Qed.
Print Assumptions udp6_calls_return.

(* an IPv6 packet goes to the IPv6 socket connected to its sender at its destination, else to
   one bound to its destination, else to one bound to its port on any address, else to nobody,
   whatever the hash function; *)
Theorem udp6_delivery : forall h ops d f fq a q, reach h ops d ->
  exists r, lookup6 h d f fq a q true = Ret r /\ receiver6 d f fq a q r.
Proof. intros h ops d f fq a q R. apply lookup6_receiver, (reach_inv _ _ _ R). Qed.
Print Assumptions udp6_delivery.

(* so it never reaches an IPv4 socket *)
Theorem udp6_delivery_only_v6 : forall h ops d f fq a q i, reach h ops d -> lookup6 h d f fq a q true = Ret (Some i) ->
  exists p, holds d i p /\ v6 p = true /\ lp p = q.
Proof.
  intros h ops d f fq a q i R E. destruct (udp6_delivery h ops d f fq a q R) as (r & Er & K).
  rewrite E in Er. injection Er as <-.
  destruct K as [(p & H & V & _ & _ & _ & Q)|[(_ & p & H & V & _ & _ & Q)|(_ & _ & p & H & V & _ & _ & Q)]]; eauto.
Qed.
Print Assumptions udp6_delivery_only_v6.

(* Disconnecting leaves a socket bound to its port on any address and nothing else changed; *)
Theorem udp6_disconnect : forall h ops d i p, reach h ops d -> pcbs d i = Some p -> v6 p = true -> fa p <> any ->
  exists d' p', step h d (Disconnect6 i) = Ret (d', OK) /\ pcbs d' i = Some p' /\
    fa p' = any /\ fp p' = 0 /\ la p' = any /\ lp p' = lp p /\ hashed p' = hashed p /\
    forall j, j <> i -> pcbs d' j = pcbs d j.
Proof.
  intros h ops d i p R E V F.
  assert (L : legal d (Disconnect6 i)) by (exists p; auto).
  destruct (udp6_calls_return _ _ _ _ R L) as (d' & e & S).
  cbn [step] in S. unfold get in S. rewrite E in S. cbn [obind] in S.
  assert (NA : is_any (fa p) = false).
  { unfold is_any. destruct (fa p) as [x y]. cbn [fst snd]. destruct (Z.eqb_spec x 0), (Z.eqb_spec y 0); try reflexivity.
    subst. destruct F. reflexivity. }
  rewrite NA in S. unfold rehash, get, set_pcb in S. cbn [pcbs hash ports] in S. unfold upd in S at 1. rewrite Nat.eqb_refl in S.
  cbn [obind hashed with_foreign] in S. destruct (hashed p) eqn:H; cbn [negb obind] in S; [|discriminate].
  exists d'. eexists. cbn [step]. unfold get. rewrite E. cbn [obind]. rewrite NA.
  unfold rehash, get, set_pcb. cbn [pcbs hash ports]. unfold upd at 1. rewrite Nat.eqb_refl. cbn [obind hashed with_foreign].
  rewrite H. cbn [negb obind]. injection S as <- _. split; [reflexivity|]. cbn [pcbs]. unfold upd at 1. rewrite Nat.eqb_refl.
  split; [reflexivity|]. cbn. repeat (split; [first [reflexivity|exact H]|]).
  intros j Nj. unfold upd. destruct (Nat.eqb_spec j i); [contradiction|reflexivity].
Qed.
Print Assumptions udp6_disconnect.

(* connecting a bound socket either changes no address of it or makes it the one connected to that
   peer, at its own address or, if it has none, at the one chosen for the route. *)
Theorem udp6_connect : forall h ops d i p f fq src cands, reach h ops d -> pcbs d i = Some p -> v6 p = true ->
  f <> any -> src <> any -> Forall (fun x => x <> 0) cands -> fa p = any -> lp p <> 0 ->
  exists d' e, step h d (Connect6 i f fq src cands) = Ret (d', e) /\ exists p', pcbs d' i = Some p' /\ lp p' = lp p /\
    match e with
    | OK => fa p' = f /\ fp p' = fq /\ la p' = (if is_any (la p) then src else la p) /\ fq <> 0
    | EADDRNOTAVAIL => fq = 0 /\ fa p' = any /\ la p' = la p
    | EADDRINUSE => fa p' = any /\ la p' = la p
    | _ => False
    end.
Proof.
  intros h ops d i p f fq src cands R E V Nf Ns Fc Fa Np.
  assert (L : legal d (Connect6 i f fq src cands)) by (split; [exists p; auto|auto]).
  destruct (udp6_calls_return _ _ _ _ R L) as (d' & e & S). exists d', e. split; [exact S|].
  cbn [step] in S. unfold get in S at 1. rewrite E in S. cbn [obind] in S.
  assert (NA : is_any (fa p) = true) by (rewrite Fa; reflexivity). rewrite NA in S. cbn [negb] in S.
  unfold pcbconnect6, get in S. unfold set_pcb at 1 in S. cbn [pcbs] in S. unfold upd at 1 in S. rewrite Nat.eqb_refl in S.
  cbn [obind la lp with_flags] in S.
  destruct (Z.eqb_spec fq 0) as [Q|Q].
  - injection S as <- <-. eexists. split; [cbn; unfold upd; rewrite Nat.eqb_refl; reflexivity|]. cbn. auto.
  - destruct (lookup6 _ _ _ _ _ _ _) as [[t|]| |]; cbn [obind] in S; try discriminate.
    + injection S as <- <-. eexists. split; [cbn; unfold upd; rewrite Nat.eqb_refl; reflexivity|]. cbn. auto.
    + replace (lp p =? 0) with false in S by (symmetry; apply Z.eqb_neq; exact Np). rewrite andb_false_r in S. cbn [obind] in S.
      unfold set_pcb in S at 1. cbn [pcbs] in S. unfold upd at 1 in S. rewrite Nat.eqb_refl in S. cbn [obind la lp with_flags] in S.
      unfold rehash, get, set_pcb in S. cbn [pcbs] in S. unfold upd at 1 in S. rewrite Nat.eqb_refl in S. cbn [obind] in S.
      destruct (negb _) in S; cbn [obind] in S; [discriminate|]. injection S as <- <-.
      eexists. split; [cbn [pcbs]; unfold upd; rewrite Nat.eqb_refl; reflexivity|].
      destruct (is_any (la p)); cbn; auto.
Qed.
Print Assumptions udp6_connect.

(* IPv4 packets are delivered so too, as long as no IPv6 socket has the port. *)
Lemma wild4_spec d a q : forall l w e, ok_list d l -> exists r, wild4 d l a q w e = Ret r /\
  let spec p := snd (fa p) = 0 /\ lp p = q /\ snd (la p) = a in
  let wld p := snd (fa p) = 0 /\ lp p = q /\ snd (la p) = 0 in
  match r with
  | Some i => (e = Some i \/ (e = None /\ exists p, In i l /\ pcbs d i = Some p /\ spec p)) \/
      (e = None /\ (forall j p, In j l -> pcbs d j = Some p -> ~ spec p) /\
       (w = Some i \/ exists p, In i l /\ pcbs d i = Some p /\ wld p))
  | None => e = None /\ w = None /\ forall j p, In j l -> pcbs d j = Some p -> ~ spec p /\ ~ wld p
  end.
Proof.
  induction l as [|i l IH]; intros w e O; cbv zeta in *.
  - eexists. split; [reflexivity|]. destruct e as [x|]; [left; left; reflexivity|].
    destruct w as [x|]; [right; split; [reflexivity|]; split; [intros ? ? []|left; reflexivity]|].
    split; [reflexivity|]. split; [reflexivity|]. intros ? ? [].
  - destruct (ok_cons _ _ _ O) as ((p & E) & O'). cbn [wild4]. unfold get. rewrite E. cbn [obind].
    destruct e as [x|].
    { assert (G : forall l, ok_list d l -> wild4 d l a q w (Some x) = Ret (Some x)).
      { clear. induction l as [|i l IH]; intros O; [reflexivity|]. destruct (ok_cons _ _ _ O) as ((p & E) & O').
        cbn [wild4]. unfold get. rewrite E. cbn [obind]. rewrite (IH O'). destruct (negb _ || negb _); reflexivity. }
      exists (Some x). rewrite (G l O'). split; [destruct (negb _ || negb _); reflexivity|]. left. left. reflexivity. }
    assert (Lift : forall w', (forall r, wild4 d l a q w' None = Ret r ->
        match r with
        | Some i0 => ((@None nat = Some i0 \/ (@None nat = None /\ exists p, In i0 l /\ pcbs d i0 = Some p /\ (snd (fa p) = 0 /\ lp p = q /\ snd (la p) = a))) \/
          (@None nat = None /\ (forall j p, In j l -> pcbs d j = Some p -> ~ (snd (fa p) = 0 /\ lp p = q /\ snd (la p) = a)) /\
           (w' = Some i0 \/ exists p, In i0 l /\ pcbs d i0 = Some p /\ (snd (fa p) = 0 /\ lp p = q /\ snd (la p) = 0))))
        | None => @None nat = None /\ w' = None /\ forall j p, In j l -> pcbs d j = Some p ->
           ~ (snd (fa p) = 0 /\ lp p = q /\ snd (la p) = a) /\ ~ (snd (fa p) = 0 /\ lp p = q /\ snd (la p) = 0)
        end)).
    { intros w' r Er. destruct (IH w' None O') as (r' & Er' & R). rewrite Er in Er'. injection Er' as <-. exact R. }
    assert (Skip : ~ (snd (fa p) = 0 /\ lp p = q /\ snd (la p) = a) -> ~ (snd (fa p) = 0 /\ lp p = q /\ snd (la p) = 0) ->
      exists r, wild4 d l a q w None = Ret r /\
      match r with
      | Some i0 => ((@None nat = Some i0 \/ (@None nat = None /\ exists p, In i0 (i :: l) /\ pcbs d i0 = Some p /\ (snd (fa p) = 0 /\ lp p = q /\ snd (la p) = a))) \/
          (@None nat = None /\ (forall j p, In j (i :: l) -> pcbs d j = Some p -> ~ (snd (fa p) = 0 /\ lp p = q /\ snd (la p) = a)) /\
           (w = Some i0 \/ exists p, In i0 (i :: l) /\ pcbs d i0 = Some p /\ (snd (fa p) = 0 /\ lp p = q /\ snd (la p) = 0))))
      | None => @None nat = None /\ w = None /\ forall j p, In j (i :: l) -> pcbs d j = Some p ->
           ~ (snd (fa p) = 0 /\ lp p = q /\ snd (la p) = a) /\ ~ (snd (fa p) = 0 /\ lp p = q /\ snd (la p) = 0)
      end).
    { intros N1 N2. destruct (IH w None O') as (r & Er & R). exists r. split; [exact Er|]. destruct r as [x|].
      - destruct R as [[R|(_ & p' & R1 & R2)]|(_ & R1 & [R2|(p' & R2 & R3)])].
        + discriminate.
        + left. right. split; [reflexivity|]. exists p'. split; [right; exact R1|exact R2].
        + right. split; [reflexivity|]. split; [|left; exact R2].
          intros j p' [->|Hj] Ep; [rewrite E in Ep; injection Ep as <-; exact N1|eauto].
        + right. split; [reflexivity|]. split; [|right; exists p'; split; [right; exact R2|exact R3]].
          intros j p'' [->|Hj] Ep; [rewrite E in Ep; injection Ep as <-; exact N1|eauto].
      - destruct R as (R1 & R2 & R3). split; [exact R1|]. split; [exact R2|].
        intros j p' [->|Hj] Ep; [rewrite E in Ep; injection Ep as <-; auto|eauto]. }
    destruct (snd (fa p) =? 0) eqn:F; cbn [negb orb].
    2:{ apply Z.eqb_neq in F. apply Skip; tauto. }
    destruct (lp p =? q) eqn:Q; cbn [negb].
    2:{ apply Z.eqb_neq in Q. apply Skip; tauto. }
    apply Z.eqb_eq in F, Q.
    destruct (snd (la p) =? a) eqn:A.
    { apply Z.eqb_eq in A. destruct (IH w (Some i) O') as (r & Er & R). exists r. split; [exact Er|].
      destruct r as [x|]; [|destruct R as [R _]; discriminate].
      destruct R as [[R|(R & _)]|(R & _)]; [|discriminate|discriminate].
      injection R as <-. left. right. split; [reflexivity|]. exists p. split; [left; reflexivity|]. auto. }
    apply Z.eqb_neq in A. destruct (snd (la p) =? 0) eqn:Lz; [|apply Z.eqb_neq in Lz; apply Skip; tauto].
    apply Z.eqb_eq in Lz. destruct (IH (Some i) None O') as (r & Er & R). exists r. split; [exact Er|].
    destruct r as [x|]; [|destruct R as (_ & R & _); discriminate].
    destruct R as [[R|(_ & p' & R1 & R2)]|(_ & R1 & [R2|(p' & R2 & R3)])].
    + discriminate.
    + left. right. split; [reflexivity|]. exists p'. split; [right; exact R1|exact R2].
    + injection R2 as <-. right. split; [reflexivity|]. split; [|right; exists p; split; [left; reflexivity|auto]].
      intros j p' [->|Hj] Ep; [rewrite E in Ep; injection Ep as <-; tauto|eauto].
    + right. split; [reflexivity|]. split; [|right; exists p'; split; [right; exact R2|exact R3]].
      intros j p'' [->|Hj] Ep; [rewrite E in Ep; injection Ep as <-; tauto|eauto].
Qed.

Theorem udp4_delivery_partial : forall h ops d f fq a q, reach h ops d ->
  (forall i p, holds d i p -> lp p = q -> v6 p = false) ->
  exists r, lookup4 h d f fq a q true = Ret r /\ receiver4 d f fq a q r.
Proof.
  intros h ops d f fq a q R No. pose proof (reach_inv _ _ _ R) as I. unfold lookup4.
  destruct (first_spec d (fun p => v4 p && ((snd (fa p) =? f) && (snd (la p) =? a) && (fp p =? fq) && (lp p =? q)))
              _ (ok_hash h d (h f q fq) I)) as (r & Er & K).
  rewrite Er. cbn [obind]. destruct r as [i|].
  - exists (Some i). split; [reflexivity|]. destruct K as (Hi & p & E & F).
    left. exists p. destruct (hashed_in _ _ _ _ _ I Hi E) as [H _].
    apply andb_prop in F. destruct F as [V F]. apply andb_prop in F. destruct F as [F F4].
    apply andb_prop in F. destruct F as [F F3]. apply andb_prop in F. destruct F as [F1 F2].
    apply Z.eqb_eq in F1, F2, F3, F4. auto 10.
  - assert (Nc : forall j, ~ conn4 d f fq a q j).
    { intros j (p & H & V & F1 & F2 & F3 & F4).
      assert (Hj : In j (hash d (h f q fq))) by (apply (i_hash _ _ I); exists p; split; [exact H|congruence]).
      specialize (K j p Hj (proj1 H)). rewrite V, F1, F2, F3, F4, !Z.eqb_refl in K. discriminate. }
    destruct (wild4_spec d a q _ None None (ok_hash h d (h 0 q 0) I)) as (r & Er2 & W). cbv zeta in W.
    rewrite Er2. exists r. split; [reflexivity|].
    assert (V4 : forall j p, holds d j p -> lp p = q -> v4 p = true /\ (snd (fa p) = 0 -> fp p = 0)).
    { intros j p H Q. destruct (i_v _ _ I j p (proj1 H) (No j p H Q)) as (V & _ & F0). split; [exact V|].
      intros F1. apply (i_fp _ _ I j p H). destruct (fa p) as [x y]. cbn [fst snd] in F0, F1. subst. reflexivity. }
    assert (B : forall a' j, bound4 d a' q j -> In j (hash d (h 0 q 0))).
    { intros a' j (p & H & V & F1 & F2 & F3). apply (i_hash _ _ I). exists p. split; [exact H|].
      rewrite (proj2 (V4 j p H F3) F1), F1, F3. reflexivity. }
    destruct r as [i|].
    + right. destruct W as [[W|(_ & p & R1 & R2 & R3)]|(_ & R1 & [R2|(p & R2 & R3 & R4)])]; [discriminate| |discriminate|].
      * left. split; [exact Nc|]. exists p. destruct (hashed_in _ _ _ _ _ I R1 R2) as [H _].
        destruct R3 as (Z1 & Z2 & Z3). pose proof (proj1 (V4 i p H Z2)). auto.
      * right. split; [exact Nc|]. split.
        { intros j Hb. pose proof (B _ _ Hb) as Hj. destruct Hb as (p' & H & Hb). apply (R1 j p' Hj (proj1 H)). tauto. }
        exists p. destruct (hashed_in _ _ _ _ _ I R2 R3) as [H _].
        destruct R4 as (Z1 & Z2 & Z3). pose proof (proj1 (V4 i p H Z2)). auto.
    + destruct W as (_ & _ & W). intros j. split; [apply Nc|]. split.
      * intros Hb. pose proof (B _ _ Hb) as Hj. destruct Hb as (p' & H & Hb). apply (proj1 (W j p' Hj (proj1 H))). tauto.
      * intros Hb. pose proof (B _ _ Hb) as Hj. destruct Hb as (p' & H & Hb). apply (proj2 (W j p' Hj (proj1 H))). tauto.
Qed.
Print Assumptions udp4_delivery_partial.

(* With IPv6 sockets on the port it is false: the test of INP_IPV4 is inside "#ifdef _INET6".
   An IPv6-only socket bound to [::]:5000 before an IPv4 socket is bound to 0.0.0.0:5000 takes
   all its packets; *)
Definition ex_h : hfun := fun f l q => Z.land (Z.lxor (Z.lxor f (Z.shiftr f 16)) (Z.lxor l q)) 511.
Fixpoint run (h : hfun) (ops : list op) (d : db) : db :=
  match ops with
  | [] => d
  | o :: t => match step h d o with Ret (d', _) => run h t d' | _ => d end
  end.
Fixpoint legal_all (h : hfun) (ops : list op) (d : db) : Prop :=
  match ops with
  | [] => True
  | o :: t => legal d o /\ exists r, step h d o = Ret r /\ legal_all h t (fst r)
  end.
Lemma run_reach h : forall ops pre d, reach h pre d -> legal_all h ops d -> reach h (rev ops ++ pre) (run h ops d).
Proof.
  induction ops as [|o t IH]; intros pre d R L; [exact R|].
  destruct L as (L1 & [d' e] & E & L2). cbn [fst] in L2. cbn [rev run]. rewrite E, <- app_assoc.
  apply IH; [|exact L2]. cbn [app]. eapply reachS; eassumption.
Qed.
Ltac legality := repeat (split; [cbn; try reflexivity; try (repeat constructor; discriminate);
   try (split; [eexists; split; vm_compute; reflexivity|repeat constructor; discriminate])
  |eexists; split; [vm_compute; reflexivity|cbn [fst]]]); try exact I.

Theorem udp4_stolen_by_v6only_refuted : exists h ops d i j p, reach h ops d /\
  lookup4 h d 134744072 53 167772161 5000 true = Ret (Some i) /\
  pcbs d i = Some p /\ only p = true /\ v4 p = false /\ i <> j /\ bound4 d 0 5000 j /\
  ~ receiver4 d 134744072 53 167772161 5000 (Some i).
Proof.
  set (ops := [Attach6 0 true; Bind6 0 any 5000 []; Attach4 1; Bind4 1 0 5000 []]).
  exists ex_h, (rev ops ++ []), (run ex_h ops db0), 0%nat, 1%nat. eexists.
  split; [apply run_reach; [constructor|]; unfold ops; cbn [legal_all]; legality|].
  split; [vm_compute; reflexivity|]. split; [vm_compute; reflexivity|]. split; [reflexivity|]. split; [reflexivity|].
  split; [discriminate|]. split.
  - eexists. split; [split; vm_compute; reflexivity|]. repeat split; reflexivity.
  - assert (N : forall p, holds (run ex_h ops db0) 0 p -> v4 p = true -> False).
    { intros p [E _] V. vm_compute in E. injection E as <-. discriminate. }
    intros [(p & H & V & _)|[(_ & p & H & V & _)|(_ & _ & p & H & V & _)]]; exact (N p H V).
Qed.
Print Assumptions udp4_stolen_by_v6only_refuted.

(* a socket bound to the one address 2001:db8::, whose last 32 bits are 0, gets the IPv4
   packets for its port whatever their destination. *)
Theorem udp4_to_v6_address_refuted : exists h ops d i p, reach h ops d /\
  lookup4 h d 134744072 53 167772161 5000 true = Ret (Some i) /\
  pcbs d i = Some p /\ only p = true /\ v4 p = false /\ la p <> any.
Proof.
  set (ops := [Attach6 0 true; Bind6 0 (42540766411282592856903984951653826560 / 4294967296, 0) 5000 []]).
  exists ex_h, (rev ops ++ []), (run ex_h ops db0), 0%nat. eexists.
  split; [apply run_reach; [constructor|]; unfold ops; cbn [legal_all]; legality|].
  split; [vm_compute; reflexivity|]. split; [vm_compute; reflexivity|]. split; [reflexivity|]. split; [reflexivity|].
  discriminate.
Qed.
Print Assumptions udp4_to_v6_address_refuted.

(* ---- C114 ---- *)
(* Binding an unbound IPv6-only socket (the default) to an address and port succeeds exactly
   if they are free among the IPv6 sockets; *)
Theorem udp6_bind_named : forall h ops d i p a q cands, reach h ops d -> pcbs d i = Some p ->
  v6 p = true -> only p = true -> hashed p = false -> q <> 0 -> Forall (fun x => x <> 0) cands ->
  exists d' e, step h d (Bind6 i a q cands) = Ret (d', e) /\ same_but d d' i /\
    (e = OK <-> ~ conflict6 d p a q) /\ (e = OK -> bound6 d' a q i) /\
    (e <> OK -> (e = EADDRINUSE \/ e = EADDRNOTAVAIL) /\ forall j r, holds d' j r <-> holds d j r).
Proof.
  intros h ops d i p a q cands R E V O Hp Nq Hc. pose proof (reach_inv _ _ _ R) as I.
  cbn [step]. rewrite (get_some _ _ _ E). cbn [obind]. cbv zeta.
  set (p1 := with_flags p (negb (only p) && is_any a) true).
  assert (I1 : Inv h (set_pcb d i p1)).
  { apply (inv_set h d i p); auto; [intros H; apply (i_new _ _ I i p E H)|intros V1; discriminate]. }
  assert (E1 : pcbs (set_pcb d i p1) i = Some p1) by (unfold set_pcb; cbn [pcbs]; apply upd_eq).
  destruct (bind6_new h _ i p1 (Some (a, q)) cands I1 E1 eq_refl Hp Hc) as (d' & e & Ee & I' & S & K).
  exists d', e. split; [exact Ee|].
  split; [intros j N; rewrite (S j N); unfold set_pcb; cbn [pcbs]; apply upd_ne, N|].
  unfold bind6_post in K.
  pose proof (clash_set d i p p1 (share p) a q E Hp Hp) as CS. unfold clash in CS.
  change (share p1) with (share p) in K. change (only p1) with (only p) in K. unfold conflict6.
  assert (Qf : (q =? 0) = false) by (apply Z.eqb_neq; exact Nq).
  destruct K as [(-> & q' & P & C & [Z|Z])|(-> & Ke & C)]; [congruence| |].
  - subst q'. split; [split; [intros _ X; apply C, CS; exact X|reflexivity]|]. split; [|congruence]. intros _.
    eexists. split; [split; [exact P|reflexivity]|]. destruct (i_new _ _ I i p E Hp) as (_ & _ & L3 & _).
    cbn. auto.
  - rewrite Qf in C. specialize (C O). apply CS in C.
    split; [split; [intros ->; destruct Ke; discriminate|intros X; destruct (X C)]|].
    split; [intros ->; destruct Ke; discriminate|]. intros _. split; [exact Ke|].
    intros j r. apply (holds_set d i p p1 j r E Hp Hp).
Qed.
Print Assumptions udp6_bind_named.

(* the port found for a bind without one is a free one, *)
Theorem udp6_bind_auto : forall h ops d i p a cands, reach h ops d -> pcbs d i = Some p ->
  v6 p = true -> only p = true -> hashed p = false -> Forall (fun x => x <> 0) cands ->
  exists d' e, step h d (Bind6 i a 0 cands) = Ret (d', e) /\
    (e = OK <-> exists q, In q cands /\ ~ conflict6 d p a q) /\
    (e = OK -> exists q, bound6 d' a q i /\ ~ conflict6 d p a q).
Proof.
  intros h ops d i p a cands R E V O Hp Hc. pose proof (reach_inv _ _ _ R) as I.
  cbn [step]. rewrite (get_some _ _ _ E). cbn [obind]. cbv zeta.
  set (p1 := with_flags p (negb (only p) && is_any a) true).
  assert (I1 : Inv h (set_pcb d i p1)).
  { apply (inv_set h d i p); auto; [intros H; apply (i_new _ _ I i p E H)|intros V1; discriminate]. }
  assert (E1 : pcbs (set_pcb d i p1) i = Some p1) by (unfold set_pcb; cbn [pcbs]; apply upd_eq).
  destruct (i_new _ _ I1 i p1 E1 Hp) as (L1 & L2 & L3 & L4).
  unfold pcbbind6. rewrite (get_some _ _ _ E1). cbn [obind]. rewrite L2, L1.
  change (is_any any) with true. cbn [Z.eqb negb orb obind].
  destruct (pick_spec h (set_pcb d i p1) (with_local p1 a 0) a I1 cands Hc) as (r & Er & Rr). rewrite Er. cbn [obind].
  change (share (with_local p1 a 0)) with (share p) in Rr. change (v6 (with_local p1 a 0)) with true in Rr.
  change (la (with_local p1 a 0)) with a in Rr.
  pose proof (fun q => clash_set d i p p1 (share p) a q E Hp Hp) as CS. unfold clash in CS. unfold conflict6.
  destruct r as [q|].
  - destruct Rr as (Nq & Hq & C). specialize (C eq_refl).
    destruct (inv_insert h (set_pcb d i p1) i p1 (with_local p1 a q) I1 E1 Hp Hp Nq L3 L4) as (d' & Ed & I' & S & P).
    { intros Z. cbn in Z. discriminate. }
    rewrite Ed. cbn [obind]. exists d', OK. split; [reflexivity|].
    assert (C' : ~ (if share p then exists j, bound6 d a q j else taken6 d a q)) by (intros X; apply C, CS, X).
    split; [split; [intros _; eauto|reflexivity]|]. intros _. exists q. split; [|exact C'].
    eexists. split; [split; [exact P|reflexivity]|]. cbn. auto.
  - specialize (Rr eq_refl). eexists _, EADDRNOTAVAIL. split; [reflexivity|].
    split; [split; [discriminate|]|discriminate]. intros (q & Hq & C). exfalso. apply C, CS, Rr, Hq.
Qed.
Print Assumptions udp6_bind_auto.

(* and no two IPv6 sockets share a port on overlapping addresses, as long as none may share
   (SO_REUSEADDR, SO_REUSEPORT) and none is disconnected. *)
Theorem udp6_bind_exclusive_partial : forall h ops d, reach h ops d ->
  (forall i b, ~ In (Share i b) ops) -> (forall i, ~ In (Disconnect6 i) ops) ->
  forall i j a b q, bound6 d a q i -> bound6 d b q j -> overlap a b -> i = j.
Proof.
  intros h ops d R Ns Nd.
  cut ((forall i p, pcbs d i = Some p -> share p = false) /\
       (forall i j a b q, bound6 d a q i -> bound6 d b q j -> overlap a b -> i = j)); [intros [_ X]; exact X|].
  induction R as [|ops d o d' e R IH L S].
  - split; [discriminate|]. intros i j a b q (p & [E _] & _). discriminate.
  - destruct IH as [IS IE]; [intros i b X; apply (Ns i b); right; exact X|intros i X; apply (Nd i); right; exact X|].
    destruct (step_ok h d o (reach_inv _ _ _ R) L) as (d'' & e' & E' & _ & SB & F).
    rewrite S in E'. injection E' as <- _. set (i0 := opsock o) in *.
    assert (Sh : forall p', pcbs d' i0 = Some p' -> share p' = false).
    { intros p' P. destruct F as [F|(p'' & F & G)]; fold i0 in F; [congruence|].
      assert (p'' = p') by congruence. subst p''.
      destruct G as [[G _]|(p & Ep & [G|(b & G)] & _)]; [exact G|rewrite G; apply (IS _ _ Ep)|].
      exfalso. apply (Ns i0 b). left. exact G. }
    split; [intros i p P; destruct (Nat.eq_dec i i0) as [->|N]; [apply Sh, P|rewrite (SB i N) in P; apply (IS _ _ P)]|].
    (* what is bound now was, except the socket of the call *)
    assert (Old : forall j a q, j <> i0 -> bound6 d' a q j -> bound6 d a q j).
    { intros j a q N (p & [E H] & K). exists p. split; [split; [rewrite <- (SB j N); exact E|exact H]|exact K]. }
    assert (New : forall a q, bound6 d' a q i0 -> bound6 d a q i0 \/ ~ taken6 d a q).
    { intros a q (p & [E H] & V & Fa & La & Q). destruct F as [F|(p' & F & G)]; fold i0 in F; [congruence|].
      assert (p' = p) by congruence. subst p'.
      destruct G as [[_ G]|(p0 & E0 & _ & G)]; [congruence|].
      destruct G as [G|[G|[G|[G|[(G0 & G1 & G2 & G3 & G4)|G]]]]].
      - congruence.
      - congruence.
      - congruence.
      - exfalso. apply (Nd i0). left. exact G.
      - left. exists p0. split; [split; assumption|]. split; [congruence|]. split; [congruence|]. split; congruence.
      - right. rewrite (IS _ _ E0) in G. cbn [clash] in G. rewrite <- La, <- Q. exact G. }
    assert (Tk : forall a b q j, bound6 d b q j -> overlap a b -> taken6 d a q).
    { intros a b q j (p & H & V & _ & La & Q) O. exists j, p. split; [exact H|]. split; [exact V|]. split; [exact Q|].
      rewrite La. unfold overlap in *. destruct O as [O|[O|O]]; auto. }
    assert (Sy : forall a b, overlap a b -> overlap b a) by (unfold overlap; intros a b [O|[O|O]]; auto).
    intros i j a b q Bi Bj O. destruct (Nat.eq_dec i i0) as [->|Ni], (Nat.eq_dec j i0) as [->|Nj]; [reflexivity| | |].
    + destruct (New a q Bi) as [B|B]; [apply (IE i0 j a b q B (Old j b q Nj Bj) O)|].
      destruct B. exact (Tk a b q j (Old j b q Nj Bj) O).
    + destruct (New b q Bj) as [B|B]; [apply (IE i i0 a b q (Old i a q Ni Bi) B O)|].
      destruct B. exact (Tk b a q i (Old i a q Ni Bi) (Sy _ _ O)).
    + exact (IE i j a b q (Old i a q Ni Bi) (Old j b q Nj Bj) O).
Qed.
Print Assumptions udp6_bind_exclusive_partial.

(* A bind that fails is not without effect: a socket serving IPv4 and IPv6 on a port stops
   being an IPv4 socket when a second bind is refused. *)
Theorem udp6_failed_bind_effect_refuted : exists h ops d d' i p p', reach h ops d /\
  pcbs d i = Some p /\ v4 p = true /\ step h d (Bind6 i (1, 1) 80 []) = Ret (d', EINVAL) /\
  pcbs d' i = Some p' /\ v4 p' = false.
Proof.
  set (ops := [Attach6 0 false; Bind6 0 any 5000 []]).
  exists ex_h, (rev ops ++ []), (run ex_h ops db0). eexists. exists 0%nat. eexists. eexists.
  split; [apply run_reach; [constructor|]; unfold ops; cbn [legal_all]; legality|].
  split; [vm_compute; reflexivity|]. split; [reflexivity|].
  split; [vm_compute; reflexivity|]. split; [vm_compute; reflexivity|]. reflexivity.
Qed.
Print Assumptions udp6_failed_bind_effect_refuted.

(* a history with two IPv6 sockets, one connected: both kinds of delivery happen *)
Example udp6_ex : exists d, reach ex_h (rev [Attach6 0 true; Bind6 0 any 5000 []; Attach6 1 true; Connect6 1 (8, 9) 53 (7, 1) [5000; 5001]]) d /\
  lookup6 ex_h d (8, 9) 53 (7, 1) 5001 true = Ret (Some 1%nat) /\ lookup6 ex_h d (8, 9) 54 (7, 1) 5000 true = Ret (Some 0%nat) /\
  lookup6 ex_h d (8, 9) 54 (7, 1) 5001 true = Ret None.
Proof.
  eexists. split.
  - pose proof (run_reach ex_h [Attach6 0 true; Bind6 0 any 5000 []; Attach6 1 true; Connect6 1 (8, 9) 53 (7, 1) [5000; 5001]] [] db0 (reach0 _)) as R.
    rewrite app_nil_r in R. apply R. cbn [legal_all]. legality.
  - repeat split; vm_compute; reflexivity.
Qed.
