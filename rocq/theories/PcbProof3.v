From Verif Require Import Base PcbModel PcbSpec PcbProof PcbProof2.
Ltac Zify.zify_post_hook ::= idtac.

(* ---- choosing a port ---- *)
Definition free_for (d : db) (wild : bool) (a l : Z) : Prop := ~ clash d wild a l.
Definition wild_of (p : pcb) : bool := negb (o_addr p) && negb (o_port p).

Lemma lookup_free c d wild a l : Inv c d -> exists r, lookup_local c d a l wild = Ret r /\
  match r with None => free_for d wild a l | Some j => clash d wild a l /\ exists q, pcbs d j = Some q end.
Proof.
  intros I. destruct wild.
  - destruct (lookup_local_wild c d a l I) as (r & E & K). exists r. split; [exact E|]. destruct r as [j|]; [|exact K]. destruct K as (p & K1 & K2 & K3). split; [exists j, p; auto|]. exists p. apply K1.
  - destruct (lookup_local_exact c d a l I) as (r & E & K). exists r. split; [exact E|]. destruct r as [j|]; [|intros (j & Hj); apply (K j Hj)]. split; [exists j; exact K|]. destruct K as (p & K1 & _). exists p. apply K1.
Qed.

Definition nxt (lo hi last : Z) : Z := let x := u16 (last + 1) in if (x <? lo) || (x >? hi) then lo else x.
Lemma nxt_range lo hi last : lo <= hi -> lo <= nxt lo hi last <= hi.
Proof. intros H. unfold nxt. destruct (Z.ltb_spec (u16 (last + 1)) lo); cbn [orb]; [lia|]. destruct (u16 (last + 1) >? hi) eqn:E; rewrite Z.gtb_ltb in E; [lia|]. apply Z.ltb_ge in E. lia. Qed.
Lemma nxt_step lo hi x : 0 < lo -> hi <= 65535 -> lo <= x <= hi -> nxt lo hi x = lo + (x - lo + 1) mod (hi - lo + 1).
Proof.
  intros H1 H2 H3. unfold nxt. destruct (Z.eq_dec x hi) as [->|N].
  - replace (hi - lo + 1) with (1 * (hi - lo + 1)) at 1 by lia. rewrite Z.mod_mul by lia. rewrite Z.add_0_r.
    destruct (Z.ltb_spec (u16 (hi + 1)) lo); cbn [orb]; [reflexivity|]. destruct (u16 (hi + 1) >? hi) eqn:E; [reflexivity|]. rewrite Z.gtb_ltb in E. apply Z.ltb_ge in E. unfold u16 in *.
    destruct (Z.eq_dec hi 65535) as [->|N]; [change ((65535 + 1) mod 65536) with 0 in *; lia|]. rewrite Z.mod_small in * by lia. lia.
  - rewrite Z.mod_small by lia. unfold u16. rewrite Z.mod_small by lia. destruct (Z.ltb_spec (x + 1) lo); [lia|]. cbn [orb]. rewrite Z.gtb_ltb. destruct (Z.ltb_spec hi (x + 1)); lia.
Qed.

Lemma lport_loop_ok c d wild a lo hi n last : Inv c d -> 0 < lo -> hi <= 65535 -> lo <= hi ->
  exists r last', lport_loop c d n lo hi a wild last = Ret (r, last') /\
  match r with
  | Some l => lo <= l <= hi /\ free_for d wild a l
  | None => forall k, 0 <= k < Z.of_nat n -> clash d wild a (lo + (nxt lo hi last - lo + k) mod (hi - lo + 1))
  end.
Proof.
  intros I H1 H2 H3. revert last. induction n as [|n IH]; intros last.
  - exists None, last. split; [reflexivity|]. intros k Hk. lia.
  - cbn [lport_loop]. fold (nxt lo hi last). pose proof (nxt_range lo hi last H3) as R. set (s := nxt lo hi last) in *.
    destruct (lookup_free c d wild a s I) as (r & E & K). rewrite E. cbn [obind]. destruct r as [j|].
    + destruct (IH s) as (r & last' & Er & Kr). exists r, last'. split; [exact Er|]. destruct r as [l|]; [exact Kr|]. intros k Hk. destruct (Z.eq_dec k 0) as [->|Nk].
      * rewrite Z.add_0_r, Z.mod_small by lia. replace (lo + (s - lo)) with s by lia. apply K.
      * specialize (Kr (k - 1) ltac:(lia)). rewrite (nxt_step lo hi s H1 H2 R) in Kr. replace (lo + (s - lo + 1) mod (hi - lo + 1) - lo + (k - 1)) with ((s - lo + 1) mod (hi - lo + 1) + (k - 1)) in Kr by lia.
        rewrite Z.add_mod_idemp_l in Kr by lia. replace (s - lo + 1 + (k - 1)) with (s - lo + k) in Kr by lia. exact Kr.
    + exists (Some s), s. split; [reflexivity|]. split; [exact R|exact K].
Qed.
Lemma pick_port_ok c d a wild rnd : good_conf c -> Inv c d ->
  exists x r, pick_port c d a wild rnd = Ret (set_last d x, r) /\
  match r with
  | Some l => port_lo c <= l <= port_hi c /\ free_for d wild a l
  | None => forall l, port_lo c <= l <= port_hi c -> clash d wild a l
  end.
Proof.
  intros (G1 & G2 & _) I. unfold pick_port. fold (port_lo c). fold (port_hi c). match goal with |- context [lport_loop c d _ _ _ a wild ?x] => set (last := x) end.
  assert (L : 0 < port_lo c /\ port_hi c <= 65535 /\ port_lo c <= port_hi c) by (unfold port_lo, port_hi; lia). destruct L as (L1 & L2 & L3).
  destruct (lport_loop_ok c d wild a (port_lo c) (port_hi c) (S (Z.to_nat (port_hi c - port_lo c))) last I L1 L2 L3) as (r & x & E & K). rewrite E. cbn [obind fst snd]. exists x, r. split; [reflexivity|].
  destruct r as [l|]; [exact K|]. intros l Hl. pose proof (nxt_range (port_lo c) (port_hi c) last L3) as R. set (lo := port_lo c) in *. set (hi := port_hi c) in *. set (s := nxt lo hi last) in *.
  specialize (K ((l - s) mod (hi - lo + 1))). pose proof (Z.mod_pos_bound (l - s) (hi - lo + 1) ltac:(lia)) as Mb. specialize (K ltac:(lia)).
  rewrite Z.add_mod_idemp_r in K by lia. replace (s - lo + (l - s)) with (l - lo) in K by lia. rewrite Z.mod_small in K by lia. replace (lo + (l - lo)) with l in K by lia. exact K.
Qed.

(* ---- bind ---- *)
Definition anon_ok (c : conf) (d : db) (wild : bool) (a : Z) (e : err) (l' : Z) : Prop :=
  (e = OK /\ port_lo c <= l' <= port_hi c /\ free_for d wild a l') \/
  (e = EADDRNOTAVAIL /\ forall l, port_lo c <= l <= port_hi c -> clash d wild a l).
Lemma bind_setup_none c d i p la rnd : good_conf c -> Inv c d -> pcbs d i = Some p ->
  exists x e a' l', bind_setup c d i None la 0 rnd = Ret (set_last d x, e, a', l') /\
  ((c_primary c = None /\ e = EADDRNOTAVAIL) \/ (c_primary c <> None /\ anon_ok c d (wild_of p) la e l' /\ (e = OK -> a' = la))).
Proof.
  intros G I E. unfold bind_setup, get. rewrite E. cbn [obind]. destruct (c_primary c) as [pa|]; [|exists (last_port d), EADDRNOTAVAIL, la, 0; split; [destruct d; reflexivity|left; auto]].
  cbn [negb Z.eqb]. fold (wild_of p). destruct (pick_port_ok c d la (wild_of p) rnd G I) as (x & r & Er & K). rewrite Er. cbn [obind]. destruct r as [l|].
  - exists x, OK, la, l. split; [reflexivity|]. right. split; [discriminate|]. split; [left; auto|reflexivity].
  - exists x, EADDRNOTAVAIL, la, 0. split; [reflexivity|]. right. split; [discriminate|]. split; [right; auto|discriminate].
Qed.
Definition named_ok (c : conf) (d : db) (p : pcb) (a q : Z) (e : err) (l' : Z) : Prop :=
  (~ usable c (fib p) a /\ e = EADDRNOTAVAIL) \/
  (usable c (fib p) a /\ q = 0 /\ anon_ok c d (wild_of p) a e l') \/
  (usable c (fib p) a /\ q <> 0 /\ ((e = OK /\ l' = q /\ free_for d (wild_of p) a q) \/ (e = EADDRINUSE /\ clash d (wild_of p) a q))).
Lemma bind_setup_some c d i p a q rnd : good_conf c -> Inv c d -> pcbs d i = Some p ->
  exists x e a' l', bind_setup c d i (Some (a, q)) 0 0 rnd = Ret (set_last d x, e, a', l') /\ named_ok c d p a q e l' /\ (e = OK -> a' = a).
Proof.
  intros G I E. unfold bind_setup, get. rewrite E. cbn [obind]. assert (Sl : d = set_last d (last_port d)) by (destruct d; reflexivity).
  assert (U : usable c (fib p) a <-> c_primary c <> None /\ (negb (multicast a) && negb (a =? 0) && negb (c_local c (fib p) a) = false)).
  { unfold usable. destruct (Z.eqb_spec a 0); destruct (multicast a); destruct (c_local c (fib p) a); cbn; intuition congruence. }
  destruct (c_primary c) as [pa|]; [|exists (last_port d), EADDRNOTAVAIL, 0, 0; split; [rewrite <- Sl; reflexivity|split; [left; split; [intros K; apply U in K; destruct K; contradiction|reflexivity]|discriminate]]].
  fold (wild_of p). change (negb (0 =? 0)) with false. cbv beta iota. rewrite Bool.andb_false_r. cbv beta iota.
  destruct (negb (multicast a) && negb (a =? 0) && negb (c_local c (fib p) a)) eqn:Eu.
  - exists (last_port d), EADDRNOTAVAIL, 0, 0. split; [rewrite <- Sl; reflexivity|]. split; [left; split; [intros K; apply U in K; destruct K; discriminate|reflexivity]|discriminate].
  - assert (U' : usable c (fib p) a) by (apply U; split; [discriminate|reflexivity]). destruct (Z.eqb_spec q 0) as [->|Nq].
    + cbn [Z.eqb]. destruct (pick_port_ok c d a (wild_of p) rnd G I) as (x & r & Er & K). rewrite Er. cbn [obind]. destruct r as [l|].
      * exists x, OK, a, l. split; [reflexivity|]. split; [right; left; split; [exact U'|split; [reflexivity|left; auto]]|reflexivity].
      * exists x, EADDRNOTAVAIL, 0, 0. split; [reflexivity|]. split; [right; left; split; [exact U'|split; [reflexivity|right; auto]]|discriminate].
    + apply Z.eqb_neq in Nq. rewrite Nq. apply Z.eqb_neq in Nq. destruct (lookup_free c d (wild_of p) a q I) as (r & Er & K). rewrite Er. cbn [obind]. destruct r as [j|].
      * destruct K as [K (y & Ey)]. unfold get. rewrite Ey. cbn [obind]. destruct (v_ok c d I j y Ey) as (_ & _ & _ & _ & Ro). rewrite Ro. cbn [negb]. rewrite Bool.orb_true_r.
        exists (last_port d), EADDRINUSE, 0, 0. split; [rewrite <- Sl; reflexivity|]. split; [right; right; split; [exact U'|split; [exact Nq|right; auto]]|discriminate].
      * cbn [obind]. exists (last_port d), OK, a, q. split; [rewrite <- Sl; reflexivity|]. split; [right; right; split; [exact U'|split; [exact Nq|left; auto]]|reflexivity].
Qed.

(* the result of binding socket i: others untouched, and the socket holds a:l or nothing *)
Definition same_opts (p p' : pcb) : Prop := o_addr p' = o_addr p /\ o_port p' = o_port p /\ fib p' = fib p.
Definition is_at (d : db) (i : nat) (p : pcb) (la lp fa fp : Z) : Prop :=
  exists p', holds d i p' /\ laddr p' = la /\ lport p' = lp /\ faddr p' = fa /\ fport p' = fp /\ same_opts p p' /\ dropped p' = false.
Lemma live_unbound c d i p : Inv c d -> pcbs d i = Some p -> dropped p = false -> laddr p = 0 -> lport p = 0 -> unbound p.
Proof.
  intros I E D A L. destruct (v_ok c d I i p E) as (O1 & O2 & O3 & O4 & O5). assert (hashed p = false) by (destruct (hashed p); [destruct (O3 eq_refl L)|reflexivity]).
  split; [assumption|]. split; [exact D|]. split; [exact A|]. split; [exact L|]. destruct (O1 H) as [K|(_ & _ & K)]; [congruence|exact K].
Qed.
Lemma live_bound c d i p : Inv c d -> pcbs d i = Some p -> dropped p = false -> laddr p <> 0 \/ lport p <> 0 \/ faddr p <> 0 -> holds d i p.
Proof. intros I E D A. split; [exact E|]. destruct (v_ok c d I i p E) as (O1 & _). destruct (hashed p); [reflexivity|]. destruct (O1 eq_refl) as [K|(K1 & K2 & K3)]; [congruence|]. destruct A as [A|[A|A]]; contradiction. Qed.

(* inserting an unbound socket at a:l *)
Lemma insert_ok c d i p a l mem : Inv c d -> pcbs d i = Some p -> unbound p -> l <> 0 ->
  (exists d', inshash c (set_pcb d i (with_local p a l)) i mem = Ret (d', true) /\ Inv c d' /\ is_at d' i p a l 0 0 /\ others_same d d' i) \/
  (inshash c (set_pcb d i (with_local p a l)) i mem = Ret (set_pcb d i (with_local p a l), false) /\ mem = false).
Proof.
  intros I E (U1 & U2 & U3 & U4 & U5) Hl. destruct (v_ok c d I i p E) as (O1 & O2 & O3 & O4 & O5).
  destruct (ins_lemma c d i (with_local p a l) mem I) as (d' & [(K1 & K2 & K3 & K4 & _)|[K1 K2]]).
  - rewrite E. exact U1.
  - exact U1.
  - repeat split; cbn; auto; try discriminate. congruence.
  - left. exists d'. split; [exact K1|]. split; [exact K2|]. split; [|exact K4]. eexists. split; [split; [exact K3|reflexivity]|]. cbn. repeat split; auto.
  - right. auto.
Qed.
Lemma undo_ok c d x i p : Inv c d -> pcbs d i = Some p -> unbound p -> Inv c (set_pcb (set_pcb d i x) i (with_local p 0 0)) /\ (forall j, pcbs (set_pcb (set_pcb d i x) i (with_local p 0 0)) j = pcbs d j).
Proof.
  intros I E (U1 & U2 & U3 & U4 & U5). assert (Ep : with_local p 0 0 = p) by (destruct p; cbn in *; subst; reflexivity). rewrite Ep.
  assert (F : forall j, pcbs (set_pcb (set_pcb d i x) i p) j = pcbs d j) by (intros j; cbn; destruct (Nat.eq_dec j i) as [->|N]; [rewrite upd_eq; congruence|rewrite !upd_neq by exact N; reflexivity]).
  split; [|exact F]. apply (inv_frame c d _ i I); try reflexivity; [intros j _; apply F|rewrite E; exact U1|rewrite F, E; split; [exact U1|apply (v_ok c d I i p E)]].
Qed.

Definition bind_post (c : conf) (d d' : db) (i : nat) (p : pcb) (nam : option (Z * Z)) (e : err) (mem : bool) : Prop :=
  (e = OK /\ exists a l, is_at d' i p a l 0 0 /\ others_same d d' i /\ free_for d (wild_of p) a l /\
     match nam with
     | None => c_primary c <> None /\ a = 0 /\ port_lo c <= l <= port_hi c
     | Some (a0, q) => usable c (fib p) a0 /\ a = a0 /\ ((q = 0 /\ port_lo c <= l <= port_hi c) \/ (q <> 0 /\ l = q))
     end) \/
  ((forall j, pcbs d' j = pcbs d j) /\
   ((e = EAGAIN /\ mem = false) \/
    match nam with
    | None => e = EADDRNOTAVAIL /\ (c_primary c = None \/ forall l, port_lo c <= l <= port_hi c -> clash d (wild_of p) 0 l)
    | Some (a0, q) => (e = EADDRNOTAVAIL /\ (~ usable c (fib p) a0 \/ (q = 0 /\ forall l, port_lo c <= l <= port_hi c -> clash d (wild_of p) a0 l))) \/
                      (e = EADDRINUSE /\ q <> 0 /\ usable c (fib p) a0 /\ clash d (wild_of p) a0 q)
    end)).
Lemma set_last_free d x w a l : free_for (set_last d x) w a l <-> free_for d w a l.
Proof. unfold free_for, clash, taken, bound_to, holds. cbn. tauto. Qed.

Lemma bind_ok c d i p nam rnd mem : good_conf c -> Inv c d -> pcbs d i = Some p -> dropped p = false -> laddr p = 0 -> lport p = 0 ->
  exists d' e, pcbbind c d i nam rnd mem = Ret (d', e) /\ Inv c d' /\ bind_post c d d' i p nam e mem.
Proof.
  intros G I E D A L. pose proof (live_unbound c d i p I E D A L) as U. unfold pcbbind, get. rewrite E. cbn [obind]. rewrite A, L. cbn [negb Z.eqb orb].
  assert (Fin : forall x a l, l <> 0 -> (forall d', is_at d' i p a l 0 0 -> others_same d d' i -> bind_post c d d' i p nam OK mem) ->
     exists d' e, obind (inshash c (set_pcb (set_last d x) i (with_local p a l)) i mem) (fun r => match r with (d, true) => Ret (d, OK) | (d, false) => Ret (set_pcb d i (with_local p 0 0), EAGAIN) end) = Ret (d', e) /\ Inv c d' /\ bind_post c d d' i p nam e mem).
  { intros x a l Hl H. pose proof (inv_last c d x I) as I'. destruct (insert_ok c (set_last d x) i p a l mem I' E U Hl) as [(d' & K1 & K2 & K3 & K4)|[K1 K2]].
    - rewrite K1. cbn [obind]. exists d', OK. split; [reflexivity|]. split; [exact K2|]. apply H; [exact K3|intros j Nj; apply (K4 j Nj)].
    - rewrite K1. cbn [obind]. destruct (undo_ok c (set_last d x) (with_local p a l) i p I' E U) as [J1 J2]. eexists _, EAGAIN. split; [reflexivity|]. split; [exact J1|]. right. split; [exact J2|]. left. auto. }
  pose proof G as (G1 & G2 & _). assert (Pos : 0 < port_lo c) by (unfold port_lo; lia).
  destruct nam as [[a q]|].
  - destruct (bind_setup_some c d i p a q rnd G I E) as (x & e & a' & l' & K1 & K2 & K3). rewrite K1. cbn [obind].
    assert (Err : e <> OK -> exists d' e0, Ret (set_last d x, e) = Ret (d', e0) /\ Inv c d' /\ bind_post c d d' i p (Some (a, q)) e0 mem).
    { intros Ne. exists (set_last d x), e. split; [reflexivity|]. split; [apply inv_last; exact I|]. right. split; [reflexivity|]. right.
      destruct K2 as [[K2 ->]|[(K2 & Kq & [[-> _]|[-> Kf]])|(K2 & Kq & [[-> _]|[-> Kf]])]]; try contradiction; [left; auto|left; split; [reflexivity|right; auto]|right; auto]. }
    destruct e; try (apply Err; discriminate). rewrite (K3 eq_refl). destruct K2 as [[_ K2]|[(K2 & Kq & [(_ & Kl & Kf)|[Kf _]])|(K2 & Kq & [(_ & -> & Kf)|[Kf _]])]]; try discriminate.
    + apply Fin; [lia|]. intros d' H1 H2. left. split; [reflexivity|]. exists a, l'. split; [exact H1|]. split; [exact H2|]. split; [exact Kf|]. split; [exact K2|]. split; [reflexivity|left; auto].
    + apply Fin; [exact Kq|]. intros d' H1 H2. left. split; [reflexivity|]. exists a, q. split; [exact H1|]. split; [exact H2|]. split; [exact Kf|]. split; [exact K2|]. split; [reflexivity|right; auto].
  - destruct (bind_setup_none c d i p 0 rnd G I E) as (x & e & a' & l' & K1 & K2). rewrite K1. cbn [obind].
    assert (Err : e <> OK -> exists d' e0, Ret (set_last d x, e) = Ret (d', e0) /\ Inv c d' /\ bind_post c d d' i p None e0 mem).
    { intros Ne. exists (set_last d x), e. split; [reflexivity|]. split; [apply inv_last; exact I|]. right. split; [reflexivity|]. right.
      destruct K2 as [[K2 ->]|(K2 & [[-> _]|[-> Kf]] & _)]; try contradiction; [auto|split; [reflexivity|right; auto]]. }
    destruct e; try (apply Err; discriminate). destruct K2 as [[_ K2]|(K2 & [(_ & Kl & Kf)|[Kf _]] & Ka)]; try discriminate. rewrite (Ka eq_refl).
    apply Fin; [lia|]. intros d' H1 H2. left. split; [reflexivity|]. exists 0, l'. split; [exact H1|]. split; [exact H2|]. split; [exact Kf|]. split; [exact K2|]. split; [reflexivity|exact Kl].
Qed.
