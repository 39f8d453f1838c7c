(* Life time of TCP sockets and the queues of a listening socket (C78-C80). *)
From Verif Require Import Base LifeModel LifeSpec LifeInv LifeLocal LifeStep LifeNew LifeOps LifeOps2 LifeOps3 LifeOps4 LifeOps5 LifeAll.
Ltac Zify.zify_post_hook ::= idtac.

(* ---------- C78: memory safety and ownership ---------- *)

Theorem life_every_call_completes : forall N M s o, 0 <= M -> reach N M s -> legal s o ->
  exists s' r, step M s o = Ret (s', r).
Proof.
  intros N M s o HM R LG. destruct (step_ok N M s o HM (reach_INV _ _ _ HM R) LG) as (s' & r & E & _). eauto.
Qed.

Lemma pending_qs : forall N s i, INV N X0 s ->
  (pending s i <-> exists so, s_so s i = Some so /\ so_qs so <> QNone).
Proof.
  intros N s i IV. split.
  - intros (h & hs & Hh & I1). destruct (i_queue _ _ _ IV h hs Hh) as (_ & _ & _ & _ & _ & Q1 & Q2).
    apply in_app_iff in I1. destruct I1 as [I1 | I1]; [destruct (Q1 i I1) as (so & A & B & _) | destruct (Q2 i I1) as (so & A & B & _)];
      exists so; split; auto; congruence.
  - intros (so & Hi & HQ). pose proof (i_back _ _ _ IV i so Hi (fun x => x)) as B.
    destruct (so_qs so); [congruence | |]; destruct B as (h & hs & _ & Hh & I1); exists h, hs; split; auto; apply in_app_iff; auto.
Qed.

Lemma kept_ref : forall N s i, INV N X0 s ->
  (kept_by_tcp s i <-> exists so p q, s_so s i = Some so /\ so_pcb so = Some p /\ s_pcb s p = Some q /\ p_sockref q = true).
Proof.
  intros N s i IV. split.
  - intros (p & q & Hq & PS & DR & SR). destruct (slot_p _ _ _ _ _ _ IV Hq PS) as (so & Hi & Hp & _). exists so, p, q. auto.
  - intros (so & p & q & Hi & Hp & Hq & SR).
    destruct (slot _ _ _ _ _ IV Hi) as (p0 & q0 & A & B & C & D & L & _). destruct (L (fun x => x)) as [CM _].
    assert (p0 = p) by congruence. subst p0. assert (q0 = q) by congruence. subst q0.
    exists p, q. split; [exact Hq | split; [exact C | split; [apply CM; exact SR | exact SR]]].
Qed.

(* every slot has exactly one owner *)
Theorem life_one_owner : forall N M s i, 0 <= M -> reach N M s -> 0 <= i < Z.of_nat N -> exists! o, owned s i o.
Proof.
  intros N M s i HM R HI. pose proof (reach_INV _ _ _ HM R) as IV.
  pose proof (i_free _ _ _ IV i) as FR. pose proof (pending_qs N s i IV) as PQ. pose proof (kept_ref N s i IV) as KR.
  destruct (s_so s i) as [so |] eqn:E.
  - assert (NF : ~ In i (s_free s)) by (rewrite FR; intros [_ K]; discriminate).
    destruct (slot _ _ _ _ _ IV E) as (p & q & Hp & Hq & C & D & L & _). destruct (L (fun x => x)) as [CM RO]. clear L.
    assert (PQ' : pending s i <-> so_qs so <> QNone).
    { rewrite PQ. split; [intros (x & A & B); congruence | eauto]. }
    assert (KR' : kept_by_tcp s i <-> p_sockref q = true).
    { rewrite KR. split; [intros (x & y & z & A1 & A2 & A3 & A4); congruence |]. intros K. exists so, p, q. auto. }
    clear PQ KR FR. unfold role in RO.
    assert (DONE : forall o, owned s i o -> (forall o', owned s i o' -> o = o') -> exists! o, owned s i o) by (intros o A B; exists o; split; auto).
    destruct (s_user s i) eqn:U.
    { destruct RO as (RC & _ & _ & RQ & RS & _). apply (DONE OUser); [exact U |].
      intros []; cbn; try rewrite PQ'; intros K; try reflexivity; exfalso; try tauto; try congruence; destruct K as [K1 K2]; congruence. }
    destruct (s_call s i) eqn:CC.
    + destruct RO as (_ & _ & RQ). destruct (so_qs so) eqn:QS.
      * destruct RQ as [RS _]. apply (DONE OTcp); [cbn; rewrite U, CC, KR'; auto |].
        intros []; cbn; rewrite ?PQ'; intros K; try reflexivity; exfalso; try tauto; try congruence; destruct K as [K1 K2]; congruence.
      * destruct RQ as (_ & RS & _). apply (DONE OPending); [cbn; rewrite PQ'; congruence |].
        intros []; cbn; rewrite ?KR'; intros K; try reflexivity; exfalso; try tauto; try congruence; destruct K as [K1 K2]; try congruence; destruct K2; congruence.
      * destruct RQ as ((_ & RS & _) & _). apply (DONE OPending); [cbn; rewrite PQ'; congruence |].
        intros []; cbn; rewrite ?KR'; intros K; try reflexivity; exfalso; try tauto; try congruence; destruct K as [K1 K2]; try congruence; destruct K2; congruence.
    + apply (DONE OCall); [cbn; rewrite CC; split; discriminate |].
      assert (RQ : so_qs so = QNone) by apply RO.
      intros []; cbn; rewrite ?PQ', ?CC; intros K; try reflexivity; exfalso; try tauto; try congruence. destruct K as (_ & K & _); discriminate.
    + apply (DONE OCall); [cbn; rewrite CC; split; discriminate |].
      assert (RQ : so_qs so = QNone) by apply RO.
      intros []; cbn; rewrite ?PQ', ?CC; intros K; try reflexivity; exfalso; try tauto; try congruence. destruct K as (_ & K & _); discriminate.
    + apply (DONE OCall); [cbn; rewrite CC; split; discriminate |].
      assert (RQ : so_qs so = QNone) by apply RO.
      intros []; cbn; rewrite ?PQ', ?CC; intros K; try reflexivity; exfalso; try tauto; try congruence. destruct K as (_ & K & _); discriminate.
    + apply (DONE OCall); [cbn; rewrite CC; split; discriminate |].
      assert (RQ : so_qs so = QNone) by apply RO.
      intros []; cbn; rewrite ?PQ', ?CC; intros K; try reflexivity; exfalso; try tauto; try congruence. destruct K as (_ & K & _); discriminate.
    + apply (DONE OCall); [cbn; rewrite CC; split; discriminate |].
      assert (RQ : so_qs so = QNone) by apply RO.
      intros []; cbn; rewrite ?PQ', ?CC; intros K; try reflexivity; exfalso; try tauto; try congruence. destruct K as (_ & K & _); discriminate.
    + apply (DONE OLost); [exact CC |].
      assert (RQ : so_qs so = QNone) by apply RO.
      intros []; cbn; rewrite ?PQ', ?CC; intros K; try reflexivity; exfalso; try tauto; try congruence. destruct K as (_ & K & _); discriminate.
  - destruct (i_idle _ _ _ IV i E) as [U CC]. exists OFree. split; [apply FR; auto |].
    intros []; cbn; rewrite ?PQ, ?KR, ?U, ?CC; intros K; try reflexivity; exfalso; try tauto; try congruence.
    + destruct K as (x & K & _); congruence.
    + destruct K as (_ & _ & x & y & z & K & _); congruence.
Qed.

(* outside the table nothing is owned *)
Theorem life_in_range : forall N M s i o, 0 <= M -> reach N M s -> owned s i o -> 0 <= i < Z.of_nat N.
Proof.
  intros N M s i o HM R O. pose proof (reach_INV _ _ _ HM R) as IV.
  destruct (s_so s i) as [so |] eqn:E; [eapply (i_range _ _ _ IV); exact E |].
  destruct (i_idle _ _ _ IV i E) as [U CC].
  destruct o; cbn in O; rewrite ?U, ?CC in O; try tauto; try congruence.
  - apply (i_free _ _ _ IV i). exact O.
  - apply (pending_qs N s i IV) in O. destruct O as (x & K & _); congruence.
  - destruct O as (_ & _ & O). apply (kept_ref N s i IV) in O. destruct O as (x & y & z & K & _); congruence.
Qed.

(* a descriptor is handed out only when nobody holds it *)
Theorem life_fresh_descriptor : forall N M s o s' i, 0 <= M -> reach N M s -> legal s o ->
  (exists aok, o = Socket aok) \/ (exists j, o = AcceptEnd j) ->
  step M s o = Ret (s', RFd i) -> s_user s i = false /\ s_user s' i = true /\ forall j, j <> i -> s_user s' j = s_user s j.
Proof.
  intros N M s o s' i HM R LG [[aok ->] | [j ->]] E; pose proof (reach_INV _ _ _ HM R) as IV.
  - cbn [step] in E. unfold socket_call in E. destruct (s_free s) as [| k rest] eqn:FR; [discriminate |].
    destruct aok; cbn [negb] in E; [| discriminate]. injection E as <- <-.
    assert (FI : In k (s_free s)) by (rewrite FR; left; reflexivity). apply (i_free _ _ _ IV k) in FI. destruct FI as [_ FI].
    split; [apply (i_idle _ _ _ IV k FI) |]. cbn. split; [apply upd_eq |]. intros x n. apply upd_neq; exact n.
  - cbn [step legal] in *. destruct (busy_slot N s j IV) as (so & p & q & Hi & Hp & Hq & PS & HL & L & G); [right; congruence |].
    unfold accept_end in E. rewrite G in E. destruct (so_nofd so); cbn [negb] in E; [| discriminate].
    destruct (so_disced so || p_tw q || p_dropped q); [discriminate |]. injection E as <- <-.
    split.
    + destruct (s_user s j) eqn:U; [| reflexivity]. destruct L as [_ L]. unfold role in L. destruct L as [L _]. congruence.
    + cbn. split; [apply upd_eq |]. intros x n. apply upd_neq; exact n.
Qed.

(* sockets and PCBs refer to each other; a PCB without socket is in TIME_WAIT *)
Theorem life_no_stray_pcb : forall N M s, 0 <= M -> reach N M s ->
  (forall i so, s_so s i = Some so -> exists p q, so_pcb so = Some p /\ s_pcb s p = Some q /\ p_sock q = Some i) /\
  (forall p q, s_pcb s p = Some q ->
     (exists i so, p_sock q = Some i /\ s_so s i = Some so /\ so_pcb so = Some p) \/
     (p_sock q = None /\ p_tw q = true /\ p_dropped q = false)).
Proof.
  intros N M s HM R. pose proof (reach_INV _ _ _ HM R) as IV. split; [apply (i_pcb _ _ _ IV) |].
  intros p q Hq. destruct (i_sock _ _ _ IV p q Hq) as (_ & A & B). destruct (p_sock q) as [i |].
  - left. destruct (A i eq_refl) as (so & C & D). exists i, so. auto.
  - right. split; [reflexivity |]. destruct (B eq_refl) as (C & D & _). auto.
Qed.

(* the last holder gives the slot back: close() of a descriptor ends with the
   slot free, or kept by a TCP that has not finished; and a TCP that finishes
   with a socket it alone kept gives it back in the same step *)
Theorem life_close_releases : forall N M s i, 0 <= M -> reach N M s -> legal s (Close3 i) ->
  exists s' r, step M s (Close3 i) = Ret (s', r) /\ (owned s' i OFree \/ owned s' i OTcp).
Proof.
  intros N M s i HM R LG. pose proof (reach_INV _ _ _ HM R) as IV. destruct (step_ok N M s (Close3 i) HM IV LG) as (s' & r & E & IV' & _).
  exists s', r. split; [exact E |]. destruct LG as [LG1 LG2].
  destruct (busy_slot N s i IV) as (so & p & q & Hi & Hp & Hq & PS & HL & L & G); [right; congruence |].
  destruct L as [_ RO]. unfold role in RO. destruct (s_user s i) eqn:U; [brk; congruence |]. rewrite LG1 in RO.
  assert (B : (s_user s' i = false /\ s_call s' i = CNone /\ (forall so', s_so s' i = Some so' -> so_qs so' = QNone))).
  { cbn [step] in E. unfold close3, get_so in E. rewrite Hi in E. destruct RO as (R1 & R2 & R3 & _). rewrite R1, R2 in E. cbn [Z.leb Z.compare] in E.
    set (so1 := set_count (set_nofd so true) (1 - 1)) in *. replace (so_count so1) with 0 in E by (destruct so; reflexivity). cbn [Z.eqb] in E.
    set (s1 := set_call (put_so s i so1) i CNone) in *.
    assert (SF : forall a b, sofree a i = Ret b -> (forall x, s_user b x = s_user a x) /\ (forall x, s_call b x = s_call a x) /\ (b = a \/ s_so b i = None)).
    { intros a b. unfold sofree, get_so. destruct (s_so a i) as [y |]; [| discriminate]. destruct (sohasrefs y); [intros K; injection K as <-; auto |].
      unfold sofree_dequeue, detach, get_so, get_pcb. intros K.
      destruct (so_head y) as [hd |]; [destruct (so_qs y) | destruct (so_qs y)]; cbn [obind] in K; try discriminate K;
      try destruct (s_so a hd); try discriminate K; try destruct (mem i (so_incq s0)); cbn [obind] in K; try discriminate K;
      (destruct (so_accept y && negb match so_incq y, so_compq y with [], [] => true | _, _ => false end); cbn [obind] in K; try discriminate K);
      (destruct (so_pcb y) as [py |]; cbn [obind] in K; try discriminate K);
      cbn in K; destruct (s_pcb a py) as [qy |]; cbn [obind] in K; try discriminate K;
      (destruct (p_sock qy) as [jy |]; cbn [obind] in K; try discriminate K);
      (destruct (negb (jy =? i)); cbn [obind] in K; try discriminate K);
      repeat match type of K with obind (if ?b then _ else _) _ = _ => destruct b; cbn [obind] in K end;
      injection K as <-; cbn; (split; [reflexivity | split; [reflexivity | right; apply upd_eq]]). }
    destruct (sofree s1 i) as [s2 | |] eqn:SE; cbn [obind] in E; try discriminate E. injection E as <- <-.
    destruct (SF s1 s2 SE) as (A1 & A2 & A3). rewrite A1, A2. unfold s1; cbn. rewrite upd_eq. split; [exact U | split; [reflexivity |]].
    intros so' Hso. destruct A3 as [-> | A3]; [| congruence]. unfold s1 in Hso; cbn in Hso. rewrite upd_eq in Hso. injection Hso as <-. destruct so; exact R3. }
  destruct B as (B1 & B2 & B3). destruct (s_so s' i) as [so' |] eqn:E'.
  - right. cbn. split; [exact B1 | split; [exact B2 |]]. apply (kept_ref N s' i IV').
    destruct (slot _ _ _ _ _ IV' E') as (p' & q' & P1 & P2 & P3 & P4 & L & _). destruct (L (fun x => x)) as [_ RO'].
    unfold role in RO'. rewrite B1, B2, (B3 so' eq_refl) in RO'. exists so', p', q'. destruct RO' as (_ & _ & K & _). auto.
  - left. cbn. apply (i_free _ _ _ IV'). split; [eapply (i_range _ _ _ IV); exact Hi | exact E'].
Qed.

Theorem life_tcp_end_releases : forall N M s o p q i s' r, 0 <= M -> reach N M s -> legal s o ->
  (exists e, o = PDrop p e) \/ (exists b, o = PTwStart p b) \/ o = PTwClose p ->
  s_pcb s p = Some q -> p_sock q = Some i -> owned s i OTcp ->
  step M s o = Ret (s', r) -> owned s' i OFree.
Proof.
  intros N M s o p q i s' r HM R LG HO Hq PS O E. pose proof (reach_INV _ _ _ HM R) as IV.
  destruct O as (U & CC & O). apply (kept_ref N s i IV) in O. destruct O as (so & p0 & q0 & Hi & Hp & Hq0 & SR).
  destruct (slot_p _ _ _ _ _ _ IV Hq PS) as (so1 & Hi1 & Hp1 & HL & L & G). specialize (L (fun x => x)).
  assert (so1 = so) by congruence. subst so1. assert (p0 = p) by congruence. subst p0. assert (q0 = q) by congruence. subst q0. clear Hi1 Hp1 Hq0.
  pose proof L as [C _].
  assert (K : exists s'' r'', step M s o = Ret (s'', r'') /\ good N s s'' /\ (s_call s i = CNone -> s_so s'' i = None)).
  { destruct HO as [[e ->] | [[b ->] | ->]]; cbn [step legal] in *.
    - destruct LG as (q1 & Hq1 & TW & DR & _). assert (q1 = q) by congruence. subst q1.
      unfold p_drop, get_ps, get_pcb, get_so. rewrite Hq, PS, Hi.
      destruct (tcp_drop_ref so q e HL C SR TW DR) as (so' & q' & A1 & A2 & A3 & A4 & A5 & A6 & A7). rewrite A1. cbn [obind].
      eapply (finish_rel_strong N s i so p q); eauto. apply A3.
    - destruct LG as (q1 & Hq1 & TW & DR & ST). assert (q1 = q) by congruence. subst q1.
      unfold p_twstart, get_ps, get_pcb, get_so. rewrite Hq, PS, Hi. destruct b.
      + replace (p_sockref (p_set_tw q)) with (p_sockref q) by (destruct q; reflexivity).
        replace (so_protoref (soisdisconnected so)) with (so_protoref so) by (destruct so; reflexivity).
        assert (PR : so_protoref so = true) by (destruct C as (C1 & _); congruence). rewrite PR, SR.
        unfold T_FIN_WAIT_1, T_CLOSING, T_FIN_WAIT_2 in ST.
        eapply (finish_rel_strong N s i so p q); eauto; destruct so, q; cbn in *; subst; try reflexivity; try (right; reflexivity).
        * cok.
        * keptok.
      + destruct (tcp_close_ref so q HL C SR) as (A1 & A2 & A3). rewrite A1. cbn [obind].
        eapply (finish_rel_strong N s i so p q); eauto.
    - destruct LG as (q1 & Hq1 & TW & DR). assert (q1 = q) by congruence. subst q1.
      unfold p_twclose, get_pcb, get_so. rewrite Hq, TW. cbn [negb].
      replace (p_sock (p_set_dropped q)) with (p_sock q) by (destruct q; reflexivity).
      replace (p_sockref (p_set_dropped q)) with (p_sockref q) by (destruct q; reflexivity).
      assert (PR : so_protoref so = true) by (destruct C as (C1 & _); congruence). rewrite PS, Hi, SR, PR.
      eapply (finish_rel_strong N s i so p q); eauto; destruct so, q; cbn in *; subst; try reflexivity; try (right; reflexivity).
      + cok.
      + keptok. }
  destruct K as (s'' & r'' & E' & [IV' _] & K). assert (s'' = s') by congruence. subst s''. cbn.
  apply (i_free _ _ _ IV'). split; [eapply (i_range _ _ _ IV); exact Hi | apply K; exact CC].
Qed.

(* ---------- C79: the queues of a listening socket ---------- *)

(* every run has a list of the connections that became ready on [h] *)
Theorem life_completed_total : forall M h s tr s', run M s tr s' -> exists l, completed M h s tr l s'.
Proof.
  intros M h s tr s' R. induction R as [s | s o s1 r tr s2 LG E R [l IH]]; [exists []; constructor |].
  assert (D : (exists p i, o = PConnected p /\ r = RFd i /\ listener_of s p = Some h) \/
              (forall p i, o = PConnected p -> r = RFd i -> listener_of s p <> Some h)).
  { destruct o; try (right; intros; discriminate). destruct r; try (right; intros; discriminate).
    destruct (listener_of s p) as [g |] eqn:LO; [destruct (Z.eq_dec g h) as [-> | n] |].
    - left. exists p, fd. auto.
    - right. intros p0 i K _. injection K as <-. congruence.
    - right. intros p0 i K _. injection K as <-. congruence. }
  destruct D as [(p & i & -> & -> & LO) | D]; [exists (i :: l); eapply co_ready; eauto | exists l; eapply co_other; eauto].
Qed.

Lemma completed_run : forall M h s tr l s', completed M h s tr l s' -> run M s tr s'.
Proof. intros M h s tr l s' C. induction C; econstructor; eauto. Qed.

(* accept() delivers the connections in the order in which they became ready,
   each of them once, and none that did not *)
Theorem life_accept_fifo : forall N M h s hs tr l s', 0 <= M -> reach N M s ->
  s_so s h = Some hs -> s_user s h = true -> completed M h s tr l s' -> not_closed h tr ->
  exists hs', s_so s' h = Some hs' /\ s_user s' h = true /\ so_compq hs ++ l = taken h tr ++ so_compq hs'.
Proof.
  intros N M h s hs tr l s' HM R Hh Hu C NC. pose proof (reach_INV _ _ _ HM R) as IV. clear R. revert hs Hh Hu IV NC.
  induction C as [s | s p i s1 tr l s2 LG E LO C IH | s o s1 r tr l s2 LG E NL C IH]; intros hs Hh Hu IV NC.
  - exists hs. cbn [taken app]. rewrite app_nil_r. auto.
  - destruct (step_ok N M s (PConnected p) HM IV LG) as (s1' & r' & E' & IV1 & EF).
    assert (s1' = s1) by congruence. subst s1'. assert (r' = RFd i) by congruence. subst r'.
    destruct (EF h hs Hh Hu) as (hs1 & A1 & A2 & A3 & _); [discriminate |].
    cbn [comp_now take_now app] in A3. rewrite LO, Z.eqb_refl in A3.
    destruct (IH hs1 A1 A2 IV1) as (hs' & B1 & B2 & B3). { intros r K. apply (NC r). right. exact K. }
    exists hs'. split; [exact B1 | split; [exact B2 |]]. cbn [taken]. rewrite <- B3, <- A3, <- app_assoc. reflexivity.
  - destruct (step_ok N M s o HM IV LG) as (s1' & r' & E' & IV1 & EF).
    assert (s1' = s1) by congruence. subst s1'. assert (r' = r) by congruence. subst r'.
    destruct (EF h hs Hh Hu) as (hs1 & A1 & A2 & A3 & _). { intros ->. apply (NC r). left. reflexivity. }
    destruct (IH hs1 A1 A2 IV1) as (hs' & B1 & B2 & B3). { intros r0 K. apply (NC r0). right. exact K. }
    exists hs'. split; [exact B1 | split; [exact B2 |]].
    assert (CN : comp_now s o r h = []).
    { destruct o; try reflexivity. destruct r; try reflexivity. cbn [comp_now]. destruct (listener_of s p) as [g |] eqn:LO; [| reflexivity].
      destruct (Z.eqb_spec g h) as [-> | n]; [| reflexivity]. exfalso. eapply NL; eauto. }
    rewrite CN, app_nil_r in A3.
    assert (TK : taken h ((o, r) :: tr) = take_now o r h ++ taken h tr).
    { destruct o; try reflexivity. destruct r; try reflexivity. cbn [taken take_now]. destruct (fd =? h); reflexivity. }
    rewrite TK, A3, <- app_assoc, B3, app_assoc. reflexivity.
Qed.

(* the counters are the lengths, and the queues are bounded by the backlog *)
Theorem life_counters : forall N M s h hs, 0 <= M -> reach N M s -> s_so s h = Some hs ->
  so_qlen hs = Z.of_nat (length (so_compq hs)) /\ so_incqlen hs = Z.of_nat (length (so_incq hs)) /\
  NoDup (so_incq hs ++ so_compq hs).
Proof.
  intros N M s h hs HM R Hh. pose proof (reach_INV _ _ _ HM R) as IV.
  destruct (i_queue _ _ _ IV h hs Hh) as (B1 & B2 & B3 & B4 & _). split; [exact B4 | split; [exact B3 |]].
  assert (D : forall i, In i (so_incq hs) -> ~ In i (so_compq hs)) by (intros i; eapply one_queue; eauto).
  revert B1 D. generalize (so_incq hs). induction l as [| a l IH]; intros ND D; cbn [app]; [exact B2 |].
  inversion ND; subst. constructor; [| apply IH; [assumption | intros i K; apply D; right; exact K]].
  rewrite in_app_iff. intros [K | K]; [contradiction |]. apply (D a); [left; reflexivity | exact K].
Qed.

Theorem life_backlog_bound : forall N M B h s hs tr s', 0 <= M -> reach N M s ->
  s_so s h = Some hs -> s_user s h = true -> so_qlimit hs <= B -> so_incq hs = [] -> so_compq hs = [] ->
  run M s tr s' -> not_closed h tr ->
  (forall b r, In (Listen h b, r) tr -> (if (b <? 0) || (M <? b) then M else b) <= B) ->
  exists hs', s_so s' h = Some hs' /\ so_incqlen hs' <= B + 1 /\ so_qlen hs' + so_incqlen hs' <= 3 * B / 2 + B + 1.
Proof.
  intros N M B h s hs tr s' HM R Hh Hu HB I0 C0 RU NC LB. pose proof (reach_INV _ _ _ HM R) as IV. clear R.
  assert (B0 : 0 <= B) by (destruct (i_queue _ _ _ IV h hs Hh) as (_ & _ & _ & _ & Q & _); lia).
  assert (P1 : Z.of_nat (length (so_incq hs)) <= B + 1) by (rewrite I0; cbn [length]; lia).
  assert (P2 : Z.of_nat (length (so_incq hs)) + Z.of_nat (length (so_compq hs)) <= 3 * B / 2 + B + 1).
  { rewrite I0, C0. cbn [length]. pose proof (Z.div_pos (3 * B) 2). lia. }
  clear I0 C0. revert hs Hh Hu HB P1 P2 IV NC LB.
  induction RU as [s | s o s1 r tr s2 LG E RU IH]; intros hs Hh Hu HB P1 P2 IV NC LB.
  - exists hs. destruct (i_queue _ _ _ IV h hs Hh) as (_ & _ & B3 & B4 & _). split; [exact Hh | lia].
  - destruct (step_ok N M s o HM IV LG) as (s1' & r' & E' & IV1 & EF).
    assert (s1' = s1) by congruence. subst s1'. assert (r' = r) by congruence. subst r'.
    destruct (EF h hs Hh Hu) as (hs1 & A1 & A2 & _ & A4 & A5). { intros ->. apply (NC r). left. reflexivity. }
    assert (LB0 : forall b, o = Listen h b -> clamp M b <= B). { intros b ->. apply (LB b r). left. reflexivity. }
    destruct (i_queue _ _ _ IV1 h hs1 A1) as (_ & _ & _ & _ & Q0 & _).
    apply (IH hs1 A1 A2); auto.
    + destruct A4 as [-> | (b & -> & ->)]; [exact HB | apply LB0; reflexivity].
    + destruct A5 as [A5 | A5]; lia.
    + destruct A5 as [A5 | (A5 & A6 & A7)]; [lia |]. pose proof (Z.div_le_mono (3 * so_qlimit hs) (3 * B) 2). lia.
    + intros r0 K. apply (NC r0). right. exact K.
    + intros b r0 K. apply (LB b r0). right. exact K.
Qed.

(* a pending connection belongs to a socket that is still open or being closed;
   after close() none is left behind *)
Theorem life_pending_has_listener : forall N M s h hs i, 0 <= M -> reach N M s ->
  s_so s h = Some hs -> In i (so_incq hs ++ so_compq hs) ->
  so_accept hs = true /\ (owned s h OUser \/ owned s h OCall) /\ h <> i /\
  exists so, s_so s i = Some so /\ so_head so = Some h.
Proof.
  intros N M s h hs i HM R Hh I1. pose proof (reach_INV _ _ _ HM R) as IV.
  destruct (slot _ _ _ _ _ IV Hh) as (p & q & Hp & Hq & C & D & L & _). destruct (L (fun x => x)) as [CM RO].
  assert (AC : so_accept hs = true).
  { destruct (so_accept hs) eqn:AC; [reflexivity |]. destruct CM as (_ & _ & _ & _ & _ & CM & _). destruct (CM AC) as [K1 K2]. rewrite K1, K2 in I1. contradiction. }
  split; [exact AC |]. split; [| split].
  - unfold role in RO. cbn. destruct (s_user s h); [left; reflexivity | right].
    destruct (s_call s h); try (split; discriminate); exfalso.
    + destruct RO as (_ & _ & RO). destruct (so_qs hs); unfold child_ok in RO; brk; congruence.
    + brk; congruence.
  - destruct (queued_child N X0 s h hs i IV Hh) as (so & pi & qi & D1 & D2 & D3 & D4 & D5 & D6 & D7 & _).
    { intros x []. } { apply in_app_iff. exact I1. }
    exact D7.
  - destruct (queued_child N X0 s h hs i IV Hh) as (so & pi & qi & D1 & D2 & D3 & D4 & D5 & D6 & D7 & _).
    { intros x []. } { apply in_app_iff. exact I1. }
    exists so. auto.
Qed.

(* readiness: a listening socket without pending error is reported readable
   exactly when accept() takes a connection at once *)
Theorem life_readable_iff_accept : forall N M s h hs, 0 <= M -> reach N M s ->
  s_so s h = Some hs -> s_user s h = true -> so_accept hs = true -> so_err hs = 0 ->
  (accept_readable hs = true <-> exists s' i, step M s (AcceptTake h) = Ret (s', RFd i)).
Proof.
  intros N M s h hs HM R Hh Hu AC ER. pose proof (reach_INV _ _ _ HM R) as IV.
  destruct (accept_take_ok N s h IV Hu) as (s' & r & E & _). cbn [step]. rewrite E.
  unfold accept_take, get_so in E. rewrite Hh, AC, ER in E. cbn [negb Z.eqb] in E. unfold accept_readable.
  destruct (so_compq hs) as [| i rest].
  - split; [discriminate |]. intros (s1 & i & K). injection K as -> ->.
    destruct (so_nbio hs); [discriminate |]. destruct (so_cantrcv hs); discriminate.
  - split; [intros _ | reflexivity].
    destruct (pop_comp s h hs i rest) as [s1 | |]; cbn [obind] in E; try discriminate E.
    destruct (s_so s1 i); [| discriminate E]. injection E as <- <-. eauto.
Qed.

Print Assumptions life_every_call_completes.
Print Assumptions life_one_owner.
Print Assumptions life_in_range.
Print Assumptions life_fresh_descriptor.
Print Assumptions life_no_stray_pcb.
Print Assumptions life_close_releases.
Print Assumptions life_tcp_end_releases.
Print Assumptions life_completed_total.
Print Assumptions life_accept_fifo.
Print Assumptions life_counters.
Print Assumptions life_backlog_bound.
Print Assumptions life_pending_has_listener.
Print Assumptions life_readable_iff_accept.
