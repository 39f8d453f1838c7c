(* What the socket layer does not guarantee (C80). *)
From Verif Require Import Base LifeModel LifeSpec LifeInv LifeLocal LifeStep LifeNew LifeOps LifeOps2 LifeOps3 LifeOps4 LifeOps5 LifeAll LifeRun.
Ltac Zify.zify_post_hook ::= idtac.

(* the part of a state that ofp_sofree never touches *)
Lemma sofree_call : forall a i b, sofree a i = Ret b -> forall x, s_call b x = s_call a x.
Proof.
  intros a i b. unfold sofree, get_so. destruct (s_so a i) as [y |]; [| discriminate]. destruct (sohasrefs y); [intros K; injection K as <-; auto |].
  unfold sofree_dequeue, detach, get_so, get_pcb. intros K.
  destruct (so_head y) as [hd |]; [destruct (so_qs y) | destruct (so_qs y)]; cbn [obind] in K; try discriminate K;
  try destruct (s_so a hd); try discriminate K; try destruct (mem i (so_incq s)); cbn [obind] in K; try discriminate K;
  (destruct (so_accept y && negb match so_incq y, so_compq y with [], [] => true | _, _ => false end); cbn [obind] in K; try discriminate K);
  (destruct (so_pcb y) as [py |]; cbn [obind] in K; try discriminate K);
  cbn in K; destruct (s_pcb a py) as [qy |]; cbn [obind] in K; try discriminate K;
  (destruct (p_sock qy) as [jy |]; cbn [obind] in K; try discriminate K);
  (destruct (negb (jy =? i)); cbn [obind] in K; try discriminate K);
  repeat match type of K with obind (if ?b then _ else _) _ = _ => destruct b; cbn [obind] in K end;
  injection K as <-; reflexivity.
Qed.

Lemma finish_call : forall s i so p q rel s' r, finish s i so p q rel = Ret (s', r) -> forall x, s_call s' x = s_call s x.
Proof.
  intros s i so p q rel s' r E x. unfold finish in E. destruct rel; [| injection E as <- <-; reflexivity].
  destruct (sofree (put s i so p q) i) as [s1 | |] eqn:F; cbn [obind] in E; try discriminate E. injection E as <- <-.
  rewrite (sofree_call _ _ _ F). reflexivity.
Qed.

Lemma step_lost : forall N M s o s' r i, 0 <= M -> INV N X0 s -> legal s o -> step M s o = Ret (s', r) -> s_call s i = CLost -> s_call s' i = CLost.
Proof.
  intros N M s o s' r i HM IV LG E CC. destruct o; cbn [step legal] in *.
  - unfold socket_call in E. destruct (s_free s); [injection E as <- <-; exact CC |]. destruct aok; injection E as <- <-; exact CC.
  - unfold get_sp, get_so, get_pcb in E. repeat match type of E with match ?e with _ => _ end = _ => destruct e; try discriminate E end.
    unfold lift3 in E. destruct (tcp_usr_listen _ _ _ _) as [[? ?] ?]. injection E as <- <-. exact CC.
  - unfold get_sp, get_so, get_pcb in E. repeat match type of E with match ?e with _ => _ end = _ => destruct e; try discriminate E end.
    unfold lift3 in E. destruct (tcp_usr_connect _ _ _) as [[? ?] ?]. injection E as <- <-. exact CC.
  - unfold get_sp, get_so, get_pcb in E. repeat match type of E with match ?e with _ => _ end = _ => destruct e; try discriminate E end.
    unfold lift3 in E. destruct (tcp_usr_shutdown _ _) as [[[? ?] ?] | |]; cbn [obind] in E; try discriminate E. injection E as <- <-. exact CC.
  - unfold get_so in E. destruct (s_so s fd); [injection E as <- <-; exact CC | discriminate].
  - unfold get_so in E. destruct (s_so s fd); [injection E as <- <-; exact CC | discriminate].
  - unfold get_so in E. destruct (s_so s fd); [injection E as <- <-; exact CC | discriminate].
  - destruct (busy_slot _ _ _ IV (or_introl LG)) as (hs & p & q & Hh & _).
    unfold accept_take, get_so at 1 in E. rewrite Hh in E. destruct (so_accept hs); cbn [negb] in E; [| injection E as <- <-; exact CC].
    destruct (so_compq hs) as [| k rest] eqn:CQ.
    { destruct (so_nbio hs); [injection E as <- <-; exact CC |]. destruct (so_err hs =? 0); [destruct (so_cantrcv hs) |]; injection E as <- <-; exact CC. }
    destruct (so_err hs =? 0); [| injection E as <- <-; exact CC].
    destruct (queued_child N X0 s fd hs k IV Hh) as (so & pi & qi & D1 & D2 & D3 & D4 & D5 & D6 & D7 & D8 & D9 & _).
    { intros x []. } { right. rewrite CQ. left; reflexivity. }
    unfold pop_comp, get_so in E. rewrite D1 in E. cbn [obind put_so s_so] in E. rewrite upd_eq in E. injection E as <- <-.
    cbn. rewrite upd_neq by congruence. exact CC.
  - unfold accept_end, get_sp, get_so, get_pcb in E. repeat match type of E with match ?e with _ => _ end = _ => destruct e; try discriminate E end.
    all: injection E as <- <-; cbn; rewrite upd_neq by congruence; exact CC.
  - destruct (busy_slot _ _ _ IV (or_introl LG)) as (hs & p & q & Hh & _ & _ & _ & _ & L & G). rewrite LG in L. pose proof (user_cnone _ _ _ L) as CN.
    unfold close1 in E. rewrite G in E. destruct (so_nofd hs); [discriminate |].
    destruct (so_conn hs && negb (so_discing hs)).
    + destruct (tcp_usr_disconnect hs q) as [[[? ?] ?] | |]; cbn [obind] in E; try discriminate E. injection E as <- <-. cbn. rewrite upd_neq by congruence. exact CC.
    + injection E as <- <-. cbn. rewrite upd_neq by congruence. exact CC.
  - unfold close2, get_sp, get_so, get_pcb in E. repeat match type of E with match ?e with _ => _ end = _ => destruct e; try discriminate E end.
    destruct (tcp_usr_close _ _) as [? | |]; cbn [obind] in E; try discriminate E. injection E as <- <-. cbn. rewrite upd_neq by congruence. exact CC.
  - unfold drain, get_so in E. destruct (s_so s fd) as [hs |] eqn:Hh; [| discriminate].
    destruct (so_incq hs) as [| k rest] eqn:IQ; [destruct (so_compq hs) as [| k rest] eqn:CQ; [injection E as <- <-; exact CC |] |].
    + destruct (queued_child N X0 s fd hs k IV Hh) as (so & pi & qi & D1 & D2 & D3 & D4 & D5 & D6 & D7 & D8 & D9 & _).
      { intros x []. } { right. rewrite CQ. left; reflexivity. }
      unfold pop_comp, get_so in E. rewrite D1 in E. cbn [obind] in E. injection E as <- <-. cbn. rewrite upd_neq by congruence. exact CC.
    + destruct (queued_child N X0 s fd hs k IV Hh) as (so & pi & qi & D1 & D2 & D3 & D4 & D5 & D6 & D7 & D8 & D9 & _).
      { intros x []. } { left. rewrite IQ. left; reflexivity. }
      unfold pop_inc, get_so in E. rewrite D1 in E. cbn [obind] in E. injection E as <- <-. cbn. rewrite upd_neq by congruence. exact CC.
  - unfold abort1, get_sp, get_so, get_pcb in E. repeat match type of E with match ?e with _ => _ end = _ => destruct e; try discriminate E end.
    destruct (tcp_usr_abort _ _) as [? | |]; cbn [obind] in E; try discriminate E. injection E as <- <-. cbn. rewrite upd_neq by congruence. exact CC.
  - unfold abort2, get_so in E. destruct (s_so s i0); [| discriminate].
    destruct (sofree (set_call s i0 CNone) i0) as [s1 | |] eqn:F; cbn [obind] in E; try discriminate E. injection E as <- <-.
    rewrite (sofree_call _ _ _ F). cbn. rewrite upd_neq by congruence. exact CC.
  - destruct LG as [LG _]. unfold close3, get_so in E. destruct (s_so s fd) as [hs |]; [| discriminate]. destruct (so_nofd hs); [discriminate |].
    destruct (so_count hs <=? 0); [discriminate |].
    match type of E with (if ?b then _ else _) = _ => destruct b end.
    + match type of E with obind (sofree ?a ?b) _ = _ => destruct (sofree a b) as [s1 | |] eqn:F end; cbn [obind] in E; try discriminate E. injection E as <- <-.
      rewrite (sofree_call _ _ _ F). cbn. rewrite upd_neq by congruence. exact CC.
    + injection E as <- <-. cbn. rewrite upd_neq by congruence. exact CC.
  - destruct (newconn_ok N s fd aok ok IV LG) as (s1 & r1 & hs0 & rest & E1 & _ & _ & _ & U2 & _). assert (s1 = s') by congruence. subst s1. rewrite U2. exact CC.
  - unfold p_connected, get_ps, get_pcb in E. destruct (s_pcb s p) as [q |]; [| discriminate]. destruct (p_sock q) as [j |]; [| discriminate].
    unfold get_so at 1 in E. destruct (s_so s j) as [so |]; [| discriminate].
    destruct (so_head (soisconnected_flags so)); [destruct (so_qs (soisconnected_flags so)) |]; try (injection E as <- <-; exact CC).
    unfold get_so in E. cbn [put put_pcb put_so s_so] in E. destruct (upd (s_so s) j (Some (soisconnected_flags so)) z) as [hs |]; [| discriminate].
    destruct (negb (mem j (so_incq hs))); [discriminate |]. injection E as <- <-. exact CC.
  - unfold p_fin, get_ps, get_pcb, get_so in E. destruct (s_pcb s p) as [q |]; [| discriminate]. destruct (p_sock q) as [j |]; [| discriminate].
    destruct (s_so s j) as [so |]; [| discriminate]. destruct (p_state q =? T_SYN_SENT); injection E as <- <-; exact CC.
  - unfold p_finacked, get_ps, get_pcb, get_so in E. destruct (s_pcb s p) as [q |]; [| discriminate]. destruct (p_sock q) as [j |]; [| discriminate].
    destruct (s_so s j) as [so |]; [| discriminate]. injection E as <- <-; exact CC.
  - unfold p_drop, get_ps, get_pcb, get_so in E. destruct (s_pcb s p) as [q |]; [| discriminate]. destruct (p_sock q) as [j |]; [| discriminate].
    destruct (s_so s j) as [so |]; [| discriminate]. destruct (tcp_drop so q err) as [[[? ?] ?] | |]; cbn [obind] in E; try discriminate E.
    rewrite (finish_call _ _ _ _ _ _ _ _ E). exact CC.
  - unfold p_twstart, get_ps, get_pcb, get_so in E. destruct (s_pcb s p) as [q |]; [| discriminate]. destruct (p_sock q) as [j |]; [| discriminate].
    destruct (s_so s j) as [so |]; [| discriminate]. destruct ok.
    + destruct (p_sockref (p_set_tw q)); [destruct (so_protoref (soisdisconnected so)); [| discriminate] |];
      rewrite (finish_call _ _ _ _ _ _ _ _ E); exact CC.
    + destruct (tcp_close so q) as [[[? ?] ?] | |]; cbn [obind] in E; try discriminate E. rewrite (finish_call _ _ _ _ _ _ _ _ E). exact CC.
  - unfold p_twclose, get_pcb, get_so in E. destruct (s_pcb s p) as [q |]; [| discriminate]. destruct (negb (p_tw q)); [discriminate |].
    destruct (p_sock (p_set_dropped q)) as [j |]; [| injection E as <- <-; exact CC].
    destruct (s_so s j) as [so |]; [| discriminate]. destruct (p_sockref (p_set_dropped q)); [| injection E as <- <-; exact CC].
    destruct (so_protoref so); [| discriminate]. rewrite (finish_call _ _ _ _ _ _ _ _ E). exact CC.
Qed.

(* a socket whose accept() failed is never given back and never handed out
   again, whatever happens later *)
Theorem life_lost_forever_refuted : forall N M s i tr s', 0 <= M -> reach N M s -> s_call s i = CLost -> run M s tr s' ->
  s_call s' i = CLost /\ ~ In i (s_free s') /\ s_user s' i = false /\ exists so, s_so s' i = Some so.
Proof.
  intros N M s i tr s' HM R CC RU. assert (IV : INV N X0 s) by (eapply reach_INV; eauto).
  assert (A : s_call s' i = CLost /\ INV N X0 s').
  { clear R. induction RU as [s | s o s1 r tr s2 LG E RU IH]; [auto |]. apply IH.
    - eapply step_lost; eauto.
    - destruct (step_ok N M s o HM IV LG) as (s1' & r' & E' & I1 & _). congruence. }
  destruct A as [A IV']. split; [exact A |].
  destruct (busy_slot N s' i IV') as (so & p & q & Hi & _ & _ & _ & _ & [_ L] & _); [right; congruence |].
  split; [| split].
  - intros K. apply (i_free _ _ _ IV' i) in K. destruct K; congruence.
  - unfold role in L. destruct (s_user s' i); [destruct L; congruence | reflexivity].
  - eauto.
Qed.

(* and a peer can bring this about for every socket of the table but the
   listening one: it completes the handshake and resets the connection before
   the application accepts it *)
Definition lsock : sock := mkSock 1 false false QNone None true 0 true [] [] 0 0 false false false false false 0 false false (Some 0).
Definition lpcb : pcb := mkPcb (Some 0) T_LISTEN false false false false.

Lemma round : forall M s j rest, 0 < j -> s_so s 0 = Some lsock -> s_pcb s 0 = Some lpcb -> s_user s 0 = true ->
  s_free s = j :: rest -> s_next s = j ->
  exists tr s', run M s tr s' /\ s_so s' 0 = Some lsock /\ s_pcb s' 0 = Some lpcb /\ s_user s' 0 = true /\
    s_free s' = rest /\ s_next s' = j + 1 /\ s_call s' j = CLost /\ (forall x, x <> j -> s_call s' x = s_call s x).
Proof.
  intros M [F FR P n U C] j rest HJ A1 A2 A3 A4 A5. cbn in A1, A2, A3, A4, A5. subst n FR.
  destruct j as [| j | j]; try lia.
  Ltac sim := repeat (progress (cbn; unfold get_so, get_pcb, get_sp, get_ps, pop_comp, upd; match goal with A1 : ?F 0 = Some lsock |- _ => rewrite ?A1 end; rewrite ?Z.eqb_refl, ?Pos.eqb_refl)).
  eexists. eexists. split.
  - eapply (run_cons M _ (NewConn 0 true true)).
    { exists 0, lpcb. cbn. auto. }
    { unfold step, newconn. sim. reflexivity. }
    eapply (run_cons M _ (PConnected (Z.pos j))).
    { eexists. cbn. unfold upd; rewrite ?Z.eqb_refl, ?Pos.eqb_refl. split; [reflexivity |]. cbn. auto. }
    { unfold step, p_connected. sim. reflexivity. }
    eapply (run_cons M _ (PDrop (Z.pos j) OFP_ECONNRESET)).
    { eexists. cbn. unfold upd; rewrite ?Z.eqb_refl, ?Pos.eqb_refl. split; [reflexivity |]. cbn. auto. }
    { unfold step, p_drop. sim. reflexivity. }
    eapply (run_cons M _ (AcceptTake 0)).
    { cbn. exact A3. }
    { unfold step, accept_take, pop_comp. sim. reflexivity. }
    eapply (run_cons M _ (AcceptEnd (Z.pos j))).
    { cbn. unfold upd; rewrite ?Z.eqb_refl, ?Pos.eqb_refl. reflexivity. }
    { unfold step, accept_end. sim. reflexivity. }
    apply run_nil.
  - cbn. unfold upd. rewrite ?Z.eqb_refl, ?Pos.eqb_refl. split; [reflexivity |]. split; [exact A2 |]. split; [exact A3 |]. split; [reflexivity |].
    split; [reflexivity |]. split; [reflexivity |]. intros x nx. destruct (Z.eqb_spec x (Z.pos j)); [contradiction |]. reflexivity.
Qed.

Theorem life_table_exhausted_refuted : forall (N : nat) M, 0 <= M -> (1 <= N)%nat ->
  exists s, reach N M s /\ (forall i, 0 < i < Z.of_nat N -> owned s i OLost) /\ step M s (Socket true) = Ret (s, RErr OFP_ENOBUFS).
Proof.
  intros N M HM HN.
  assert (K : forall k, (k < N)%nat -> exists s tr, run M (init N) tr s /\ s_so s 0 = Some lsock /\ s_pcb s 0 = Some lpcb /\ s_user s 0 = true /\
     s_free s = map Z.of_nat (seq (S k) (N - S k)) /\ s_next s = Z.of_nat (S k) /\ forall i, 0 < i <= Z.of_nat k -> s_call s i = CLost).
  { induction k as [| k IH]; intros Hk.
    - destruct N as [| N]; [lia |]. eexists. eexists. split.
      + eapply (run_cons M _ (Socket true)); [exact Logic.I | cbn; reflexivity |].
        eapply (run_cons M _ (Listen 0 0)); [cbn; split; [reflexivity | intros so E; injection E as <-; auto] | |].
        * cbn [step]. unfold get_sp, get_so, get_pcb. cbn. reflexivity.
        * apply run_nil.
      + cbn. assert (MB : (M <? 0) = false) by lia. unfold upd; cbn. rewrite MB.
        split; [reflexivity |]. split; [reflexivity |]. split; [reflexivity |]. split; [rewrite Nat.sub_0_r; reflexivity |]. split; [reflexivity |]. intros i Hi. lia.
    - destruct IH as (s & tr & R & A1 & A2 & A3 & A4 & A5 & A6); [lia |].
      assert (FR : s_free s = Z.of_nat (S k) :: map Z.of_nat (seq (S (S k)) (N - S (S k)))).
      { rewrite A4. replace (N - S k)%nat with (S (N - S (S k))) by lia. reflexivity. }
      destruct (round M s (Z.of_nat (S k)) _ ltac:(lia) A1 A2 A3 FR A5) as (tr2 & s2 & R2 & B1 & B2 & B3 & B4 & B5 & B6 & B7).
      exists s2, (tr ++ tr2). split; [eapply run_app; eauto |]. split; [exact B1 |]. split; [exact B2 |]. split; [exact B3 |]. split; [exact B4 |].
      split; [rewrite B5; lia |]. intros i Hi. destruct (Z.eq_dec i (Z.of_nat (S k))) as [-> | n]; [exact B6 |]. rewrite B7 by exact n. apply A6. lia. }
  destruct (K (N - 1)%nat) as (s & tr & R & A1 & A2 & A3 & A4 & A5 & A6); [lia |].
  exists s. split; [exists tr; exact R |]. split; [intros i Hi; cbn; apply A6; lia |].
  cbn [step]. unfold socket_call. rewrite A4. replace (N - S (N - 1))%nat with 0%nat by lia. reflexivity.
Qed.

(* listen() on an accepted socket whose connection was shut down in both
   directions is not refused, although the queues of an accepted socket were
   never initialised: the next connection for it runs into undefined behaviour *)
Theorem life_listen_on_accepted_refuted :
  exists s s' fd, reach 8 16 s /\ s_user s fd = true /\ step 16 s (Listen fd 4) = Ret (s', ROk) /\
    legal s' (NewConn fd true true) /\ step 16 s' (NewConn fd true true) = UB.
Proof.
  destruct (exec 16 (init 8) [Socket true; Listen 0 4; NewConn 0 true true; PConnected 1; AcceptTake 0; AcceptEnd 1;
     ShutRd 1; Shutdown 1; PFinAcked 1]) as [[s tr] |] eqn:E; [| vm_compute in E; discriminate].
  assert (R : reach 8 16 s) by (eapply exec_reach; exact E).
  destruct (step 16 s (Listen 1 4)) as [[s' r] | |] eqn:E2; vm_compute in E; injection E as <- <-; vm_compute in E2; try discriminate E2.
  injection E2 as <- <-.
  eexists; eexists; exists 1. split; [exact R |]. split; [reflexivity |]. split; [vm_compute; reflexivity |].
  split; [apply legalb_legal; vm_compute; reflexivity | vm_compute; reflexivity].
Qed.

(* listen() on a socket whose own connection has ended: the listener passes the
   "disconnected" mark on to its connections, and accept() fails for each *)
Theorem life_listen_on_disconnected_refuted :
  exists s s1 s2 tr fd i, reach 8 16 s /\ s_user s fd = true /\ step 16 s (Listen fd 4) = Ret (s1, ROk) /\
    run 16 s1 tr s2 /\ s_call s2 i = CAccept /\
    (exists s3, step 16 s2 (AcceptEnd i) = Ret (s3, RErr OFP_ECONNABORTED)) /\
    (exists q p, s_pcb s2 p = Some q /\ p_sock q = Some i /\ p_dropped q = false /\ p_state q = T_ESTABLISHED).
Proof.
  destruct (exec 16 (init 8) [Socket true; Connect 0 true; PConnected 0; ShutRd 0; Shutdown 0; PFinAcked 0]) as [[s tr] |] eqn:E; [| vm_compute in E; discriminate].
  assert (R : reach 8 16 s) by (eapply exec_reach; exact E).
  destruct (step 16 s (Listen 0 4)) as [[s1 r1] | |] eqn:E1; [| vm_compute in E; injection E as <- <-; vm_compute in E1; discriminate E1 ..].
  destruct (exec 16 s1 [NewConn 0 true true; PConnected 1; AcceptTake 0]) as [[s2 tr2] |] eqn:E2;
    [| vm_compute in E; injection E as <- <-; vm_compute in E1; injection E1 as <- <-; vm_compute in E2; discriminate E2].
  pose proof (exec_run _ _ _ _ _ E2) as R2.
  exists s, s1, s2, tr2, 0, 1. split; [exact R |].
  vm_compute in E; injection E as <- <-; vm_compute in E1; injection E1 as <- <-; vm_compute in E2; injection E2 as <- <-.
  split; [reflexivity |]. split; [vm_compute; reflexivity |]. split; [exact R2 |]. split; [reflexivity |].
  split; [eexists; vm_compute; reflexivity |]. eexists; exists 1. split; [vm_compute; reflexivity |]. auto.
Qed.

(* a descriptor that is not open is not refused: close() reads the freed
   structure (for every state in which the slot is free) *)
Theorem life_stale_descriptor_refuted : forall N M s i, 0 <= M -> reach N M s -> In i (s_free s) ->
  step M s (Close1 i) = UB /\ step M s (Shutdown i) = UB /\ step M s (AcceptTake i) = UB.
Proof.
  intros N M s i HM R F. pose proof (reach_INV _ _ _ HM R) as IV. apply (i_free _ _ _ IV i) in F. destruct F as [_ F].
  cbn [step]. unfold close1, accept_take, get_sp, get_so. rewrite F. auto.
Qed.

(* readiness is reported, but accept() fails: a pending error comes first *)
Theorem life_readable_but_error_refuted : forall N M s h hs, 0 <= M -> reach N M s ->
  s_so s h = Some hs -> s_user s h = true -> so_accept hs = true -> so_err hs <> 0 -> accept_readable hs = true ->
  exists s', step M s (AcceptTake h) = Ret (s', RErr (so_err hs)).
Proof.
  intros N M s h hs HM R Hh Hu AC ER RD. cbn [step]. unfold accept_take, get_so. rewrite Hh, AC. cbn [negb].
  unfold accept_readable in RD. destruct (so_compq hs); [discriminate |]. replace (so_err hs =? 0) with false by lia. eauto.
Qed.

(* ---------- examples: the hypotheses of the theorems are met ---------- *)
Definition report (x : option (st * list (op * res))) : option (list res * list Z) :=
  match x with Some (s, tr) => Some (map snd tr, s_free s) | None => None end.

(* listen, two connections that become ready in the other order, accept both,
   close one actively (kept by TCP until TIME_WAIT begins), close the listener
   with a third connection pending: all slots come back *)
Example ex_life :
  report (exec 16 (init 5) [Socket true; Listen 0 2; NewConn 0 true true; NewConn 0 true true; PConnected 2; PConnected 1;
    AcceptTake 0; AcceptEnd 2; AcceptTake 0; AcceptEnd 1; NewConn 0 true true; PConnected 3; NewConn 0 true true;
    Close1 2; Close2 2; Close3 2; PFinAcked 2; PTwStart 2 true; PFin 1; Close1 1; Close2 1; Close3 1; PDrop 1 0;
    Close1 0; Close2 0; Drain 0; Drain 0; Abort1 3; Abort1 4; Abort2 4; Abort2 3; Close3 0; PTwClose 2])
  = Some ([RFd 0; ROk; RFd 1; RFd 2; RFd 2; RFd 1; RFd 2; RFd 2; RFd 1; RFd 1; RFd 3; RFd 3; RFd 4;
           ROk; ROk; ROk; ROk; ROk; ROk; ROk; ROk; ROk; ROk; ROk; ROk; RFd 4; RFd 3; ROk; ROk; ROk; ROk; ROk; ROk],
          [0; 3; 4; 1; 2]).
Proof. vm_compute. reflexivity. Qed.

(* the bound of life_backlog_bound is attained (backlog 1: three connections) *)
Example ex_life_bound :
  match exec 16 (init 9) [Socket true; Listen 0 1; NewConn 0 true true; PConnected 1; NewConn 0 true true; NewConn 0 true true; NewConn 0 true true] with
  | Some (s, _) => match s_so s 0 with Some hs => Some (so_qlen hs, so_incqlen hs, so_qlen hs + so_incqlen hs =? 3 * 1 / 2 + 1 + 1) | None => None end
  | None => None end = Some (1, 2, true).
Proof. vm_compute. reflexivity. Qed.

(* a socket kept by TCP after close(): hypotheses of life_tcp_end_releases *)
Example ex_life_kept : exists s q, reach 3 16 s /\ s_pcb s 0 = Some q /\ p_sock q = Some 0 /\ owned s 0 OTcp /\ legal s (PDrop 0 OFP_ECONNRESET).
Proof.
  destruct (exec 16 (init 3) [Socket true; Connect 0 true; PConnected 0; Close1 0; Close2 0; Close3 0]) as [[s tr] |] eqn:E; [| vm_compute in E; discriminate].
  assert (R : reach 3 16 s) by (eapply exec_reach; exact E). vm_compute in E. injection E as <- <-.
  eexists; eexists. split; [exact R |]. split; [reflexivity |]. split; [reflexivity |]. split.
  - cbn. split; [reflexivity | split; [reflexivity |]]. exists 0. eexists. split; [reflexivity | auto].
  - apply legalb_legal. reflexivity.
Qed.

Print Assumptions life_lost_forever_refuted.
Print Assumptions life_table_exhausted_refuted.
Print Assumptions life_listen_on_accepted_refuted.
Print Assumptions life_listen_on_disconnected_refuted.
Print Assumptions life_stale_descriptor_refuted.
Print Assumptions life_readable_but_error_refuted.
