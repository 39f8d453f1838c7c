(* C51: sleeping and waking. *)
From Verif Require Import Base SleepModel SleepSpec SleepProof SleepConc.
Ltac Zify.zify_post_hook ::= idtac.

(* For every history of sleeps, wake-ups, timer expiries and returns, with any number n of
   sleeper records: the linked lists of the code behave as the specification's lists, every call
   returns what the specification says, and no call loops. *)
Theorem sleep_histories : forall n ops, slegal (s0 n) ops -> exists st, sruns n (sl_init n) ops = Ret (st, snd (ssteps (s0 n) ops)).
Proof.
  intros n ops. assert (G : forall ops st s, R st s -> length (nod s) = n -> slegal s ops -> exists st', sruns n st ops = Ret (st', snd (ssteps s ops))).
  { clear ops. induction ops as [|op ops IH]; intros st s H L LG; [exists st; reflexivity|]. destruct LG as (L1 & L2). destruct (srun1_ok n st s op H L L1) as (st1 & E & H1).
    destruct (IH st1 _ H1 ltac:(rewrite sstep_len; exact L) L2) as (st2 & E2). exists st2. cbn [sruns ssteps]. rewrite E. cbn [obind]. destruct (sstep s op) as [s1 r1]. cbn [fst snd] in *. rewrite E2. cbn [obind]. destruct (ssteps s1 ops). reflexivity. }
  apply G; [apply R_init|]. unfold nod, s0. cbn [asleep woken spare map app]. apply seq_length.
Qed.
Print Assumptions sleep_histories.
(* A wake-up reaches exactly the sleepers of its channel and the selects (channel 0). *)
Theorem wakeup_reaches_its_channel : forall s ch x,
  In x (asleep (fst (sstep s (SWake ch)))) <-> In x (asleep s) /\ snd x <> ch /\ snd x <> 0.
Proof.
  intros s ch x. cbn [sstep fst].
  assert (B : forall c, negb (on c x) = true <-> snd x <> c). { intros c. unfold on. rewrite negb_true_iff, Z.eqb_neq. split; congruence. }
  unfold selects. destruct (Z.eqb_spec ch 0) as [->|NZ]; unfold wake_all; cbn [asleep]; rewrite ?filter_In, !B; tauto.
Qed.
Print Assumptions wakeup_reaches_its_channel.
Example sleep_example : slegal (s0 2) [SSleep 5 false; SSleep 7 true; SSleep 5 false; SWake 5; SReturn 0; STimer 7; SReturn 1] /\
  snd (ssteps (s0 2) [SSleep 5 false; SSleep 7 true; SSleep 5 false; SWake 5; SReturn 0; STimer 7; SReturn 1]) =
  [SId (Some 0%nat); SId (Some 1%nat); SId None; SNone; SRet false; SNone; SRet true].
Proof. split; [cbn; tauto|reflexivity]. Qed.

(* No lost wake-up: in every state any number of readers, writers, selects and other sleepers can
   reach, with stray wake-ups and timers at any time, a reader asleep and not yet woken means the
   buffer is empty, unless a writer is between appending and waking. *)
Theorem reader_sleeps_only_on_empty : forall N y t i,
  reach N y -> (y_pc y t = Poll i \/ y_pc y t = Yield i) -> s_go (y_sl y) i = false -> (forall t', y_pc y t' <> Wake) -> y_data y = O.
Proof.
  intros N y t i RE P G NW. destruct (reach_inv N y RE) as (s & H).
  assert (RD : rd (y_pc y t) i) by (destruct P as [-> | ->]; reflexivity).
  destruct (proj2 (inv_in N y s t i H (rd_owns _ _ RD)) G) as (c & IN). assert (c = rch) by exact (i_ch _ _ _ H t i c RD IN). subst c.
  exact (i_main _ _ _ H t i RD IN NW).
Qed.
Print Assumptions reader_sleeps_only_on_empty.
(* and the writer's wake-up always completes, after which every reader that slept can go on *)
Theorem writer_wakes_all_readers : forall N y t,
  reach N y -> y_pc y t = Wake -> y_flag y = true ->
  exists y', step N y y' /\ y_pc y' t = Idle /\ y_lock y' = None /\
    forall t' i, t' <> t -> (y_pc y' t' = Poll i \/ y_pc y' t' = Yield i) -> s_go (y_sl y') i = true.
Proof.
  intros N y t RE P F. destruct (reach_inv N y RE) as (s & H). assert (HR := i_R _ _ _ H).
  destruct (wakeup_ok (y_sl y) s 0 false N HR (inv_len _ _ _ H)) as (sl1 & W1 & R1).
  assert (L1 : (length (asleep (wake_all 0 (selects 0 s))) <= N)%nat). { rewrite <- (i_n _ _ _ H), <- (selects_len 0 s), <- (wake_all_len 0 (selects 0 s)). apply asleep_len. }
  destruct (wakeup_ok sl1 _ rch false N R1 L1) as (sl2 & W2 & R2). cbv iota in R2.
  eexists. split; [exact (st_wake N y t sl1 sl2 P F W1 W2)|]. cbn [y_pc y_lock y_sl]. unfold setpc. rewrite up_same. split; [reflexivity|]. split; [reflexivity|].
  intros t' i NT Q. rewrite up_other in Q by exact NT. assert (RE' : reach N (mkSys (setpc y t Idle) None (y_data y) (y_flag y) sl2)) by (apply (reachS N y); [exact RE|exact (st_wake N y t sl1 sl2 P F W1 W2)]).
  destruct (s_go sl2 i) eqn:G; [reflexivity|]. exfalso.
  assert (RD : rd (y_pc y t') i) by (destruct Q as [-> | ->]; reflexivity).
  assert (WW : wakes s (wake_all rch (selects rch (wake_all 0 (selects 0 s))))).
  { apply (wakes_trans _ (selects 0 s)); [apply selects_wakes|]. apply (wakes_trans _ (wake_all 0 (selects 0 s))); [apply wake_all_wakes|]. apply (wakes_trans _ (selects rch (wake_all 0 (selects 0 s)))); [apply selects_wakes|apply wake_all_wakes]. }
  assert (IN := proj2 WW i (i_own _ _ _ H t' i (rd_owns _ _ RD))). unfold ids in IN. apply in_app_or in IN. destruct IN as [IN|IN].
  - apply in_map_iff in IN. destruct IN as ([j c] & E & IN). cbn [fst] in E. subst j. assert (c = rch) by (apply (i_ch _ _ _ H t' i c RD), (proj1 WW), IN). subst c.
    unfold wake_all in IN at 1. cbn [asleep] in IN. apply filter_In in IN. destruct IN as (_ & IN). cbn in IN. discriminate.
  - apply in_map_iff in IN. destruct IN as ([j b] & E & IN). cbn [fst] in E. subst j. destruct (r_woken _ _ R2 _ _ IN) as (X & _). congruence.
Qed.
Print Assumptions writer_wakes_all_readers.

(* ---------- what does not hold ---------- *)
(* The expiry of a timer knows only the channel: it wakes the latest sleeper of that channel.
   Two selects share channel 0: the one without a timeout "times out", the other sleeps on. *)
Theorem timeout_wakes_who_asked_refuted :
  ~ (forall n ops i, slegal (s0 n) (ops ++ [SReturn i]) ->
       last (snd (ssteps (s0 n) (ops ++ [SReturn i]))) SNone = SRet true ->
       exists k ch, nth_error ops k = Some (SSleep ch true) /\ nth_error (snd (ssteps (s0 n) ops)) k = Some (SId (Some i))).
Proof.
  intros X. destruct (X 2%nat [SSleep 0 true; SSleep 0 false; STimer 0] 1%nat) as (k & ch & E1 & E2); [cbn; tauto|reflexivity|].
  destruct k as [|[|[|k]]]; cbn in E1, E2; try discriminate. destruct k; discriminate.
Qed.
Print Assumptions timeout_wakes_who_asked_refuted.
(* ofp_select: nothing sets SB_SEL, so a writer does not call ofp_wakeup unless some reader once
   waited on the buffer (sb_notify); and even then select looks and sleeps in two steps. *)
Definition settled (y : sys) (t i : nat) : Prop := y_pc y t = SelWait i /\ s_go (y_sl y) i = false /\ forall t', t' <> t -> y_pc y t' = Idle.
Theorem select_sleeps_only_on_empty_refuted : ~ (forall N y t i, reach N y -> y_flag y = false -> settled y t i -> y_data y = O).
Proof.
  intros X. set (a := y0 1).
  assert (R1 := reachS 1 _ _ (reach0 1) (st_sel 1 a 0 eq_refl)). match type of R1 with reach _ ?y => set (b := y) in R1 end.
  assert (R2 := reachS 1 _ _ R1 (st_selnot 1 b 0 eq_refl eq_refl)). match type of R2 with reach _ ?y => set (c := y) in R2 end.
  assert (R3 := reachS 1 _ _ R2 (st_selsleep 1 c 0 _ _ eq_refl eq_refl)). match type of R3 with reach _ ?y => set (d := y) in R3 end.
  assert (R4 := reachS 1 _ _ R3 (st_wlock 1 d 1 eq_refl eq_refl)). match type of R4 with reach _ ?y => set (e := y) in R4 end.
  assert (R5 := reachS 1 _ _ R4 (st_put 1 e 1 eq_refl)). match type of R5 with reach _ ?y => set (f := y) in R5 end.
  assert (R6 := reachS 1 _ _ R5 (st_nowake 1 f 1 eq_refl eq_refl)). match type of R6 with reach _ ?y => set (g := y) in R6 end.
  assert (Y := X 1%nat g 0%nat 0%nat R6 eq_refl). assert (S : settled g 0 0). { split; [reflexivity|]. split; [reflexivity|]. intros t' NT. destruct t' as [|[|t']]; [contradiction|reflexivity|reflexivity]. }
  specialize (Y S). discriminate.
Qed.
Print Assumptions select_sleeps_only_on_empty_refuted.
Theorem select_race_refuted : ~ (forall N y t i, reach N y -> y_flag y = true -> settled y t i -> y_data y = O).
Proof.
  intros X. set (a := y0 2).
  Ltac nxt R R' s := assert (R' := reachS 2 _ _ R s); match type of R' with reach _ ?y => let z := fresh "z" in set (z := y) in R' end.
  assert (R0 := reach0 2). fold a in R0.
  nxt R0 R1 (st_lock 2 a 2 eq_refl eq_refl).
  nxt R1 R2 (st_wait 2 z 2 _ _ eq_refl eq_refl eq_refl).
  nxt R2 R3 (st_give 2 z0 2 _ eq_refl eq_refl).
  nxt R3 R4 (st_wlock 2 z1 1 eq_refl eq_refl).
  nxt R4 R5 (st_put 2 z2 1 eq_refl).
  nxt R5 R6 (st_wake 2 z3 1 _ _ eq_refl eq_refl eq_refl eq_refl).
  nxt R6 R7 (st_back 2 z4 2 _ eq_refl eq_refl).
  nxt R7 R8 (st_up 2 z5 2 _ _ _ eq_refl eq_refl eq_refl).
  assert (D : y_data z6 <> O) by (vm_compute; discriminate).
  nxt R8 R9 (st_take 2 z6 2 eq_refl D).
  nxt R9 R10 (st_sel 2 z7 0 eq_refl).
  nxt R10 R11 (st_selnot 2 z8 0 eq_refl eq_refl).
  nxt R11 R12 (st_wlock 2 z9 1 eq_refl eq_refl).
  nxt R12 R13 (st_put 2 z10 1 eq_refl).
  nxt R13 R14 (st_wake 2 z11 1 _ _ eq_refl eq_refl eq_refl eq_refl).
  nxt R14 R15 (st_selsleep 2 z12 0 _ _ eq_refl eq_refl).
  assert (S : settled z13 0 0). { split; [reflexivity|]. split; [reflexivity|]. intros t' NT. destruct t' as [|[|[|t']]]; [contradiction|reflexivity|reflexivity|reflexivity]. }
  assert (Y := X 2%nat z13 0%nat 0%nat R15 eq_refl S). discriminate.
Qed.
Print Assumptions select_race_refuted.
(* the run of that proof also reaches a sleeping reader: the hypotheses of C51 are met *)
Example a_reader_sleeps : exists y, reach 2 y /\ y_pc y 2%nat = Yield 0 /\ s_go (y_sl y) 0%nat = false.
Proof.
  assert (R0 := reach0 2). assert (R1 := reachS 2 _ _ R0 (st_lock 2 (y0 2) 2 eq_refl eq_refl)). match type of R1 with reach _ ?y => set (b := y) in R1 end.
  assert (R2 := reachS 2 _ _ R1 (st_wait 2 b 2 _ _ eq_refl eq_refl eq_refl)). match type of R2 with reach _ ?y => set (c := y) in R2 end.
  assert (R3 := reachS 2 _ _ R2 (st_give 2 c 2 _ eq_refl eq_refl)). match type of R3 with reach _ ?y => set (d := y) in R3 end.
  exists d. split; [exact R3|]. split; reflexivity.
Qed.
