(* Properties C16, C17, C18 (src/ofp_timer.c). *)
From Coq Require Import Permutation.
From Verif Require Import Base TimerModel TimerSpec TimerProof TimerLife TimerPool.
Ltac Zify.zify_post_hook ::= idtac.

(* C16 (timeouts up to 8192 s) and C17: whatever the other threads do (any
   event list), the timer started for s seconds fires on the s-th tick after
   its start, once, and never when a cancel returned 0; cancel returns -1
   exactly when it is too late. *)
Theorem long_timer_on_time_partial : forall n evs st tr1 ev h cb s tr2,
  trun (timer_init n) evs = (st, tr1 ++ (ev, OStarted h cb s) :: tr2) ->
  starts (tr1 ++ (ev, OStarted h cb s) :: tr2) <= 2 ^ 50 ->
  1 <= s <= 8192 -> life_ok h cb s tr2.
Proof.
  intros n evs st tr1 ev h cb s tr2 H L Hs.
  assert (Hs1 : 1 <= s) by lia.
  pose proof (life _ _ _ _ _ _ _ _ _ H L Hs1) as X.
  rewrite Z.mod_small in X by lia. rewrite Z.sub_add in X. exact X.
Qed.
Print Assumptions long_timer_on_time_partial.

(* Beyond 8192 s the timer fires after ((s-1) mod 8192)+1 seconds. *)
Theorem long_timer_wraps : forall n evs st tr1 ev h cb s tr2,
  trun (timer_init n) evs = (st, tr1 ++ (ev, OStarted h cb s) :: tr2) ->
  starts (tr1 ++ (ev, OStarted h cb s) :: tr2) <= 2 ^ 50 ->
  1 <= s -> life_ok h cb ((s - 1) mod 8192 + 1) tr2.
Proof. intros n evs st tr1 ev h cb s tr2 H L Hs. exact (life _ _ _ _ _ _ _ _ _ H L Hs). Qed.
Print Assumptions long_timer_wraps.

(* C17: exactly once or cancelled, for every timeout. *)
Theorem long_timer_once : forall n evs st tr1 ev h cb s tr2,
  trun (timer_init n) evs = (st, tr1 ++ (ev, OStarted h cb s) :: tr2) ->
  starts (tr1 ++ (ev, OStarted h cb s) :: tr2) <= 2 ^ 50 -> 1 <= s ->
  (* at most one firing, with its own callback *)
  (forall a e c b, tr2 = a ++ (e, OFired h c) :: b -> c = cb /\ ~ fired h a /\ ~ fired h b) /\
  (* never fired and cancelled *)
  (cancelled h tr2 -> ~ fired h tr2) /\
  (* a cancel after firing or after a successful cancel returns -1 *)
  (forall a r b, tr2 = a ++ (ECancel h, OCancel r) :: b -> fired h a \/ cancelled h a -> r = -1) /\
  (* left alone it does fire *)
  (ticks tr2 > 8192 -> ~ cancelled h tr2 -> fired h tr2).
Proof.
  intros n evs st tr1 ev h cb s tr2 H L Hs.
  pose proof (life _ _ _ _ _ _ _ _ _ H L Hs) as [F1 F2 F3 F4].
  split; [|split; [|split]].
  - intros a e c b E. destruct (F1 _ _ _ _ E) as (A & B & C & D & _). auto.
  - intros HC (e & c & HF). apply in_split in HF as (a & b & E).
    destruct (F1 _ _ _ _ E) as (_ & _ & _ & _ & C & D). unfold cancelled in *. rewrite E in HC.
    apply in_app_iff in HC. destruct HC as [X|[X|X]]; [auto|discriminate|auto].
  - intros a r b E HX. destruct (Z.eq_dec r 0) as [->|N].
    + destruct (F2 _ _ E) as (_ & A & _ & B & _). destruct HX; contradiction.
    + destruct (F3 _ _ _ E N); assumption.
  - intros T NC. destruct F4 as [X|X]; [|exact X|contradiction].
    pose proof (Z.mod_pos_bound (s - 1) 8192 eq_refl). lia.
Qed.
Print Assumptions long_timer_once.

(* C16 refuted for 8193 s: the callback runs on the first tick. *)
Theorem long_timer_too_long_refuted : exists n evs st tr1 ev h cb s tr2,
  trun (timer_init n) evs = (st, tr1 ++ (ev, OStarted h cb s) :: tr2) /\
  s = 8193 /\ ticks tr2 = 1 /\ fired h tr2.
Proof.
  exists 5%nat, [EStart 7 8193000000; EInsert 0; ETick; ECall].
  set (r := trun _ _).
  exists (fst r), [(EStart 7 8193000000, OBusy)], (EInsert 0), 9223372036854775809, 7, 8193,
    [(ETick, OTick); (ECall, OFired 9223372036854775809 7)].
  split; [rewrite (surjective_pairing r) at 1; f_equal; vm_compute; reflexivity|].
  split; [reflexivity|]. split; [reflexivity|].
  exists ECall, 7. right. left. reflexivity.
Qed.
Print Assumptions long_timer_too_long_refuted.

(* C17 for a short timer is refuted: ofp_timer_cancel returns 0 for a timer
   whose timeout is already queued, and its callback still runs. *)
Theorem short_cancel_still_fires_refuted : exists n evs st tr1 ev1 tr2 ev2 tr3 h cb,
  trun (timer_init n) evs = (st, tr1 ++ (ev1, OShort h cb) :: tr2 ++ (ECancel h, OCancel 0) :: tr3) /\
  In (ev2, OShortFired h cb) tr3.
Proof.
  exists 5%nat, [EShort 7 1000000 33 NoFail; EExpire 33; ECancel 33; EHandle 33].
  set (r := trun _ _).
  exists (fst r), [], (EShort 7 1000000 33 NoFail), [(EExpire 33, OBusy)], (EHandle 33),
    [(EHandle 33, OShortFired 33 7)], 33, 7.
  split; [rewrite (surjective_pairing r) at 1; f_equal; vm_compute; reflexivity|]. left. reflexivity.
Qed.
Print Assumptions short_cancel_still_fires_refuted.

(* C18: two long timers with fewer than 2^50 - 1 long starts in between (in a
   run of any length) have different handles. *)
Theorem long_handles_distinct : forall n evs st a e1 h1 c1 s1 b e2 h2 c2 s2 c,
  trun (timer_init n) evs =
    (st, a ++ (e1, OStarted h1 c1 s1) :: b ++ (e2, OStarted h2 c2 s2) :: c) ->
  starts b < 2 ^ 50 - 1 -> h1 <> h2.
Proof. exact handles_distinct. Qed.
Print Assumptions long_handles_distinct.

(* C18: a long handle is no short handle and not ODP_TIMER_INVALID (0). *)
Theorem long_handle_not_short : forall n evs st tr e1 e2 h1 h2 c1 c2 s,
  trun (timer_init n) evs = (st, tr) ->
  In (e1, OStarted h1 c1 s) tr -> In (e2, OShort h2 c2) tr -> h1 <> h2 /\ h1 <> 0.
Proof.
  intros n evs st tr e1 e2 h1 h2 c1 c2 s H A B.
  pose proof (long_handle_range _ _ _ _ _ _ _ _ H A).
  pose proof (short_handle_range _ _ _ _ _ _ _ H B). lia.
Qed.
Print Assumptions long_handle_not_short.

(* C38: every buffer is always either free or held by exactly one timer (or
   start in progress, or the tick handler), and the timeouts and ODP timers in
   use are those of the pending short timers and the one second timer. *)
Theorem timer_resources_conserved : forall n evs st tr,
  trun (timer_init n) evs = (st, tr) ->
  Permutation (t_free st ++ used_bufs st) (seq 0 (S n)) /\
  t_ntmo st = Z.of_nat (length (t_short st)) + alive (t_tick st) /\
  t_ntim st = Z.of_nat (length (t_short st)) + alive (t_tick st).
Proof.
  intros n evs st tr H. destruct (PInv_run n _ _ _ _ (PInv_init n) H) as [A B C D]. auto.
Qed.
Print Assumptions timer_resources_conserved.

(* C39 refuted: when the pool happens to be empty at the end of a tick, the
   wheel stops for ever: no continuation ever ticks again, although every
   buffer may have been given back. *)
Theorem wheel_stops_refuted : exists n evs st tr,
  trun (timer_init n) evs = (st, tr) /\
  (forall evs' st' tr', trun st evs' = (st', tr') -> ticks tr' = 0) /\
  t_free st <> [].
Proof.
  exists 1%nat, [EStart 7 10000000; EInsert 0; ETick; ETickEnd NoFail;
                 ECancel 9223372036854775818].
  set (r := trun _ _). exists (fst r), (snd r). split; [apply surjective_pairing|].
  assert (D : t_tick (fst r) = Dead) by (vm_compute; reflexivity).
  assert (F : t_free (fst r) = [0%nat; 1%nat]) by (vm_compute; reflexivity).
  split; [|rewrite F; discriminate]. clearbody r. clear F.
  assert (G : forall evs' s s' tr', t_tick s = Dead -> trun s evs' = (s', tr') -> ticks tr' = 0).
  { induction evs' as [|ev evs' IH]; intros s s' tr' D0 H.
    - injection H as <- <-. reflexivity.
    - apply trun_cons in H as (s1 & o & tr1 & S1 & S2 & ->).
      assert (X : t_tick s1 = Dead /\ o <> OTick).
      { destruct ev; cbn [tstep] in S1;
          unfold start_long, start_insert, start_short, cancel, tick_lock, tick_call, tick_free, tick_end,
            expire, handle in S1; try rewrite D0 in S1;
          repeat match type of S1 with
          | context [match ?x with _ => _ end] => destruct x
          end; injection S1 as <- <-; (split; [first [exact D0|reflexivity]|discriminate]). }
      destruct X as [X1 X2]. rewrite ticks_cons, (IH _ _ _ X1 S2).
      destruct o; try reflexivity. contradiction. }
  intros evs' st' tr' H. exact (G _ _ _ _ D H).
Qed.
Print Assumptions wheel_stops_refuted.

(* Non-vacuity: two timers in different slots, one cancelled, one fired on
   its tenth tick, run across other timers' activity. *)
Example timer_run_nontrivial :
  let evs := [EStart 7 10000000; EStart 8 11999999; EInsert 1; EInsert 0;
              EShort 9 5000 44 NoFail; ECancel 9223372036854775819]
             ++ concat (repeat [ETick; ETickEnd NoFail] 9)
             ++ [ETick; ECall; ECancel 9223372036854784010; EFree; ETickEnd NoFail] in
  map snd (filter (fun p => match snd p with OBusy | OTick => false | _ => true end)
    (snd (trun (timer_init 10) evs)))
  = [OStarted 9223372036854775819 8 11; OStarted 9223372036854784010 7 10; OShort 44 9;
     OCancel 0; OFired 9223372036854784010 7; OCancel (-1)].
Proof. vm_compute. reflexivity. Qed.
