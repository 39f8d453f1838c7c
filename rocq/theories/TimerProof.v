(* Proofs about the timer model. *)
From Verif Require Import Base TimerModel TimerSpec.
Ltac Zify.zify_post_hook ::= idtac.

Definition LIM : Z := 1125899906842624. (* 2^50 *)

(* ---- handles ---- *)
Lemma lor_disjoint_add a b k : 0 <= b < 2 ^ k -> 0 <= k -> 0 <= a ->
  Z.lor (a * 2 ^ k) b = a * 2 ^ k + b.
Proof.
  intros Hb Hk Ha. symmetry. rewrite Z.add_nocarry_lxor.
  - rewrite Z.lxor_lor; [reflexivity|].
    apply Z.bits_inj'. intros n Hn. rewrite Z.land_spec, Z.bits_0.
    destruct (Z.lt_ge_cases n k).
    + rewrite Z.mul_pow2_bits_low by lia. reflexivity.
    + destruct (Z.eq_dec b 0) as [->|]; [rewrite Z.bits_0; apply andb_false_r|].
      rewrite (Z.bits_above_log2 b n); [apply andb_false_r|lia|].
      apply Z.lt_le_trans with k; [|lia]. apply Z.log2_lt_pow2; lia.
  - apply Z.bits_inj'. intros n Hn. rewrite Z.land_spec, Z.bits_0.
    destruct (Z.lt_ge_cases n k).
    + rewrite Z.mul_pow2_bits_low by lia. reflexivity.
    + destruct (Z.eq_dec b 0) as [->|]; [rewrite Z.bits_0; apply andb_false_r|].
      rewrite (Z.bits_above_log2 b n); [apply andb_false_r|lia|].
      apply Z.lt_le_trans with k; [|lia]. apply Z.log2_lt_pow2; lia.
Qed.

Lemma long_handle_val id ix : 0 <= id < LIM -> 0 <= ix < 8192 ->
  long_handle id ix = OFP_TIMER_MASK + id * 8192 + ix.
Proof.
  unfold long_handle, LIM, u64. intros Hi Hx.
  rewrite Z.shiftl_mul_pow2 by lia. rewrite Z.mod_small by lia.
  rewrite lor_disjoint_add by lia.
  rewrite Z.lor_comm.
  replace OFP_TIMER_MASK with (1 * 2 ^ 63) by reflexivity.
  rewrite lor_disjoint_add; lia.
Qed.

(* the 64-bit wrap: a handle only depends on the id modulo 2^51 *)
Lemma lor_mask_idem id ix : 0 <= id -> 0 <= ix < 8192 ->
  long_handle id ix = OFP_TIMER_MASK + (id mod LIM) * 8192 + ix.
Proof.
  intros Hi Hx. rewrite <- (long_handle_val (id mod LIM) ix);
    [|apply Z.mod_pos_bound; reflexivity|assumption].
  unfold long_handle. rewrite <- !Z.lor_assoc.
  rewrite (Z.lor_comm ix), !Z.lor_assoc. f_equal.
  unfold u64. rewrite !Z.shiftl_mul_pow2 by lia.
  apply Z.bits_inj'. intros n Hn. rewrite !Z.lor_spec.
  change OFP_TIMER_MASK with (2 ^ 63). rewrite Z.pow2_bits_eqb by lia.
  destruct (Z.eqb_spec 63 n) as [<-|Hne]; [rewrite !orb_true_r; reflexivity|].
  rewrite !orb_false_r.
  change 18446744073709551616 with (2 ^ 64).
  destruct (Z.lt_ge_cases n 64) as [H64|H64].
  - rewrite !Z.mod_pow2_bits_low by lia.
    destruct (Z.lt_ge_cases n 13) as [H13|H13].
    + rewrite !Z.mul_pow2_bits_low by lia. reflexivity.
    + rewrite !Z.mul_pow2_bits by lia.
      change LIM with (2 ^ 50). rewrite Z.mod_pow2_bits_low by lia. reflexivity.
  - rewrite !Z.mod_pow2_bits_high by lia. reflexivity.
Qed.

Lemma land_mask_long id ix : 0 <= id -> 0 <= ix < 8192 ->
  Z.land (long_handle id ix) OFP_TIMER_MASK <> 0.
Proof.
  intros Hi Hx E. assert (B : Z.testbit (Z.land (long_handle id ix) OFP_TIMER_MASK) 63 = false)
    by (rewrite E; apply Z.bits_0).
  rewrite Z.land_spec in B. unfold long_handle in B. rewrite Z.lor_spec in B.
  change (Z.testbit OFP_TIMER_MASK 63) with true in B.
  rewrite orb_true_r in B. discriminate.
Qed.

Lemma land_mask_short h : 0 <= h < OFP_TIMER_MASK -> Z.land h OFP_TIMER_MASK = 0.
Proof.
  intros H. apply Z.bits_inj'. intros n Hn. rewrite Z.land_spec, Z.bits_0.
  change OFP_TIMER_MASK with (2 ^ 63) in *. rewrite Z.pow2_bits_eqb by lia.
  destruct (Z.eqb_spec 63 n) as [<-|]; [|apply andb_false_r].
  rewrite andb_true_r. destruct (Z.eq_dec h 0) as [->|]; [apply Z.bits_0|].
  apply Z.bits_above_log2; [lia|]. apply Z.log2_lt_pow2; lia.
Qed.

Lemma handle_mod id ix : 0 <= id < LIM -> 0 <= ix < 8192 ->
  long_handle id ix mod 8192 = ix.
Proof.
  intros. rewrite long_handle_val by assumption.
  replace (OFP_TIMER_MASK + id * 8192 + ix) with (ix + (1125899906842624 + id) * 8192)
    by (unfold OFP_TIMER_MASK; lia).
  rewrite Z_mod_plus_full. apply Z.mod_small; assumption.
Qed.

Lemma handle_inj i x j y : 0 <= i < LIM -> 0 <= x < 8192 -> 0 <= j < LIM -> 0 <= y < 8192 ->
  long_handle i x = long_handle j y -> i = j /\ x = y.
Proof.
  intros Hi Hx Hj Hy E. rewrite !long_handle_val in E by assumption.
  unfold LIM in *. lia.
Qed.

(* ---- invariant ---- *)
Definition run_list (st : timers) : list entry :=
  match t_tick st with Running _ l _ => l | _ => [] end.

Definition known (h : Z) (st : timers) : Prop :=
  exists k ix, 0 <= k < t_id st /\ 0 <= ix < 8192 /\ h = long_handle k ix.

Record Inv (st : timers) : Prop := {
  i_sec : 0 <= t_sec st < 8192;
  i_id : 0 <= t_id st <= LIM;
  i_tab : forall ix e, In e (t_tab st ix) ->
      exists k, 0 <= k < t_id st /\ 0 <= ix < 8192 /\ e_id e = long_handle k ix;
  i_nd : forall ix, NoDup (map e_id (t_tab st ix));
  i_run : forall e, In e (run_list st) -> known (e_id e) st;
  i_rnd : NoDup (map e_id (run_list st));
  i_dis : forall ix e, In e (t_tab st ix) -> ~ In (e_id e) (map e_id (run_list st))
}.

Lemma known_mono h st st' : known h st -> t_id st <= t_id st' -> known h st'.
Proof. intros (k & ix & Hk & Hx & E) L. exists k, ix. repeat split; auto; lia. Qed.

Lemma inv_known_tab st : Inv st -> forall ix e, In e (t_tab st ix) -> known (e_id e) st.
Proof. intros I ix e H. destruct (i_tab _ I ix e H) as (k & A & B & C). exists k, ix. auto. Qed.

(* an invariant-preserving change that leaves the wheel alone *)
Lemma Inv_frame st st' :
  t_tab st' = t_tab st -> t_sec st' = t_sec st -> t_id st' = t_id st ->
  run_list st' = run_list st ->
  Inv st -> Inv st'.
Proof.
  intros E1 E2 E3 E4 I. destruct I as [Hs Hi Ht Hn Hr Hrn Hd].
  split; try (rewrite ?E1, ?E2, ?E3, ?E4; assumption).
  intros e He. rewrite E4 in He. destruct (Hr e He) as (k & ix & A & B & C).
  exists k, ix. rewrite E3. auto.
Qed.

Lemma unlink_spec t l e l' : unlink t l = Some (e, l') ->
  exists a b, l = a ++ e :: b /\ l' = a ++ b /\ e_id e = t /\ ~ In t (map e_id a).
Proof.
  revert e l'. induction l as [|x l IH]; cbn [unlink]; intros e l' H; [discriminate|].
  destruct (Z.eqb_spec (e_id x) t) as [Ex|Ex].
  - injection H as <- <-. exists [], l. cbn. auto.
  - destruct (unlink t l) as [[y r]|]; [|discriminate]. injection H as <- <-.
    destruct (IH y r eq_refl) as (a & b & -> & -> & A & B).
    exists (x :: a), b. cbn [app map In]. repeat split; auto. intros [C|C]; auto.
Qed.
Lemma unlink_none t l : unlink t l = None -> ~ In t (map e_id l).
Proof.
  induction l as [|x l IH]; cbn [unlink map In]; intros H; [tauto|].
  destruct (Z.eqb_spec (e_id x) t); [discriminate|].
  destruct (unlink t l) as [[y r]|]; [discriminate|]. intros [A|A]; [auto|]. exact (IH eq_refl A).
Qed.

Lemma In_remove_nth {A} n (l : list A) x : In x (remove_nth n l) -> In x l.
Proof.
  revert l. induction n; intros [|y l]; cbn; try tauto. intros [->|H]; auto.
Qed.

Lemma long_ix_range s sec : 0 <= long_ix s sec < 8192.
Proof. apply Z.mod_pos_bound. reflexivity. Qed.

Lemma upd_same {A} (f : Z -> A) k v : upd f k v k = v.
Proof. unfold upd. rewrite Z.eqb_refl. reflexivity. Qed.
Lemma upd_other {A} (f : Z -> A) k v x : x <> k -> upd f k v x = f x.
Proof. unfold upd. destruct (Z.eqb_spec x k); congruence. Qed.


Lemma long_ix_val s sec : long_ix s sec = (s + sec) mod 8192.
Proof.
  unfold long_ix, u64, TIMER_NUM_LONG_SLOTS.
  rewrite <- (Znumtheory.Zmod_div_mod 8192 18446744073709551616); try reflexivity.
  exists 2251799813685248. reflexivity.
Qed.

(* ---- preservation ---- *)
Definition is_start (o : tobs) : Z := match o with OStarted _ _ _ => 1 | _ => 0 end.

Lemma tstep_id st ev st' o : Inv st -> t_id st + is_start o <= LIM ->
  tstep st ev = (st', o) -> t_id st' = t_id st + is_start o.
Proof.
  intros I L H.
  assert (HU : forall x, 0 <= x < LIM -> u64 (x + 1) = x + 1).
  { intros x Hx. unfold u64. apply Z.mod_small. unfold LIM in Hx. lia. }
  destruct ev; cbn [tstep] in H;
    unfold start_long, start_insert, start_short, cancel, tick_lock, tick_call, tick_free, tick_end,
      expire, handle in H;
    repeat match type of H with
    | context [match ?x with _ => _ end] => destruct x
    end; injection H as <- <-; cbn [t_id is_start] in *; try lia.
  apply HU. pose proof (i_id _ I). lia.
Qed.

Lemma NoDup_app_r {A} (a b : list A) : NoDup (a ++ b) -> NoDup b.
Proof. induction a; cbn; [auto|]. inversion 1; auto. Qed.

Lemma Inv_insert st n st' o : Inv st -> t_id st < LIM -> start_insert st n = (st', o) -> Inv st'.
Proof.
  intros I L H. unfold start_insert in H. destruct (nth_error (t_fly st) n) as [f|]; [|injection H as <- <-; exact I].
  injection H as <- _.
  set (ix := long_ix (t_sec st) (f_sec f)).
  assert (HX : 0 <= ix < 8192) by apply long_ix_range.
  destruct I as [Hs Hi Ht Hn Hr Hrn Hd].
  assert (U : u64 (t_id st + 1) = t_id st + 1) by (apply Z.mod_small; unfold LIM in *; lia).
  assert (FR : forall h, known h st -> h <> long_handle (t_id st) ix).
  { intros h (k & y & Hk & Hy & ->) E. apply handle_inj in E; lia. }
  assert (FT : forall jx e, In e (t_tab st jx) -> e_id e <> long_handle (t_id st) ix).
  { intros jx e He. apply FR. destruct (Ht jx e He) as (k & A & B & C). exists k, jx. auto. }
  split; cbn [t_sec t_id t_tab run_list t_tick]; rewrite ?U; try assumption.
  - lia.
  - intros jx e He. destruct (Z.eq_dec jx ix) as [->|N].
    + rewrite upd_same in He. destruct He as [<-|He].
      * exists (t_id st). cbn [e_id]. repeat split; lia || reflexivity.
      * destruct (Ht ix e He) as (k & A & B & C). exists k. repeat split; lia || assumption.
    + rewrite upd_other in He by assumption. destruct (Ht jx e He) as (k & A & B & C).
      exists k. repeat split; lia || assumption.
  - intros jx. destruct (Z.eq_dec jx ix) as [->|N]; [rewrite upd_same|rewrite upd_other by assumption; apply Hn].
    cbn [map e_id]. constructor; [|apply Hn].
    intros HI. apply in_map_iff in HI as (e & E & He). exact (FT _ _ He E).
  - intros e He. destruct (Hr e He) as (k & y & A & B & C). exists k, y. cbn [t_id]. repeat split; lia || assumption.
  - intros jx e He. destruct (Z.eq_dec jx ix) as [->|N].
    + rewrite upd_same in He. destruct He as [<-|He]; [|exact (Hd _ _ He)].
      cbn [e_id]. intros HI. apply in_map_iff in HI as (e & E & He). exact (FR _ (Hr e He) E).
    + rewrite upd_other in He by assumption. exact (Hd _ _ He).
Qed.

Lemma NoDup_app_drop {A} (a : list A) x b : NoDup (a ++ x :: b) -> NoDup (a ++ b).
Proof. apply NoDup_remove_1. Qed.

Lemma Inv_cancel st t st' o : Inv st -> cancel st t = (st', o) -> Inv st'.
Proof.
  intros I H. unfold cancel in H.
  destruct (t =? 0); [injection H as <- <-; exact I|].
  destruct (Z.land t OFP_TIMER_MASK =? 0).
  - destruct (find_short t (t_short st)) as [s|]; [destruct (s_exp s)|];
      injection H as <- <-; try exact I.
    apply (Inv_frame st); try reflexivity; assumption.
  - destruct (unlink t (t_tab st (t mod TIMER_NUM_LONG_SLOTS))) as [[e l']|] eqn:U;
      injection H as <- <-; [|exact I].
    apply unlink_spec in U as (a & b & E & -> & _ & _).
    set (ix := t mod TIMER_NUM_LONG_SLOTS) in *.
    assert (SUB : forall jx x, In x (upd (t_tab st) ix (a ++ b) jx) -> In x (t_tab st jx)).
    { intros jx x. destruct (Z.eq_dec jx ix) as [->|N]; [rewrite upd_same, E|rewrite upd_other by assumption; auto].
      rewrite !in_app_iff. cbn [In]. tauto. }
    destruct I as [Hs Hi Ht Hn Hr Hrn Hd]. split; cbn [t_sec t_id t_tab run_list t_tick]; try assumption.
    + intros jx x Hx. apply Ht, SUB, Hx.
    + intros jx. destruct (Z.eq_dec jx ix) as [->|N]; [rewrite upd_same|rewrite upd_other by assumption; apply Hn].
      specialize (Hn ix). rewrite E in Hn. rewrite map_app in *. cbn [map] in Hn.
      exact (NoDup_app_drop _ _ _ Hn).
    + intros jx x Hx. apply (Hd jx), SUB, Hx.
Qed.

Lemma Inv_tick st st' o : Inv st -> tick_lock st = (st', o) -> Inv st'.
Proof.
  intros I H. unfold tick_lock in H. destruct (t_tick st) eqn:ET; injection H as <- <-; try exact I.
  assert (RE : run_list st = []) by (unfold run_list; rewrite ET; reflexivity).
  destruct I as [Hs Hi Ht Hn Hr Hrn Hd].
  set (c := (t_sec st + 1) mod TIMER_NUM_LONG_SLOTS).
  assert (HC : 0 <= c < 8192) by (apply Z.mod_pos_bound; reflexivity).
  assert (SUB : forall jx x, In x (upd (t_tab st) c [] jx) -> In x (t_tab st jx) /\ jx <> c).
  { intros jx x. destruct (Z.eq_dec jx c) as [->|N]; [rewrite upd_same|rewrite upd_other by assumption; auto].
    intros []. }
  split; unfold run_list; cbn [t_sec t_id t_tab t_tick]; try assumption.
  - intros jx x Hx. apply Ht, (SUB jx x Hx).
  - intros jx. destruct (Z.eq_dec jx c) as [->|N]; [rewrite upd_same; constructor|rewrite upd_other by assumption; apply Hn].
  - intros e He. destruct (Ht c e He) as (k & A & B & C). exists k, c. auto.
  - apply Hn.
  - intros jx e He HI. destruct (SUB jx e He) as [He' N].
    apply in_map_iff in HI as (x & E & Hx).
    destruct (Ht jx e He') as (k & A & B & C), (Ht c x Hx) as (k' & A' & B' & C').
    rewrite C, C' in E. apply handle_inj in E; lia.
Qed.

Lemma Inv_call st st' o : Inv st -> tick_call st = (st', o) -> Inv st'.
Proof.
  intros I H. unfold tick_call in H.
  destruct (t_tick st) as [b|b l cur|] eqn:ET; try (injection H as <- <-; exact I).
  destruct l as [|e l]; [injection H as <- <-; exact I|].
  destruct cur; injection H as <- <-; [exact I|].
  assert (RE : run_list st = e :: l) by (unfold run_list; rewrite ET; reflexivity).
  destruct I as [Hs Hi Ht Hn Hr Hrn Hd]. rewrite RE in *.
  split; unfold run_list; cbn [t_sec t_id t_tab t_tick]; try assumption.
  - intros x Hx. apply Hr. right. exact Hx.
  - cbn [map] in Hrn. inversion Hrn; assumption.
  - intros jx x Hx HI. apply (Hd jx x Hx). right. exact HI.
Qed.

Lemma Inv_step st ev st' o : Inv st -> t_id st + is_start o <= LIM ->
  tstep st ev = (st', o) -> Inv st'.
Proof.
  intros I L H. destruct ev; cbn [tstep] in H.
  - unfold start_long in H. destruct (u64 tmo <? OFP_TIMER_MAX_US); [injection H as <- <-; exact I|].
    destruct (t_free st); injection H as <- <-; [exact I|].
    apply (Inv_frame st); try reflexivity; assumption.
  - destruct (nth_error (t_fly st) n) as [f|] eqn:E.
    + eapply Inv_insert; [exact I| |exact H]. unfold start_insert in H. rewrite E in H.
      injection H as _ <-. cbn [is_start] in L. lia.
    + unfold start_insert in H. rewrite E in H. injection H as <- <-. exact I.
  - unfold start_short in H.
    destruct (negb (u64 tmo <? OFP_TIMER_MAX_US) || negb (odp_handle_ok st h)); [injection H as <- <-; exact I|].
    destruct (t_free st); [injection H as <- <-; exact I|].
    destruct f; injection H as <- <-; try exact I.
    apply (Inv_frame st); try reflexivity; assumption.
  - eapply Inv_cancel; eassumption.
  - eapply Inv_tick; eassumption.
  - eapply Inv_call; eassumption.
  - unfold tick_free in H. destruct (t_tick st) as [|b l [e|]|] eqn:ET; injection H as <- <-; try exact I.
    apply (Inv_frame st); try reflexivity; try assumption. unfold run_list. rewrite ET. reflexivity.
  - unfold tick_end in H. destruct (t_tick st) as [|b l c|] eqn:ET; try (injection H as <- <-; exact I).
    destruct l; [|injection H as <- <-; exact I]. destruct c; [injection H as <- <-; exact I|].
    destruct (t_free st), f; injection H as <- <-;
      (apply (Inv_frame st); try reflexivity; try assumption; unfold run_list; rewrite ET; reflexivity).
  - unfold expire in H. destruct (find_short h (t_short st)) as [s|]; [destruct (s_exp s)|];
      injection H as <- <-; try exact I. apply (Inv_frame st); try reflexivity; assumption.
  - unfold handle in H. destruct (find_short h (t_short st)) as [s|]; [destruct (s_exp s)|];
      injection H as <- <-; try exact I. apply (Inv_frame st); try reflexivity; assumption.
Qed.
