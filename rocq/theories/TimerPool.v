(* Handles and buffers of the timer module. *)
From Coq Require Import Permutation.
From Verif Require Import Base TimerModel TimerSpec TimerProof TimerLife.
Ltac Zify.zify_post_hook ::= idtac.

(* ---- handles ---- *)
Lemma step_id_any st ev st' o : 0 <= t_id st < 18446744073709551616 -> tstep st ev = (st', o) ->
  t_id st' = u64 (t_id st + is_start o).
Proof.
  intros I H. assert (HU : u64 (t_id st + 0) = t_id st) by (unfold u64; rewrite Z.add_0_r; apply Z.mod_small; lia).
  destruct ev; cbn [tstep] in H;
    unfold start_long, start_insert, start_short, cancel, tick_lock, tick_call, tick_free, tick_end,
      expire, handle in H;
    repeat match type of H with
    | context [match ?x with _ => _ end] => destruct x
    end; injection H as <- <-; cbn [t_id is_start] in *; try (symmetry; exact HU). reflexivity.
Qed.

Lemma run_id_any : forall evs st st' tr, 0 <= t_id st < 18446744073709551616 -> trun st evs = (st', tr) ->
  t_id st' = u64 (t_id st + starts tr) /\ 0 <= t_id st' < 18446744073709551616.
Proof.
  induction evs as [|ev evs IH]; intros st st' tr I H.
  - injection H as <- <-. cbn [starts]. rewrite Z.add_0_r. unfold u64. rewrite Z.mod_small; lia.
  - apply trun_cons in H as (st1 & o & tr' & S1 & S2 & ->).
    pose proof (step_id_any _ _ _ _ I S1) as E.
    assert (I1 : 0 <= t_id st1 < 18446744073709551616) by (rewrite E; apply Z.mod_pos_bound; reflexivity).
    destruct (IH _ _ _ I1 S2) as [E2 R]. split; [|exact R].
    rewrite E2, E, starts_cons. unfold u64. rewrite Zplus_mod_idemp_l. f_equal. lia.
Qed.

Lemma started_handle st ev st' h cb s : tstep st ev = (st', OStarted h cb s) ->
  exists ix, 0 <= ix < 8192 /\ h = long_handle (t_id st) ix.
Proof.
  intros H. destruct ev; cbn [tstep] in H;
    unfold start_long, start_short, cancel, tick_lock, tick_call, tick_free, tick_end,
      expire, handle in H;
    repeat match type of H with
    | context [match ?x with _ => _ end] => destruct x
    end; try discriminate.
  unfold start_insert in H. destruct (nth_error (t_fly st) n); [|discriminate].
  injection H as _ <- _ _. eexists. split; [apply long_ix_range|reflexivity].
Qed.

Lemma handles_distinct n evs st a e1 h1 c1 s1 b e2 h2 c2 s2 c :
  trun (timer_init n) evs =
    (st, a ++ (e1, OStarted h1 c1 s1) :: b ++ (e2, OStarted h2 c2 s2) :: c) ->
  starts b < LIM - 1 -> h1 <> h2.
Proof.
  intros H L. apply trun_split in H as (v1 & v2 & x1 & -> & A & B).
  destruct v2 as [|v v2]; [discriminate|].
  apply trun_cons in B as (x2 & o & tr' & S1 & S2 & E). injection E as <- <- <-.
  apply trun_split in S2 as (w1 & w2 & x3 & -> & C & D).
  destruct w2 as [|w w2]; [discriminate|].
  apply trun_cons in D as (x4 & o & tr'' & S3 & S4 & E). injection E as <- <- <-.
  assert (I0 : 0 <= t_id (timer_init n) < 18446744073709551616) by (cbn; lia).
  destruct (run_id_any _ _ _ _ I0 A) as [_ I1].
  pose proof (step_id_any _ _ _ _ I1 S1) as E1. cbn [is_start] in E1.
  assert (I2 : 0 <= t_id x2 < 18446744073709551616) by (rewrite E1; apply Z.mod_pos_bound; reflexivity).
  destruct (run_id_any _ _ _ _ I2 C) as [E2 I3].
  destruct (started_handle _ _ _ _ _ _ S1) as (i & Hi & ->).
  destruct (started_handle _ _ _ _ _ _ S3) as (j & Hj & ->).
  pose proof (starts_nonneg b) as NB.
  rewrite !lor_mask_idem by lia. intros E.
  assert (M : t_id x1 mod LIM = t_id x3 mod LIM).
  { pose proof (Z.mod_pos_bound (t_id x1) LIM eq_refl). pose proof (Z.mod_pos_bound (t_id x3) LIM eq_refl). lia. }
  rewrite E2, E1 in M. unfold u64 in M. rewrite Zplus_mod_idemp_l in M.
  rewrite <- (Znumtheory.Zmod_div_mod LIM 18446744073709551616) in M; try reflexivity;
    [|exists 16384; reflexivity].
  assert (D : ((t_id x1 + 1 + starts b) - t_id x1) mod LIM = 0).
  { rewrite Zminus_mod, <- M, Z.sub_diag. reflexivity. }
  replace (t_id x1 + 1 + starts b - t_id x1) with (starts b + 1) in D by lia.
  rewrite Z.mod_small in D by lia. lia.
Qed.

Lemma long_handle_range n evs st tr ev h cb s :
  trun (timer_init n) evs = (st, tr) -> In (ev, OStarted h cb s) tr ->
  OFP_TIMER_MASK <= h < 2 * OFP_TIMER_MASK.
Proof.
  intros H HI. apply in_split in HI as (a & b & ->).
  apply trun_split in H as (v1 & v2 & x1 & -> & A & B).
  destruct v2 as [|v v2]; [discriminate|].
  apply trun_cons in B as (x2 & o & tr' & S1 & S2 & E). injection E as <- <- <-.
  assert (I0 : 0 <= t_id (timer_init n) < 18446744073709551616) by (cbn; lia).
  destruct (run_id_any _ _ _ _ I0 A) as [_ I1].
  destruct (started_handle _ _ _ _ _ _ S1) as (i & Hi & ->).
  rewrite lor_mask_idem by lia. pose proof (Z.mod_pos_bound (t_id x1) LIM eq_refl).
  unfold LIM, OFP_TIMER_MASK in *. lia.
Qed.

Lemma short_handle_range n evs st tr ev h cb :
  trun (timer_init n) evs = (st, tr) -> In (ev, OShort h cb) tr -> 0 < h < OFP_TIMER_MASK.
Proof.
  intros H HI. apply in_split in HI as (a & b & ->).
  apply trun_split in H as (v1 & v2 & x1 & -> & A & B).
  destruct v2 as [|v v2]; [discriminate|].
  apply trun_cons in B as (x2 & o & tr' & S1 & S2 & E). injection E as <- <- <-.
  destruct ev; cbn [tstep] in S1;
    unfold start_long, start_insert, cancel, tick_lock, tick_call, tick_free, tick_end,
      expire, handle in S1;
    repeat match type of S1 with
    | context [match ?x with _ => _ end] => destruct x
    end; try discriminate.
  unfold start_short in S1.
  destruct (negb (u64 tmo <? OFP_TIMER_MAX_US) || negb (odp_handle_ok x1 h0)) eqn:G; [discriminate|].
  destruct (t_free x1); [discriminate|]. destruct f; try discriminate.
  injection S1 as _ -> _. apply orb_false_iff in G as [_ G]. apply negb_false_iff in G.
  unfold odp_handle_ok in G. apply andb_true_iff in G as [G _]. apply andb_true_iff in G as [G1 G2].
  lia.
Qed.

(* ---- buffers ---- *)
Definition slots : list Z := map Z.of_nat (seq 0 (Z.to_nat 8192)).
Definition tab_bufs (f : Z -> list entry) : list nat := flat_map (fun i => map e_buf (f i)) slots.
Definition tick_bufs (t : tick_state) : list nat :=
  match t with
  | Armed b => [b]
  | Running b l c => b :: match c with Some e => [e_buf e] | None => [] end ++ map e_buf l
  | Dead => []
  end.
(* generic in the list of buffers of the table, so that the kernel never
   computes with the 8192 slots *)
Definition used_bufs_g (tb : (Z -> list entry) -> list nat) (st : timers) : list nat :=
  map f_buf (t_fly st) ++ tick_bufs (t_tick st) ++ map (fun s => e_buf (s_e s)) (t_short st) ++ tb (t_tab st).
(* the buffers held by starts in progress, the tick handler, short timers and slots *)
Definition used_bufs (st : timers) : list nat := used_bufs_g tab_bufs st.
Definition alive (t : tick_state) : Z := match t with Dead => 0 | _ => 1 end.


Record PInvg (tb : (Z -> list entry) -> list nat) (n : nat) (st : timers) : Prop := {
  p_perm : Permutation (t_free st ++ used_bufs_g tb st) (seq 0 (S n));
  p_nd : NoDup (map s_h (t_short st));
  p_tmo : t_ntmo st = Z.of_nat (length (t_short st)) + alive (t_tick st);
  p_tim : t_ntim st = Z.of_nat (length (t_short st)) + alive (t_tick st)
}.

Lemma slots_in k : 0 <= k < 8192 -> exists a b, slots = a ++ k :: b /\ ~ In k a /\ ~ In k b.
Proof.
  intros H. assert (HI : In k slots).
  { unfold slots. apply in_map_iff. exists (Z.to_nat k). split; [lia|]. apply in_seq. lia. }
  assert (ND : NoDup slots).
  { unfold slots. apply FinFun.Injective_map_NoDup; [intros x y E; lia|apply seq_NoDup]. }
  apply in_split in HI as (a & b & E). exists a, b. split; [exact E|].
  rewrite E in ND. apply NoDup_remove_2 in ND. rewrite in_app_iff in ND. tauto.
Qed.

Lemma flat_upd_out f k v l : ~ In k l ->
  flat_map (fun i => map e_buf (upd f k v i)) l = flat_map (fun i => map e_buf (f i)) l.
Proof.
  induction l as [|x l IH]; cbn [flat_map In]; intros H; [reflexivity|].
  rewrite upd_other by tauto. rewrite IH by tauto. reflexivity.
Qed.

Lemma tab_bufs_upd f k v : 0 <= k < 8192 ->
  Permutation (map e_buf (f k) ++ tab_bufs (upd f k v)) (map e_buf v ++ tab_bufs f).
Proof.
  intros H. destruct (slots_in k H) as (a & b & E & NA & NB). unfold tab_bufs. rewrite E.
  rewrite !flat_map_app. cbn [flat_map]. rewrite upd_same, !flat_upd_out by assumption.
  set (A := flat_map _ a). set (B := flat_map _ b).
  rewrite !app_assoc.
  apply Permutation_app_tail.
  rewrite <- !app_assoc.
  rewrite (Permutation_app_swap_app (map e_buf (f k)) A (map e_buf v)).
  rewrite (Permutation_app_swap_app (map e_buf v) A (map e_buf (f k))).
  apply Permutation_app_head, Permutation_app_comm.
Qed.

Lemma nth_perm {A} n (l : list A) x : nth_error l n = Some x -> Permutation l (x :: remove_nth n l).
Proof.
  revert l. induction n; intros [|y l] H; try discriminate; cbn in *.
  - injection H as ->. reflexivity.
  - rewrite (IHn _ H) at 1. apply perm_swap.
Qed.

Lemma find_short_perm h l s : find_short h l = Some s -> NoDup (map s_h l) ->
  s_h s = h /\ Permutation l (s :: drop_short h l) /\ ~ In h (map s_h (drop_short h l)).
Proof.
  induction l as [|x l IH]; cbn [find_short map]; intros H ND; [discriminate|].
  inversion ND as [|? ? NI ND']; subst. unfold drop_short. cbn [filter].
  destruct (Z.eqb_spec (s_h x) h) as [E|E]; cbn [negb].
  - injection H as ->. split; [exact E|].
    assert (EQ : filter (fun s0 => negb (s_h s0 =? h)) l = l).
    { rewrite E in NI. clear -NI. induction l as [|y l IH]; [reflexivity|]. cbn [filter map In] in *.
      destruct (Z.eqb_spec (s_h y) h); [tauto|]. cbn [negb]. rewrite IH by tauto. reflexivity. }
    rewrite EQ. split; [reflexivity|]. rewrite <- E. exact NI.
  - destruct (IH H ND') as (A & B & C). split; [exact A|]. split.
    + rewrite B at 1. apply perm_swap.
    + cbn [map In]. intros [X|X]; [auto|exact (C X)].
Qed.

Lemma perm_NoDup_map (l l' : list short) : Permutation l l' -> NoDup (map s_h l) -> NoDup (map s_h l').
Proof. intros P. apply Permutation_NoDup, Permutation_map, P. Qed.


Lemma pcnt (l l' : list nat) : Permutation l l' -> forall x, count_occ Nat.eq_dec l x = count_occ Nat.eq_dec l' x.
Proof. intros H. apply (Permutation_count_occ Nat.eq_dec), H. Qed.
Lemma cnt_cons a l x : count_occ Nat.eq_dec (a :: l) x = ((if Nat.eq_dec a x then 1 else 0) + count_occ Nat.eq_dec l x)%nat.
Proof. cbn. destruct (Nat.eq_dec a x); lia. Qed.

Section Generic.
Variable tb : (Z -> list entry) -> list nat.
Hypothesis Htb : forall f k v, 0 <= k < 8192 ->
  Permutation (map e_buf (f k) ++ tb (upd f k v)) (map e_buf v ++ tb f).

Lemma pinv_move n st st' : PInvg tb n st -> 
  (forall x, (count_occ Nat.eq_dec (t_free st') x + count_occ Nat.eq_dec (used_bufs_g tb st') x =
   count_occ Nat.eq_dec (t_free st) x + count_occ Nat.eq_dec (used_bufs_g tb st) x)%nat) ->
  NoDup (map s_h (t_short st')) ->
  t_ntmo st' - Z.of_nat (length (t_short st')) - alive (t_tick st') =
  t_ntmo st - Z.of_nat (length (t_short st)) - alive (t_tick st) ->
  t_ntim st' - Z.of_nat (length (t_short st')) - alive (t_tick st') =
  t_ntim st - Z.of_nat (length (t_short st)) - alive (t_tick st) -> PInvg tb n st'.
Proof.
  intros [P1 P2 P3 P4] C ND T1 T2. split; [|exact ND|lia|lia].
  apply (Permutation_count_occ Nat.eq_dec). intros x.
  rewrite count_occ_app, C, <- count_occ_app. apply pcnt, P1.
Qed.

Ltac norm := cbn [t_free t_fly t_tick t_short t_tab t_sec t_id t_ntmo t_ntim tick_bufs alive] in *;
  repeat (rewrite ?map_app, ?count_occ_app, ?cnt_cons; cbn [map app f_buf e_buf s_e]);
  change (count_occ Nat.eq_dec (@nil nat)) with (fun _ : nat => 0%nat); cbv beta.

Lemma PInvg_step n st ev st' o : PInvg tb n st -> tstep st ev = (st', o) -> PInvg tb n st'.
Proof.
  intros PI H. pose proof (p_nd _ _ _ PI) as PN.
  destruct ev; cbn [tstep] in H.
  - unfold start_long in H. destruct (u64 tmo <? OFP_TIMER_MAX_US); [injection H as <- <-; exact PI|].
    destruct (t_free st) as [|b fr] eqn:EF; injection H as <- <-; [exact PI|].
    apply (pinv_move n st _ PI); try reflexivity; try exact PN.
    intros x. unfold used_bufs_g. norm. rewrite EF, cnt_cons. lia.
  - unfold start_insert in H. destruct (nth_error (t_fly st) n0) as [f|] eqn:E;
      injection H as <- <-; [|exact PI].
    apply (pinv_move n st _ PI); try reflexivity; try exact PN.
    intros x. unfold used_bufs_g.
    pose proof (pcnt _ _ (Permutation_map f_buf (nth_perm _ _ _ E)) x) as C1.
    pose proof (pcnt _ _ (Htb (t_tab st) (long_ix (t_sec st) (f_sec f))
       (mkE (f_buf f) (long_handle (t_id st) (long_ix (t_sec st) (f_sec f))) (f_cb f) :: t_tab st (long_ix (t_sec st) (f_sec f)))
       (long_ix_range _ _)) x) as C2.
    cbn [map e_buf] in C1, C2. rewrite !count_occ_app, ?cnt_cons in C2. rewrite ?cnt_cons in C1. 
    norm. lia.
  - unfold start_short in H.
    destruct (negb (u64 tmo <? OFP_TIMER_MAX_US) || negb (odp_handle_ok st h)) eqn:G; [injection H as <- <-; exact PI|].
    destruct (t_free st) as [|b fr] eqn:EF; [injection H as <- <-; exact PI|].
    destruct f; injection H as <- <-; try exact PI.
    apply (pinv_move n st _ PI).
    + intros x. unfold used_bufs_g. norm. rewrite EF, cnt_cons. lia.
    + cbn [t_short map s_h]. constructor; [|exact PN].
      apply orb_false_iff in G as [_ G]. apply negb_false_iff in G.
      unfold odp_handle_ok in G. apply andb_true_iff in G as [_ G].
      destruct (find_short h (t_short st)) eqn:FS; [discriminate|].
      clear -FS. induction (t_short st) as [|y l IH]; cbn [map In find_short] in *; [tauto|].
      destruct (Z.eqb_spec (s_h y) h); [discriminate|]. intros [X|X]; [auto|]. exact (IH FS X).
    + cbn [t_ntmo t_short t_tick length]. lia.
    + cbn [t_ntim t_short t_tick length]. lia.
  - unfold cancel in H. destruct (Z.eqb_spec t 0) as [->|N0]; [injection H as <- <-; exact PI|].
    destruct (Z.land t OFP_TIMER_MASK =? 0).
    { destruct (find_short t (t_short st)) as [s|] eqn:FS; [destruct (s_exp s)|]; injection H as <- <-; try exact PI.
      destruct (find_short_perm _ _ _ FS PN) as (A & B & C).
      pose proof (Permutation_length B) as BL. cbn [length] in BL.
      apply (pinv_move n st _ PI).
      - intros x. pose proof (pcnt _ _ (Permutation_map (fun s => e_buf (s_e s)) B) x) as C1.
        cbn [map] in C1. rewrite cnt_cons in C1. unfold used_bufs_g. norm. lia.
      - cbn [t_short]. pose proof (perm_NoDup_map _ _ B PN) as X. cbn [map] in X. inversion X; assumption.
      - cbn [t_ntmo t_short t_tick]. lia.
      - cbn [t_ntim t_short t_tick]. lia. }
    destruct (unlink t (t_tab st (t mod TIMER_NUM_LONG_SLOTS))) as [[e l']|] eqn:U;
      injection H as <- <-; [|exact PI].
    apply unlink_spec in U as (a & b & E & -> & _ & _).
    apply (pinv_move n st _ PI); try reflexivity; try exact PN.
    intros x.
    assert (HM : 0 <= t mod TIMER_NUM_LONG_SLOTS < 8192) by (apply Z.mod_pos_bound; reflexivity).
    pose proof (pcnt _ _ (Htb (t_tab st) (t mod TIMER_NUM_LONG_SLOTS) (a ++ b) HM) x) as C2.
    rewrite E in C2. rewrite !map_app, !count_occ_app in C2. cbn [map] in C2. rewrite cnt_cons in C2.
    unfold used_bufs_g. norm. lia.
  - unfold tick_lock in H. destruct (t_tick st) eqn:ET; injection H as <- <-; try exact PI.
    apply (pinv_move n st _ PI); cbn [t_short t_ntmo t_ntim t_tick alive]; rewrite ?ET; try reflexivity; try exact PN.
    intros x.
    assert (HM : 0 <= (t_sec st + 1) mod TIMER_NUM_LONG_SLOTS < 8192) by (apply Z.mod_pos_bound; reflexivity).
    pose proof (pcnt _ _ (Htb (t_tab st) _ [] HM) x) as C2.
    cbn [map app] in C2. rewrite count_occ_app in C2.
    unfold used_bufs_g. norm. rewrite ET. norm. lia.
  - unfold tick_call in H.
    destruct (t_tick st) as [b|b l cur|] eqn:ET; try (injection H as <- <-; exact PI).
    destruct l as [|e l]; [injection H as <- <-; exact PI|].
    destruct cur; injection H as <- <-; [exact PI|].
    apply (pinv_move n st _ PI); cbn [t_short t_ntmo t_ntim t_tick alive]; rewrite ?ET; try reflexivity; try exact PN.
    intros x. unfold used_bufs_g. norm. rewrite ET. norm. lia.
  - unfold tick_free in H. destruct (t_tick st) as [|b l [e|]|] eqn:ET; injection H as <- <-; try exact PI.
    apply (pinv_move n st _ PI); cbn [t_short t_ntmo t_ntim t_tick alive]; rewrite ?ET; try reflexivity; try exact PN.
    intros x. unfold used_bufs_g. norm. rewrite ET. norm. lia.
  - unfold tick_end in H. destruct (t_tick st) as [|b l c|] eqn:ET; try (injection H as <- <-; exact PI).
    destruct l; [|injection H as <- <-; exact PI]. destruct c; [injection H as <- <-; exact PI|].
    destruct (t_free st) as [|b' fr] eqn:EF; [|destruct f]; injection H as <- <-;
      (apply (pinv_move n st _ PI); cbn [t_short t_ntmo t_ntim t_tick alive]; rewrite ?ET; try exact PN; try (cbn [alive]; lia);
       intros x; unfold used_bufs_g; norm; rewrite ET, EF; norm; lia).
  - unfold expire in H. destruct (find_short h (t_short st)) as [s|] eqn:FS; [destruct (s_exp s)|]; injection H as <- <-; try exact PI.
    destruct (find_short_perm _ _ _ FS PN) as (A & B & C).
    pose proof (Permutation_length B) as BL. cbn [length] in BL.
    apply (pinv_move n st _ PI).
    + intros x. pose proof (pcnt _ _ (Permutation_map (fun s => e_buf (s_e s)) B) x) as C1.
      cbn [map] in C1. rewrite cnt_cons in C1. unfold used_bufs_g. norm. lia.
    + cbn [t_short map s_h]. pose proof (perm_NoDup_map _ _ B PN) as X. cbn [map] in X.
      rewrite A in X. exact X.
    + cbn [t_ntmo t_short t_tick length]. lia.
    + cbn [t_ntim t_short t_tick length]. lia.
  - unfold handle in H. destruct (find_short h (t_short st)) as [s|] eqn:FS; [destruct (s_exp s)|]; injection H as <- <-; try exact PI.
    destruct (find_short_perm _ _ _ FS PN) as (A & B & C).
    pose proof (Permutation_length B) as BL. cbn [length] in BL.
    apply (pinv_move n st _ PI).
    + intros x. pose proof (pcnt _ _ (Permutation_map (fun s => e_buf (s_e s)) B) x) as C1.
      cbn [map] in C1. rewrite cnt_cons in C1. unfold used_bufs_g. norm. lia.
    + cbn [t_short]. pose proof (perm_NoDup_map _ _ B PN) as X. cbn [map] in X. inversion X; assumption.
    + cbn [t_ntmo t_short t_tick]. lia.
    + cbn [t_ntim t_short t_tick]. lia.
Qed.

End Generic.

Definition PInv (n : nat) (st : timers) : Prop := PInvg tab_bufs n st.
Lemma PInv_step n st ev st' o : PInv n st -> tstep st ev = (st', o) -> PInv n st'.
Proof. exact (PInvg_step tab_bufs tab_bufs_upd n st ev st' o). Qed.

Lemma flat_empty (l : list Z) : flat_map (fun _ : Z => map e_buf []) l = [].
Proof. induction l as [|x l IH]; [reflexivity|]. exact IH. Qed.
Lemma tab_bufs_empty n : tab_bufs (t_tab (timer_init n)) = [].
Proof. exact (flat_empty slots). Qed.

Lemma PInv_init n : PInv n (timer_init n).
Proof.
  assert (E : used_bufs (timer_init n) = [n]).
  { unfold used_bufs, used_bufs_g. rewrite tab_bufs_empty. reflexivity. }
  constructor.
  - change (used_bufs_g tab_bufs (timer_init n)) with (used_bufs (timer_init n)). rewrite E, seq_S. apply Permutation_refl.
  - constructor.
  - reflexivity.
  - reflexivity.
Qed.

Lemma PInv_run n : forall evs st st' tr, PInv n st -> trun st evs = (st', tr) -> PInv n st'.
Proof.
  induction evs as [|ev evs IH]; intros st st' tr P H.
  - injection H as <- <-. exact P.
  - apply trun_cons in H as (st1 & o & tr' & S1 & S2 & ->).
    exact (IH _ _ _ (PInv_step _ _ _ _ _ P S1) S2).
Qed.
