(* C91-C93: retransmission, persist and keepalive timers. *)
From Verif Require Import Base RtoModel.
Ltac Zify.zify_post_hook ::= idtac.

(* ---- specification ---- *)

(* the configuration allows a minimum up to 64 s and a slop up to 11 minutes *)
Definition cfg_ok (c : cfg) : Prop := 1 <= c_min c <= 6400 /\ 0 <= c_slop c <= 65535.

(* measured round trips lie between m and M ticks *)
Definition samples_in (m M : Z) (l : list ev) : Prop := Forall (fun e => match e with Sample r => m <= r <= M | _ => True end) l.

Definition interval_of (s : shows) : option Z := match s with Interval z => Some z | _ => None end.

(* ---- invariant ---- *)

Record good (c : cfg) (m M : Z) (t : rt) : Prop := {
  g_s : 0 <= srtt t <= 32 * M;
  g_low : srtt t = 0 \/ 32 * (m - 1) <= srtt t;
  g_v : 0 <= rttvar t <= 17 * M + 16;
  g_v2 : srtt t <> 0 -> rttvar t <= 16 * M + 16;
  g_min : rttmin t = c_min c;
  g_cur : c_min c <= rxtcur t <= 6400 \/ rxtcur t = 300;
  g_shift : 0 <= rxtshift t <= 12 }.

Definition big (M : Z) : Prop := 75 <= M <= 429497.

Lemma shr : forall x n, 0 <= n -> Z.shiftr x n = x / 2 ^ n.
Proof. intros. apply Z.shiftr_div_pow2. assumption. Qed.
Lemma chk_ok : forall x, -2147483648 <= x <= 2147483647 -> chk x = Ret x.
Proof. intros. unfold chk, INT_MIN, INT_MAX. replace (_ && _) with true by lia. reflexivity. Qed.
Lemma s32_id : forall x, -2147483648 <= x <= 2147483647 -> s32 x = x.
Proof.
  intros x H. unfold s32. cbv zeta. destruct (Z_lt_ge_dec x 0) as [L|L].
  - rewrite <- (Z.mod_add x 1) by lia. rewrite Z.mod_small by lia. replace (x + 1 * 4294967296 <? 2147483648) with false by lia. lia.
  - rewrite Z.mod_small by lia. replace (x <? 2147483648) with true by lia. reflexivity.
Qed.
Lemma u32_id : forall x, 0 <= x < 4294967296 -> u32 x = x.
Proof. intros. apply Z.mod_small. assumption. Qed.
Lemma u64_id : forall x, 0 <= x < 4294967296 -> u64 x = x.
Proof. intros. apply Z.mod_small. lia. Qed.

Lemma rangeset_in : forall sum lo hi, 0 <= sum < 4294967296 -> 0 <= lo < 4294967296 -> 0 <= hi ->
  rangeset sum lo hi = Z.min hi (Z.max lo sum).
Proof.
  intros sum lo hi S L H. unfold rangeset. cbv zeta. rewrite (u64_id sum) by lia.
  destruct (sum <? lo) eqn:E.
  - rewrite u64_id by lia. destruct (hi <? lo) eqn:F; lia.
  - rewrite u64_id by lia. destruct (hi <? sum) eqn:F; lia.
Qed.

(* the value before backoff: at least the minimum, at most five times the
   largest round trip *)
Lemma rexmtval_in : forall c m M t, cfg_ok c -> big M -> good c m M t ->
  rexmtval t = Z.max (c_min c) ((srtt t / 8 + rttvar t) / 4) /\ 0 <= (srtt t / 8 + rttvar t) / 4 <= 5 * M + 4.
Proof.
  intros c m M t C B G. destruct G as [S L V V2 Mn _ _]. unfold big, cfg_ok in *.
  assert (B1 : 0 <= srtt t / 8 <= 4 * M) by (split; [apply Z.div_pos; lia|apply Z.div_le_upper_bound; lia]).
  assert (B2 : 0 <= (srtt t / 8 + rttvar t) / 4 <= 5 * M + 4).
  { split; [apply Z.div_pos; lia|]. apply Z.div_le_upper_bound; [lia|].
    destruct (Z.eq_dec (srtt t) 0) as [E|N].
    - rewrite E in *. change (0 / 8) with 0 in *. lia.
    - specialize (V2 N). lia. }
  split; [|exact B2]. unfold rexmtval. rewrite !shr by lia. change (2 ^ 3) with 8. change (2 ^ 2) with 4.
  rewrite (u32_id (rttmin t)), u32_id by lia. rewrite Mn. reflexivity.
Qed.

Lemma sub_eighth : forall s, 0 <= s -> 7 * s <= 8 * (s - s / 8) <= 7 * s + 7.
Proof. intros s H. pose proof (Z.div_mod s 8 ltac:(lia)). pose proof (Z.mod_pos_bound s 8 ltac:(lia)). lia. Qed.
Lemma sub_quarter : forall s, 0 <= s -> 3 * s <= 4 * (s - s / 4) <= 3 * s + 3.
Proof. intros s H. pose proof (Z.div_mod s 4 ltac:(lia)). pose proof (Z.mod_pos_bound s 4 ltac:(lia)). lia. Qed.

Lemma xmit_ok : forall c m M r t, cfg_ok c -> big M -> good c m M t -> 0 <= m -> m <= r <= M ->
  exists t', xmit_timer c r t = Ret t' /\ good c m M t' /\
    rxtcur t' = Z.min 6400 (Z.max (Z.max (c_min c) (r + 2)) (rexmtval t' + c_slop c)) /\ rxtshift t' = 0.
Proof.
  intros c m M r t C B G Hm R. pose proof G as [S L V V2 Mn Cu Sh]. pose proof C as [C1 C2]. unfold big in B.
  unfold xmit_timer.
  assert (K : exists s v b, smooth r t = Ret (s, v, b) /\
    0 <= s <= 32 * M /\ (s = 0 \/ 32 * (m - 1) <= s) /\ 0 <= v <= 16 * M + 16).
  { unfold smooth. destruct (srtt t =? 0) eqn:E; cbn [negb].
    - rewrite !Z.shiftl_mul_pow2 by lia. change (2 ^ 5) with 32. change (2 ^ 3) with 8.
      rewrite (chk_ok (r * 32)) by lia. cbn [obind]. rewrite (chk_ok (r * 8)) by lia. cbn [obind].
      rewrite chk_ok by lia. cbn [obind]. exists (r * 32), (r * 8), (r * 32 + r * 8). split; [reflexivity|]. lia.
    - rewrite Z.shiftl_mul_pow2, !shr by lia. change (2 ^ 3) with 8. change (2 ^ 2) with 4.
      assert (N : srtt t <> 0) by lia. specialize (V2 N). clear E.
      pose proof (sub_eighth (srtt t) ltac:(lia)) as E8. pose proof (sub_quarter (rttvar t) ltac:(lia)) as E4.
      set (q := srtt t / 8) in *. set (w := rttvar t / 4) in *. clearbody q w.
      rewrite (chk_ok ((r - 1) * 4 - q)) by lia. cbn [obind].
      rewrite (chk_ok (srtt t + ((r - 1) * 4 - q))) by lia. cbn [obind]. cbv zeta.
      set (d := (r - 1) * 4 - q).
      set (s := if srtt t + d <=? 0 then 1 else srtt t + d).
      set (a := if d <? 0 then - d else d).
      assert (A : 0 <= a <= 4 * M + 4) by (unfold a, d; destruct (_ <? 0) eqn:E; lia).
      assert (SS : 0 < s <= 32 * M /\ 32 * (m - 1) <= s).
      { unfold s. destruct (srtt t + d <=? 0) eqn:E; unfold d in *; lia. }
      clearbody a s. rewrite chk_ok by lia. cbn [obind].
      set (v := if rttvar t + (a - w) <=? 0 then 1 else rttvar t + (a - w)).
      assert (VV : 0 < v <= 16 * M + 16) by (unfold v; destruct (_ <=? 0) eqn:E; lia).
      clearbody v. rewrite chk_ok by lia. cbn [obind]. eexists _, _, _. split; [reflexivity|]. lia. }
  destruct K as (s & v & b & K & B1 & B2 & B3). rewrite K. cbn [obind].
  set (t1 := mkRt s v (rttmin t) b (rxtcur t) 0).
  assert (G1 : good c m M t1) by (constructor; cbn [t1 srtt rttvar rttmin rxtcur rxtshift]; try assumption; lia).
  destruct (rexmtval_in c m M t1 C B G1) as [RV RB].
  assert (RV0 : 0 <= rexmtval t1 <= 5 * M + 6404) by lia.
  rewrite s32_id by lia. cbn [t1 rttmin]. fold t1. rewrite Mn, (u32_id (c_min c)), (u32_id (r + 2)) by lia.
  rewrite rangeset_in by (unfold REXMTMAX; lia).
  eexists. split; [reflexivity|]. split; [|split; [|reflexivity]].
  - constructor; cbn [srtt rttvar rttmin rxtcur rxtshift]; try assumption; unfold REXMTMAX; lia.
  - cbn [rxtcur]. unfold REXMTMAX. f_equal. f_equal. f_equal.
    unfold rexmtval, t1. cbn [srtt rttvar rttmin]. rewrite Mn. reflexivity.
Qed.

Lemma back_in : forall (syn : bool) n, 0 <= n <= 12 -> exists b, nthz (if syn then syn_backoff else backoff) n = Ret b /\ 1 <= b <= 512 /\
  nth (Z.to_nat n) (if syn then syn_backoff else backoff) 0 = b.
Proof.
  intros syn n H. unfold nthz.
  assert (L : Z.of_nat (length (if syn then syn_backoff else backoff)) = 13) by (destruct syn; reflexivity).
  rewrite L. replace (_ && _) with true by lia. eexists. split; [reflexivity|]. split; [|reflexivity].
  assert (E : forall l, forallb (fun b => (1 <=? b) && (b <=? 512)) l = true -> forall k, (k < length l)%nat -> 1 <= nth k l 0 <= 512).
  { intros l F k K. rewrite forallb_forall in F. specialize (F (nth k l 0) (nth_In _ _ K)). lia. }
  apply E; [destruct syn; reflexivity|lia].
Qed.

Lemma rexmt_ok : forall c m M syn t, cfg_ok c -> big M -> good c m M t ->
  if MAXSHIFT <? rxtshift t + 1 then rexmt c syn t = Ret None
  else exists t', rexmt c syn t = Ret (Some t') /\ good c m M t' /\ rxtshift t' = rxtshift t + 1 /\
    rxtcur t' = Z.min 6400 (Z.max (c_min c) (rexmtval t * nth (Z.to_nat (rxtshift t + 1)) (if syn then syn_backoff else backoff) 0 + c_slop c)) /\
    srtt t' = (if 3 <? rxtshift t + 1 then 0 else srtt t) /\
    rttvar t' = (if 3 <? rxtshift t + 1 then rttvar t + srtt t / 32 else rttvar t).
Proof.
  intros c m M syn t C B G. pose proof G as [S L V V2 Mn Cu Sh]. pose proof C as [C1 C2].
  unfold rexmt, MAXSHIFT. destruct (12 <? rxtshift t + 1) eqn:E; [reflexivity|].
  destruct (back_in syn (rxtshift t + 1) ltac:(lia)) as (b & Eb & Rb & Nb). rewrite Eb, Nb. cbn [obind].
  destruct (rexmtval_in c m M t C B G) as [RV RB]. unfold big in B.
  set (rv := rexmtval t) in *. assert (RR : 1 <= rv <= 5 * M + 6404) by lia. clearbody rv.
  assert (PB : 0 <= rv * b <= 2 * 1073741824 - 65537) by nia.
  rewrite s32_id by lia. rewrite chk_ok by lia. cbn [obind].
  rewrite Mn, (u32_id (c_min c)) by lia. rewrite rangeset_in by (unfold REXMTMAX; lia).
  change (12 / 4) with 3.
  rewrite (shr (srtt t) 5) by lia. change (2 ^ 5) with 32.
  assert (Q : 0 <= srtt t / 32 <= M) by (split; [apply Z.div_pos; lia|apply Z.div_le_upper_bound; lia]).
  eexists. split; [reflexivity|].
  destruct (3 <? rxtshift t + 1) eqn:F.
  - split; [|cbn [rxtshift rxtcur srtt rttvar]; auto].
    constructor; cbn [srtt rttvar rttmin rxtcur rxtshift]; unfold REXMTMAX; try lia.
  - split; [|cbn [rxtshift rxtcur srtt rttvar]; auto].
    constructor; cbn [srtt rttvar rttmin rxtcur rxtshift]; unfold REXMTMAX; try assumption; lia.
Qed.

Lemma setpersist_ok : forall c m M t, cfg_ok c -> big M -> M <= 340000 -> good c m M t ->
  exists t' z, setpersist c t = Ret (t', z) /\ good c m M t' /\ 500 <= z <= 6000 /\
    rxtshift t' = Z.min 12 (rxtshift t + 1) /\
    z = Z.min 6000 (Z.max 500 ((srtt t / 4 + rttvar t) / 2 * nth (Z.to_nat (rxtshift t)) backoff 0 + c_slop c)).
Proof.
  intros c m M t C B Hm G. pose proof G as [S L V V2 Mn Cu Sh]. pose proof C as [C1 C2]. unfold big in B.
  unfold setpersist. rewrite !shr by lia. change (2 ^ 2) with 4. change (2 ^ 1) with 2.
  destruct (back_in false (rxtshift t) Sh) as (b & Eb & Rb & Nb). cbv iota in Eb, Nb. rewrite Eb, Nb. cbn [obind].
  assert (B1 : 0 <= srtt t / 4 <= 8 * M) by (split; [apply Z.div_pos; lia|apply Z.div_le_upper_bound; lia]).
  assert (B2 : 0 <= (srtt t / 4 + rttvar t) / 2 <= 12 * M + 8).
  { split; [apply Z.div_pos; lia|]. apply Z.div_le_upper_bound; [lia|].
    destruct (Z.eq_dec (srtt t) 0) as [E|N].
    - rewrite E in *. change (0 / 4) with 0 in *. lia.
    - specialize (V2 N). lia. }
  set (x := (srtt t / 4 + rttvar t) / 2) in *. clearbody x.
  assert (PB : 0 <= x * b <= 12 * 340000 * 512 + 8 * 512) by nia.
  rewrite chk_ok by lia. cbn [obind]. rewrite chk_ok by lia. cbn [obind].
  rewrite rangeset_in by (unfold PERSMIN, PERSMAX; lia). unfold PERSMIN, PERSMAX, MAXSHIFT.
  eexists _, _. split; [reflexivity|]. split; [|split; [lia|split; [|reflexivity]]].
  - constructor; cbn [srtt rttvar rttmin rxtcur rxtshift]; try assumption.
    destruct (rxtshift t <? 12) eqn:E; lia.
  - cbn [rxtshift]. destruct (rxtshift t <? 12) eqn:E; lia.
Qed.

Definition persists (e : ev) : bool := match e with Persist _ | EnterPersist => true | _ => false end.

Lemma step_ok : forall c m M e t, cfg_ok c -> big M -> 0 <= m -> (persists e = true -> M <= 340000) ->
  match e with Sample r => m <= r <= M | _ => True end -> good c m M t ->
  exists o s, step c e t = Ret (o, s) /\ match o with Some t' => good c m M t' | None => True end /\
    (o = None <-> s = Gone) /\
    match s with
    | Interval z => match e with Persist _ | EnterPersist => 500 <= z <= 6000 | _ => c_min c <= z <= 6400 end
    | _ => True end.
Proof.
  intros c m M e t C B Hm P R G. pose proof C as [C1 C2]. destruct e as [r|syn|i| |]; cbn [step].
  - destruct (xmit_ok c m M r t C B G Hm R) as (t' & E & G' & Cu & _). rewrite E. cbn [obind].
    eexists _, _. split; [reflexivity|]. split; [exact G'|]. split; [split; discriminate|]. lia.
  - pose proof (rexmt_ok c m M syn t C B G) as X. destruct (MAXSHIFT <? rxtshift t + 1).
    + rewrite X. cbn [obind]. eexists _, _. split; [reflexivity|]. split; [exact Logic.I|]. split; [split; reflexivity|exact Logic.I].
    + destruct X as (t' & E & G' & _ & Cu & _). rewrite E. cbn [obind].
      eexists _, _. split; [reflexivity|]. split; [exact G'|]. split; [split; discriminate|]. lia.
  - unfold persist. destruct (_ && _).
    + cbn [obind]. eexists _, _. split; [reflexivity|]. split; [exact Logic.I|]. split; [split; reflexivity|exact Logic.I].
    + destruct (setpersist_ok c m M t C B (P eq_refl) G) as (t' & z & E & G' & Z1 & _). rewrite E. cbn [obind].
      eexists _, _. split; [reflexivity|]. split; [exact G'|]. split; [split; discriminate|exact Z1].
  - assert (G0 : good c m M (mkRt (srtt t) (rttvar t) (rttmin t) (rttbest t) (rxtcur t) 0)).
    { destruct G. constructor; cbn [srtt rttvar rttmin rxtcur rxtshift]; try assumption; lia. }
    destruct (setpersist_ok c m M _ C B (P eq_refl) G0) as (t' & z & E & G' & Z1 & _). rewrite E. cbn [obind].
    eexists _, _. split; [reflexivity|]. split; [exact G'|]. split; [split; discriminate|exact Z1].
  - eexists _, _. split; [reflexivity|]. split; [|split; [split; discriminate|exact Logic.I]].
    destruct G. constructor; cbn [srtt rttvar rttmin rxtcur rxtshift]; try assumption; lia.
Qed.

Lemma good0 : forall c m M, cfg_ok c -> big M -> good c m M (rt0 c).
Proof. intros c m M C B. unfold big in B. constructor; cbn [rt0 srtt rttvar rttmin rxtcur rxtshift]; try lia. Qed.

Lemma run_ok : forall c m M l t, cfg_ok c -> big M -> 0 <= m -> (existsb persists l = true -> M <= 340000) ->
  samples_in m M l -> good c m M t ->
  exists o ss, run c l t = Ret (o, ss) /\ match o with Some t' => good c m M t' | None => True end /\
    forall i, (i < length ss)%nat -> match nth i ss Nothing with
      | Interval z => match nth i l Fresh with Persist _ | EnterPersist => 500 <= z <= 6000 | _ => c_min c <= z <= 6400 end
      | _ => True end.
Proof.
  intros c m M l. induction l as [|e l IH]; intros t C B Hm P R G; cbn [run].
  - eexists _, _. split; [reflexivity|]. split; [exact G|]. intros i Hi. cbn [length] in Hi. lia.
  - cbn [existsb] in P. inversion R as [|? ? R0 R1]; subst.
    destruct (step_ok c m M e t C B Hm) as (o & s & E & Go & _ & Iv); try assumption.
    { intros H. apply P. rewrite H. reflexivity. }
    rewrite E. cbn [obind]. destruct o as [t'|].
    + destruct (IH t' C B Hm) as (o & ss & E2 & Go2 & Iv2); try assumption.
      { intros H. apply P. rewrite H. apply orb_true_r. }
      rewrite E2. cbn [obind]. eexists _, _. split; [reflexivity|]. split; [exact Go2|].
      intros [|i] Hi; cbn [nth]; [exact Iv|]. apply Iv2. cbn [length] in Hi. lia.
    + eexists _, _. split; [reflexivity|]. split; [exact Logic.I|]. intros [|i] Hi; cbn [nth length] in *; [exact Iv|lia].
Qed.

(* ---- theorems ---- *)

(* C91: whatever round trips are measured (up to 72 minutes, all that a
   timestamp can express, zero included) and however often the timers expire,
   no arithmetic overflows and every retransmission interval lies between the
   configured minimum and 64 seconds, every persist interval between 5 and 60
   seconds. *)
Theorem rto_bounds : forall c l M, cfg_ok c -> 75 <= M <= 429497 -> samples_in 0 M l ->
  (existsb persists l = true -> M <= 340000) ->
  exists o ss, run c l (rt0 c) = Ret (o, ss) /\
    forall i z, (i < length ss)%nat -> nth i ss Nothing = Interval z ->
      match nth i l Fresh with Persist _ | EnterPersist => 500 <= z <= 6000 | _ => c_min c <= z <= 6400 end.
Proof.
  intros c l M C B S P. destruct (run_ok c 0 M l (rt0 c) C B ltac:(lia) P S (good0 c 0 M C B)) as (o & ss & E & _ & I).
  exists o, ss. split; [exact E|]. intros i z Hi Hz. specialize (I i Hi). rewrite Hz in I. exact I.
Qed.
Print Assumptions rto_bounds.

(* The smoothed round trip (in 1/32 ticks) stays between the smallest measured
   round trip less a tick and the largest, or is void. *)
Theorem rto_tracks : forall c l m M t ss, cfg_ok c -> 0 <= m -> 75 <= M <= 340000 -> samples_in m M l ->
  run c l (rt0 c) = Ret (Some t, ss) -> srtt t = 0 \/ 32 * (m - 1) <= srtt t <= 32 * M.
Proof.
  intros c l m M t ss C Hm B S E.
  destruct (run_ok c m M l (rt0 c) C ltac:(unfold big; lia) Hm ltac:(lia) S (good0 c m M C ltac:(unfold big; lia))) as (o & ss' & E' & G & _).
  rewrite E in E'. assert (o = Some t) by congruence. subst o. destruct G. lia.
Qed.
Print Assumptions rto_tracks.

(* After a measurement the timer is never shorter than that round trip plus two
   ticks (unless that is more than 64 s) and never longer than five times the
   longest round trip of the history (or the minimum) plus the slop. *)
Theorem rto_after_sample : forall c l m M t ss r, cfg_ok c -> 0 <= m -> 75 <= M <= 340000 -> samples_in m M l ->
  run c l (rt0 c) = Ret (Some t, ss) -> m <= r <= M ->
  exists t', step c (Sample r) t = Ret (Some t', Interval (rxtcur t')) /\
    Z.min 6400 (r + 2) <= rxtcur t' <= Z.max (c_min c) (5 * M + 4) + c_slop c.
Proof.
  intros c l m M t ss r C Hm B S E R.
  assert (Bg : big M) by (unfold big; lia).
  destruct (run_ok c m M l (rt0 c) C Bg Hm ltac:(lia) S (good0 c m M C Bg)) as (o & ss' & E' & G & _).
  rewrite E in E'. assert (o = Some t) by congruence. subst o.
  destruct (xmit_ok c m M r t C Bg G Hm R) as (t' & X & G' & Cu & _). exists t'. cbn [step]. rewrite X. cbn [obind].
  split; [reflexivity|]. destruct (rexmtval_in c m M t' C Bg G') as [RV RB]. pose proof C as [C1 C2]. lia.
Qed.
Print Assumptions rto_after_sample.

(* C92: giving up.  Without an acknowledgement that measures a round trip, the
   retransmission timer retransmits exactly twelve times and the thirteenth
   expiry ends the connection. *)
Lemma giveup_from : forall c m M n t l, cfg_ok c -> big M -> good c m M t ->
  Forall (fun e => exists syn, e = Rexmt syn) l -> rxtshift t = 12 - Z.of_nat n -> length l = S n ->
  exists zs, run c l t = Ret (None, map Interval zs ++ [Gone]) /\ length zs = n.
Proof.
  intros c m M n. induction n as [|n IH]; intros t l C B G F Sh Len.
  - destruct l as [|e [|e2 l]]; try discriminate Len. inversion F as [|? ? [syn ->] _]; subst.
    cbn [run step]. pose proof (rexmt_ok c m M syn t C B G) as X. unfold MAXSHIFT in X.
    replace (12 <? rxtshift t + 1) with true in X by lia. rewrite X. cbn [obind]. exists []. split; reflexivity.
  - destruct l as [|e l]; [discriminate Len|]. inversion F as [|? ? [syn ->] F1]; subst.
    cbn [run step]. pose proof (rexmt_ok c m M syn t C B G) as X. unfold MAXSHIFT in X.
    replace (12 <? rxtshift t + 1) with false in X by lia. destruct X as (t' & E & G' & Sh' & _). rewrite E. cbn [obind].
    destruct (IH t' l C B G' F1 ltac:(lia) ltac:(cbn [length] in Len; lia)) as (zs & E2 & L2). rewrite E2. cbn [obind].
    exists (rxtcur t' :: zs). split; [reflexivity|cbn [length]; lia].
Qed.

Theorem rexmt_gives_up : forall c l M t ss syns, cfg_ok c -> 75 <= M <= 340000 -> samples_in 0 M l ->
  run c l (rt0 c) = Ret (Some t, ss) -> rxtshift t = 0 -> length syns = 13%nat ->
  exists zs, run c (map Rexmt syns) t = Ret (None, map Interval zs ++ [Gone]) /\ length zs = 12%nat.
Proof.
  intros c l M t ss syns C B S E Sh Len. assert (Bg : big M) by (unfold big; lia).
  destruct (run_ok c 0 M l (rt0 c) C Bg ltac:(lia) ltac:(lia) S (good0 c 0 M C Bg)) as (o & ss' & E' & G & _).
  rewrite E in E'. assert (o = Some t) by congruence. subst o.
  apply (giveup_from c 0 M 12 t); try assumption; [|rewrite map_length; exact Len].
  apply Forall_forall. intros e He. apply in_map_iff in He. destruct He as (x & <- & _). eexists. reflexivity.
Qed.
Print Assumptions rexmt_gives_up.

(* and from any state the retransmission timer ends the connection only after
   twelve expiries in a row *)
Theorem rexmt_drop_only : forall c l M t ss syn, cfg_ok c -> 75 <= M <= 340000 -> samples_in 0 M l ->
  run c l (rt0 c) = Ret (Some t, ss) -> (step c (Rexmt syn) t = Ret (None, Gone) <-> rxtshift t = 12).
Proof.
  intros c l M t ss syn C B S E. assert (Bg : big M) by (unfold big; lia).
  destruct (run_ok c 0 M l (rt0 c) C Bg ltac:(lia) ltac:(lia) S (good0 c 0 M C Bg)) as (o & ss' & E' & G & _).
  rewrite E in E'. assert (o = Some t) by congruence. subst o.
  pose proof (rexmt_ok c 0 M syn t C Bg G) as X. pose proof (g_shift _ _ _ _ G). unfold MAXSHIFT in X. cbn [step].
  destruct (12 <? rxtshift t + 1) eqn:K.
  - rewrite X. cbn [obind]. split; [lia|reflexivity].
  - destruct X as (t' & X & _). rewrite X. cbn [obind]. split; [discriminate|lia].
Qed.
Print Assumptions rexmt_drop_only.

(* The intervals double: the n-th expiry of a synchronized connection sets the
   timer to at least min * 2^n (n up to 9) plus slop, at most 64 s; so giving up
   takes, with the default configuration, at least 78 seconds after the first
   expiry. *)
Definition least (n : nat) : Z := 3 * nth n [1; 2; 4; 8; 16; 32; 64; 128; 256; 512; 512; 512; 512] 0 + 20.
Lemma least_from : forall M n t l, big M -> good dflt 0 M t ->
  Forall (fun e => e = Rexmt false) l -> rxtshift t = 12 - Z.of_nat n -> length l = S n ->
  exists zs, run dflt l t = Ret (None, map Interval zs ++ [Gone]) /\ length zs = n /\
    forall i, (i < n)%nat -> least (12 - n + 1 + i) <= nth i zs 0.
Proof.
  intros M n. induction n as [|n IH]; intros t l B G F Sh Len.
  - destruct l as [|e [|e2 l]]; try discriminate Len. inversion F as [|? ? E _]; subst.
    cbn [run step]. pose proof (rexmt_ok dflt 0 M false t ltac:(unfold cfg_ok; cbn; lia) B G) as X. unfold MAXSHIFT in X.
    replace (12 <? rxtshift t + 1) with true in X by lia. rewrite X. cbn [obind]. exists []. split; [reflexivity|]. split; [reflexivity|]. intros i Hi. lia.
  - destruct l as [|e l]; [discriminate Len|]. inversion F as [|? ? E F1]; subst.
    pose proof (g_shift _ _ _ _ G) as SB.
    cbn [run step]. assert (CO : cfg_ok dflt) by (unfold cfg_ok; cbn; lia).
    pose proof (rexmt_ok dflt 0 M false t CO B G) as X. unfold MAXSHIFT in X.
    replace (12 <? rxtshift t + 1) with false in X by lia. destruct X as (t' & E & G' & Sh' & Cu & _). rewrite E. cbn [obind].
    destruct (IH t' l B G' F1 ltac:(lia) ltac:(cbn [length] in Len; lia)) as (zs & E2 & L2 & I2). rewrite E2. cbn [obind].
    exists (rxtcur t' :: zs). split; [reflexivity|]. split; [cbn [length]; lia|].
    intros [|i] Hi; cbn [nth].
    + rewrite Cu. destruct (rexmtval_in dflt 0 M t CO B G) as [RV RB]. cbn [c_min c_slop dflt] in *.
      replace (Z.to_nat (rxtshift t + 1)) with (12 - S n + 1 + 0)%nat by lia.
      unfold least. change [1; 2; 4; 8; 16; 32; 64; 128; 256; 512; 512; 512; 512] with backoff.
      destruct (back_in false (Z.of_nat (12 - S n + 1 + 0)) ltac:(lia)) as (b & _ & Rb & Nb). cbv iota in Nb. rewrite Nat2Z.id in Nb.
      rewrite Nb. nia.
    + replace (12 - S n + 1 + S i)%nat with (12 - n + 1 + i)%nat by lia. apply I2. lia.
Qed.

Definition total (l : list Z) : Z := fold_right Z.add 0 l.
Theorem rexmt_not_before : forall l M t ss, 75 <= M <= 340000 -> samples_in 0 M l ->
  run dflt l (rt0 dflt) = Ret (Some t, ss) -> rxtshift t = 0 ->
  exists zs, run dflt (repeat (Rexmt false) 13) t = Ret (None, map Interval zs ++ [Gone]) /\ length zs = 12%nat /\
    7914 <= total zs /\ total zs <= 76800.
Proof.
  intros l M t ss B S E Sh. assert (Bg : big M) by (unfold big; lia). assert (C : cfg_ok dflt) by (unfold cfg_ok; cbn; lia).
  destruct (run_ok dflt 0 M l (rt0 dflt) C Bg ltac:(lia) ltac:(lia) S (good0 dflt 0 M C Bg)) as (o & ss' & E' & G & _).
  rewrite E in E'. assert (o = Some t) by congruence. subst o.
  destruct (least_from M 12 t (repeat (Rexmt false) 13) Bg G) as (zs & R & Lz & I).
  { apply Forall_forall. intros e He. apply repeat_spec in He. exact He. }
  { lia. } { reflexivity. }
  exists zs. split; [exact R|]. split; [exact Lz|].
  assert (U : forall i, (i < 12)%nat -> nth i zs 0 <= 6400).
  { intros i Hi.
    destruct (run_ok dflt 0 M (repeat (Rexmt false) 13) t C Bg ltac:(lia) ltac:(lia)) as (o & ss2 & R2 & _ & I2); [|exact G|].
    { apply Forall_forall. intros e He. apply repeat_spec in He. subst e. exact Logic.I. }
    rewrite R in R2. assert (ss2 = map Interval zs ++ [Gone]) by congruence. subst ss2.
    specialize (I2 i). rewrite app_length, map_length, Lz in I2. specialize (I2 ltac:(lia)).
    rewrite app_nth1 in I2 by (rewrite map_length; lia).
    rewrite (nth_indep _ Nothing (Interval 0)) in I2 by (rewrite map_length; lia). rewrite map_nth in I2.
    assert (N : nth i (repeat (Rexmt false) 13) Fresh = Rexmt false).
    { rewrite (nth_indep _ Fresh (Rexmt false)) by (rewrite repeat_length; lia). apply nth_repeat. }
    rewrite N in I2. lia. }
  do 12 (destruct zs as [|? zs]; [discriminate Lz|]). destruct zs; [|discriminate Lz].
  pose proof (I 0%nat ltac:(lia)); pose proof (I 1%nat ltac:(lia)); pose proof (I 2%nat ltac:(lia)); pose proof (I 3%nat ltac:(lia));
  pose proof (I 4%nat ltac:(lia)); pose proof (I 5%nat ltac:(lia)); pose proof (I 6%nat ltac:(lia)); pose proof (I 7%nat ltac:(lia));
  pose proof (I 8%nat ltac:(lia)); pose proof (I 9%nat ltac:(lia)); pose proof (I 10%nat ltac:(lia)); pose proof (I 11%nat ltac:(lia)).
  pose proof (U 0%nat ltac:(lia)); pose proof (U 1%nat ltac:(lia)); pose proof (U 2%nat ltac:(lia)); pose proof (U 3%nat ltac:(lia));
  pose proof (U 4%nat ltac:(lia)); pose proof (U 5%nat ltac:(lia)); pose proof (U 6%nat ltac:(lia)); pose proof (U 7%nat ltac:(lia));
  pose proof (U 8%nat ltac:(lia)); pose proof (U 9%nat ltac:(lia)); pose proof (U 10%nat ltac:(lia)); pose proof (U 11%nat ltac:(lia)).
  clear I U R. unfold least in *. cbn [nth Nat.sub Nat.add] in *. unfold total. cbn [fold_right]. lia.
Qed.
Print Assumptions rexmt_not_before.

(* the wait RFC 1122 asks for (4.2.3.5: at least 100 s) is not kept: after one
   short round trip the connection is given up 79.4 s after the data was sent *)
Theorem rexmt_r2_refuted : exists t zs, step dflt (Sample 1) (rt0 dflt) = Ret (Some t, Interval 23) /\
  run dflt (repeat (Rexmt false) 13) t = Ret (None, map Interval zs ++ [Gone]) /\ 23 + total zs = 7937.
Proof.
  eexists _, [26; 32; 44; 68; 116; 212; 404; 788; 1556; 1556; 1556; 1556].
  split; [vm_compute; reflexivity|]. split; vm_compute; reflexivity.
Qed.
Print Assumptions rexmt_r2_refuted.

(* The interval grows from expiry to expiry, up to the fourth... *)
Theorem rexmt_grows : forall c l M t ss, cfg_ok c -> 75 <= M <= 340000 -> samples_in 0 M l ->
  run c l (rt0 c) = Ret (Some t, ss) -> 0 < rxtshift t <= 3 ->
  forall t1 z1 t2 z2, step c (Rexmt false) t = Ret (Some t1, Interval z1) -> rxtshift t1 <= 3 ->
  step c (Rexmt false) t1 = Ret (Some t2, Interval z2) -> z1 <= z2.
Proof.
  intros c l M t ss C B S E Sh t1 z1 t2 z2 E1 S1 E2. assert (Bg : big M) by (unfold big; lia).
  destruct (run_ok c 0 M l (rt0 c) C Bg ltac:(lia) ltac:(lia) S (good0 c 0 M C Bg)) as (o & ss' & E' & G & _).
  rewrite E in E'. assert (o = Some t) by congruence. subst o.
  pose proof (rexmt_ok c 0 M false t C Bg G) as X. unfold MAXSHIFT in X. replace (12 <? rxtshift t + 1) with false in X by lia.
  destruct X as (t1' & X1 & G1 & H1 & Cu1 & Sr1 & Vr1). cbn [step] in E1. rewrite X1 in E1. cbn [obind] in E1.
  assert (t1' = t1) by congruence. subst t1'. assert (Z1 : z1 = rxtcur t1) by congruence.
  pose proof (rexmt_ok c 0 M false t1 C Bg G1) as X. unfold MAXSHIFT in X. replace (12 <? rxtshift t1 + 1) with false in X by lia.
  destruct X as (t2' & X2 & G2 & H2 & Cu2 & _). cbn [step] in E2. rewrite X2 in E2. cbn [obind] in E2.
  assert (t2' = t2) by congruence. subst t2'. assert (Z2 : z2 = rxtcur t2) by congruence. subst z1 z2.
  rewrite Cu1, Cu2, H1.
  replace (3 <? rxtshift t + 1) with false in * by lia.
  assert (RV : rexmtval t1 = rexmtval t). { unfold rexmtval. rewrite Sr1, Vr1, (g_min _ _ _ _ G1), (g_min _ _ _ _ G). reflexivity. }
  rewrite RV. destruct (rexmtval_in c 0 M t C Bg G) as [RV2 RB]. pose proof C as [C1 C2].
  assert (BK : nth (Z.to_nat (rxtshift t + 1)) backoff 0 <= nth (Z.to_nat (rxtshift t + 1 + 1)) backoff 0 /\ 0 <= nth (Z.to_nat (rxtshift t + 1)) backoff 0).
  { assert (K : rxtshift t = 1 \/ rxtshift t = 2 \/ rxtshift t = 3) by lia. destruct K as [K|[K|K]]; rewrite K; vm_compute; split; discriminate. }
  cbv iota. nia.
Qed.
Print Assumptions rexmt_grows.

(* ... and then shrinks: the fourth expiry moves the estimate into the variance
   with the wrong scale (srtt >> 5 instead of srtt >> 3) *)
Theorem rexmt_grows_refuted : exists l t z1 z2 ss o, samples_in 100 100 l /\
  run dflt l (rt0 dflt) = Ret (Some t, ss) /\ rxtshift t = 3 /\
  run dflt [Rexmt false; Rexmt false] t = Ret (o, [Interval z1; Interval z2]) /\ z2 < z1.
Proof.
  exists (repeat (Sample 100) 8 ++ repeat (Rexmt false) 3).
  eexists _, 2068, 1716, _, _. split; [repeat constructor; cbn; lia|].
  split; [vm_compute; reflexivity|]. split; [reflexivity|]. split; [vm_compute; reflexivity|]. lia.
Qed.
Print Assumptions rexmt_grows_refuted.

(* the persist timer ends a connection only after twelve probes and a silence
   of at least 76 seconds: a peer that answers is never cut off *)
Theorem persist_drop_only : forall l M t ss idle, 75 <= M <= 300000 -> samples_in 0 M l ->
  run dflt l (rt0 dflt) = Ret (Some t, ss) -> 0 <= idle < 2147483648 ->
  step dflt (Persist idle) t = Ret (None, Gone) -> rxtshift t = 12 /\ 7677 <= idle.
Proof.
  intros l M t ss idle B S E Hi D. assert (Bg : big M) by (unfold big; lia). assert (C : cfg_ok dflt) by (unfold cfg_ok; cbn; lia).
  destruct (run_ok dflt 0 M l (rt0 dflt) C Bg ltac:(lia) ltac:(lia) S (good0 dflt 0 M C Bg)) as (o & ss' & E' & G & _).
  rewrite E in E'. assert (o = Some t) by congruence. subst o.
  cbn [step] in D. unfold persist in D.
  destruct ((rxtshift t =? MAXSHIFT) && ((720000 <=? s32 idle) || (u32 (rexmtval t * 2559) <=? u32 idle))) eqn:K.
  - apply andb_true_iff in K. destruct K as [K1 K2]. unfold MAXSHIFT in K1. split; [lia|].
    destruct (rexmtval_in dflt 0 M t C Bg G) as [RV RB]. cbn [c_min dflt] in RV.
    rewrite (u32_id (rexmtval t * 2559)), (u32_id idle) in K2 by lia. rewrite s32_id in K2 by lia.
    apply orb_true_iff in K2. lia.
  - destruct (setpersist_ok dflt 0 M t C Bg ltac:(lia) G) as (t' & z & P & _). rewrite P in D. cbn [obind] in D. discriminate.
Qed.
Print Assumptions persist_drop_only.

(* ---- keepalive ---- *)

Definition kcfg_ok (c : kcfg) : Prop := 10 <= k_idle c /\ 0 < k_intvl c /\ 0 < k_cnt c /\ k_idle c + k_cnt c * k_intvl c + k_intvl c < 1073741824.
Definition time_of (e : kev) : Z := match e with KRecv t => t | KFire t => t end.
Definition out_time (o : kout) : Z := match o with Quiet => 0 | Probe t => t | Drop t => t end.
(* times do not go back, and stay below 248 days *)
Fixpoint ordered (from : Z) (l : list kev) : Prop :=
  match l with [] => True | e :: l => from <= time_of e < 2147483648 /\ ordered (time_of e) l end.
(* the timer fires when it is due, at most L ticks late *)
Fixpoint punctual (L : Z) (c : kcfg) (l : list kev) (s : kst) : Prop :=
  match l with
  | [] => True
  | e :: l => match e with KFire now => k_due s <= now <= k_due s + L | KRecv now => now <= k_due s + L end /\
      match fst (kstep c e s) with Some s => punctual L c l s | None => True end
  end.
(* when the last segment arrived *)
Fixpoint last_recv (r : Z) (l : list kev) : Z :=
  match l with [] => r | KRecv t :: l => last_recv t l | _ :: l => last_recv r l end.

Lemma last_recv_app : forall l r e, last_recv r (l ++ [e]) = match e with KRecv t => t | KFire _ => last_recv r l end.
Proof.
  induction l as [|x l IH]; intros r e; cbn [app last_recv]; [destruct e; reflexivity|].
  destruct x; cbn [last_recv]; apply IH.
Qed.

Record kgood (c : kcfg) (r now : Z) (s : kst) : Prop := {
  kg_r : 0 <= k_rcv s <= r;
  kg_lag : r <= k_rcv s + Z.min 100 (k_idle c / 10);
  kg_now : r <= now < 2147483648;
  kg_due : k_due s < k_rcv s + k_idle c + k_cnt c * k_intvl c + k_intvl c }.

Lemma idle_tenth : forall c, kcfg_ok c -> 1 <= Z.min 100 (k_idle c / 10) <= 100.
Proof. intros c (A & _). assert (1 <= k_idle c / 10) by (apply Z.div_le_lower_bound; lia). lia. Qed.

Lemma recv_good : forall c r now t s, kcfg_ok c -> kgood c r now s -> now <= t < 2147483548 -> kgood c t t (keep_recv c t s).
Proof.
  intros c r now t s C G T. pose proof (idle_tenth c C) as I. destruct C as (C1 & C2 & C3 & C4). destruct G as [G1 G2 G3 G4].
  assert (0 < k_cnt c * k_intvl c) by nia.
  unfold keep_recv. set (g := Z.min 100 (k_idle c / 10)) in *.
  rewrite u32_id by lia. rewrite s32_id by lia.
  destruct (k_rcv s + g <? t) eqn:E.
  - constructor; cbn [k_rcv k_due]; try lia. unfold keep_activate. destruct (6000 <? k_idle c) eqn:F; lia.
  - constructor; unfold g in *; lia.
Qed.

(* C93: a connection is cut off by keepalive only if nothing has arrived for
   the idle time plus all probe intervals (measured with a granularity of a
   second or a tenth of the idle time). *)
Lemma krun_good : forall c l r now s, kcfg_ok c -> kgood c r now s -> ordered now l -> Forall (fun e => time_of e < 2147483548) l ->
  match krun c l s with
  | (Some s', _) => exists now', kgood c (last_recv r l) now' s'
  | (None, os) => exists l1 t l2 s1, l = l1 ++ KFire t :: l2 /\ krun c l1 s = (Some s1, removelast os) /\ List.last os Quiet = Drop t /\
      (exists n, kgood c (last_recv r l1) n s1 /\ n <= t) /\ keep_fire c t s1 = None
  end.
Proof.
  intros c l. induction l as [|e l IH]; intros r now s C G O F; cbn [krun].
  - exists now. exact G.
  - destruct O as [O1 O2]. inversion F as [|? ? F0 F1]; subst. destruct e as [t|t]; cbn [kstep time_of] in *.
    + pose proof (recv_good c r now t s C G ltac:(lia)) as G'.
      specialize (IH t t (keep_recv c t s) C G' O2 F1).
      destruct (krun c l (keep_recv c t s)) as [[s'|] os] eqn:K.
      * exact IH.
      * destruct IH as (l1 & u & l2 & s1 & A & B & D & E).
        exists (KRecv t :: l1), u, l2, s1. split; [rewrite A; reflexivity|].
        assert (NE : os <> []) by (intros ->; discriminate D).
        split; [cbn [krun kstep]; rewrite B; destruct os; [contradiction|reflexivity]|].
        split; [destruct os; [contradiction|exact D]|]. exact E.
    + destruct (keep_fire c t s) as [s'|] eqn:K.
      * assert (G' : kgood c r t s').
        { unfold keep_fire in K. destruct G as [G1 G2 G3 G4]. pose proof C as (C1 & C2 & C3 & C4).
          rewrite u32_id in K by lia. rewrite s32_id in K by lia.
          destruct (k_idle c + k_cnt c * k_intvl c <=? t - k_rcv s) eqn:X; [discriminate|]. injection K as <-.
          constructor; cbn [k_rcv k_due]; lia. }
        specialize (IH r t s' C G' O2 F1). destruct (krun c l s') as [[s2|] os] eqn:K2.
        { exact IH. }
        { destruct IH as (l1 & u & l2 & s1 & A & B & D & E).
          exists (KFire t :: l1), u, l2, s1. split; [rewrite A; reflexivity|].
          assert (NE : os <> []) by (intros ->; discriminate D).
          split; [cbn [krun kstep]; rewrite K, B; destruct os; [contradiction|reflexivity]|].
          split; [destruct os; [contradiction|exact D]|]. exact E. }
      * exists [], t, l, s. split; [reflexivity|]. split; [reflexivity|]. split; [reflexivity|].
        split; [exists now; split; [exact G|lia]|exact K].
Qed.

Lemma kgood0 : forall c t, kcfg_ok c -> 0 <= t < 2147483648 -> kgood c t t (mkKs t (keep_activate t (k_idle c))).
Proof.
  intros c t C T. pose proof (idle_tenth c C). destruct C as (C1 & C2 & C3 & C4). assert (0 < k_cnt c * k_intvl c) by nia.
  constructor; cbn [k_rcv k_due]; try lia. unfold keep_activate. destruct (6000 <? k_idle c) eqn:F; lia.
Qed.

Theorem keepalive_drop_only : forall c l t0 s os t, kcfg_ok c -> 0 <= t0 < 2147483648 ->
  ordered t0 l -> Forall (fun e => time_of e < 2147483548) l ->
  krun c l (mkKs t0 (keep_activate t0 (k_idle c))) = (s, os) -> List.last os Quiet = Drop t ->
  exists l1 l2, l = l1 ++ KFire t :: l2 /\
    k_idle c + k_cnt c * k_intvl c - Z.min 100 (k_idle c / 10) <= t - last_recv t0 l1.
Proof.
  intros c l t0 s os t C T O F R D.
  pose proof (krun_good c l t0 t0 _ C (kgood0 c t0 C T) O F) as K. rewrite R in K. destruct s as [s'|].
  - exfalso. assert (ND : forall l s s' os, krun c l s = (Some s', os) -> forall t, List.last os Quiet <> Drop t).
    { clear. induction l as [|e l IH]; intros s s' os H t; cbn [krun] in H.
      - injection H as _ <-. discriminate.
      - destruct (kstep c e s) as [[s1|] x] eqn:E; [|discriminate].
        destruct (krun c l s1) as [o xs] eqn:E2. injection H as -> <-.
        destruct xs as [|y xs].
        + cbn [List.last]. unfold kstep in E. destruct e; [|destruct (keep_fire c now s)]; first [discriminate E | intros X; congruence | injection E as _ <-; discriminate].
        + change (List.last (x :: y :: xs) Quiet) with (List.last (y :: xs) Quiet). eapply IH. exact E2. }
    exact (ND _ _ _ _ R t D).
  - destruct K as (l1 & u & l2 & s1 & A & B & E & (n & G & N) & X). assert (u = t) by congruence. subst u.
    exists l1, l2. split; [exact A|]. pose proof (idle_tenth c C). destruct C as (C1 & C2 & C3 & C4). destruct G as [G1 G2 G3 G4].
    unfold keep_fire in X.
    assert (TB : t < 2147483648).
    { rewrite A in F. apply Forall_app in F. destruct F as [_ F]. inversion F; subst. cbn [time_of] in *. lia. }
    rewrite u32_id in X by lia. rewrite s32_id in X by lia.
    destruct (k_idle c + k_cnt c * k_intvl c <=? t - k_rcv s1) eqn:Y; [lia|discriminate].
Qed.
Print Assumptions keepalive_drop_only.

(* And a peer that has gone is noticed: as long as the connection is alive, the
   time since the last segment is less than idle time, all probe intervals and
   one more, plus how late the timer fires. *)
Theorem keepalive_notices : forall c l t0 s os L, kcfg_ok c -> 0 <= t0 < 2147483648 -> 0 <= L ->
  ordered t0 l -> Forall (fun e => time_of e < 2147483548) l ->
  punctual L c l (mkKs t0 (keep_activate t0 (k_idle c))) ->
  krun c l (mkKs t0 (keep_activate t0 (k_idle c))) = (Some s, os) ->
  k_due s < last_recv t0 l + k_idle c + k_cnt c * k_intvl c + k_intvl c /\
  forall e, time_of e < 2147483548 -> punctual L c (l ++ [e]) (mkKs t0 (keep_activate t0 (k_idle c))) ->
    time_of e < last_recv t0 l + k_idle c + k_cnt c * k_intvl c + k_intvl c + L.
Proof.
  intros c l t0 s os L C T HL O F P R.
  pose proof (krun_good c l t0 t0 _ C (kgood0 c t0 C T) O F) as K. rewrite R in K. destruct K as (n & [G1 G2 G3 G4]).
  split; [lia|]. intros e He PE.
  assert (X : forall l s0 s os, krun c l s0 = (Some s, os) -> punctual L c (l ++ [e]) s0 -> time_of e <= k_due s + L).
  { clear. induction l as [|a l IH]; intros s0 s os R P; cbn [krun app punctual] in *.
    - injection R as -> <-. destruct P as [P _]. destruct e; cbn [time_of]; lia.
    - destruct (kstep c a s0) as [[s1|] x] eqn:E; [|discriminate]. cbn [fst] in P.
      destruct (krun c l s1) as [o xs] eqn:E2. injection R as -> <-. eapply IH; [exact E2|apply P]. }
  specialize (X _ _ _ _ R PE). lia.
Qed.
Print Assumptions keepalive_notices.

(* But TCP_KEEPIDLE is not kept: activating the timer cuts its argument to 60
   seconds, and the handler probes without looking at the idle time.  With the
   default two hours the first probe comes after one minute of silence. *)
Definition kdflt : kcfg := mkK 720000 7500 8.
Theorem keepalive_idle_refuted : exists l os s, ordered 0 l /\ punctual 0 kdflt l (mkKs 0 (keep_activate 0 (k_idle kdflt))) /\
  krun kdflt l (mkKs 0 (keep_activate 0 (k_idle kdflt))) = (s, os) /\ In (Probe 6000) os /\ last_recv 0 l = 0.
Proof.
  exists [KFire 6000]. eexists _, _. split; [cbn; lia|]. split; [cbn; split; [lia|exact Logic.I]|].
  split; [vm_compute; reflexivity|]. split; [left; reflexivity|reflexivity].
Qed.
Print Assumptions keepalive_idle_refuted.

(* ---- cases that meet the hypotheses ---- *)
Definition story : list ev := [Sample 20; Sample 0; Rexmt false; Sample 300; EnterPersist; Persist 700; Fresh; Rexmt false; Rexmt false].
Example story_ok : cfg_ok dflt /\ samples_in 0 300 story /\
  match run dflt story (rt0 dflt) with Ret (Some t, ss) => Some (srtt t, rxtshift t, length ss) | _ => None end = Some (1683, 2, 9%nat).
Proof. split; [unfold cfg_ok; cbn; lia|]. split; [repeat constructor; cbn; lia|]. vm_compute. reflexivity. Qed.
Definition kstory : list kev := KRecv 500 :: map (fun i => KFire (6500 + 7500 * Z.of_nat i)) (seq 0 105).
Example kstory_ok : kcfg_ok kdflt /\ ordered 0 kstory /\ punctual 0 kdflt kstory (mkKs 0 (keep_activate 0 (k_idle kdflt))) /\
  match krun kdflt kstory (mkKs 0 (keep_activate 0 (k_idle kdflt))) with (None, os) => List.last os Quiet | _ => Quiet end = Drop 786500.
Proof.
  split; [unfold kcfg_ok; cbn; lia|]. split; [vm_compute; intuition discriminate|]. split; [vm_compute; intuition discriminate|].
  vm_compute. reflexivity.
Qed.
