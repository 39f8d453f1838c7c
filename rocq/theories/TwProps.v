(* C94-C96: TIME_WAIT. *)
From Verif Require Import Base TwModel TwSpec.
From Coq Require Import Sorted.
Ltac Zify.zify_post_hook ::= idtac.

Lemma seq_gt_after : forall a b, seq_gt a b = afterb a b.
Proof.
  intros a b. unfold seq_gt, afterb, s32. cbv zeta.
  pose proof (Z.mod_pos_bound (a - b) 4294967296 ltac:(lia)) as B.
  destruct ((a - b) mod 4294967296 <? 2147483648) eqn:E; lia.
Qed.

Lemma chk_ok : forall x, INT_MIN <= x <= INT_MAX -> chk x = Ret x.
Proof. intros x H. unfold chk. replace (_ && _) with true by lia. reflexivity. Qed.

Lemma getp_setp : forall i j p l, getp j (setp i p l) = if j =? i then Some p else getp j l.
Proof.
  intros i j p l. induction l as [|[k r] l IH]; cbn [setp getp].
  - reflexivity.
  - destruct (i =? k) eqn:E; cbn [getp].
    + apply Z.eqb_eq in E. subst k. destruct (j =? i); reflexivity.
    + rewrite IH. destruct (j =? k) eqn:F; [|reflexivity].
      destruct (j =? i) eqn:G; [|reflexivity]. lia.
Qed.

Definition inq (i : Z) (l : list tw) : bool := existsb (fun w => w_id w =? i) l.

Lemma inq_find : forall i l, match q_find i l with Some w => In w l /\ w_id w = i | None => inq i l = false end.
Proof.
  intros i l. induction l as [|w l IH]; cbn [q_find inq existsb]; [reflexivity|].
  destruct (w_id w =? i) eqn:E.
  - split; [left; reflexivity|lia].
  - destruct (q_find i l) as [v|]; [split; [right; apply IH|apply IH]|exact IH].
Qed.
Lemma inq_in : forall i l, inq i l = true <-> exists w, In w l /\ w_id w = i.
Proof.
  intros i l. unfold inq. rewrite existsb_exists. split; intros (w & A & B); exists w; split; auto; lia.
Qed.
Lemma inq_remove : forall i j l, inq j (q_remove i l) = (negb (j =? i) && inq j l).
Proof.
  intros i j l. unfold q_remove, inq. induction l as [|w l IH]; cbn [filter existsb]; [rewrite andb_false_r; reflexivity|].
  destruct (w_id w =? i) eqn:E; cbn [negb existsb]; rewrite IH; destruct (j =? i) eqn:F; cbn [negb andb]; try reflexivity.
  - replace (w_id w =? j) with false by lia. reflexivity.
  - replace (w_id w =? j) with false by lia. reflexivity.
Qed.
Lemma inq_app : forall i a b, inq i (a ++ b) = inq i a || inq i b.
Proof. intros. apply existsb_app. Qed.

Lemma in_remove : forall w i l, In w (q_remove i l) <-> In w l /\ w_id w <> i.
Proof. intros w i l. unfold q_remove. rewrite filter_In. split; intros [A B]; split; auto; lia. Qed.

Lemma remove_absent : forall i l, inq i l = false -> q_remove i l = l.
Proof.
  intros i l. unfold q_remove. induction l as [|w l IH]; cbn [filter inq existsb]; intros H; [reflexivity|].
  apply orb_false_iff in H. destruct H as [H1 H2]. rewrite H1. cbn [negb]. f_equal. apply IH. exact H2.
Qed.
Lemma remove_len : forall i l, NoDup (map w_id l) -> inq i l = true -> length l = S (length (q_remove i l)).
Proof.
  intros i l. induction l as [|w l IH]; intros N H; [discriminate H|].
  inversion N as [|x xs N1 N2]; subst. unfold q_remove. cbn [filter length].
  destruct (w_id w =? i) eqn:E; cbn [negb length].
  - f_equal. fold (q_remove i l). rewrite remove_absent; [reflexivity|].
    destruct (inq i l) eqn:F; [|reflexivity]. exfalso. apply N1. apply inq_in in F. destruct F as (v & A & B).
    apply in_map_iff. exists v. split; [lia|exact A].
  - fold (q_remove i l). f_equal. apply IH; [exact N2|]. unfold inq in *. cbn [existsb] in H. rewrite E in H. exact H.
Qed.
Lemma remove_nodup : forall i l, NoDup (map w_id l) -> NoDup (map w_id (q_remove i l)).
Proof.
  intros i l. induction l as [|w l IH]; intros N; [constructor|]. inversion N as [|x xs N1 N2]; subst.
  unfold q_remove. cbn [filter]. destruct (negb _); [|apply IH; exact N2].
  cbn [map]. constructor; [|apply IH; exact N2]. intros H. apply N1. apply in_map_iff in H. destruct H as (v & A & B).
  apply filter_In in B. apply in_map_iff. exists v. tauto.
Qed.

Definition tle (a b : tw) : Prop := w_time a <= w_time b.
Lemma remove_sorted : forall i l, StronglySorted tle l -> StronglySorted tle (q_remove i l).
Proof.
  intros i l. induction l as [|w l IH]; intros S; [constructor|]. inversion S as [|x xs S1 S2]; subst.
  unfold q_remove. cbn [filter]. destruct (negb _); [|apply IH; exact S1].
  constructor; [apply IH; exact S1|]. rewrite Forall_forall in *. intros v H. apply filter_In in H. apply S2. tauto.
Qed.
Lemma snoc_sorted : forall l w, StronglySorted tle l -> Forall (fun v => tle v w) l -> StronglySorted tle (l ++ [w]).
Proof.
  intros l w. induction l as [|v l IH]; intros S F; cbn [app]; [constructor; constructor|].
  inversion S as [|x xs S1 S2]; subst. inversion F as [|y ys F1 F2]; subst.
  constructor; [apply IH; assumption|]. apply Forall_app. split; [exact S2|constructor; [exact F1|constructor]].
Qed.

(* the state of a control block and its socket, from how it entered, whether
   the application has closed since, and whether it is in TIME_WAIT *)
Definition pcb_at (fd closed inq : bool) : pcb :=
  if inq then
    if fd then if closed then mkP true true false true true false false false
               else mkP true false true false true false false false
    else mkP false false false false true false false true
  else if fd && negb closed then mkP true false true false false true false false
  else mkP false false false false false true true true.

Lemma twclose_pcb_ok : forall fd cl, twclose_pcb (pcb_at fd cl true) = Ret (pcb_at fd cl false).
Proof. intros [|] [|]; reflexivity. Qed.
Lemma soclose_ok : forall i, soclose (pcb_at true false i) = Ret (pcb_at true true i).
Proof. intros [|]; reflexivity. Qed.

Definition with_time (w : tw) (t : Z) : tw := mkTw (w_id w) (w_snd w) (w_rcv w) (w_win w) (w_recent w) (w_off w) t.

Record Inv (t0 m : Z) (N : nat) (l : list ev) (os : list out) (s : st) : Prop := {
  i_now : now s = clock t0 l;
  i_msl : msl s = m;
  i_pos : 0 <= t0 <= clock t0 l /\ 0 <= m /\ clock t0 l + 2 * m <= INT_MAX;
  i_len : (length (q s) + free s)%nat = N;
  i_nd : NoDup (map w_id (q s));
  i_in : forall i, inq i (q s) = true <-> in_tw t0 i l os;
  i_w : forall w, In w (q s) -> exists fd c t, entered t0 (w_id w) l = Some (fd, c, t) /\
          w = with_time (mk_tw (w_id w) c) (t + 2 * m) /\ t0 <= t <= clock t0 l /\ word (c_rcv c) /\ word (c_snd c);
  i_so : StronglySorted tle (q s);
  i_p : forall i, getp i (pcbs s) = match entered t0 i l with
          | Some (fd, _, _) => Some (pcb_at fd (closed i l) (inq i (q s))) | None => None end;
  i_cl : forall i, entered t0 i l = None -> closed i l = false;
  i_en : forall i, ended i os -> entered t0 i l <> None }.

Lemma view_clock : forall t0 i l, fst (view t0 i l) = clock t0 l.
Proof.
  intros t0 i l. unfold view, clock. generalize (@None (bool * tcb * Z)). revert t0. induction l as [|e l IH]; intros t0 x; cbn [fold_left]; [reflexivity|].
  destruct e as [j fd c|j g| |j|d|mm]; cbn [look].
  - destruct (i =? j); apply IH.
  - destruct (i =? j); [|apply IH]. destruct x as [[[fd c] t]|]; [|apply IH]. destruct (fin_again c g); apply IH.
  - apply IH.
  - apply IH.
  - apply IH.
  - apply IH.
Qed.
Lemma entered_snoc : forall t0 i l e, entered t0 i (l ++ [e]) =
  match e with
  | Start j fd c => if i =? j then Some (fd, c, clock t0 l) else entered t0 i l
  | Segm j g => if i =? j then match entered t0 i l with Some (fd, c, t) => if fin_again c g then Some (fd, c, clock t0 l) else Some (fd, c, t) | None => None end
                else entered t0 i l
  | _ => entered t0 i l
  end.
Proof.
  intros t0 i l e. unfold entered, view. rewrite fold_left_app. fold (view t0 i l). rewrite <- (view_clock t0 i l).
  destruct (view t0 i l) as [t x]. cbn [fold_left fst snd]. destruct e as [j fd c|j g| |j|d|mm]; cbn [look snd]; try reflexivity.
  - destruct (i =? j); reflexivity.
  - destruct (i =? j); [|reflexivity]. destruct x as [[[fd c] u]|]; [|reflexivity]. destruct (fin_again c g); reflexivity.
Qed.
Lemma clock_snoc : forall t0 l e, clock t0 (l ++ [e]) = match e with Tick d => clock t0 l + d | _ => clock t0 l end.
Proof. intros. unfold clock. rewrite fold_left_app. reflexivity. Qed.
Lemma closed_snoc : forall i l e, closed i (l ++ [e]) = closed i l || match e with Close j => i =? j | _ => false end.
Proof. intros. unfold closed. rewrite existsb_app. cbn [existsb]. rewrite orb_false_r. reflexivity. Qed.

Lemma ended_snoc : forall i os o, ended i (os ++ [o]) <-> ended i os \/ exists w, o = Ended i w.
Proof.
  intros i os o. unfold ended. split.
  - intros [w H]. apply in_app_or in H. destruct H as [H|[H|[]]]; [left|right]; exists w; auto.
  - intros [[w H]|[w H]]; exists w; apply in_or_app; [left; exact H|right; left; exact H].
Qed.
Lemma ended_app_none : forall i os o, (forall w, ~ In (Ended i w) o) -> (ended i (os ++ o) <-> ended i os).
Proof.
  intros i os o N. unfold ended. split; intros [w H]; exists w.
  - apply in_app_or in H. destruct H as [H|H]; [exact H|]. exfalso. exact (N w H).
  - apply in_or_app. left. exact H.
Qed.

Lemma twclose_inv : forall t0 m N l os s i (r : bool) w, Inv t0 m N l os s -> inq i (q s) = true ->
  exists s', twclose i r s = Ret s' /\ Inv t0 m (if r then pred N else N) l (os ++ [Ended i w]) s' /\
    q s' = q_remove i (q s) /\ free s' = (if r then free s else S (free s)).
Proof.
  intros t0 m N l os s i r w I H. destruct I as [I1 I2 I3 I4 I5 I6 I7 I8 I9 IC IE]. unfold twclose. rewrite I9.
  pose proof (proj1 (I6 i) H) as [E0 NE]. destruct (entered t0 i l) as [[[fd c] t]|] eqn:E; [|contradiction].
  rewrite H, twclose_pcb_ok. cbn [obind]. eexists. split; [reflexivity|]. split; [|split; reflexivity].
  constructor; cbn [now msl free q pcbs]; try assumption.
  - pose proof (remove_len i (q s) I5 H). destruct r; lia.
  - apply remove_nodup. exact I5.
  - intros j. rewrite inq_remove. unfold in_tw. rewrite ended_snoc. rewrite andb_true_iff, I6. unfold in_tw. split.
    + intros [A [B C]]. split; [exact B|]. intros [D|[v D]]; [exact (C D)|]. injection D as D _. lia.
    + intros [A B]. split; [|split; [exact A|tauto]]. destruct (j =? i) eqn:F; [|reflexivity]. exfalso. apply B. right. exists w. f_equal. lia.
  - intros v V. apply in_remove in V. apply I7. tauto.
  - apply remove_sorted. exact I8.
  - intros j. rewrite getp_setp, inq_remove. destruct (j =? i) eqn:F; cbn [negb andb].
    + assert (j = i) by lia. subst j. rewrite E. reflexivity.
    + apply I9.
  - intros j D. apply ended_snoc in D. destruct D as [D|[v D]]; [exact (IE j D)|]. injection D as <- _. congruence.
Qed.

Lemma word_mod : forall x, word x -> u32 x = x.
Proof. intros x H. apply Z.mod_small. exact H. Qed.

Lemma fin_test : forall c g, word (c_rcv c) ->
  (u32 (u32 (g_seq g + g_len g + (if has (g_fl g) TH_SYN then 1 else 0)) + 1) =? c_rcv c) =
  ((g_seq g + g_len g + (if has (g_fl g) TH_SYN then 1 else 0) + 1 - c_rcv c) mod 4294967296 =? 0).
Proof.
  intros c g W. set (x := g_seq g + g_len g + _). unfold u32. rewrite Zplus_mod_idemp_l. unfold word in W.
  pose proof (Z.mod_pos_bound (x + 1) 4294967296 ltac:(lia)) as B.
  pose proof (Z.div_mod (x + 1) 4294967296 ltac:(lia)) as D.
  set (y := (x + 1) mod 4294967296) in *. set (k := (x + 1) / 4294967296) in *.
  replace (x + 1 - c_rcv c) with ((y - c_rcv c) + k * 4294967296) by lia. rewrite Z.mod_add by lia.
  destruct (y =? c_rcv c) eqn:E.
  - replace (y - c_rcv c) with 0 by lia. reflexivity.
  - symmetry. apply Z.eqb_neq. intros Z0. assert (y <> c_rcv c) by lia.
    destruct (Z_lt_ge_dec y (c_rcv c)).
    + rewrite <- (Z.mod_add _ 1) in Z0 by lia. rewrite Z.mod_small in Z0; lia.
    + rewrite Z.mod_small in Z0; lia.
Qed.

Lemma respond_ack : forall s w c t, w = with_time (mk_tw (w_id w) c) t -> twrespond s w = ack_of (w_id w) c (now s).
Proof.
  intros s w c t E. unfold ack_of, twrespond.
  assert (A1 : w_snd w = c_snd c) by (rewrite E; reflexivity). assert (A2 : w_rcv w = c_rcv c) by (rewrite E; reflexivity).
  assert (A3 : w_win w = (if afterb (c_adv c) (c_rcv c) then u16 (Z.shiftr (u32 (c_adv c - c_rcv c)) (c_scale c)) else 0)).
  { rewrite E. unfold with_time, mk_tw. cbn [w_win]. rewrite seq_gt_after. reflexivity. }
  assert (A4 : w_recent w = (if c_ts c then c_recent c else 0)) by (rewrite E; reflexivity).
  assert (A5 : w_off w = (if c_ts c then c_off c else 0)) by (rewrite E; reflexivity).
  rewrite A1, A2, A3, A4, A5. destruct (c_ts c); [|reflexivity]. destruct (c_recent c =? 0); reflexivity.
Qed.

Lemma reset_inv : forall t0 m N l os s w fd c t g o, Inv t0 m N l os s -> In w (q s) -> entered t0 (w_id w) l = Some (fd, c, t) ->
  fin_again c g = true -> (forall i v, ~ In (Ended i v) o) ->
  exists s', reset2msl w s = Ret s' /\ now s' = now s /\ Inv t0 m N (l ++ [Segm (w_id w) g]) (os ++ o) s'.
Proof.
  intros t0 m N l os s w fd c t g o I W E F NO. destruct I as [I1 I2 I3 I4 I5 I6 I7 I8 I9 IC IE].
  unfold reset2msl. rewrite I2, I1. rewrite chk_ok by (unfold INT_MIN, INT_MAX in *; lia). cbn [obind].
  rewrite chk_ok by (unfold INT_MIN, INT_MAX in *; lia). cbn [obind]. eexists. split; [reflexivity|]. cbn [now].
  split; [reflexivity|].
  assert (HI : inq (w_id w) (q s) = true) by (apply inq_in; exists w; auto).
  fold (with_time w (clock t0 l + 2 * m)).
  assert (Q : forall j, inq j (q_remove (w_id w) (q s) ++ [with_time w (clock t0 l + 2 * m)]) = inq j (q s)).
  { intros j. rewrite inq_app, inq_remove. cbn [inq existsb with_time w_id]. rewrite orb_false_r.
    destruct (j =? w_id w) eqn:G; cbn [negb andb orb].
    - assert (j = w_id w) by lia. subst j. rewrite Z.eqb_refl. symmetry. exact HI.
    - replace (w_id w =? j) with false by lia. apply orb_false_r. }
  assert (EN : forall j, entered t0 j (l ++ [Segm (w_id w) g]) = if j =? w_id w then Some (fd, c, clock t0 l) else entered t0 j l).
  { intros j. rewrite entered_snoc. destruct (j =? w_id w) eqn:G; [|reflexivity]. assert (j = w_id w) by lia. subst j. rewrite E, F. reflexivity. }
  destruct (I7 w W) as (fd' & c' & t' & E' & Ew & T & Wr & Ws). rewrite E in E'. injection E' as <- <- <-.
  constructor; cbn [now msl free q pcbs]; rewrite ?clock_snoc; try assumption; try reflexivity.
  - rewrite app_length. cbn [length]. pose proof (remove_len (w_id w) (q s) I5 HI). lia.
  - rewrite map_app. cbn [map with_time w_id]. apply NoDup_Add with (a := w_id w) (l := map w_id (q_remove (w_id w) (q s))).
    { pose proof (Add_app (w_id w) (map w_id (q_remove (w_id w) (q s))) []) as A. rewrite app_nil_r in A. exact A. }
    split; [apply remove_nodup; exact I5|]. intros X. apply in_map_iff in X. destruct X as (v & A & B). apply in_remove in B. tauto.
  - intros j. rewrite Q, I6. unfold in_tw. rewrite EN, ended_app_none by (intros v; apply NO).
    destruct (j =? w_id w) eqn:G; [|tauto]. assert (j = w_id w) by lia. subst j. rewrite E. split; intros [A B]; (split; [discriminate|exact B]).
  - intros v V. apply in_app_or in V. destruct V as [V|[V|[]]].
    + apply in_remove in V. destruct V as [V1 V2]. rewrite EN. replace (w_id v =? w_id w) with false by lia. apply I7. exact V1.
    + subst v. cbn [with_time w_id]. rewrite EN, Z.eqb_refl. exists fd, c, (clock t0 l). split; [reflexivity|].
      split; [|split; [lia|split; assumption]]. rewrite Ew. reflexivity.
  - apply snoc_sorted; [apply remove_sorted; exact I8|]. apply Forall_forall. intros v V. apply in_remove in V.
    destruct (I7 v (proj1 V)) as (fd2 & c2 & t2 & _ & Ev & T2 & _). unfold tle. rewrite Ev. cbn [with_time w_time]. lia.
  - intros j. rewrite Q, EN, closed_snoc, orb_false_r, I9. destruct (j =? w_id w) eqn:G; [|reflexivity].
    assert (j = w_id w) by lia. subst j. rewrite E. reflexivity.
  - intros j. rewrite EN, closed_snoc, orb_false_r. destruct (j =? w_id w); [discriminate|apply IC].
  - intros j D. apply (proj1 (ended_app_none j os o ltac:(intros v; apply NO))) in D. rewrite EN. destruct (j =? w_id w); [discriminate|exact (IE j D)].
Qed.

Lemma same_inv : forall t0 m N l os s e o, Inv t0 m N l os s -> clock t0 (l ++ [e]) = clock t0 l ->
  (forall j, closed j (l ++ [e]) = closed j l) ->
  (forall j, inq j (q s) = true -> entered t0 j (l ++ [e]) = entered t0 j l) ->
  (forall j, match entered t0 j (l ++ [e]), entered t0 j l with
             | Some (a, _, _), Some (b, _, _) => a = b | None, None => True | _, _ => False end) ->
  (forall i v, ~ In (Ended i v) o) -> Inv t0 m N (l ++ [e]) (os ++ o) s.
Proof.
  intros t0 m N l os s e o I C Cl E E2 NO. destruct I as [I1 I2 I3 I4 I5 I6 I7 I8 I9 IC IE].
  constructor; rewrite ?C; try assumption.
  - intros j. rewrite I6. unfold in_tw. rewrite ended_app_none by (intros v; apply NO). specialize (E2 j).
    destruct (entered t0 j (l ++ [e])) as [[[a b] d]|]; destruct (entered t0 j l) as [[[a' b'] d']|]; try contradiction; [|tauto].
    split; intros [_ X]; (split; [discriminate|exact X]).
  - intros w W. rewrite E by (apply inq_in; exists w; auto). apply I7. exact W.
  - intros j. rewrite I9, Cl. specialize (E2 j).
    destruct (entered t0 j (l ++ [e])) as [[[a b] d]|]; destruct (entered t0 j l) as [[[a' b'] d']|]; try contradiction; [|reflexivity].
    rewrite E2. reflexivity.
  - intros j. rewrite Cl. specialize (E2 j).
    destruct (entered t0 j (l ++ [e])) as [[[a b] d]|]; destruct (entered t0 j l) as [[[a' b'] d']|] eqn:X; try contradiction; [discriminate|].
    intros _. apply IC. exact X.
  - intros j D. apply (proj1 (ended_app_none j os o ltac:(intros v; apply NO))) in D. specialize (IE j D). specialize (E2 j).
    destruct (entered t0 j (l ++ [e])) as [[[a b] d]|]; [discriminate|]. destruct (entered t0 j l) as [[[a' b'] d']|]; contradiction.
Qed.

Lemma segm_same : forall t0 l i g j, match entered t0 j (l ++ [Segm i g]), entered t0 j l with
             | Some (a, _, _), Some (b, _, _) => a = b | None, None => True | _, _ => False end.
Proof.
  intros t0 l i g j. rewrite entered_snoc. destruct (j =? i); destruct (entered t0 j l) as [[[a b] d]|]; auto.
  destruct (fin_again b g); reflexivity.
Qed.

(* ---- what each event shows ---- *)

Definition post (t0 m : Z) (l : list ev) (s s' : st) (e : ev) (o : list out) : Prop :=
  match e with
  | Start i fd c =>
      (o = acks i c (clock t0 l) /\ (free s > 0)%nat) \/
      (exists w r, free s = 0%nat /\ q s = w :: r /\ o = Ended (w_id w) Recycled :: acks i c (clock t0 l))
  | Segm i g => (inq i (q s) = false /\ o = [NotFound i]) \/
      (exists fd c t, inq i (q s) = true /\ entered t0 i l = Some (fd, c, t) /\ o = replies i c g (clock t0 l))
  | Scan => (forall x, In x o -> exists i fd c t, x = Ended i Expired /\ inq i (q s) = true /\ entered t0 i l = Some (fd, c, t) /\ t + 2 * m <= clock t0 l) /\
      (forall i, inq i (q s') = true -> exists fd c t, entered t0 i l = Some (fd, c, t) /\ clock t0 l < t + 2 * m)
  | _ => o = []
  end.

Lemma scan_ok : forall t0 m N l n os s, Inv t0 m N l os s -> (length (q s) <= n)%nat ->
  exists s' o, scan n s = Ret (s', o) /\ Inv t0 m N l (os ++ o) s' /\ post t0 m l s s' Scan o.
Proof.
  intros t0 m N l n. induction n as [|n IH]; intros os s I L.
  - destruct (q s) as [|w r] eqn:Q; [|cbn [length] in L; lia]. exists s, [].
    split; [cbn [scan]; rewrite Q; reflexivity|]. rewrite app_nil_r. split; [exact I|].
    cbn [post]. rewrite Q. split; [intros x []|intros i H; discriminate H].
  - cbn [scan]. destruct (q s) as [|w r] eqn:Q.
    + exists s, []. split; [reflexivity|]. rewrite app_nil_r. split; [exact I|]. cbn [post]. rewrite Q.
      split; [intros x []|intros i H; discriminate H].
    + assert (W : In w (q s)) by (rewrite Q; left; reflexivity).
      destruct (i_w _ _ _ _ _ _ I w W) as (fd & c & t & E & Ew & T & _). pose proof (i_pos _ _ _ _ _ _ I) as P. pose proof (i_now _ _ _ _ _ _ I) as Nw.
      assert (Wt : w_time w = t + 2 * m) by (rewrite Ew; reflexivity).
      rewrite Wt, Nw. rewrite chk_ok.
      2:{ unfold INT_MIN, INT_MAX in *. lia. }
      cbn [obind]. destruct (0 <? t + 2 * m - clock t0 l) eqn:D.
      * exists s, []. split; [reflexivity|]. rewrite app_nil_r. split; [exact I|]. cbn [post]. split; [intros x []|].
        intros i H. apply inq_in in H. destruct H as (v & V & Vi). destruct (i_w _ _ _ _ _ _ I v V) as (fd2 & c2 & t2 & E2 & Ev & T2 & _).
        exists fd2, c2, t2. rewrite <- Vi. split; [exact E2|].
        pose proof (i_so _ _ _ _ _ _ I) as SO. rewrite Q in SO. inversion SO as [|x xs S1 S2]; subst x xs.
        rewrite Q in V. destruct V as [V|V].
        { subst v. assert (t2 = t) by congruence. lia. }
        { rewrite Forall_forall in S2. specialize (S2 v V). unfold tle in S2. rewrite Wt, Ev in S2. cbn [with_time w_time] in S2. lia. }
      * assert (HI : inq (w_id w) (q s) = true) by (apply inq_in; exists w; auto).
        destruct (twclose_inv t0 m N l os s (w_id w) false Expired I HI) as (s1 & E1 & I1 & Q1 & _). rewrite E1. cbn [obind].
        destruct (IH _ s1 I1) as (s2 & o & E2 & I2 & P1 & P2).
        { pose proof (remove_len (w_id w) (q s) (i_nd _ _ _ _ _ _ I) HI) as RL. rewrite Q1. rewrite Q in RL at 1. cbn [length] in *. lia. }
        rewrite E2. cbn [obind]. exists s2, (Ended (w_id w) Expired :: o). split; [reflexivity|].
        split; [rewrite <- app_assoc in I2; exact I2|]. cbn [post]. split.
        { intros x [X|X].
          - exists (w_id w), fd, c, t. repeat split; [symmetry; exact X|exact HI|exact E|lia].
          - destruct (P1 x X) as (i & fd1 & c1 & t1 & A & B & C & F). exists i, fd1, c1, t1. rewrite Q1, inq_remove in B.
            apply andb_true_iff in B. tauto. }
        { exact P2. }
Qed.


Lemma start_inv : forall t0 m n l os s i fd c, Inv t0 m n l os s -> can t0 m l (Start i fd c) ->
  exists s', twstart_with i fd c s = Ret (s', acks i c (clock t0 l)) /\
    Inv t0 m (S n) (l ++ [Start i fd c]) (os ++ acks i c (clock t0 l)) s' /\ free s' = free s /\ (forall j, inq j (q s') = (j =? i) || inq j (q s)).
Proof.
  intros t0 m n l os s i fd c I (E & Ws & Wr & Wa & Sc). pose proof I as [I1 I2 I3 I4 I5 I6 I7 I8 I9 IC IE].
  assert (NE : ~ ended i os) by (intros X; exact (IE i X E)).
  assert (NI : inq i (q s) = false).
  { destruct (inq i (q s)) eqn:H; [|reflexivity]. apply I6 in H. destruct H as [H _]. contradiction. }
  unfold twstart_with, reset2msl. cbn [now msl free q pcbs]. rewrite I2, I1.
  rewrite chk_ok by (unfold INT_MIN, INT_MAX in *; lia). cbn [obind].
  rewrite chk_ok by (unfold INT_MIN, INT_MAX in *; lia). cbn [obind now msl free q pcbs].
  rewrite getp_setp, Z.eqb_refl.
  assert (U : (if p_ref (mkP true (negb fd) fd (negb fd) true false false false)
     then unref (mkP true (negb fd) fd (negb fd) true false false false)
     else Ret (mkP true (negb fd) fd (negb fd) true false false false)) = Ret (pcb_at fd false true)) by (destruct fd; reflexivity).
  unfold live. cbn [p_so p_ref p_fd p_proto p_drop p_freed p_sofreed]. cbn [p_ref] in U. rewrite U. cbn [obind].
  set (w := with_time (mk_tw i c) (clock t0 l + 2 * m)).
  assert (RA : (if c_acknow c then [twrespond (mkS (clock t0 l) m (free s)
        (q_remove (w_id (mk_tw i c)) (q s) ++ [mkTw (w_id (mk_tw i c)) (w_snd (mk_tw i c)) (w_rcv (mk_tw i c)) (w_win (mk_tw i c)) (w_recent (mk_tw i c)) (w_off (mk_tw i c)) (clock t0 l + 2 * m)])
        (setp i (mkP true (negb fd) fd (negb fd) true false false false) (pcbs s))) (mk_tw i c)] else []) = acks i c (clock t0 l)).
  { unfold acks. destruct (c_acknow c); [|reflexivity]. rewrite (respond_ack _ _ c 0) by reflexivity. reflexivity. }
  rewrite RA. clear RA. eexists. split; [reflexivity|]. cbn [mk_tw w_id]. rewrite (remove_absent i (q s) NI).
  fold (mk_tw i c). fold w. cbn [free q].
  assert (Q : forall j, inq j (q s ++ [w]) = (j =? i) || inq j (q s)).
  { intros j. rewrite inq_app. cbn [inq existsb w with_time mk_tw w_id]. rewrite orb_false_r, Z.eqb_sym. apply orb_comm. }
  split; [|split; [reflexivity|exact Q]].
  assert (EN : forall j, entered t0 j (l ++ [Start i fd c]) = if j =? i then Some (fd, c, clock t0 l) else entered t0 j l).
  { intros j. rewrite entered_snoc. reflexivity. }
  assert (NO : forall j v, ~ In (Ended j v) (acks i c (clock t0 l))).
  { intros j v. unfold acks. destruct (c_acknow c); intros X; [destruct X as [X|[]]; discriminate X|destruct X]. }
  constructor; cbn [now msl free q pcbs]; rewrite ?clock_snoc; try assumption; try reflexivity.
  - rewrite app_length. cbn [length]. lia.
  - rewrite map_app. cbn [map]. apply NoDup_Add with (a := i) (l := map w_id (q s)).
    { pose proof (Add_app i (map w_id (q s)) []) as A. rewrite app_nil_r in A. exact A. }
    split; [exact I5|]. intros X. apply in_map_iff in X. destruct X as (v & A & B).
    assert (inq i (q s) = true) by (apply inq_in; exists v; auto). congruence.
  - intros j. rewrite Q. unfold in_tw. rewrite EN, ended_app_none by (intros v; apply NO).
    destruct (j =? i) eqn:G; cbn [orb].
    + assert (j = i) by lia. subst j. split; [intros _; split; [discriminate|exact NE]|reflexivity].
    + rewrite I6. unfold in_tw. reflexivity.
  - intros v V. apply in_app_or in V. destruct V as [V|[V|[]]].
    + rewrite EN. destruct (w_id v =? i) eqn:G; [|apply I7; exact V].
      exfalso. assert (inq i (q s) = true) by (apply inq_in; exists v; split; [exact V|lia]). congruence.
    + subst v. cbn [w with_time mk_tw w_id]. rewrite EN, Z.eqb_refl. exists fd, c, (clock t0 l).
      split; [reflexivity|]. split; [reflexivity|]. split; [lia|split; assumption].
  - apply snoc_sorted; [exact I8|]. apply Forall_forall. intros v V.
    destruct (I7 v V) as (fd2 & c2 & t2 & _ & Ev & T2 & _). unfold tle. rewrite Ev. cbn [w with_time w_time]. lia.
  - intros j. rewrite !getp_setp, Q, EN, closed_snoc, orb_false_r. destruct (j =? i) eqn:G; cbn [orb].
    + assert (j = i) by lia. subst j. rewrite (IC i E). reflexivity.
    + apply I9.
  - intros j. rewrite EN, closed_snoc, orb_false_r. destruct (j =? i); [discriminate|apply IC].
  - intros j D. apply (proj1 (ended_app_none j os _ ltac:(intros v; apply NO))) in D. rewrite EN. destruct (j =? i); [discriminate|exact (IE j D)].
Qed.

Lemma step_ok : forall t0 m N l os s e, Inv t0 m N l os s -> can t0 m l e -> (N > 0)%nat ->
  exists s' o, step e s = Ret (s', o) /\ Inv t0 m N (l ++ [e]) (os ++ o) s' /\ post t0 m l s s' e o.
Proof.
  intros t0 m N l os s e I C NP. destruct e as [i fd c|i g| |i|d|mm]; cbn [step].
  - unfold twstart. destruct (free s) as [|n] eqn:F.
    + pose proof (i_len _ _ _ _ _ _ I) as L. destruct (q s) as [|w r] eqn:Q; [cbn [length] in L; lia|].
      assert (HI : inq (w_id w) (q s) = true) by (rewrite Q; cbn [inq existsb]; rewrite Z.eqb_refl; reflexivity).
      destruct (twclose_inv _ _ _ _ _ _ (w_id w) true Recycled I HI) as (s1 & E1 & I1 & Q1 & F1). rewrite E1. cbn [obind].
      destruct (start_inv _ _ _ _ _ _ i fd c I1 C) as (s2 & E2 & I2 & F2 & Q2). rewrite E2. cbn [obind].
      eexists _, _. split; [reflexivity|]. split.
      * replace N with (S (pred N)) by lia. rewrite <- app_assoc in I2. exact I2.
      * cbn [post]. right. exists w, r. auto.
    + assert (I0 : Inv t0 m (pred N) l os (mkS (now s) (msl s) n (q s) (pcbs s))).
      { destruct I. constructor; cbn [now msl free q pcbs]; try assumption. lia. }
      destruct (start_inv _ _ _ _ _ _ i fd c I0 C) as (s2 & E2 & I2 & F2 & Q2). rewrite E2.
      eexists _, _. split; [reflexivity|]. split.
      * replace N with (S (pred N)) by lia. exact I2.
      * cbn [post]. left. split; [reflexivity|lia].
  - destruct C as (Wq & Wa & Ln). pose proof (inq_find i (q s)) as FQ. destruct (q_find i (q s)) as [w|] eqn:FF.
    + destruct FQ as [W Wi]. destruct (i_w _ _ _ _ _ _ I w W) as (fd & c & t & E & Ew & T & Wr & Ws). rewrite Wi in E.
      assert (HI : inq i (q s) = true) by (apply inq_in; exists w; auto).
      assert (A2 : w_rcv w = c_rcv c) by (rewrite Ew; reflexivity). assert (A1 : w_snd w = c_snd c) by (rewrite Ew; reflexivity).
      assert (RE : forall s1, now s1 = now s -> twrespond s1 w = ack_of i c (clock t0 l)).
      { intros s1 H. rewrite (respond_ack s1 w c (t + 2 * m) Ew), Wi, H. f_equal. apply (i_now _ _ _ _ _ _ I). }
      unfold twcheck. rewrite A1, A2, seq_gt_after, Wi.
      assert (K : forall o, fin_again c g = false -> (forall j v, ~ In (Ended j v) o) -> Inv t0 m N (l ++ [Segm i g]) (os ++ o) s).
      { intros o NF NO. apply same_inv; try assumption; [apply clock_snoc|intros j; rewrite closed_snoc; apply orb_false_r| |intros j; apply segm_same].
        intros j _. rewrite entered_snoc. destruct (j =? i) eqn:G; [|reflexivity]. assert (j = i) by lia. subst j. rewrite E, NF. reflexivity. }
      assert (NO0 : forall (j : Z) (v : why), ~ In (Ended j v) []) by (intros j v []).
      assert (NO1 : forall (j : Z) (v : why), ~ In (Ended j v) [ack_of i c (clock t0 l)]) by (intros j v [X|[]]; discriminate X).
      destruct (has (g_fl g) TH_RST) eqn:HR.
      { exists s, []. split; [reflexivity|]. split; [apply K; [unfold fin_again; rewrite HR; reflexivity|exact NO0]|].
        cbn [post]. right. exists fd, c, t. unfold replies. rewrite HR. auto. }
      fold (newer c g). destruct (newer c g) eqn:HN.
      { destruct (twclose_inv _ _ _ _ _ _ i false Superseded I HI) as (s1 & E1 & I1 & Q1 & F1). rewrite E1. cbn [obind].
        eexists _, _. split; [reflexivity|]. split.
        - rewrite <- (app_nil_r (os ++ [Ended i Superseded])). apply same_inv; try assumption; [apply clock_snoc|intros j; rewrite closed_snoc; apply orb_false_r| |intros j; apply segm_same].
          intros j Hj. rewrite entered_snoc. rewrite Q1, inq_remove in Hj. destruct (j =? i); [discriminate Hj|reflexivity].
        - cbn [post]. right. exists fd, c, t. unfold replies. rewrite HR, HN. auto. }
      destruct (has (g_fl g) TH_ACK) eqn:HA; cbn [negb].
      2:{ exists s, []. split; [reflexivity|]. split; [apply K; [unfold fin_again; rewrite HR, HN, HA; reflexivity|exact NO0]|].
        cbn [post]. right. exists fd, c, t. unfold replies. rewrite HR, HN, HA. auto. }
      rewrite fin_test by exact Wr.
      assert (FA : has (g_fl g) TH_FIN && ((g_seq g + g_len g + (if has (g_fl g) TH_SYN then 1 else 0) + 1 - c_rcv c) mod 4294967296 =? 0) = fin_again c g).
      { unfold fin_again. rewrite HR, HN, HA. reflexivity. }
      rewrite FA. set (b := _ || _ || _ || _).
      assert (RP : replies i c g (clock t0 l) = if b then [ack_of i c (clock t0 l)] else []).
      { unfold replies. rewrite HR, HN, HA. cbn [negb]. unfold b.
        destruct (g_fl g =? TH_ACK); destruct (g_len g =? 0); destruct (g_seq g =? c_rcv c); destruct (g_ack g =? c_snd c); reflexivity. }
      assert (NOr : forall (j : Z) (v : why), ~ In (Ended j v) (replies i c g (clock t0 l))).
      { rewrite RP. destruct b; [exact NO1|exact NO0]. }
      destruct (fin_again c g) eqn:FG.
      * assert (E' : entered t0 (w_id w) l = Some (fd, c, t)) by (rewrite Wi; exact E).
        destruct (reset_inv t0 m N l os s w fd c t g (replies i c g (clock t0 l)) I W E' FG NOr) as (s1 & R1 & N1 & I1).
        rewrite R1. cbn [obind]. rewrite (RE s1 N1), <- RP. eexists _, _. split; [reflexivity|]. split; [rewrite Wi in I1; exact I1|].
        cbn [post]. right. exists fd, c, t. auto.
      * cbn [obind]. rewrite (RE s eq_refl), <- RP. eexists _, _. split; [reflexivity|]. split; [apply K; [reflexivity|exact NOr]|].
        cbn [post]. right. exists fd, c, t. auto.
    + eexists _, _. split; [reflexivity|]. split.
      * apply same_inv; try assumption; [apply clock_snoc|intros j; rewrite closed_snoc; apply orb_false_r| |intros j; apply segm_same|].
        { intros j Hj. rewrite entered_snoc. destruct (j =? i) eqn:G; [|reflexivity]. assert (j = i) by lia. subst j. congruence. }
        { intros j v [X|[]]. discriminate X. }
      * cbn [post]. left. auto.
  - destruct (scan_ok t0 m N l (length (q s)) os s I (le_n _)) as (s' & o & E & I1 & P). rewrite E.
    eexists _, _. split; [reflexivity|]. split; [|exact P].
    rewrite <- (app_nil_r (os ++ o)). apply same_inv; try assumption; [apply clock_snoc|intros j; rewrite closed_snoc; apply orb_false_r| | |intros j v []].
    + intros j _. apply entered_snoc.
    + intros j. rewrite entered_snoc. destruct (entered t0 j l) as [[[a b] d]|]; auto.
  - destruct C as [(c & t & E) Cl]. pose proof (i_p _ _ _ _ _ _ I i) as P. rewrite E, Cl in P. rewrite P, soclose_ok. cbn [obind].
    eexists _, _. split; [reflexivity|]. split; [|reflexivity]. rewrite app_nil_r.
    destruct I as [I1 I2 I3 I4 I5 I6 I7 I8 I9 IC IE]. constructor; cbn [now msl free q pcbs]; rewrite ?clock_snoc; try assumption.
    + intros j. unfold in_tw. rewrite entered_snoc. apply I6.
    + intros w W. rewrite entered_snoc. apply I7. exact W.
    + intros j. rewrite getp_setp, entered_snoc, closed_snoc. destruct (j =? i) eqn:G.
      * assert (j = i) by lia. subst j. rewrite E, orb_true_r. reflexivity.
      * rewrite orb_false_r. apply I9.
    + intros j. rewrite entered_snoc, closed_snoc. intros H. destruct (j =? i) eqn:G; [assert (j = i) by lia; subst j; congruence|rewrite orb_false_r; apply IC; exact H].
    + intros j H. rewrite entered_snoc. apply IE. exact H.
  - destruct C as [D B]. eexists _, _. split; [reflexivity|]. split; [|reflexivity]. rewrite app_nil_r.
    destruct I as [I1 I2 I3 I4 I5 I6 I7 I8 I9 IC IE]. constructor; cbn [now msl free q pcbs]; rewrite ?clock_snoc; try assumption.
    + rewrite I1. reflexivity.
    + lia.
    + intros j. unfold in_tw. rewrite entered_snoc. apply I6.
    + intros w W. rewrite entered_snoc. destruct (I7 w W) as (fd & c & t & A & B2 & T & X). exists fd, c, t. repeat split; try assumption; try lia; apply X.
    + intros j. rewrite entered_snoc, closed_snoc, orb_false_r. apply I9.
    + intros j. rewrite entered_snoc, closed_snoc, orb_false_r. apply IC.
    + intros j H. rewrite entered_snoc. apply IE. exact H.
  - destruct C.
Qed.

(* ---- theorems ---- *)

Lemma run_snoc : forall l e s, run (l ++ [e]) s = obind (run l s) (fun '(s, os) => obind (step e s) (fun '(s, o) => Ret (s, os ++ [o]))).
Proof.
  induction l as [|a l IH]; intros e s; cbn [app run].
  - cbn [obind]. destruct (step e s) as [[s1 o]| |]; reflexivity.
  - destruct (step a s) as [[s1 o]| |]; cbn [obind]; [|reflexivity|reflexivity]. rewrite IH.
    destruct (run l s1) as [[s2 os]| |]; cbn [obind]; [|reflexivity|reflexivity].
    destruct (step e s2) as [[s3 o2]| |]; reflexivity.
Qed.

Lemma init_inv : forall t0 m N, 0 <= t0 -> 0 <= m -> t0 + 2 * m <= INT_MAX -> Inv t0 m N [] [] (init N m t0).
Proof.
  intros t0 m N A B C. constructor; cbn [init now msl free q pcbs]; try reflexivity; try (unfold clock; cbn [fold_left]; lia).
  - constructor.
  - intros i. split; [discriminate|]. intros [X _]. contradiction.
  - intros w [].
  - constructor.
  - intros i [w []].
Qed.

Lemma history_ok : forall t0 m N l, (N > 0)%nat -> history t0 m l -> exists s os, run l (init N m t0) = Ret (s, os) /\ Inv t0 m N l (concat os) s.
Proof.
  intros t0 m N l NP H. induction H as [A B C|l e H (s & os & R & I) C].
  - exists (init N m t0), []. split; [reflexivity|]. apply init_inv; assumption.
  - destruct (step_ok t0 m N l (concat os) s e I C NP) as (s' & o & E & I' & _).
    exists s', (os ++ [o]). split; [rewrite run_snoc, R; cbn [obind]; rewrite E; reflexivity|].
    rewrite concat_app. cbn [concat]. rewrite app_nil_r. exact I'.
Qed.

Lemma history_inv : forall t0 m l e, history t0 m (l ++ [e]) -> history t0 m l /\ can t0 m l e.
Proof.
  intros t0 m l e H. remember (l ++ [e]) as l' eqn:E. destruct H as [A B C|l2 e2 H C].
  - destruct l; discriminate E.
  - apply app_inj_tail in E. destruct E as [-> ->]. auto.
Qed.

(* one event of a history *)
Lemma at_event : forall t0 m N l e s' os o, (N > 0)%nat -> history t0 m (l ++ [e]) -> run (l ++ [e]) (init N m t0) = Ret (s', os ++ [o]) ->
  exists s, run l (init N m t0) = Ret (s, os) /\ Inv t0 m N l (concat os) s /\ step e s = Ret (s', o) /\
    Inv t0 m N (l ++ [e]) (concat (os ++ [o])) s' /\ post t0 m l s s' e o.
Proof.
  intros t0 m N l e s' os o NP H R. apply history_inv in H. destruct H as [H C].
  destruct (history_ok t0 m N l NP H) as (s & os2 & R2 & I).
  destruct (step_ok t0 m N l (concat os2) s e I C NP) as (s2 & o2 & E & I' & P).
  rewrite run_snoc, R2 in R. cbn [obind] in R. rewrite E in R. cbn [obind] in R. injection R as -> R.
  apply app_inj_tail in R. destruct R as [-> ->]. exists s.
  repeat (split; [assumption|]). rewrite concat_app. cbn [concat]. rewrite app_nil_r. auto.
Qed.

Lemma ids_spec : forall t0 m N l os s, Inv t0 m N l os s -> forall i, In i (map w_id (q s)) <-> in_tw t0 i l os.
Proof.
  intros t0 m N l os s I i. rewrite <- (i_in _ _ _ _ _ _ I i). rewrite inq_in. rewrite in_map_iff.
  split; intros (w & A & B); exists w; auto.
Qed.

(* C94.  A connection leaves TIME_WAIT only (a) by the slow timeout, two MSL
   after it entered or after the peer's last repetition of its FIN; (b) by a SYN
   that is newer than everything received; (c) because another connection
   enters while all N entries are in use, and then it is the one that has
   waited longest.  (So never by a RST: RFC 1337.) *)
Theorem tw_ends_only : forall t0 m N l e s os o i w, (N > 0)%nat -> history t0 m (l ++ [e]) ->
  run (l ++ [e]) (init N m t0) = Ret (s, os ++ [o]) -> In (Ended i w) o ->
  in_tw t0 i l (concat os) /\ exists fd c t, entered t0 i l = Some (fd, c, t) /\
  match w with
  | Expired => e = Scan /\ t + 2 * m <= clock t0 l
  | Superseded => exists g, e = Segm i g /\ has (g_fl g) TH_SYN = true /\ has (g_fl g) TH_RST = false /\ after (g_seq g) (c_rcv c)
  | Recycled => (exists j fd2 c2, e = Start j fd2 c2) /\
      (exists ids, NoDup ids /\ length ids = N /\ forall k, In k ids <-> in_tw t0 k l (concat os)) /\
      forall k fd2 c2 t2, in_tw t0 k l (concat os) -> entered t0 k l = Some (fd2, c2, t2) -> t <= t2
  end.
Proof.
  intros t0 m N l e s' os o i w NP H R Hin. destruct (at_event _ _ _ _ _ _ _ _ NP H R) as (s & _ & I & _ & _ & P).
  destruct e as [j fd c|j g| |j|d|mm]; cbn [post] in P; try (subst o; destruct Hin; fail).
  - assert (NA : forall v, ~ In (Ended i v) (acks j c (clock t0 l))).
    { intros v. unfold acks. destruct (c_acknow c); intros X; [destruct X as [X|[]]; discriminate X|destruct X]. }
    destruct P as [[-> _]|(x & r & F & Q & ->)]; [exfalso; exact (NA w Hin)|].
    destruct Hin as [Hin|Hin]; [|exfalso; exact (NA w Hin)]. injection Hin as <- <-.
    assert (X : In x (q s)) by (rewrite Q; left; reflexivity).
    assert (HI : inq (w_id x) (q s) = true) by (apply inq_in; exists x; auto).
    split; [apply (i_in _ _ _ _ _ _ I); exact HI|].
    destruct (i_w _ _ _ _ _ _ I x X) as (fd1 & c1 & t1 & E & Ex & T & _). exists fd1, c1, t1. split; [exact E|].
    split; [eauto|]. split.
    + exists (map w_id (q s)). split; [apply (i_nd _ _ _ _ _ _ I)|]. split; [rewrite map_length; pose proof (i_len _ _ _ _ _ _ I); lia|].
      apply (ids_spec _ _ _ _ _ _ I).
    + intros k fd2 c2 t2 K E2. apply (i_in _ _ _ _ _ _ I) in K. apply inq_in in K. destruct K as (v & V & Vk). subst k.
      destruct (i_w _ _ _ _ _ _ I v V) as (fd3 & c3 & t3 & E3 & Ev & _). assert (t3 = t2) by congruence. subst t3.
      pose proof (i_so _ _ _ _ _ _ I) as SO. rewrite Q in SO. inversion SO as [|y ys S1 S2]; subst y ys.
      rewrite Q in V. destruct V as [V|V].
      { subst v. rewrite E in E2. injection E2 as _ _ ->. lia. }
      { rewrite Forall_forall in S2. specialize (S2 v V). unfold tle in S2. rewrite Ex, Ev in S2. cbn [with_time w_time] in S2. lia. }
  - destruct P as [[_ ->]|(fd & c & t & HI & E & ->)]; [destruct Hin as [Hin|[]]; discriminate Hin|].
    unfold replies in Hin. destruct (has (g_fl g) TH_RST) eqn:HR; [destruct Hin|]. destruct (newer c g) eqn:HN.
    + destruct Hin as [Hin|[]]. injection Hin as <- <-. split; [apply (i_in _ _ _ _ _ _ I); exact HI|].
      exists fd, c, t. split; [exact E|]. exists g. unfold newer in HN. apply andb_true_iff in HN. destruct HN as [A B].
      split; [reflexivity|]. split; [exact A|]. split; [exact HR|]. unfold afterb in B. unfold after. lia.
    + destruct (negb _); [destruct Hin|]. destruct (_ && _); [destruct Hin|]. destruct Hin as [Hin|[]]. discriminate Hin.
  - destruct P as [P _]. destruct (P _ Hin) as (j & fd & c & t & X & HI & E & T). injection X as -> ->.
    split; [apply (i_in _ _ _ _ _ _ I); exact HI|]. exists fd, c, t. auto.
Qed.
Print Assumptions tw_ends_only.

(* And it does leave: after a slow timeout no connection is left in TIME_WAIT
   whose two MSL are over. *)
Theorem tw_ends_soon : forall t0 m N l s os i, (N > 0)%nat -> history t0 m (l ++ [Scan]) ->
  run (l ++ [Scan]) (init N m t0) = Ret (s, os) -> in_tw t0 i (l ++ [Scan]) (concat os) ->
  exists fd c t, entered t0 i l = Some (fd, c, t) /\ clock t0 l < t + 2 * m.
Proof.
  intros t0 m N l s' os i NP H R T.
  assert (X : exists os1 o, os = os1 ++ [o]).
  { rewrite run_snoc in R. destruct (run l (init N m t0)) as [[s1 os1]| |]; cbn [obind] in R; try discriminate.
    destruct (step Scan s1) as [[s2 o]| |]; cbn [obind] in R; try discriminate. injection R as _ <-. eauto. }
  destruct X as (os1 & o & ->). destruct (at_event _ _ _ _ _ _ _ _ NP H R) as (s & _ & _ & _ & I & P).
  apply P. apply (i_in _ _ _ _ _ _ I). exact T.
Qed.
Print Assumptions tw_ends_soon.

(* The two MSL are only kept while net.inet.tcp.msl does not change: after it is
   lowered, connections wait for those that entered before. *)
Theorem tw_msl_change_refuted : exists l c s os, run (l ++ [Scan]) (init 10 3000 0) = Ret (s, os) /\
  l = [Start 1 false c; SetMsl 100; Start 2 false c; Tick 5999] /\ In 2 (map w_id (q s)).
Proof.
  exists [Start 1 false (mkTcb 1 2 2 0 false 0 0 false); SetMsl 100; Start 2 false (mkTcb 1 2 2 0 false 0 0 false); Tick 5999],
    (mkTcb 1 2 2 0 false 0 0 false). eexists _, _.
  split; [vm_compute; reflexivity|]. split; [reflexivity|]. vm_compute. auto.
Qed.
Print Assumptions tw_msl_change_refuted.

(* C95.  A segment for a connection in TIME_WAIT is answered as specified. *)
Theorem tw_segment : forall t0 m N l i g s os o fd c t, (N > 0)%nat -> history t0 m (l ++ [Segm i g]) ->
  run (l ++ [Segm i g]) (init N m t0) = Ret (s, os ++ [o]) -> in_tw t0 i l (concat os) -> entered t0 i l = Some (fd, c, t) ->
  o = replies i c g (clock t0 l).
Proof.
  intros t0 m N l i g s' os o fd c t NP H R T E. destruct (at_event _ _ _ _ _ _ _ _ NP H R) as (s & _ & I & _ & _ & P).
  apply (i_in _ _ _ _ _ _ I) in T. cbn [post] in P. destruct P as [[P _]|(fd2 & c2 & t2 & _ & E2 & ->)]; [congruence|].
  rewrite E in E2. injection E2 as _ <- _. reflexivity.
Qed.
Print Assumptions tw_segment.

(* Nothing else is ever sent: every segment sent from TIME_WAIT is the
   connection's own ACK, when it enters or in answer to a segment that has ACK
   and not RST, one for one. *)
Theorem tw_sends_only : forall t0 m N l e s os o i sq ak wn ts, (N > 0)%nat -> history t0 m (l ++ [e]) ->
  run (l ++ [e]) (init N m t0) = Ret (s, os ++ [o]) -> In (Reply i sq ak wn ts) o ->
  exists c, Reply i sq ak wn ts = ack_of i c (clock t0 l) /\
    ((exists fd, e = Start i fd c /\ c_acknow c = true) \/
     (exists g fd t, e = Segm i g /\ entered t0 i l = Some (fd, c, t) /\ in_tw t0 i l (concat os) /\
        has (g_fl g) TH_ACK = true /\ has (g_fl g) TH_RST = false /\ o = [Reply i sq ak wn ts])).
Proof.
  intros t0 m N l e s' os o i sq ak wn ts NP H R Hin. destruct (at_event _ _ _ _ _ _ _ _ NP H R) as (s & _ & I & _ & _ & P).
  destruct e as [j fd c|j g| |j|d|mm]; cbn [post] in P; try (subst o; destruct Hin; fail).
  - assert (A : In (Reply i sq ak wn ts) (acks j c (clock t0 l))).
    { destruct P as [[-> _]|(x & r & _ & _ & ->)]; [exact Hin|]. destruct Hin as [Hin|Hin]; [discriminate Hin|exact Hin]. }
    unfold acks in A. destruct (c_acknow c) eqn:AK; [|destruct A]. destruct A as [A|[]].
    assert (i = j) by (unfold ack_of in A; congruence). subst j. exists c. split; [symmetry; exact A|]. left. eauto.
  - destruct P as [[_ ->]|(fd & c & t & HI & E & ->)]; [destruct Hin as [Hin|[]]; discriminate Hin|].
    unfold replies in Hin |- *. destruct (has (g_fl g) TH_RST) eqn:HR; [destruct Hin|].
    destruct (newer c g); [destruct Hin as [Hin|[]]; discriminate Hin|].
    destruct (has (g_fl g) TH_ACK) eqn:HA; cbn [negb] in *; [|destruct Hin].
    destruct (_ && _); [destruct Hin|]. destruct Hin as [Hin|[]].
    assert (i = j) by (unfold ack_of in Hin; congruence). subst j. exists c. split; [symmetry; exact Hin|]. right.
    exists g, fd, t. rewrite Hin. repeat (split; [first [reflexivity|assumption|apply (i_in _ _ _ _ _ _ I); exact HI]|]). reflexivity.
  - destruct P as [P _]. destruct (P _ Hin) as (j & fd & c & t & X & _). discriminate X.
Qed.
Print Assumptions tw_sends_only.

(* The window in it is the one last advertised (in units of 2^scale, no more). *)
Theorem tw_window : forall i c t sq ak wn ts, word (c_adv c) -> word (c_rcv c) -> 0 <= c_scale c <= 14 ->
  ack_of i c t = Reply i sq ak wn ts -> after (c_adv c) (c_rcv c) -> (c_adv c - c_rcv c) mod 4294967296 < 65536 * 2 ^ c_scale c ->
  wn * 2 ^ c_scale c <= (c_adv c - c_rcv c) mod 4294967296 < (wn + 1) * 2 ^ c_scale c.
Proof.
  intros i c t sq ak wn ts Wa Wr Sc A F B. unfold ack_of in A. injection A as _ _ <- _.
  unfold after in F. assert (G : afterb (c_adv c) (c_rcv c) = true) by (unfold afterb; lia). rewrite G.
  unfold u32. set (d := (c_adv c - c_rcv c) mod 4294967296) in *. rewrite Z.shiftr_div_pow2 by lia.
  pose proof (Z.pow_pos_nonneg 2 (c_scale c) ltac:(lia) ltac:(lia)) as PP. set (k := 2 ^ c_scale c) in *.
  unfold u16. rewrite Z.mod_small; [|split; [apply Z.div_pos; lia|apply Z.div_lt_upper_bound; lia]].
  pose proof (Z.div_mod d k ltac:(lia)). pose proof (Z.mod_pos_bound d k ltac:(lia)). nia.
Qed.
Print Assumptions tw_window.

(* A RST changes nothing. *)
Theorem tw_rst_ignored : forall t0 m N l i g s os, (N > 0)%nat -> history t0 m l -> run l (init N m t0) = Ret (s, os) ->
  in_tw t0 i l (concat os) -> has (g_fl g) TH_RST = true -> step (Segm i g) s = Ret (s, []).
Proof.
  intros t0 m N l i g s os NP H R T HR. destruct (history_ok t0 m N l NP H) as (s2 & os2 & R2 & I).
  rewrite R in R2. injection R2 as <- <-. apply (i_in _ _ _ _ _ _ I) in T. cbn [step].
  pose proof (inq_find i (q s)) as F. destruct (q_find i (q s)) as [w|]; [|congruence]. unfold twcheck. rewrite HR. reflexivity.
Qed.
Print Assumptions tw_rst_ignored.

(* An acknowledgement without data should not be acknowledged (FreeBSD answers
   only what carries data or is not the expected ACK); the test of the length
   is the wrong way round.  When both ends are in TIME_WAIT a single ACK is
   thrown back and forth until two MSL are over. *)
Definition as_segment (o : list out) : option seg :=
  match o with [Reply _ sq ak _ _] => Some (mkSeg TH_ACK sq ak 0) | _ => None end.
(* the number of segments exchanged, at most n *)
Fixpoint ping_pong (n : nat) (g : seg) (here there : st) : nat :=
  match n with
  | O => O
  | S n => match step (Segm 1 g) here with
      | Ret (here, o) => match as_segment o with Some g => S (ping_pong n g there here) | None => 1%nat end
      | _ => 0%nat end
  end.
Theorem tw_ack_war_refuted : exists la lb sa sb osa osb g, history 0 3000 la /\ history 0 3000 lb /\
  run la (init 5 3000 0) = Ret (sa, osa) /\ run lb (init 5 3000 0) = Ret (sb, osb) /\
  g = mkSeg TH_ACK 700 500 0 /\ forall n, ping_pong n g sa sb = n.
Proof.
  set (ca := mkTcb 500 700 800 0 false 0 0 false). set (cb := mkTcb 700 500 600 0 false 0 0 false).
  exists [Start 1 false ca], [Start 1 false cb]. eexists _, _, _, _, (mkSeg TH_ACK 700 500 0).
  assert (HH : forall c, word (c_snd c) -> word (c_rcv c) -> word (c_adv c) -> 0 <= c_scale c <= 14 -> history 0 3000 [Start 1 false c]).
  { intros c A B C D. apply (h_snoc 0 3000 [] (Start 1 false c)); [apply h_nil; unfold INT_MAX; lia|]. cbn [can]. auto. }
  split; [apply HH; unfold word; cbn; lia|]. split; [apply HH; unfold word; cbn; lia|].
  split; [vm_compute; reflexivity|]. split; [vm_compute; reflexivity|]. split; [reflexivity|].
  match goal with |- forall n, ping_pong n _ ?a ?b = n =>
    assert (K : forall n, ping_pong n (mkSeg TH_ACK 700 500 0) a b = n /\ ping_pong n (mkSeg TH_ACK 500 700 0) b a = n) end.
  { induction n as [|n [IH1 IH2]]; [split; reflexivity|]. split.
    - assert (X : forall P, step (Segm 1 (mkSeg TH_ACK 700 500 0)) P = step (Segm 1 (mkSeg TH_ACK 700 500 0)) P) by reflexivity.
      cbn [ping_pong]. match goal with |- context [step ?e ?x] => let r := eval vm_compute in (step e x) in change (step e x) with r end.
      cbn [as_segment]. rewrite IH2. reflexivity.
    - cbn [ping_pong]. match goal with |- context [step ?e ?x] => let r := eval vm_compute in (step e x) in change (step e x) with r end.
      cbn [as_segment]. rewrite IH1. reflexivity. }
  intros n. apply K.
Qed.
Print Assumptions tw_ack_war_refuted.

(* A SYN|ACK is not a request for a new connection, but it ends TIME_WAIT. *)
Theorem tw_synack_refuted : exists l g s os o, history 0 3000 (l ++ [Segm 1 g]) /\
  run (l ++ [Segm 1 g]) (init 5 3000 0) = Ret (s, os ++ [o]) /\ has (g_fl g) TH_ACK = true /\ o = [Ended 1 Superseded].
Proof.
  exists [Start 1 false (mkTcb 500 700 800 0 false 0 0 false)], (mkSeg 18 701 500 0). eexists _, [[]], _.
  split.
  { apply h_snoc; [|cbn; unfold word; cbn; lia].
    apply (h_snoc 0 3000 []); [apply h_nil; unfold INT_MAX; lia|]. cbn. unfold word. cbn. split; [reflexivity|lia]. }
  split; [vm_compute; reflexivity|]. split; reflexivity.
Qed.
Print Assumptions tw_synack_refuted.

(* C96.  Entering TIME_WAIT always succeeds, nothing is used after it is freed
   and nothing is freed twice (the model returns), and the entries are
   conserved. *)
Theorem tw_resources : forall t0 m N l, (N > 0)%nat -> history t0 m l ->
  exists s os, run l (init N m t0) = Ret (s, os) /\ (forall i, ~ In (Closed i) (concat os)) /\
    exists ids, NoDup ids /\ (forall i, In i ids <-> in_tw t0 i l (concat os)) /\ (length ids + free s)%nat = N.
Proof.
  intros t0 m N l NP H. destruct (history_ok t0 m N l NP H) as (s & os & R & I). exists s, os. split; [exact R|]. split.
  - clear I. revert s os R. induction H as [A B C|l e H IH C]; intros s os R i.
    + cbn [run] in R. injection R as _ <-. intros [].
    + pose proof R as R0. rewrite run_snoc in R. destruct (run l (init N m t0)) as [[s1 os1]| |] eqn:E1; cbn [obind] in R; try discriminate.
      destruct (step e s1) as [[s2 o]| |]; cbn [obind] in R; try discriminate. injection R as -> <-.
      destruct (at_event _ _ _ _ _ _ _ _ NP (h_snoc _ _ _ _ H C) R0) as (s3 & _ & _ & _ & _ & P).
      rewrite concat_app. cbn [concat]. rewrite app_nil_r. intros X. apply in_app_or in X. destruct X as [X|X]; [exact (IH _ _ eq_refl i X)|].
      assert (NA : forall j c, ~ In (Closed i) (acks j c (clock t0 l))).
      { intros j c. unfold acks. destruct (c_acknow c); intros Y; [destruct Y as [Y|[]]; discriminate Y|destruct Y]. }
      destruct e as [j fd c|j g| |j|d|mm]; cbn [post] in P; try (subst o; destruct X; fail).
      * destruct P as [[-> _]|(x & r & _ & _ & ->)]; [exact (NA _ _ X)|]. destruct X as [X|X]; [discriminate X|exact (NA _ _ X)].
      * destruct P as [[_ ->]|(fd & c & t & _ & _ & ->)]; [destruct X as [X|[]]; discriminate X|].
        unfold replies in X. destruct (has _ TH_RST); [destruct X|]. destruct (newer c g); [destruct X as [X|[]]; discriminate X|].
        destruct (negb _); [destruct X|]. destruct (_ && _); [destruct X|]. destruct X as [X|[]]. discriminate X.
      * destruct P as [P _]. destruct (P _ X) as (j & fd & c & t & Y & _). discriminate Y.
  - exists (map w_id (q s)). split; [apply (i_nd _ _ _ _ _ _ I)|]. split; [apply (ids_spec _ _ _ _ _ _ I)|].
    rewrite map_length. apply (i_len _ _ _ _ _ _ I).
Qed.
Print Assumptions tw_resources.

(* The control block is freed exactly when TIME_WAIT is over and the application
   has closed, the socket when the application has closed before, or closes and
   TIME_WAIT is over, in whichever order. *)
Theorem tw_frees : forall t0 m N l s os i fd c t, (N > 0)%nat -> history t0 m l -> run l (init N m t0) = Ret (s, os) ->
  entered t0 i l = Some (fd, c, t) ->
  exists p, getp i (pcbs s) = Some p /\
    (p_freed p = true <-> ended i (concat os) /\ (fd = false \/ In (Close i) l)) /\
    (p_sofreed p = true <-> fd = false \/ (In (Close i) l /\ ended i (concat os))).
Proof.
  intros t0 m N l s os i fd c t NP H R E. destruct (history_ok t0 m N l NP H) as (s2 & os2 & R2 & I).
  rewrite R in R2. injection R2 as <- <-. exists (pcb_at fd (closed i l) (inq i (q s))).
  split; [rewrite (i_p _ _ _ _ _ _ I), E; reflexivity|].
  assert (CI : closed i l = true <-> In (Close i) l).
  { unfold closed. rewrite existsb_exists. split.
    - intros (e & A & B). destruct e; try discriminate B. assert (i = i0) by lia. subst. exact A.
    - intros A. exists (Close i). split; [exact A|apply Z.eqb_refl]. }
  assert (EI : inq i (q s) = false <-> ended i (concat os)).
  { pose proof (i_in _ _ _ _ _ _ I i) as X. unfold in_tw in X. rewrite E in X. split.
    - intros F. destruct (existsb (fun o => match o with Ended j _ => j =? i | _ => false end) (concat os)) eqn:B.
      + apply existsb_exists in B. destruct B as (o & O1 & O2). destruct o; try discriminate O2. assert (i0 = i) by lia. subst. eexists; exact O1.
      + exfalso. assert (Y : inq i (q s) = true); [|congruence]. apply X. split; [discriminate|]. intros [w W].
        assert (Z0 : existsb (fun o => match o with Ended j _ => j =? i | _ => false end) (concat os) = true); [|congruence].
        apply existsb_exists. exists (Ended i w). split; [exact W|apply Z.eqb_refl].
    - intros D. destruct (inq i (q s)) eqn:F; [|reflexivity]. exfalso. apply (proj1 X eq_refl). exact D. }
  rewrite <- CI, <- EI. unfold pcb_at. destruct (inq i (q s)), fd, (closed i l); cbn [negb andb p_freed p_sofreed]; intuition congruence.
Qed.
Print Assumptions tw_frees.

(* ---- a case that meets the hypotheses: two entries, three connections ---- *)
Definition peer (x : Z) : tcb := mkTcb 500 x (u32 (x + 4096)) 3 true 77 5 true.
Definition story : list ev :=
  [Start 1 true (peer 1000); Tick 100; Start 2 false (peer 4294967290); Segm 2 (mkSeg 17 4294967285 500 4); Tick 200; Close 1;
   Start 3 true (peer 30); Tick 5900; Scan; Segm 3 (mkSeg 4 0 0 0); Segm 3 (mkSeg 2 31 0 0); Close 3].
Lemma snoc_history : forall t0 m l, 0 <= t0 -> 0 <= m -> t0 + 2 * m <= INT_MAX ->
  (forall k, (k < length l)%nat -> can t0 m (firstn k l) (nth k l Scan)) -> history t0 m l.
Proof.
  intros t0 m l A B C. induction l as [|e l IH] using rev_ind; intros H; [apply h_nil; assumption|].
  apply h_snoc.
  - apply IH. intros k K. specialize (H k). rewrite app_length in H. specialize (H ltac:(lia)).
    rewrite firstn_app, app_nth1 in H by lia. replace (k - length l)%nat with 0%nat in H by lia. cbn [firstn] in H. rewrite app_nil_r in H. exact H.
  - specialize (H (length l)). rewrite app_length in H. cbn [length] in H. specialize (H ltac:(lia)).
    rewrite firstn_app, firstn_all, Nat.sub_diag in H. cbn [firstn] in H. rewrite app_nil_r in H.
    rewrite app_nth2, Nat.sub_diag in H by lia. exact H.
Qed.
Example story_ok : history 0 3000 story /\
  match run story (init 2 3000 0) with Ret (s, os) => Some (free s, map w_id (q s), concat os) | _ => None end =
  Some (2%nat, [], [Reply 1 500 1000 512 (Some (5, 77)); Reply 2 500 4294967290 512 (Some (1005, 77)); Reply 2 500 4294967290 512 (Some (1005, 77));
    Ended 1 Recycled; Reply 3 500 30 512 (Some (3005, 77)); Ended 2 Expired; Ended 3 Superseded]).
Proof.
  split.
  - apply snoc_history; [lia|lia|unfold INT_MAX; lia|]. intros k K. cbn [story length] in K.
    do 12 (destruct k as [|k]; [vm_compute; repeat split; try discriminate; eauto; fail|]). lia.
  - vm_compute. reflexivity.
Qed.
