From Verif Require Import Base TcpSeqModel TcpOptModel TcpReassModel TcpReassSpec TcpReassProof TcpInModel TcpInSpec TcpInProof.
Ltac Zify.zify_post_hook ::= idtac.

(* the sending side and the state *)
Record sk := mkSk { k_una : Z; k_cc : Z; k_st : Z; k_ns : bool; k_nf : bool; k_err : Z; k_tsr : Z }.
Definition S (t : tcp) : sk := mkSk (snd_una t) (snd_cc t) (t_state t) (needsyn t) (needfin t) (so_error t) (ts_recent t).
Lemma S_fields t t1 : S t1 = S t -> snd_una t1 = snd_una t /\ snd_cc t1 = snd_cc t /\ t_state t1 = t_state t /\ needsyn t1 = needsyn t /\ needfin t1 = needfin t /\ so_error t1 = so_error t /\ ts_recent t1 = ts_recent t.
Proof. unfold S. intros H. injection H. auto 10. Qed.
Ltac sk1 := cbv zeta; repeat (match goal with |- context [if ?b then _ else _] => destruct b end); reflexivity.

(* no acknowledgement *)
Definition Tail (t t' : tcp) (v : ev) : Prop :=
  v_rst v = None /\ snd_una t' = snd_una t /\ snd_cc t' = snd_cc t /\ so_error t' = so_error t /\ ts_recent t' = ts_recent t /\ t_state t' = after_fin (t_state t) (v_eof v).
Definition Acked (a : Z) (g : seg) (t t' : tcp) (v : ev) : Prop :=
  v_rst v = None /\ snd_una t' = g_ack g /\ snd_cc t' = Z.max 0 (snd_cc t - a) /\ so_error t' = so_error t /\ ts_recent t' = ts_recent t /\
  t_state t' = after_fin (after_ack (t_state t) (a >? snd_cc t)) (v_eof v).

Section Out.
Context (out : tcp -> tcp) (Ho : output_ok out).
Lemma S_out t : S (out t) = S t. Proof. apply (out_field out Ho S); reflexivity. Qed.
Lemma Tail_S t t1 t' v : S t1 = S t -> Tail t1 t' v -> Tail t t' v.
Proof. intros H. destruct (S_fields _ _ H) as (A & B & C & D & E & F & G). unfold Tail. rewrite A, B, C, F, G. auto. Qed.
Lemma Tail_same t t' v : S t' = S t -> v_eof v = false -> v_rst v = None -> Tail t t' v.
Proof. intros H He Hr. destruct (S_fields _ _ H) as (A & B & C & D & E & F & G). unfold Tail. rewrite He. auto 10. Qed.

Lemma S_cdel t : S (check_delack t) = S t. Proof. unfold check_delack. sk1. Qed.
Lemma finish_S no t v : wlp (finish out no t v) (fun t' v' => S t' = S t /\ v' = v).
Proof. unfold finish. apply wlp_ret. split; [|reflexivity]. rewrite S_cdel. destruct (no || acknow t); [apply S_out|reflexivity]. Qed.
Lemma do_fin_S no fin t outs : t_state t < TIME_WAIT -> wlp (do_fin out no fin t outs) (Tail t).
Proof.
  intros Hs. unfold do_fin. destruct fin; cbn [negb].
  - cbv zeta. replace (HAVERCVDFIN (t_state t)) with false by (unfold HAVERCVDFIN, TIME_WAIT in *; lia). cbn [negb].
    set (t1 := set_rnxt _ _). assert (H1 : S t1 = S t) by (subst t1; destruct (needsyn _); reflexivity). clearbody t1.
    assert (F : forall t2, S t2 = mkSk (snd_una t) (snd_cc t) (after_fin (t_state t) true) (needsyn t) (needfin t) (so_error t) (ts_recent t) ->
       wlp (finish out no t2 (mkEv outs true None)) (Tail t)).
    { intros t2 H2. eapply wlp_mono; [apply finish_S|]. intros t' v [H ->]. rewrite H2 in H. unfold S in H. injection H as ? ? ? ? ? ? ?.
      unfold Tail. cbn [v_rst v_eof]. auto 10. }
    destruct (S_fields _ _ H1) as (A & B & C & D & E & G & I).
    unfold after_fin in *. rewrite C.
    destruct ((t_state t =? SYN_RECEIVED) || (t_state t =? ESTABLISHED)) eqn:E1. { apply F. unfold S. cbn. congruence. }
    destruct (t_state t =? FIN_WAIT_1) eqn:E2. { apply F. unfold S. cbn. congruence. }
    destruct (t_state t =? FIN_WAIT_2) eqn:E3; [|apply F; unfold S; congruence].
    apply wlp_ret. unfold Tail. cbn [v_rst v_eof]. unfold after_fin. rewrite E1, E2, E3. cbn. auto 10.
  - eapply wlp_mono; [apply finish_S|]. intros t' v [H ->]. apply Tail_same; auto.
Qed.
Lemma dodata_S e no g c tl t : t_state t < TIME_WAIT -> wlp (dodata e out no g c tl t) (Tail t).
Proof.
  intros Hs. unfold dodata. cbv zeta.
  apply wlp_if; intros E1. { apply wlp_ret, Tail_same; reflexivity. }
  assert (F : forall fin t1 o, S t1 = S t -> wlp (do_fin out no fin t1 o) (Tail t)).
  { intros fin t1 o H. eapply wlp_mono; [apply do_fin_S; destruct (S_fields _ _ H) as (_ & _ & -> & _); exact Hs|]. intros t' v. apply Tail_S, H. }
  apply wlp_if; intros E2; [|apply F; reflexivity]. apply wlp_if; intros E3; [|apply F; reflexivity].
  destruct (tcp_data _ _ _ _ _ _) as [[r te]| |]; cbn [obind]; [|apply wlp_ub|intros ? ? X; discriminate X].
  apply F. clear. destruct (_ && _); [destruct (e_delayack e)|]; reflexivity.
Qed.
Lemma S_win tw g c t : S (win_update tw g c t) = S t. Proof. unfold win_update. sk1. Qed.
Lemma S_urg e c t : S (urg_update e c t) = S t. Proof. unfold urg_update. sk1. Qed.
Lemma step6_S e no tw g c t : t_state t < TIME_WAIT -> wlp (step6 e out no tw g c t) (Tail t).
Proof.
  intros Hs. unfold step6. cbv zeta.
  assert (F : forall no c tl t1, S t1 = S t -> wlp (dodata e out no g c tl t1) (Tail t)).
  { intros no' c' tl t1 H. eapply wlp_mono; [apply dodata_S; destruct (S_fields _ _ H) as (_ & _ & -> & _); exact Hs|]. intros t' v. apply Tail_S, H. }
  apply wlp_if; intros E1.
  - apply wlp_if; intros E2; [apply F, S_win|]. apply wlp_if; intros E3.
    + destruct (nth_error _ _); [|apply wlp_ub]. apply F. transitivity (S (urg_update e c (win_update tw g c t))); [reflexivity|]. rewrite S_urg, S_win. reflexivity.
    + apply F. rewrite S_urg, S_win. reflexivity.
  - apply F. rewrite <- (S_win tw g c t). destruct (SEQ_GT _ _); reflexivity.
Qed.

Definition acked_S (g : seg) (a : Z) (t : tcp) : sk := mkSk (g_ack g) (Z.max 0 (snd_cc t - a)) (t_state t) (needsyn t) (needfin t) (so_error t) (ts_recent t).
Lemma S_timer g t : S (ack_timer g t) = S t. Proof. unfold ack_timer. sk1. Qed.
Lemma S_recover g t : S (ack_recover g t) = S t. Proof. unfold ack_recover. sk1. Qed.
Lemma S_una g t : S (ack_una g t) = mkSk (g_ack g) (snd_cc t) (t_state t) (needsyn t) (needfin t) (so_error t) (ts_recent t).
Proof. unfold ack_una. cbv zeta. destruct (_ && _); destruct (SEQ_LT _ _); reflexivity. Qed.
Lemma S_drop a t : 0 <= a -> 0 <= snd_cc t -> S (ack_drop a t) = mkSk (snd_una t) (Z.max 0 (snd_cc t - a)) (t_state t) (needsyn t) (needfin t) (so_error t) (ts_recent t).
Proof.
  intros Ha Hc. unfold ack_drop. destruct (Z.gtb_spec a (snd_cc t)); unfold S; cbn [set_snd_cc set_snd_wnd snd_una snd_cc t_state needsyn needfin so_error ts_recent]; f_equal; lia.
Qed.
Lemma process_ack_S e tw g c t : t_state t < TIME_WAIT -> 0 <= dist (g_ack g) (snd_una t) -> 0 <= snd_cc t ->
  (dist (g_ack g) (snd_una t) = 0 -> snd_una t = g_ack g) ->
  wlp (process_ack e out tw g c t) (Acked (dist (g_ack g) (snd_una t)) g t).
Proof.
  intros Hs Ha Hc H0. unfold process_ack. fold (dist (g_ack g) (snd_una t)). cbv zeta. set (a := dist _ _) in *.
  apply wlp_if; intros E0.
  { eapply wlp_mono; [apply step6_S; destruct (S_fields _ _ (S_timer g t)) as (_ & _ & -> & _); exact Hs|]. intros t' v H.
    apply (Tail_S _ _ _ _ (S_timer g t)) in H. destruct H as (A & B & C & D & E & F). unfold Acked. rewrite B, C, D, E, F. rewrite H0 by lia.
    replace (a >? snd_cc t) with false by lia. cbn [after_ack]. repeat split; auto; lia. }
  set (t1 := ack_una _ _).
  assert (H1 : S t1 = acked_S g a t).
  { subst t1. rewrite S_una. destruct (S_fields _ _ (S_recover g (ack_drop a (ack_timer g t)))) as (_ & R2 & R3 & R4 & R5 & R6 & R7). rewrite R2, R3, R4, R5, R6, R7.
    destruct (S_fields _ _ (S_timer g t)) as (T1 & T2 & T3 & T4 & T5 & T6 & T7).
    pose proof (S_drop a (ack_timer g t) Ha ltac:(rewrite T2; exact Hc)) as X. unfold S in X. injection X as X1 X2 X3 X4 X5 X6 X7.
    rewrite X2, X3, X4, X5, X6, X7, T2, T3, T4, T5, T6, T7. reflexivity. }
  clearbody t1. unfold acked_S, S in H1. injection H1 as A B C D E F G.
  assert (P : forall no t2, S t2 = mkSk (g_ack g) (Z.max 0 (snd_cc t - a)) (after_ack (t_state t) (a >? snd_cc t)) (needsyn t) (needfin t) (so_error t) (ts_recent t) -> t_state t2 < TIME_WAIT ->
     wlp (step6 e out no tw g c t2) (Acked a g t)).
  { intros no t2 H Hl. eapply wlp_mono; [apply step6_S; exact Hl|]. unfold S in H. injection H as I1 I2 I3 I4 I5 I6 I7. intros t' v (J1 & J2 & J3 & J4 & J5 & J6). unfold Acked.
    rewrite J2, J3, J4, J5, J6, I1, I2, I3, I6, I7. auto 10. }
  rewrite C. unfold after_ack in P.
  destruct (Z.eqb_spec (t_state t) FIN_WAIT_1) as [W|W].
  { apply P; destruct (a >? snd_cc t); unfold S; cbn; rewrite ?W; try congruence; unfold TIME_WAIT, FIN_WAIT_2, FIN_WAIT_1 in *; lia. }
  assert (Z : a >? snd_cc t = true -> t_state t <> CLOSING -> t_state t <> LAST_ACK -> after_ack (t_state t) (a >? snd_cc t) = t_state t).
  { intros -> ? ?. unfold after_ack. rewrite (proj2 (Z.eqb_neq _ _) W). destruct (Z.eqb_spec (t_state t) CLOSING); [lia|]. destruct (Z.eqb_spec (t_state t) LAST_ACK); lia. }
  destruct (Z.eqb_spec (t_state t) CLOSING) as [W2|W2].
  { destruct (a >? snd_cc t) eqn:EA.
    - apply wlp_ret. unfold Acked. rewrite EA. unfold after_ack. rewrite W2. cbn. auto 10.
    - apply P; [unfold S; congruence|lia]. }
  destruct (Z.eqb_spec (t_state t) LAST_ACK) as [W3|W3].
  { destruct (a >? snd_cc t) eqn:EA.
    - apply wlp_ret. unfold Acked. rewrite EA. unfold after_ack. rewrite W3. cbn. auto 10.
    - apply P; [unfold S; congruence|lia]. }
  apply P; [|lia]. unfold S. destruct (a >? snd_cc t); congruence.
Qed.
Lemma S_frex g t : S (fast_rexmt out g t) = S t.
Proof. unfold fast_rexmt. cbv zeta. set (t1 := set_frec _ _). assert (H : S (out t1) = S t) by (rewrite S_out; reflexivity). destruct (SEQ_GT _ _); rewrite <- H; reflexivity. Qed.
Lemma S_partial g t : S (partial_ack out g t) = S t.
Proof.
  unfold partial_ack. destruct (_ && _); [|reflexivity]. destruct (sackp t); [rewrite S_out; reflexivity|].
  cbv zeta. set (t1 := set_acknow _ _). assert (H : S (out t1) = S t) by (rewrite S_out; reflexivity). destruct (SEQ_GT _ _); rewrite <- H; reflexivity.
Qed.
Lemma S_synack t : S (syn_acked t) = mkSk (if needsyn t then u32 (snd_una t + 1) else snd_una t) (snd_cc t) (t_state t) false (needfin t) (so_error t) (ts_recent t).
Proof. unfold syn_acked. cbv zeta. destruct (needsyn t) eqn:E; [|unfold S; rewrite E; reflexivity]. destruct (_ && _); reflexivity. Qed.
Lemma dist_lt a b : 0 < dist a b -> dist a (u32 (b + 1)) = dist a b - 1.
Proof.
  unfold dist, u32. rewrite Zminus_mod_idemp_r. replace (a - (b + 1)) with (a - b - 1) by ring. rewrite <- (Zminus_mod_idemp_l (a - b)).
  assert (0 <= (a - b) mod 4294967296 < 4294967296) by (apply Z.mod_pos_bound; lia). generalize dependent ((a - b) mod 4294967296). intros x Hx.
  unfold s32. rewrite (Z.mod_small x) by lia. destruct (Z.ltb_spec x 2147483648); intros; [|lia].
  rewrite Z.mod_mod, Z.mod_small by lia. destruct (Z.ltb_spec (x - 1) 2147483648); lia.
Qed.
Lemma dist_zero a b : 0 <= a < 4294967296 -> 0 <= b < 4294967296 -> dist a b = 0 -> a = b.
Proof.
  unfold dist, u32, s32. intros Ha Hb. rewrite Z.mod_mod by lia. destruct (Z.ltb_spec ((a - b) mod 4294967296) 2147483648) as [H|H]; intros E.
  - apply Zmod_divides in E; [|lia]. destruct E as [k E]. lia.
  - pose proof (Z.mod_pos_bound (a - b) 4294967296). lia.
Qed.

Definition ok (g : seg) (t : tcp) : Prop := 0 <= snd_cc t /\ 0 <= g_ack g < 4294967296 /\ 0 <= snd_una t < 4294967296.
(* dropped with nothing but output: the state and the sending side stay *)
Lemma daa_S g c t : wlp (dropafterack out g c t) (fun t' v => S t' = S t /\ v_eof v = false /\ (v_rst v = None \/ t_state t = SYN_RECEIVED)).
Proof.
  unfold dropafterack. apply wlp_if; intros E; apply wlp_ret.
  - split; [reflexivity|]. split; [reflexivity|]. right. rewrite !andb_true_iff in E. lia.
  - split; [rewrite S_out; reflexivity|]. auto.
Qed.
Definition AckStep (g : seg) (t t' : tcp) (v : ev) : Prop :=
  Tail t t' v \/ (0 < dist (g_ack g) (snd_una t) /\ dist (g_ack g) (snd_max t) <= 0) /\ Acked (acked_now t g) g t t' v.
Lemma do_ack_S e tw g c t : ESTABLISHED <= t_state t < TIME_WAIT -> ok g t ->
  wlp (do_ack e out tw g c t) (fun t' v => AckStep g t t' v /\ (0 < dist (g_ack g) (snd_una t) -> dist (g_ack g) (snd_max t) <= 0 -> Acked (acked_now t g) g t t' v)).
Proof.
  intros Hs (Hc & Ha & Hu). unfold do_ack.
  assert (T : forall t2 v, S t2 = S t -> v_eof v = false -> v_rst v = None -> AckStep g t t2 v) by (intros; left; apply Tail_same; auto).
  assert (S6 : forall no t2, S t2 = S t -> wlp (step6 e out no tw g c t2) (fun t' v => AckStep g t t' v)).
  { intros no t2 H. eapply wlp_mono; [apply step6_S; destruct (S_fields _ _ H) as (_ & _ & -> & _); lia|]. intros t' v X. left. eapply Tail_S; eauto. }
  destruct (SEQ_GT (g_ack g) (snd_max t)) eqn:E1.
  { eapply wlp_mono; [apply daa_S|]. intros t' v (A & B & C). split; [apply T; auto; destruct C; [auto|unfold SYN_RECEIVED, ESTABLISHED in *; lia]|].
    intros _ X. unfold SEQ_GT in E1. unfold dist in X. lia. }
  destruct (SEQ_LEQ (g_ack g) (snd_una t)) eqn:E2.
  { cut (wlp (if (zlen (c_data c) =? 0) && (tw =? snd_wnd t)
      then if negb (rexmt t) || negb (g_ack g =? snd_una t) then step6 e out false tw g c (set_dupacks 0 t)
      else let t0 := set_dupacks (dupacks t + 1) t in
        if (dupacks t0 >? REXMTTHRESH) || frec t0 then drop (out t0)
        else if dupacks t0 =? REXMTTHRESH then
          if if sackp t0 then frec t0 else SEQ_LEQ (g_ack g) (snd_recover t0) then step6 e out false tw g c (set_dupacks 0 t0) else drop (fast_rexmt out g t0)
        else if e_3042 e then drop (out t0) else step6 e out false tw g c t0 else step6 e out false tw g c (set_dupacks 0 t)) (AckStep g t)).
    { intros H. eapply wlp_mono; [exact H|]. intros t' v X. split; [exact X|]. intros Y _. unfold SEQ_LEQ in E2. unfold dist in Y. lia. }
    apply wlp_if; intros E3; [|apply S6; reflexivity]. apply wlp_if; intros E4; [apply S6; reflexivity|]. cbv zeta.
    apply wlp_if; intros E5. { apply wlp_ret, T; auto. rewrite S_out. reflexivity. }
    apply wlp_if; intros E6. { apply wlp_if; intros E7; [apply S6; reflexivity|]. apply wlp_ret, T; auto. rewrite S_frex. reflexivity. }
    apply wlp_if; intros E7; [|apply S6; reflexivity]. apply wlp_ret, T; auto. rewrite S_out. reflexivity. }
  set (tp := set_dupacks 0 (partial_ack out g t)).
  assert (HT : S tp = S t) by (subst tp; transitivity (S (partial_ack out g t)); [reflexivity|apply S_partial]).
  clearbody tp. destruct (S_fields _ _ HT) as (T1 & T2 & T3 & T4 & T5 & T6 & T7).
  pose proof (S_synack tp) as HS. rewrite T1, T2, T3, T4, T5, T6, T7 in HS. unfold S in HS at 1. generalize dependent (syn_acked tp). intros ts HS.
  injection HS as U1 U2 U3 U4 U5 U6 U7.
  assert (D : 0 < dist (g_ack g) (snd_una t)) by (unfold SEQ_LEQ in E2; unfold dist; lia).
  assert (D2 : dist (g_ack g) (snd_max t) <= 0) by (unfold SEQ_GT in E1; unfold dist; lia).
  assert (AN : dist (g_ack g) (snd_una ts) = acked_now t g).
  { unfold acked_now. rewrite U1. destruct (needsyn t); [apply dist_lt, D|lia]. }
  eapply wlp_mono.
  { apply process_ack_S; try lia.
    - rewrite AN. unfold acked_now. destruct (needsyn t); lia.
    - intros X. symmetry. apply dist_zero; auto. rewrite U1. destruct (needsyn t); [|exact Hu]. unfold u32. apply Z.mod_pos_bound. lia. }
  intros t' v (A & B & C & E & F & G). rewrite AN, U2, U3, U6, U7 in *.
  assert (X : Acked (acked_now t g) g t t' v) by (unfold Acked; auto 10).
  split; [right; auto|auto].
Qed.

(* what a segment does to the sending side and the state, apart from closing the connection *)
Definition Flow (g : seg) (t t' : tcp) (v : ev) : Prop :=
  so_error t' = so_error t /\ (v_rst v = None \/ t_state t = SYN_RECEIVED) /\
  (snd_una t' = snd_una t /\ snd_cc t' = snd_cc t /\ t_state t' = after_fin (t_state t) (v_eof v) \/
   new_ack t g /\ snd_una t' = g_ack g /\ snd_cc t' = Z.max 0 (snd_cc t - acked_now t g) /\
   t_state t' = after_fin (after_ack (opened t) (acked_now t g >? snd_cc t)) (v_eof v)).
Definition sx (t : tcp) := (snd_una t, snd_max t, snd_cc t, t_state t, needsyn t, needfin t, so_error t).
Lemma Flow_sx g t t1 t' v : sx t1 = sx t -> Flow g t1 t' v -> Flow g t t' v.
Proof.
  intros H. unfold sx in H. injection H as A B C D E F G. unfold Flow, new_ack, acked_now, opened. rewrite A, B, C, D, E, F, G. auto.
Qed.
Lemma Flow_same g t t' v : S t' = S t -> v_eof v = false -> (v_rst v = None \/ t_state t = SYN_RECEIVED) -> Flow g t t' v.
Proof.
  intros H He Hr. destruct (S_fields _ _ H) as (A & B & C & D & E & F & G). unfold Flow. rewrite He. auto 10.
Qed.
Lemma S_est tw t : S (establish tw t) = mkSk (snd_una t) (snd_cc t) (if needfin t then FIN_WAIT_1 else ESTABLISHED) (needsyn t) false (so_error t) (ts_recent t) /\ snd_max (establish tw t) = snd_max t.
Proof. unfold establish, S. cbv zeta. destruct (_ && _); cbn; destruct (needfin t) eqn:E; cbn; rewrite ?E; split; reflexivity. Qed.
Definition live (t : tcp) : Prop := synchronized t.
Definition syn_ok (g : seg) (t : tcp) : Prop := t_state t = SYN_RECEIVED -> g_fack g = true -> 0 < dist (g_ack g) (snd_una t) /\ dist (g_ack g) (snd_max t) <= 0.
Lemma ack_switch_S e tw g c t : live t -> ok g t -> g_fack g = true -> syn_ok g t ->
  wlp (ack_switch e out tw g c t) (fun t' v => ts_recent t' = ts_recent t /\ Flow g t t' v).
Proof.
  intros Hs Hok Hack Hsy. unfold live, synchronized, SYN_RECEIVED, FIN_WAIT_2 in Hs. unfold ack_switch. destruct (t_state t =? SYN_RECEIVED) eqn:E1.
  - cbv zeta. destruct (S_est tw t) as [HS HM]. generalize dependent (establish tw t). intros t1 HS HM.
    unfold S in HS. injection HS as A B C D E F G.
    destruct (Hsy ltac:(lia) Hack) as (Y1 & Y2).
    assert (P : forall t2, sx t2 = sx t1 -> ts_recent t2 = ts_recent t1 -> wlp (do_ack e out tw g c t2) (fun t' v => ts_recent t' = ts_recent t /\ Flow g t t' v /\ v_rst v = None)).
    { intros t2 H HR. unfold sx in H. injection H as I1 I2 I3 I4 I5 I6 I7. eapply wlp_mono.
      - apply do_ack_S.
        + rewrite I4, C. unfold ESTABLISHED, FIN_WAIT_1, TIME_WAIT. destruct (needfin t); lia.
        + unfold ok in *. rewrite I1, I3, A, B. exact Hok.
      - intros t' v (_ & H). destruct H as (J1 & J2 & J3 & J4 & J5 & J6); [congruence|congruence|].
        assert (AN : acked_now t2 g = acked_now t g) by (unfold acked_now; rewrite I1, I5, A, D; reflexivity). rewrite AN in *.
        split; [congruence|]. split; [|exact J1]. split; [congruence|]. split; [auto|]. right. split; [split; auto|]. split; [exact J2|]. split; [rewrite J3, I3, B; reflexivity|].
        rewrite J6, I4, C, I3, B. unfold opened. rewrite E1. reflexivity. }
    apply wlp_if; intros E2.
    + cbn [tcp_reass obind]. destruct (present _ _ _ _ _ _) as [r te].
      set (t2 := set_snd_wl1 _ _). specialize (P t2 eq_refl eq_refl). destruct (do_ack e out tw g c t2) as [[t' v]| |]; cbn [obind]; [|apply wlp_ub|intros ? ? X; discriminate X].
      apply wlp_ret. destruct (P _ _ eq_refl) as (P1 & (P2 & P3 & P4) & P5). split; [exact P1|]. split; [exact P2|]. split; [exact P3|]. exact P4.
    + eapply wlp_mono; [apply P; reflexivity|]. intros t' v (X & Y & _). auto.
  - eapply wlp_mono; [apply do_ack_S; auto; unfold TIME_WAIT, ESTABLISHED, SYN_RECEIVED in *; lia|].
    intros t' v ([(J1 & J2 & J3 & J4 & J5 & J6)|((Y1 & Y2) & (J1 & J2 & J3 & J4 & J5 & J6))] & _); (split; [congruence|]); (split; [congruence|]); (split; [auto|]).
    + left. auto.
    + right. split; [split; auto|]. unfold opened. rewrite E1. auto.
Qed.
Lemma need_ack_S e tw g c t : live t -> ok g t -> syn_ok g t ->
  wlp (need_ack e out tw g c t) (fun t' v => ts_recent t' = ts_recent t /\ Flow g t t' v).
Proof.
  intros Hs Hok Hsy. unfold need_ack. destruct (g_fack g) eqn:EA; cbn [negb]; [apply ack_switch_S; auto|].
  apply wlp_if; intros E2.
  { eapply wlp_mono; [apply step6_S; unfold live, synchronized, FIN_WAIT_2, TIME_WAIT in *; lia|]. intros t' v (J1 & J2 & J3 & J4 & J5 & J6).
    split; [congruence|]. split; [congruence|]. auto 10. }
  apply wlp_if; intros E3.
  { eapply wlp_mono; [apply daa_S|]. intros t' v (A & B & C). split; [apply (S_fields _ _ A)|apply Flow_same; auto]. }
  apply wlp_ret. split; [reflexivity|]. apply Flow_same; auto.
Qed.
(* the timestamp remembered; the segment's own is no older *)
Definition idle (e : env) (t : tcp) : Prop := PAWS_IDLE < u32 (e_now e - ts_age t).
Definition TSok (e : env) (g : seg) (t t' : tcp) : Prop :=
  ts_recent t' = ts_recent t \/ ts_recent t' = 0 /\ idle e t \/
  exists tv ec, o_ts (g_opt g) = Some (tv, ec) /\ ts_recent t' = tv /\ (ts_recent t = 0 \/ idle e t \/ 0 <= dist tv (ts_recent t)).
Definition Gone (g : seg) (t t' : tcp) (v : ev) : Prop :=
  t_state t' = CLOSED /\ v_eof v = false /\ snd_una t' = snd_una t /\ snd_cc t' = snd_cc t.
Definition tsv_ok (e : env) (g : seg) (t : tcp) : Prop := forall tv ec, o_ts (g_opt g) = Some (tv, ec) -> ts_recent t = 0 \/ 0 <= dist tv (ts_recent t).
Definition P1 (e : env) (g : seg) (syn : bool) (t t' : tcp) (v : ev) : Prop :=
  TSok e g t t' /\ (Flow g t t' v \/ Gone g t t' v /\ so_error t' = ECONNRESET /\ v_rst v = None /\ syn = true \/
    Gone g t t' v /\ so_error t' = so_error t /\ nofdref t = true /\ CLOSE_WAIT < t_state t /\ g_data g <> []).
Lemma drop_S err t : SYN_RECEIVED <= t_state t -> S (tcp_drop out err t) = mkSk (snd_una t) (snd_cc t) CLOSED (needsyn t) (needfin t) err (ts_recent t).
Proof.
  intros H. unfold tcp_drop. cbv zeta. replace (t_state t >=? SYN_RECEIVED) with true by lia.
  pose proof (S_out (set_t_state CLOSED t)) as X. unfold S in X. injection X as A B C D E F G. unfold S. cbn. rewrite A, B, D, E, G. reflexivity.
Qed.
Lemma ts_syn_P e tw g c t : live t -> ok g t -> syn_ok g t -> tsv_ok e g t -> wlp (ts_syn e out tw g c t) (P1 e g (c_syn c) t).
Proof.
  intros Hs Hok Hsy Hts. unfold ts_syn. cbv zeta.
  assert (HU : sx (ts_update e g c t) = sx t) by (unfold ts_update; destruct (o_ts _) as [[? ?]|]; [destruct (_ && _)|]; reflexivity).
  assert (HT : forall t', ts_recent t' = ts_recent (ts_update e g c t) -> TSok e g t t').
  { unfold ts_update. destruct (o_ts (g_opt g)) as [[tv ec]|] eqn:ET; [|left; assumption]. destruct (_ && _); [|left; assumption].
    intros t' H. right. right. exists tv, ec. rewrite H. cbn. destruct (Hts tv ec ET); auto. }
  generalize dependent (ts_update e g c t). intros t1 HU HT. unfold sx in HU. injection HU as A B C D E F G.
  destruct (c_syn c).
  - apply wlp_ret. pose proof (drop_S ECONNRESET t1 ltac:(rewrite D; apply Hs)) as X. generalize dependent (tcp_drop out ECONNRESET t1). intros t2 X.
    unfold S in X. injection X as X1 X2 X3 X4 X5 X6 X7. split; [apply HT, X7|]. right. left. unfold Gone. cbn. repeat split; congruence.
  - eapply wlp_mono; [apply need_ack_S|].
    + unfold live, synchronized in *. lia. + unfold ok in *. rewrite A, C. exact Hok. + unfold syn_ok in *. rewrite D, A, B. exact Hsy.
    + intros t' v [X1 X2]. split; [apply HT, X1|]. left. eapply Flow_sx; [|exact X2]. unfold sx. congruence.
Qed.
Lemma P1_keep e g b t t1 t' v : sx t1 = sx t -> ts_recent t1 = ts_recent t -> ts_age t1 = ts_age t -> nofdref t1 = nofdref t -> P1 e g b t1 t' v -> P1 e g b t t' v.
Proof.
  intros H H1 H2 H3 [X Y]. split. { unfold TSok, idle in *. rewrite H1, H2 in X. exact X. }
  assert (Hx := H). unfold sx in H. injection H as A B C D E F G.
  destruct Y as [Y|[(Y1 & Y2)|(Y1 & Y2 & Y3 & Y4 & Y5)]].
  - left. eapply Flow_sx; eauto.
  - right. left. split; [|exact Y2]. unfold Gone in *. rewrite A, C in Y1. exact Y1.
  - right. right. unfold Gone in *. rewrite A, C in Y1. rewrite H3, D, G in *. auto.
Qed.
Lemma daa_P e g b c t : wlp (dropafterack out g c t) (P1 e g b t).
Proof.
  eapply wlp_mono; [apply daa_S|]. intros t' v (A & B & C). split; [left; apply (S_fields _ _ A)|]. left. apply Flow_same; auto.
Qed.
Lemma trim_tail_P e tw g c t : live t -> ok g t -> syn_ok g t -> tsv_ok e g t -> wlp (trim_tail e out tw g c t) (P1 e g (c_syn c) t).
Proof.
  intros Hs Hok Hsy Hts. unfold trim_tail. cbv zeta. apply wlp_if; intros E1; [|apply ts_syn_P; auto].
  set (c' := mkCur _ _ _ _ _ _). change (c_syn c) with (c_syn c').
  apply wlp_if; intros E2; [|apply ts_syn_P; auto]. apply wlp_if; intros E3; [|apply daa_P].
  eapply wlp_mono; [apply ts_syn_P; auto|]. intros t' v. apply P1_keep; reflexivity.
Qed.
Lemma after_close_P e tw g c t : live t -> ok g t -> syn_ok g t -> tsv_ok e g t -> (c_data c <> [] -> g_data g <> []) ->
  wlp (after_close e out tw g c t) (P1 e g (c_syn c) t).
Proof.
  intros Hs Hok Hsy Hts Hd. unfold after_close. apply wlp_if; intros E; [|apply trim_tail_P; auto].
  rewrite !andb_true_iff in E. destruct E as [[E1 E2] E3]. apply wlp_ret. split; [left; reflexivity|]. right. right.
  unfold Gone. cbn. split; [auto|]. split; [reflexivity|]. split; [exact E1|]. split; [lia|]. apply Hd. intros X. rewrite X in E3. discriminate.
Qed.
Definition startc (g : seg) : cur := mkCur (g_seq g) (g_urp g) (g_fsyn g) (g_ffin g) (g_furg g) (g_data g).
Definition syn_in (g : seg) (t : tcp) : bool := g_fsyn g && (dist (rnxt t) (g_seq g) <=? 0).
Lemma strip_syn_syn c : c_syn (strip_syn c) = false.
Proof. unfold strip_syn. destruct (c_syn c) eqn:E; [reflexivity|exact E]. Qed.
Lemma strip_syn_data c : c_data (strip_syn c) = c_data c. Proof. unfold strip_syn. destruct (c_syn c); reflexivity. Qed.
Lemma trim_head_P e tw g t : live t -> ok g t -> syn_ok g t -> tsv_ok e g t ->
  wlp (trim_head e out tw g (startc g) t) (P1 e g (syn_in g t) t).
Proof.
  intros Hs Hok Hsy Hts. unfold trim_head. cbv zeta. unfold syn_in, dist. change (c_seq (startc g)) with (g_seq g).
  apply wlp_if; intros E1.
  - replace (s32 (u32 (rnxt t - g_seq g)) <=? 0) with false by lia. rewrite andb_false_r.
    assert (SK : forall n f, c_data (cut_head n f (strip_syn (startc g))) <> [] -> g_data g <> []).
    { intros n f X Y. apply X. unfold cut_head. cbn [c_data]. rewrite strip_syn_data. cbn [startc c_data]. rewrite Y. apply skipn_nil. }
    assert (SY : forall n f, c_syn (cut_head n f (strip_syn (startc g))) = false) by (intros n f; apply strip_syn_syn).
    apply wlp_if; intros E2.
    + eapply wlp_mono; [apply after_close_P; try assumption; apply SK|]. rewrite SY. intros t' v. apply P1_keep; reflexivity.
    + rewrite <- (SY (if c_syn (startc g) then s32 (u32 (rnxt t - g_seq g)) - 1 else s32 (u32 (rnxt t - g_seq g))) (c_fin (strip_syn (startc g)))).
      apply after_close_P; try assumption. apply SK.
  - replace (s32 (u32 (rnxt t - g_seq g)) <=? 0) with true by lia. rewrite andb_true_r. change (g_fsyn g) with (c_syn (startc g)).
    apply after_close_P; auto.
Qed.
Definition P2 (e : env) (g : seg) (t t' : tcp) (v : ev) : Prop :=
  P1 e g (syn_in g t) t t' v \/ ts_recent t' = ts_recent t /\ g_frst g = true /\ v = no_ev /\ Gone g t t' v /\ rst_in_window t g (window e t).
Lemma rst_window_b t g w : SEQ_GEQ (g_seq g) (u32 (last_ack t - 1)) && SEQ_LEQ (g_seq g) (u32 (last_ack t + w)) = true <-> rst_in_window t g w.
Proof.
  unfold rst_in_window, SEQ_GEQ, SEQ_LEQ, dist, u32. rewrite !Zminus_mod_idemp_r. rewrite andb_true_iff. split; lia.
Qed.
Lemma slow_P e tw g t : live t -> ok g t -> wlp (slow e out tw g t) (P2 e g t).
Proof.
  intros Hs Hok. unfold slow. cbv zeta. fold (startc g).
  assert (Hwn2 : Z.max (if e_space e <? 0 then 0 else e_space e) (s32 (u32 (rcv_adv t - rnxt t))) = window e t).
  { unfold window, dist. f_equal. destruct (Z.ltb_spec (e_space e) 0); lia. }
  rewrite Hwn2. set (t1 := set_rcv_wnd _ t).
  assert (W : rcv_wnd t1 = window e t) by reflexivity. assert (HL : last_ack t1 = last_ack t) by reflexivity. assert (HR : rnxt t1 = rnxt t) by reflexivity.
  assert (HX : sx t1 = sx t) by reflexivity. assert (HT : ts_recent t1 = ts_recent t) by reflexivity. assert (HG : ts_age t1 = ts_age t) by reflexivity. assert (HN : nofdref t1 = nofdref t) by reflexivity.
  clearbody t1. 
  assert (HXs := HX). unfold sx in HXs. injection HXs as A B C D E F G.
  assert (FS : forall t2 v, S t2 = S t -> v_eof v = false -> (v_rst v = None \/ t_state t = SYN_RECEIVED) -> P2 e g t t2 v).
  { intros t2 v X Y Z. left. split; [left; apply (S_fields _ _ X)|]. left. apply Flow_same; auto. }
  assert (SS : S t1 = S t) by (unfold S; congruence).
  destruct ((t_state t1 =? SYN_RECEIVED) && g_fack g && (SEQ_LEQ (g_ack g) (snd_una t1) || SEQ_GT (g_ack g) (snd_max t1))) eqn:E1.
  { rewrite !andb_true_iff in E1. apply wlp_ret, FS; auto. right. lia. }
  apply wlp_if; intros E2; [unfold live, synchronized, SYN_SENT, SYN_RECEIVED in *; lia|].
  apply wlp_if; intros E3.
  { unfold do_rst. cbv zeta. change (c_seq (startc g)) with (g_seq g). rewrite W, HL.
    destruct (SEQ_GEQ (g_seq g) (u32 (last_ack t - 1)) && SEQ_LEQ (g_seq g) (u32 (last_ack t + window e t))) eqn:EW.
    - apply rst_window_b in EW.
      repeat (apply wlp_if; intros _); apply wlp_ret; try (apply FS; auto; fail); right; (split; [exact HT|]); unfold Gone; cbn; rewrite A, C; auto 10.
    - apply wlp_ret, FS; auto. }
  assert (Hsy1 : syn_ok g t).
  { intros X Y. rewrite X in D. rewrite D, Y in E1. change (SYN_RECEIVED =? SYN_RECEIVED) with true in E1. cbn [andb] in E1. apply orb_false_elim in E1. unfold SEQ_LEQ, SEQ_GT in E1. rewrite A, B in E1. unfold dist. lia. }
  assert (LC : forall t2, sx t2 = sx t1 -> rnxt t2 = rnxt t1 -> ts_age t2 = ts_age t1 -> nofdref t2 = nofdref t1 -> tsv_ok e g t2 ->
     (ts_recent t2 = ts_recent t1 \/ ts_recent t2 = 0 /\ idle e t1) -> wlp (land_check e out tw g (startc g) t2) (P2 e g t)).
  { intros t2 X1 X2 X3 X4 X5 X6. unfold land_check.
    assert (Hz : sx t2 = sx t) by congruence. assert (Hz2 := Hz). unfold sx in Hz2. injection Hz2 as A2 B2 C2 D2 E2' F2 G2.
    apply wlp_if; intros EL.
    { apply wlp_ret. left. split.
      { destruct X6 as [X6|[X6 X7]]; [left; congruence|right; left; split; [exact X6|unfold idle in *; congruence]]. }
      left. unfold Flow. cbn [v_eof v_rst]. split; [congruence|]. apply andb_prop in EL. split; [right; lia|]. left. cbn. auto. }
    eapply wlp_mono; [apply trim_head_P|].
    - unfold live, synchronized in *. lia. - unfold ok in *. rewrite A2, C2. exact Hok. - unfold syn_ok in *. rewrite D2, A2, B2. exact Hsy1. - exact X5.
    - intros t' v [Y Z]. left. assert (Hsi : syn_in g t2 = syn_in g t) by (unfold syn_in; congruence). rewrite Hsi in Z. split.
      + unfold TSok, idle in *. rewrite X3, HG in *. destruct X6 as [X6|[X6 X7]].
        * rewrite X6, HT in Y. exact Y.
        * rewrite X6 in Y. destruct Y as [Y|[[Y1 Y2]|(tv & ec & Y1 & Y2 & Y3)]]; [right; left; auto|right; left; auto|right; right; exists tv, ec; auto].
      + destruct Z as [Z|[(Z1 & Z2)|(Z1 & Z2 & Z3 & Z4 & Z5)]].
        * left. eapply Flow_sx; eauto.
        * right. left. split; [|exact Z2]. unfold Gone in *. rewrite A2, C2 in Z1. exact Z1.
        * right. right. unfold Gone in *. rewrite A2, C2 in Z1. rewrite X4, HN in Z3. rewrite D2 in Z4. split; [exact Z1|]. split; [congruence|]. auto. }
  unfold paws. destruct (o_ts (g_opt g)) as [[tsv tse]|] eqn:ET; [|apply LC; auto; intros tv ec Y; congruence].
  destruct (negb (ts_recent t1 =? 0) && TSTMP_LT tsv (ts_recent t1)) eqn:EP.
  - apply wlp_if; intros EI.
    + apply LC; try reflexivity. { intros tv ec Y. left. reflexivity. } right. split; [reflexivity|]. unfold idle. lia.
    + apply wlp_if; intros EZ; [|apply wlp_ret, FS; auto]. eapply wlp_mono; [apply (daa_S g (startc g) t1)|]. intros t' v (X1 & X2 & X3). apply FS; auto; [congruence|]. rewrite <- D. exact X3.
  - apply LC; auto. intros tv ec Y. rewrite ET in Y. injection Y as <- <-. unfold TSTMP_LT in EP. unfold dist. destruct (Z.eqb_spec (ts_recent t1) 0); [left; assumption|right]. cbn [negb andb] in EP. lia.
Qed.
Lemma S_pts e g t : sx (pred_ts e g t) = sx t. Proof. unfold pred_ts. destruct (o_ts _) as [[? ?]|]; [destruct (SEQ_LEQ _ _)|]; reflexivity. Qed.
Lemma do_segment_P e g t : live t -> ok g t -> wlp (do_segment e out g t) (P2 e g t).
Proof.
  intros Hs Hok. unfold do_segment, predict.
  replace (t_state t =? SYN_SENT) with false by (unfold live, synchronized, SYN_SENT, SYN_RECEIVED in *; lia). cbn [andb].
  set (tw := Z.shiftl _ _). apply wlp_if; intros E1; [apply slow_P; auto|]. cbv zeta.
  unfold pred_cond in E1. apply negb_false_iff in E1. rewrite !andb_true_iff in E1.
  destruct E1 as (((((((((((((E0 & E2) & Esyn) & Efin) & E5) & E6) & E7) & E8) & E9) & E10) & E11) & E12) & Eq) & Ets).
  assert (Hst : t_state t = ESTABLISHED) by lia.
  pose proof (S_pts e g t) as Hx.
  assert (HT : TSok e g t (pred_ts e g t)).
  { unfold pred_ts, TSok. destruct (o_ts (g_opt g)) as [[tv ec]|] eqn:ET; [|left; reflexivity]. destruct (SEQ_LEQ _ _); [|left; reflexivity].
    right. right. exists tv, ec. unfold TSTMP_GEQ in Ets. unfold dist. repeat split. right. right. lia. }
  assert (Hmisc : window e (pred_ts e g t) = window e t /\ last_ack (pred_ts e g t) = last_ack t /\ rnxt (pred_ts e g t) = rnxt t /\ nofdref (pred_ts e g t) = nofdref t).
  { unfold pred_ts. destruct (o_ts _) as [[? ?]|]; [destruct (SEQ_LEQ _ _)|]; repeat split; reflexivity. }
  assert (Hage : o_ts (g_opt g) <> None \/ ts_age (pred_ts e g t) = ts_age t /\ ts_recent (pred_ts e g t) = ts_recent t).
  { unfold pred_ts. destruct (o_ts (g_opt g)) as [[? ?]|]; [left; discriminate|right; auto]. }
  assert (Hrec : forall tv ec, o_ts (g_opt g) = Some (tv, ec) -> ts_age (pred_ts e g t) = e_now e \/ ts_recent (pred_ts e g t) = ts_recent t /\ ts_age (pred_ts e g t) = ts_age t).
  { intros tv ec ET. unfold pred_ts. rewrite ET. destruct (SEQ_LEQ _ _); [left; reflexivity|right; auto]. }
  generalize dependent (pred_ts e g t). intros t1 Hx HT (M1 & M2 & M3 & M4) Hage Hrec.
  assert (HXs := Hx). unfold sx in HXs. injection HXs as A B C D E F G.
  assert (SL : wlp (slow e out tw g t1) (P2 e g t)).
  { eapply wlp_mono; [apply slow_P|].
    - unfold live, synchronized in *. lia. - unfold ok in *. rewrite A, C. exact Hok.
    - assert (TT : forall t', TSok e g t1 t' -> TSok e g t t').
      { intros t' Y. destruct Y as [Y|[[Y1 Y2]|(tv & ec & Y1 & Y2 & Y3)]].
        - unfold TSok in *. rewrite Y. exact HT.
        - (* not idle: the timestamp was just taken *)
          destruct Hage as [Hage|[Hage Hr]]; [|right; left; unfold idle in *; rewrite Hage in Y2; auto].
          destruct (o_ts (g_opt g)) as [[tv ec]|] eqn:ET; [|congruence].
          destruct (Hrec tv ec eq_refl) as [X|[X1 X2]]; [|right; left; unfold idle in *; rewrite X2 in Y2; auto].
          unfold idle in Y2. rewrite X, Z.sub_diag in Y2. change (u32 0) with 0 in Y2. unfold PAWS_IDLE in Y2. lia.
        - right. right. exists tv, ec. split; [exact Y1|]. split; [exact Y2|]. unfold TSTMP_GEQ in Ets. rewrite Y1 in Ets. unfold dist. right. right. lia. }
      intros t' v [[Y Z]|(Y1 & Y2 & Y3 & Y4 & Y5)].
      + left. assert (Hsi : syn_in g t1 = syn_in g t) by (unfold syn_in; congruence). rewrite Hsi in Z. split; [apply TT, Y|].
        destruct Z as [Z|[(Z1 & Z2)|(Z1 & Z2 & Z3 & Z4 & Z5)]].
        * left. eapply Flow_sx; eauto.
        * right. left. split; [|exact Z2]. unfold Gone in *. rewrite A, C in Z1. exact Z1.
        * right. right. unfold Gone in *. rewrite A, C in Z1. rewrite M4 in Z3. rewrite D in Z4. split; [exact Z1|]. split; [congruence|]. auto.
      + destruct (g_frst g); discriminate. }
  apply wlp_if; intros F1.
  - apply wlp_if; intros F2; [|exact SL]. apply wlp_if; intros F3; [apply wlp_ub|].
    apply wlp_ret. left. rewrite !andb_true_iff in F2. destruct F2 as ((((F2 & F4) & _) & _) & _). unfold SEQ_GT, SEQ_LEQ in F2, F4.
    assert (X : S (pred_ack out g t1) = mkSk (g_ack g) (snd_cc t1 - dist (g_ack g) (snd_una t1)) (t_state t1) (needsyn t1) (needfin t1) (so_error t1) (ts_recent t1)).
    { unfold pred_ack. cbv zeta. rewrite S_cdel. fold (dist (g_ack g) (snd_una t1)).
      match goal with |- S (if _ then ?a else _) = ?r => assert (X : S a = r) by sk1 end.
      destruct (snd_cc _ =? 0); [exact X|]. rewrite S_out. exact X. }
    unfold S in X at 1. generalize dependent (pred_ack out g t1). intros t2 X. injection X as X1 X2 X3 X4 X5 X6 X7.
    assert (EN : needsyn t = false) by (destruct (needsyn t); [discriminate|reflexivity]).
    assert (EF : needfin t = false) by (destruct (needfin t); [discriminate|reflexivity]).
    assert (AN : acked_now t g = dist (g_ack g) (snd_una t1)) by (unfold acked_now; rewrite EN, A; lia).
    split. { unfold TSok in *. rewrite X7. exact HT. }
    left. split; [congruence|]. split; [left; reflexivity|]. right. split; [split; [exact E7|unfold dist; rewrite <- A, <- B; lia]|].
    split; [exact X1|]. rewrite AN. fold (dist (g_ack g) (snd_una t1)) in F2, F3. split; [rewrite X2, C; lia|].
    rewrite X3, D. replace (dist (g_ack g) (snd_una t1) >? snd_cc t) with false by lia. unfold opened. rewrite Hst. reflexivity.
  - apply wlp_if; intros F2; [|exact SL]. apply wlp_ret. left.
    assert (X : S (pred_data e out g t1) = S t1).
    { unfold pred_data. cbv zeta. rewrite S_cdel. destruct (e_delayack e); [|rewrite S_out]; reflexivity. }
    destruct (S_fields _ _ X) as (X1 & X2 & X3 & X4 & X5 & X6 & X7).
    split; [unfold TSok in *; rewrite X7; exact HT|]. left. split; [congruence|]. split; [left; reflexivity|]. left. cbn [v_eof after_fin]. repeat split; congruence.
Qed.
End Out.
