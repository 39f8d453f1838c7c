From Verif Require Import Base TcpSeqModel TcpSeqProps TcpOptModel TcpOptProof TcpReassModel TcpInModel TcpInSpec SockModel SackModel TcpOutModel TcpOutSpec TcpOutProof TcpOutProof2 TcpOutProof3 TcpOutProof4.
Ltac Zify.zify_post_hook ::= idtac.

(* ---- for every state of the connection ---- *)
Lemma skip_frame s : frame s (mkOst (skip_sacked (tp s) (ox s)) (ox s)).
Proof. unfold skip_sacked. destruct (_ && _); split; reflexivity. Qed.
(* the parts of the receiving side, which no pass before "announce" touches *)
Definition rside (t : tcp) : Z * Z * Z * bool := (rnxt t, rcv_adv t, rcv_scale t, acknow t).
Lemma setpersist_frame s s' : setpersist s = Ret s' -> frame s s' /\ rside (tp s') = rside (tp s).
Proof. unfold setpersist. destruct (rexmt (tp s)); [discriminate|]. intros E. injection E as <-. split; [split; reflexivity|reflexivity]. Qed.
Record PlanAny (s s1 : ost) (pl : plan) : Prop := {
  z_frame : frame s s1; z_r : rside (tp s1) = rside (tp s);
  z_fin : l_fin pl = true -> out_fin (t_state (tp s)) || needfin (tp s) = true;
  z_syn : l_syn pl = true -> out_syn (t_state (tp s)) || needsyn (tp s) = true;
  z_hole : sackp (tp s) && frec (tp s) = false -> l_hole pl = None;
  z_sf : sentfin (ox s1) = sentfin (ox s) }.
Lemma plan_any s s1 pl : make_plan s = Ret (s1, pl) -> PlanAny s s1 pl.
Proof.
  unfold make_plan. cbv zeta. pose proof (skip_frame s) as F0. assert (R0 : rside (skip_sacked (tp s) (ox s)) = rside (tp s)) by (unfold skip_sacked; destruct (_ && _); reflexivity).
  set (t := skip_sacked (tp s) (ox s)) in *. destruct (sack_part t (ox s) _) as [[[[[bd off] len] p] sb]| |] eqn:Es; cbn [obind]; try discriminate.
  assert (Hp : sackp (tp s) && frec (tp s) = false -> p = None).
  { intros K. unfold sack_part in Es. pose proof (frame_sackp _ _ F0) as E1. pose proof (frame_frec _ _ F0) as E2. cbn [tp] in E1, E2. rewrite E1, E2, K in Es. injection Es as _ _ _ <- _. reflexivity. }
  clear Es. assert (Et : t_state t = t_state (tp s) /\ needfin t = needfin (tp s) /\ needsyn t = needsyn (tp s)) by (split; [exact (fr t_state F0)|split; [exact (fr needfin F0)|exact (fr needsyn F0)]]). destruct Et as (Et1 & Et2 & Et3).
  destruct (force_ok (mkOst t (set_board bd (ox s))) off (Z.min (snd_wnd t) (cwnd (ox s))) (out_fin (t_state t) || needfin t)) as (s3 & sw & fin1 & Ef & Hf). rewrite Ef.
  assert (S3 : frame s s3 /\ rside (tp s3) = rside (tp s) /\ sentfin (ox s3) = sentfin (ox s) /\ (fin1 = true -> out_fin (t_state t) || needfin t = true)).
  { destruct Hf as [(_ & -> & _ & ->)|[(_ & _ & -> & _ & ->)|(_ & _ & -> & _ & ->)]].
    - split; [apply (frame_trans _ _ _ F0); split; reflexivity|split; [exact R0|auto]].
    - split; [apply (frame_trans _ _ _ F0); split; reflexivity|split; [exact R0|split; [reflexivity|intros K; apply andb_prop in K; apply K]]].
    - split; [apply (frame_trans _ _ _ F0); split; reflexivity|split; [exact R0|auto]]. }
  clear Hf Ef. destruct S3 as (F3 & R3 & Q3 & Hfin). rewrite Et1, Et2, Et3 in *.
  set (len1 := len_part _ _ _ _ _ _ _). set (syn0 := out_syn (t_state (tp s)) || needsyn (tp s)) in *. set (sent := syn0 && SEQ_GT _ _). set (syn1 := syn0 && (negb sent || _)). set (len2 := if syn1 && _ then _ else _). clearbody len2 sent.
  assert (Hsyn : syn1 = true -> syn0 = true) by (unfold syn1; intros K; apply andb_prop in K; apply K).
  assert (T : forall s4 len4, (if len2 <? 0 then if sw =? 0 then if persist (tp s3) then Ret (mkOst (set_snd_nxt (snd_una (tp s3)) (set_rexmt false (tp s3))) (set_rxtshift 0 (ox s3)), 0)
        else obind (setpersist (mkOst (set_snd_nxt (snd_una (tp s3)) (set_rexmt false (tp s3))) (set_rxtshift 0 (ox s3)))) (fun s => Ret (s, 0)) else Ret (s3, 0) else Ret (s3, len2)) = Ret (s4, len4) -> frame s s4 /\ rside (tp s4) = rside (tp s) /\ sentfin (ox s4) = sentfin (ox s)).
  { intros s4 len4. destruct (len2 <? 0); [|intros E; injection E as <- _; auto]. destruct (sw =? 0); [|intros E; injection E as <- _; auto]. destruct (persist (tp s3)).
    - intros E. injection E as <- _. split; [apply (frame_trans _ _ _ F3); split; reflexivity|]. split; [exact R3|exact Q3].
    - rewrite setpersist_ok by reflexivity. cbn [obind]. intros E. injection E as <- _. split; [apply (frame_trans _ _ _ F3); split; reflexivity|split; [exact R3|exact Q3]]. }
  intros E. match type of E with obind ?m _ = _ => destruct m as [[s4 len4]| |] eqn:Em end; cbn [obind] in E; try discriminate. destruct (T _ _ eq_refl) as (T1 & T2 & T3). clear T Em. injection E as <- <-.
  constructor; cbn [l_fin l_syn l_hole]; try assumption. intros K. apply andb_prop in K. destruct K as [K _]. apply andb_prop in K. apply Hfin, K.
Qed.
Lemma advance_frame n syn fin p s : frame s (advance n syn fin p s).
Proof.
  unfold advance. cbv zeta. set (x1 := if fin then set_sentfin true _ else _). assert (X : static x1 = static (ox s)) by (unfold x1; destruct fin; reflexivity). set (t1 := if is_hole p then _ else _). assert (T : core t1 = core (tp s)) by (unfold t1; destruct (is_hole p); [reflexivity|]; destruct (SEQ_GT _ _); reflexivity). clearbody x1 t1.
  match goal with |- context [if ?c then mkOst _ _ else _] => destruct c end; [split; [exact T|destruct (persist t1); exact X]|split; [exact T|exact X]].
Qed.
Lemma persist_frame n syn fin s : frame s (advance_persist n syn fin s).
Proof. unfold advance_persist. cbv zeta. destruct (SEQ_GT _ _), fin; split; reflexivity. Qed.
Lemma back_frame n syn p s : frame s (back_out n syn p s).
Proof. unfold back_out. destruct (_ && _); [|apply frame_refl]. destruct p; split; reflexivity. Qed.
Lemma advance_rside n syn fin p s : rside (tp (advance n syn fin p s)) = rside (tp s).
Proof.
  unfold advance. cbv zeta. set (t1 := if is_hole p then _ else _). assert (T : rside t1 = rside (tp s)) by (unfold t1; destruct (is_hole p); [reflexivity|]; destruct (SEQ_GT _ _); reflexivity). clearbody t1.
  match goal with |- context [if ?c then mkOst _ _ else _] => destruct c end; exact T.
Qed.
Lemma persist_rside n syn fin s : rside (tp (advance_persist n syn fin s)) = rside (tp s).
Proof. unfold advance_persist. cbv zeta. destruct (SEQ_GT _ _), fin; reflexivity. Qed.
Lemma back_rside n syn p s : rside (tp (back_out n syn p s)) = rside (tp s).
Proof. unfold back_out. destruct (_ && _); [|reflexivity]. destruct p; reflexivity. Qed.

(* the announcement of a pass: rw is the window *)
Definition announced (rw : Z) (s s2 : ost) : Prop :=
  rcv_adv (tp s2) = (if SEQ_GT (u32 (rnxt (tp s) + rw)) (rcv_adv (tp s)) then u32 (rnxt (tp s) + rw) else rcv_adv (tp s)).
Record EmitAny (v : oenv) (r : pres) (s : ost) (pl : plan) (opts : list Z) (syn fin : bool) (s2 : ost) (q : oseg) : Prop := {
  e_frame : frame s s2; e_ann : announced (recwin_of v s) s s2;
  e_ack : q_ack q = rnxt (tp s); e_syn : q_syn q = syn; e_fin : q_fin q = fin; e_rst : q_rst q = out_rst (t_state (tp s)); e_fack : q_fack q = out_ack (t_state (tp s));
  e_win : syn = false -> q_win q = u16 (recwin_of v s / 2 ^ rcv_scale (tp s));
  e_seq : syn = true -> l_hole pl = None -> sentfin (ox s) = false -> q_seq q = snd_nxt (tp s);
  e_last : last_ack (tp s2) = rnxt (tp s2) }.
Lemma emit_any v r s pl opts syn fin n d s2 q : emit v r s pl opts syn fin n d = (s2, q) -> EmitAny v r s pl opts syn fin s2 q.
Proof.
  unfold emit. cbv zeta. set (s0 := if fin && _ && _ then _ else s). assert (S0 : frame s s0 /\ rside (tp s0) = rside (tp s) /\ (sentfin (ox s) = false -> s0 = s) /\ maxseg (ox s0) = maxseg (ox s)).
  { unfold s0. destruct (fin && sentfin (ox s) && (snd_nxt (tp s) =? snd_max (tp s))) eqn:E; [|auto using frame_refl]. split; [split; reflexivity|]. split; [reflexivity|]. split; [|reflexivity]. intros K. rewrite K, andb_false_r in E. discriminate. }
  clearbody s0. destruct S0 as (F0 & R0 & N0 & Mx0). assert (Ew : recwin_of v s0 = recwin_of v s) by (unfold recwin_of, MAXWIN_of; unfold rside in R0; injection R0 as -> -> -> _; rewrite Mx0; reflexivity). rewrite Ew.
  set (x1 := match l_hole pl with Some _ => _ | None => _ end). assert (X1 : static x1 = static (ox s0)) by (unfold x1; destruct (l_hole pl); reflexivity). clearbody x1.
  set (x2 := if SEQ_GT (sup x1) _ then x1 else _). assert (X2 : static x2 = static (ox s0)) by (unfold x2; destruct (SEQ_GT _ _); exact X1). clearbody x2.
  set (sa := if negb (force _) || _ then _ else _). assert (SA : frame s0 sa /\ rside (tp sa) = rside (tp s0)).
  { assert (F1 : frame s0 (mkOst (tp s0) x2)) by (split; [reflexivity|exact X2]). unfold sa. destruct (_ || _); (split; [apply (frame_trans _ _ _ F1)|]); [apply advance_frame|exact (advance_rside _ _ _ _ _)|apply persist_frame|exact (persist_rside _ _ _ _)]. }
  clearbody sa. destruct SA as (F2 & R2). set (sb := match r with PFail => _ | _ => sa end). assert (SB : frame s0 sb /\ rside (tp sb) = rside (tp s0)).
  { unfold sb. destruct r; [split; [exact F2|exact R2]..|]. split; [apply (frame_trans _ _ _ F2), back_frame|rewrite back_rside; exact R2]. }
  clearbody sb. destruct SB as (F3 & R3). intros E. injection E as <- <-. pose proof (frame_trans _ _ _ F0 F3) as F4. unfold rside in R0, R3. injection R0 as R01 R02 R03 R04. injection R3 as R31 R32 R33 R34.
  pose proof (fr t_state F0) as St. cbn in St.
  constructor; cbn [q_ack q_syn q_fin q_rst q_fack q_win q_seq]; try reflexivity; try congruence.
  - apply (frame_trans _ _ _ F4), announce_frame.
  - unfold announced, announce. cbv zeta. rewrite <- R01, <- R02, <- R31, <- R32. destruct (SEQ_GT _ _); reflexivity.
  - intros ->. rewrite R03. reflexivity.
  - intros -> -> K. rewrite (N0 K). rewrite orb_true_r. reflexivity.
Qed.
(* ---- a pass ---- *)
Record PassAny (v : oenv) (s s2 : ost) (oq : option (oseg * pres)) (rw : Z) : Prop := {
  k_frame : frame s s2; k_ann : announced rw s s2;
  k_q : match oq with
        | None => rw = w_space v
        | Some (q, _) => rw = recwin_of v s /\ q_ack q = rnxt (tp s) /\ q_rst q = out_rst (t_state (tp s)) /\ q_fack q = out_ack (t_state (tp s)) /\
            (q_syn q = false -> q_win q = u16 (recwin_of v s / 2 ^ rcv_scale (tp s))) /\
            (q_fin q = true -> out_fin (t_state (tp s)) || needfin (tp s) = true) /\
            (q_syn q = true -> out_syn (t_state (tp s)) || needsyn (tp s) = true) /\
            (q_syn q = true -> noopt (ox s) = false -> sackp (tp s) && frec (tp s) = false -> sentfin (ox s) = false -> q_seq q = iss (tp s))
        end;
  k_last : last_ack (tp s2) = rnxt (tp s2) }.
Lemma send_any v r s s1 pl s2 oq ag : PlanAny s s1 pl -> send v r s1 pl = Ret (s2, oq, ag) -> exists rw, PassAny v s s2 oq rw.
Proof.
  intros P. unfold send. cbv zeta. destruct P as [F1 R1 Pf Ps Ph Sf]. set (opts := if noopt _ then _ else _). clearbody opts. set (sx := if negb (noopt (ox s1)) && l_syn pl then _ else s1).
  assert (SX : frame s1 sx /\ rside (tp sx) = rside (tp s1) /\ ox sx = ox s1 /\ (l_syn pl = true -> noopt (ox s1) = false -> snd_nxt (tp sx) = iss (tp s1))).
  { unfold sx. destruct (noopt (ox s1)); cbn [negb andb]; [split; [apply frame_refl|split; [reflexivity|split; [reflexivity|discriminate]]]|]. destruct (l_syn pl); [split; [split; reflexivity|split; [reflexivity|split; [reflexivity|reflexivity]]]|split; [apply frame_refl|split; [reflexivity|split; [reflexivity|discriminate]]]]. }
  clearbody sx. destruct SX as (F2 & R2 & O2 & N2). set (cut := maxopd _ <? _). clearbody cut. set (n := if cut then _ else _). clearbody n. pose proof (frame_trans _ _ _ F1 F2) as F3. unfold rside in R1, R2. injection R1 as R11 R12 R13 R14. injection R2 as R21 R22 R23 R24. pose proof (fr t_state F3) as St. cbn in St.
  assert (Rw : recwin_of v sx = recwin_of v s) by (unfold recwin_of, MAXWIN_of; rewrite R21, R22, R23, R11, R12, R13, O2; replace (maxseg (ox s1)) with (maxseg (ox s)) by (symmetry; exact (fx maxseg F1)); reflexivity).
  assert (Em : r <> PNoMem -> obind (payload sx (l_off pl) n) (fun d : list Z => let '(s0, q) := emit v r sx pl opts (l_syn pl) (l_fin pl && negb cut) n d in Ret (s0, Some (q, r), cut || is_hole (l_hole pl))) = Ret (s2, oq, ag) -> exists rw, PassAny v s s2 oq rw).
  { intros _. destruct (payload sx (l_off pl) n) as [d| |]; cbn [obind]; try discriminate. destruct (emit v r sx pl opts (l_syn pl) (l_fin pl && negb cut) n d) as [s' q] eqn:Ee. intros E. injection E as <- <- _. apply emit_any in Ee. destruct Ee as [G1 G2 G3 G4 G5 G6 G7 G8 G9 G10]. exists (recwin_of v s). unfold announced in G2. rewrite Rw in *. constructor.
    - apply (frame_trans _ _ _ F3 G1).
    - unfold announced. rewrite <- R11, <- R12, <- R21, <- R22. exact G2.
    - split; [reflexivity|]. split; [congruence|]. split; [congruence|]. split; [congruence|]. split; [intros K; rewrite G8 by congruence; rewrite R23, R13; reflexivity|]. split; [intros K; apply Pf; rewrite G5 in K; apply andb_prop in K; apply K|]. split; [intros K; apply Ps; congruence|].
      intros K1 K2 K3 K4. rewrite G9; [|congruence|apply Ph; exact K3|rewrite O2; congruence]. rewrite N2; [|congruence|pose proof (fx noopt F1) as X; cbn in X; rewrite X; exact K2]. exact (fr iss F1).
    - exact G10. }
  destruct r; [|apply Em; discriminate|apply Em; discriminate]. intros E. injection E as <- <- _. exists (w_space v). constructor.
  - apply (frame_trans _ _ _ F3), announce_frame.
  - unfold announced, announce. cbv zeta. rewrite <- R11, <- R12, <- R21, <- R22. destruct (SEQ_GT _ _); reflexivity.
  - reflexivity.
  - unfold announce. cbv zeta. destruct (SEQ_GT _ _); reflexivity.
Qed.
Lemma see_any s s1 pl : PlanAny s s1 pl -> PlanAny s (see_data s1) pl.
Proof. intros []. unfold see_data. destruct (negb _ && negb _); constructor; try assumption; apply (frame_trans _ _ _ z_frame0); split; reflexivity. Qed.
Lemma no_send_any s s' : no_send s = Ret s' -> frame s s' /\ rside (tp s') = rside (tp s).
Proof.
  unfold no_send. cbv zeta. destruct (sackp (tp s) && _ && _ && _); [intros E; injection E as <-; split; [split; reflexivity|reflexivity]|]. destruct (_ && _ && _); [|intros E; injection E as <-; split; [apply frame_refl|reflexivity]].
  intros E. apply setpersist_frame in E. destruct E as [E1 E2]. split; [apply (frame_trans s (mkOst (tp s) (set_rxtshift 0 (ox s)))); [split; reflexivity|exact E1]|exact E2].
Qed.
Lemma pass_any v r idle s d : pass v r idle s = Ret d -> match d with Quiet s2 => frame s s2 /\ rside (tp s2) = rside (tp s) | Made s2 oq ag => exists rw, PassAny v s s2 oq rw end.
Proof.
  unfold pass. destruct (make_plan s) as [[s1 pl]| |] eqn:E; cbn [obind]; try discriminate. apply plan_any in E.
  assert (S : forall s1', PlanAny s s1' pl -> obind (send v r s1' pl) (fun '(s, q, a) => Ret (Made s q a)) = Ret d -> match d with Quiet s2 => frame s s2 /\ rside (tp s2) = rside (tp s) | Made s2 oq ag => exists rw, PassAny v s s2 oq rw end).
  { intros s1' P. destruct (send v r s1' pl) as [[[s2 oq] ag]| |] eqn:Es; cbn [obind]; try discriminate. intros K. injection K as <-. apply (send_any _ _ _ _ _ _ _ _ P Es). }
  destruct (data_now idle s1 pl); [apply S; exact E|]. apply see_any in E. destruct (_ || _); [apply S; exact E|]. destruct (no_send (see_data s1)) as [s2| |] eqn:En; cbn [obind]; try discriminate. intros K. injection K as <-. apply no_send_any in En. destruct En as [En1 En2]. destruct E. split; [apply (frame_trans _ _ _ z_frame0 En1)|congruence].
Qed.
(* ---- what the segments of a call say of the state it starts from ---- *)
Definition flags_ok (s : ost) (q : oseg) : Prop :=
  q_ack q = rnxt (tp s) /\ q_rst q = out_rst (t_state (tp s)) /\ q_fack q = out_ack (t_state (tp s)) /\
  (q_fin q = true -> out_fin (t_state (tp s)) || needfin (tp s) = true) /\ (q_syn q = true -> out_syn (t_state (tp s)) || needsyn (tp s) = true).
Lemma flags_frame s s' q : frame s s' -> flags_ok s' q -> flags_ok s q.
Proof. intros F. unfold flags_ok. pose proof (fr t_state F) as E1. pose proof (fr needfin F) as E2. pose proof (fr needsyn F) as E3. pose proof (fr rnxt F) as E4. cbn in E1, E2, E3, E4. rewrite E1, E2, E3, E4. auto. Qed.
Lemma passes_any v idle : forall fuel i s s' l, passes fuel i v idle s = Ret (s', l) -> frame s s' /\ Forall (fun q => flags_ok s (fst q)) l.
Proof.
  induction fuel as [|fuel IH]; intros i s s' l; cbn [passes]; [discriminate|]. destruct (pass v (w_res v i) idle s) as [d| |] eqn:E; cbn [obind]; try discriminate. apply pass_any in E. destruct d as [s2|s2 oq ag]; [intros K; injection K as <- <-; split; [apply E|constructor]|].
  destruct E as (rw & [K1 K2 K3 K4]). set (hd := match oq with Some q => [q] | None => [] end). assert (Hd : Forall (fun q => flags_ok s (fst q)) hd) by (unfold hd; destruct oq as [[q r']|]; [|constructor]; constructor; [|constructor]; unfold flags_ok; cbn [fst]; tauto).
  destruct ag; [|intros K; injection K as <- <-; split; [exact K1|exact Hd]]. destruct (passes fuel (S i) v idle s2) as [[s3 l3]| |] eqn:E3; cbn [obind]; try discriminate. intros K. injection K as <- <-. apply IH in E3. destruct E3 as [E3 E4]. split; [apply (frame_trans _ _ _ K1 E3)|]. apply Forall_app. split; [exact Hd|]. eapply Forall_impl; [|exact E4]. intros q. apply (flags_frame _ _ _ K1).
Qed.
Lemma lastidle_frame s c : frame s (mkOst (tp s) (set_lastidle c (ox s))).
Proof. split; reflexivity. Qed.
Lemma output_any fuel v s s' l : output fuel v s = Ret (s', l) -> frame s s' /\ Forall (fun q => flags_ok s (fst q)) l.
Proof.
  unfold output. cbv zeta. intros E. apply passes_any in E. destruct E as [E1 E2]. split; [apply (frame_trans _ _ _ (lastidle_frame s _) E1)|]. eapply Forall_impl; [|exact E2]. intros q. apply flags_frame, lastidle_frame.
Qed.

(* ---- the window it offers ---- *)
Lemma dist_add a n : 0 <= n < 2147483648 -> dist (u32 (a + n)) a = n.
Proof. intros H. unfold dist. rewrite s32_u32. unfold s32, u32. rewrite Zminus_mod_idemp_l. replace (a + n - a) with n by lia. cbv zeta. rewrite Z.mod_small by lia. destruct (Z.ltb_spec n 2147483648); lia. Qed.
Lemma gt_dist x y : SEQ_GT x y = (0 <? dist x y).
Proof. unfold SEQ_GT, dist. rewrite Z.gtb_ltb, s32_u32. reflexivity. Qed.
Lemma s32_range x : -2147483648 <= s32 x < 2147483648.
Proof. unfold s32. cbv zeta. pose proof (Z.mod_pos_bound x 4294967296 ltac:(lia)). destruct (Z.ltb_spec (x mod 4294967296) 2147483648); lia. Qed.
Lemma s32_mod x : exists k, x = s32 x + 4294967296 * k.
Proof. unfold s32. cbv zeta. pose proof (Z.div_mod x 4294967296 ltac:(lia)) as D. destruct (Z.ltb_spec (x mod 4294967296) 2147483648); [exists (x / 4294967296)|exists (x / 4294967296 + 1)]; lia. Qed.
Lemma s32_uniq x y k : x = y + 4294967296 * k -> -2147483648 <= y < 2147483648 -> s32 x = y.
Proof. intros -> H. pose proof (s32_range (y + 4294967296 * k)) as R. destruct (s32_mod (y + 4294967296 * k)) as (j & E). lia. Qed.
(* comparison of edges as comparison of distances, when one is not far left of the reference *)
Lemma u32_k x : exists k, u32 x = x + 4294967296 * k.
Proof. unfold u32. pose proof (Z.div_mod x 4294967296 ltac:(lia)). exists (- (x / 4294967296)). lia. Qed.
Lemma announced_dist rw s s2 : announced rw s s2 -> frame s s2 -> 0 <= rw < 2147483648 -> -1073741824 <= dist (rcv_adv (tp s)) (rnxt (tp s)) -> rw - dist (rcv_adv (tp s)) (rnxt (tp s)) < 2147483648 ->
  dist (rcv_adv (tp s2)) (rnxt (tp s2)) = Z.max rw (dist (rcv_adv (tp s)) (rnxt (tp s))).
Proof.
  intros E F Hr Hd Hd2. unfold announced in E. pose proof (fr rnxt F) as En. cbn in En. rewrite En, E. rewrite gt_dist. set (a := rcv_adv (tp s)) in *. set (x := rnxt (tp s)) in *.
  assert (D : dist (u32 (x + rw)) a = rw - dist a x).
  { unfold dist at 1. rewrite s32_u32. unfold dist in *. rewrite s32_u32 in *. destruct (s32_mod (a - x)) as (k & K). destruct (u32_k (x + rw)) as (j & J). rewrite J. pose proof (s32_range (a - x)). apply (s32_uniq _ _ (j - k)); [lia|]. lia. }
  rewrite D. destruct (Z.ltb_spec 0 (rw - dist a x)); [rewrite dist_add by lia; lia|lia].
Qed.
