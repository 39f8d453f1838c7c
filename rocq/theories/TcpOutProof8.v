From Verif Require Import Base TcpSeqModel TcpSeqProps TcpOptModel TcpOptProof TcpReassModel TcpInModel TcpInSpec SockModel SackModel TcpOutModel TcpOutSpec TcpOutProof TcpOutProof2 TcpOutProof3 TcpOutProof4 TcpOutProof7.
Ltac Zify.zify_post_hook ::= idtac.

Definition top (s : ost) : Z := 65535 * 2 ^ rcv_scale (tp s).
Lemma dist_u32 x y : 0 < dist x y -> u32 (x - y) = dist x y.
Proof. unfold dist, s32, u32. cbv zeta. rewrite Zmod_mod. pose proof (Z.mod_pos_bound (x - y) 4294967296 ltac:(lia)). destruct (Z.ltb_spec ((x - y) mod 4294967296) 2147483648); lia. Qed.
Lemma scale_pos k : 0 <= k <= 14 -> 1 <= 2 ^ k <= 16384.
Proof. intros H. assert (2 ^ 0 <= 2 ^ k) by (apply Z.pow_le_mono_r; lia). assert (2 ^ k <= 2 ^ 14) by (apply Z.pow_le_mono_r; lia). change (2 ^ 0) with 1 in *. change (2 ^ 14) with 16384 in *. lia. Qed.
Lemma recwin_ok v s : 0 <= w_space v -> 0 <= rcv_scale (tp s) <= 14 -> 0 <= recwin_of v s <= top s /\ recwin_of v s <= Z.max (w_space v) (edge s) /\ Z.min (edge s) (top s) <= recwin_of v s /\ top s <= 1073725440.
Proof.
  intros Hs Hk. unfold recwin_of. cbv zeta. set (r0 := if (w_space v <? w_hiwat v / 4) && (w_space v <? maxseg (ox s)) then 0 else w_space v). assert (R0 : 0 <= r0 <= w_space v) by (unfold r0; destruct (_ && _); lia). clearbody r0.
  rewrite gt_dist. fold (edge s). change (MAXWIN_of (tp s)) with (top s). pose proof (scale_pos _ Hk) as P. assert (T : 0 <= top s <= 1073725440) by (unfold top; lia).
  destruct (Z.ltb_spec 0 (edge s)) as [L|L]; cbn [andb].
  - rewrite (dist_u32 _ _ L). fold (edge s). destruct (Z.ltb_spec r0 (edge s)); (match goal with |- context [if top s <? ?x then _ else _] => destruct (Z.ltb_spec (top s) x) end); lia.
  - destruct (Z.ltb_spec (top s) r0); lia.
Qed.
(* the window field: q counts in units of 2^scale *)
Definition offers (v : oenv) (s s' : ost) (q : oseg) : Prop :=
  q_syn q = false -> let wnd := q_win q * 2 ^ rcv_scale (tp s) in
  0 <= q_win q <= 65535 /\ wnd <= Z.max (w_space v) (edge s) /\ wnd <= edge s' /\ Z.min (edge s) (top s) - 2 ^ rcv_scale (tp s) < wnd.
Lemma pass_offer v s s2 oq rw : PassAny v s s2 oq rw -> 0 <= w_space v < 1073741824 -> 0 <= rcv_scale (tp s) <= 14 -> -1073741824 <= edge s ->
  edge s <= edge s2 <= Z.max (w_space v) (edge s) /\ match oq with None => True | Some (q, _) => offers v s s2 q end.
Proof.
  intros [K1 K2 K3 K4] Hs Hk He. destruct (recwin_ok v s ltac:(lia) Hk) as (R1 & R2 & R3 & R4).
  assert (Rw : 0 <= rw < 1073741824 /\ rw <= Z.max (w_space v) (edge s)) by (destruct oq as [[q r']|]; [destruct K3 as (-> & _)|subst rw]; lia).
  assert (E : edge s2 = Z.max rw (edge s)) by (apply announced_dist; fold (edge s); try assumption; lia). split; [lia|]. destruct oq as [[q r']|]; [|exact Logic.I]. destruct K3 as (-> & _ & _ & _ & K3 & _). intros Ns. specialize (K3 Ns). cbv zeta.
  pose proof (scale_pos _ Hk) as P. set (m := 2 ^ rcv_scale (tp s)) in *. assert (T : top s = 65535 * m) by reflexivity. set (x := recwin_of v s) in *. pose proof (Z.div_mod x m ltac:(lia)) as D. pose proof (Z.mod_pos_bound x m ltac:(lia)) as B.
  assert (Q : 0 <= x / m <= 65535) by (split; [apply Z.div_pos; lia|apply Z.div_le_upper_bound; lia]). rewrite K3. unfold u16. rewrite Z.mod_small by lia. nia.
Qed.
Lemma edge_frame s s' : frame s s' -> rcv_scale (tp s') = rcv_scale (tp s).
Proof. intros F. exact (fr rcv_scale F). Qed.
Lemma passes_offer v idle : 0 <= w_space v < 1073741824 -> forall fuel i s s' l, passes fuel i v idle s = Ret (s', l) -> 0 <= rcv_scale (tp s) <= 14 -> -1073741824 <= edge s ->
  edge s <= edge s' <= Z.max (w_space v) (edge s) /\ Forall (fun q => offers v s s' (fst q)) l.
Proof.
  intros Hs. induction fuel as [|fuel IH]; intros i s s' l; cbn [passes]; [discriminate|]. destruct (pass v (w_res v i) idle s) as [d| |] eqn:E; cbn [obind]; try discriminate. apply pass_any in E. intros K Hk He. destruct d as [s2|s2 oq ag].
  - injection K as <- <-. destruct E as [_ E]. unfold rside in E. injection E as E1 E2 _ _. unfold edge at 2 3. rewrite E1, E2. fold (edge s). split; [lia|constructor].
  - destruct E as (rw & P). destruct (pass_offer _ _ _ _ _ P Hs Hk He) as [E1 E2]. pose proof (edge_frame _ _ (k_frame _ _ _ _ _ P)) as Ek.
    assert (Up : forall s3, edge s2 <= edge s3 -> Forall (fun q => offers v s s3 (fst q)) match oq with Some q => [q] | None => [] end).
    { intros s3 L. destruct oq as [[q r']|]; constructor; [|constructor]. cbn [fst]. intros Ns. specialize (E2 Ns). cbv zeta in *. lia. }
    destruct ag; [|injection K as <- <-; split; [exact E1|apply Up; lia]].
    destruct (passes fuel (S i) v idle s2) as [[s3 l3]| |] eqn:E3; cbn [obind] in K; try discriminate. injection K as <- <-. destruct (IH _ _ _ _ E3 ltac:(rewrite Ek; exact Hk) ltac:(lia)) as [J1 J2]. split; [lia|]. apply Forall_app. split; [apply Up; lia|].
    eapply Forall_impl; [|exact J2]. intros q J Ns. specialize (J Ns). cbv zeta in *. assert (top s2 = top s) by (unfold top; rewrite Ek; reflexivity). rewrite Ek in J. lia.
Qed.
Lemma output_offer fuel v s s' l : output fuel v s = Ret (s', l) -> 0 <= w_space v < 1073741824 -> 0 <= rcv_scale (tp s) <= 14 -> -1073741824 <= edge s ->
  edge s <= edge s' <= Z.max (w_space v) (edge s) /\ Forall (fun q => offers v s s' (fst q)) l.
Proof. unfold output. cbv zeta. intros E Hs Hk He. exact (passes_offer v _ Hs fuel 0%nat (mkOst (tp s) _) s' l E Hk He). Qed.

(* ---- timers ---- *)
(* a timer is running; the persist timer does not count if this call will stop it *)
Definition armed (s : ost) : Prop := rexmt (tp s) = true \/ (persist (tp s) = true /\ (force (ox s) = true -> swin s = 0)).
Lemma armed_copy s s' : frame s s' -> rexmt (tp s') = rexmt (tp s) -> persist (tp s') = persist (tp s) -> armed s -> armed s'.
Proof. intros F E1 E2. unfold armed. rewrite E1, E2, (frame_force _ _ F), (frame_swin _ _ F). auto. Qed.
Lemma plan_armed s s1 pl : make_plan s = Ret (s1, pl) -> armed s -> armed s1.
Proof.
  intros E Ha. pose proof (z_frame _ _ _ (plan_any _ _ _ E)) as F. revert E. unfold make_plan. cbv zeta. pose proof (skip_frame s) as F0.
  assert (R0 : rexmt (skip_sacked (tp s) (ox s)) = rexmt (tp s) /\ persist (skip_sacked (tp s) (ox s)) = persist (tp s)) by (unfold skip_sacked; destruct (_ && _); split; reflexivity).
  set (t := skip_sacked (tp s) (ox s)) in *. destruct (sack_part t (ox s) _) as [[[[[bd off] len] p] sb]| |]; cbn [obind]; try discriminate.
  destruct (force_ok (mkOst t (set_board bd (ox s))) off (Z.min (snd_wnd t) (cwnd (ox s))) (out_fin (t_state t) || needfin t)) as (s3 & sw & fin1 & Ef & Hf). rewrite Ef.
  assert (Ew : Z.min (snd_wnd t) (cwnd (ox s)) = swin s) by (symmetry; rewrite <- (frame_swin _ _ F0); reflexivity). rewrite Ew in Hf. change (force (ox (mkOst t (set_board bd (ox s))))) with (force (ox s)) in Hf.
  assert (A3 : (rexmt (tp s3) = true \/ (persist (tp s3) = true /\ (force (ox s) = true -> swin s = 0))) /\ (sw = 0 -> force (ox s) = true -> swin s = 0)).
  { destruct R0 as [R1 R2]. destruct Hf as [(K & -> & -> & _)|[(_ & Z0 & -> & -> & _)|(K & Z0 & -> & -> & _)]]; cbn [tp ox].
    - rewrite R1, R2. split; [exact Ha|congruence].
    - rewrite R1, R2. split; [exact Ha|congruence].
    - split; [|intros K2; congruence]. left. change (rexmt t = true). rewrite R1. destruct Ha as [Ha|[_ Ha]]; [exact Ha|]. destruct (Z0 (Ha K)). }
  clear Ef Hf. destruct A3 as [A3 A4]. set (len2 := if _ && noopt _ then _ else _). clearbody len2.
  intros E. match type of E with obind ?m _ = _ => destruct m as [[s4 len4]| |] eqn:Em end; cbn [obind] in E; try discriminate.
  assert (s1 = s4) as -> by (injection E as <- _; reflexivity). clear E. unfold armed. rewrite (frame_force _ _ F), (frame_swin _ _ F).
  destruct (len2 <? 0); [|injection Em as <- _; exact A3]. destruct (Z.eqb_spec sw 0) as [Z0|_]; [|injection Em as <- _; exact A3]. destruct (persist (tp s3)) eqn:Ep.
  - injection Em as <- _. right. split; [exact Ep|]. apply A4, Z0.
  - rewrite setpersist_ok in Em by reflexivity. cbn [obind] in Em. injection Em as <- _. right. split; [reflexivity|apply A4, Z0].
Qed.
Lemma advance_armed n syn fin p s : armed s -> armed (advance n syn fin p s).
Proof.
  intros Ha. pose proof (advance_frame n syn fin p s) as F. unfold armed. rewrite (frame_force _ _ F), (frame_swin _ _ F). unfold advance. cbv zeta. set (t1 := if is_hole p then _ else _).
  assert (T : rexmt t1 = rexmt (tp s) /\ persist t1 = persist (tp s)) by (unfold t1; destruct (is_hole p); [split; reflexivity|]; destruct (SEQ_GT _ _); split; reflexivity). clearbody t1. destruct T as [T1 T2].
  match goal with |- context [if ?c then mkOst _ _ else _] => destruct c end; [left; reflexivity|]. cbn [tp]. rewrite T1, T2. exact Ha.
Qed.
Lemma persist_timers n syn fin s : rexmt (tp (advance_persist n syn fin s)) = rexmt (tp s) /\ persist (tp (advance_persist n syn fin s)) = persist (tp s).
Proof. unfold advance_persist. cbv zeta. destruct (SEQ_GT _ _), fin; split; reflexivity. Qed.
Lemma back_timers n syn p s : rexmt (tp (back_out n syn p s)) = rexmt (tp s) /\ persist (tp (back_out n syn p s)) = persist (tp s).
Proof. unfold back_out. destruct (_ && _); [|split; reflexivity]. destruct p; split; reflexivity. Qed.
Lemma announce_armed rw s : armed s -> armed (announce rw s).
Proof. destruct (announce_timers rw s) as (E1 & E2 & _). apply (armed_copy _ _ (announce_frame rw s) E1 E2). Qed.
Lemma persist_armed n syn fin s : armed s -> armed (advance_persist n syn fin s).
Proof. destruct (persist_timers n syn fin s) as (E1 & E2). apply (armed_copy _ _ (persist_frame n syn fin s) E1 E2). Qed.
Lemma back_armed n syn p s : armed s -> armed (back_out n syn p s).
Proof. destruct (back_timers n syn p s) as (E1 & E2). apply (armed_copy _ _ (back_frame n syn p s) E1 E2). Qed.
Lemma see_armed s : armed s -> armed (see_data s).
Proof. unfold see_data. destruct (_ && _); [|auto]. apply armed_copy; try reflexivity. split; reflexivity. Qed.
Lemma no_send_armed s s' : no_send s = Ret s' -> armed s -> armed s'.
Proof.
  intros E Ha. pose proof (no_send_any _ _ E) as [F _]. revert E. unfold no_send. cbv zeta. unfold armed. rewrite (frame_force _ _ F), (frame_swin _ _ F). destruct (sackp (tp s) && _ && _ && _); [intros E; injection E as <-; left; reflexivity|]. destruct (negb (snd_cc (tp s) =? 0) && negb (rexmt (tp s)) && negb (persist (tp s))) eqn:C; [|intros E; injection E as <-; exact Ha].
  apply andb_prop in C. destruct C as [C C3]. apply andb_prop in C. destruct C as [_ C2]. unfold armed in Ha. destruct (rexmt (tp s)); [discriminate|]. destruct (persist (tp s)); [discriminate|]. destruct Ha as [|[]]; discriminate.
Qed.
Lemma emit_armed v r s pl opts syn fin n d : armed s -> armed (fst (emit v r s pl opts syn fin n d)).
Proof.
  intros Ha. unfold emit. cbv zeta. cbn [fst]. apply announce_armed. set (s0 := if fin && _ && _ then _ else s). assert (A0 : armed s0) by (unfold s0; destruct (_ && _ && _); [|exact Ha]; apply (armed_copy s); try reflexivity; try exact Ha; split; reflexivity). clearbody s0.
  set (x1 := match l_hole pl with Some _ => _ | None => _ end). assert (X1 : static x1 = static (ox s0)) by (unfold x1; destruct (l_hole pl); reflexivity). clearbody x1.
  set (x2 := if SEQ_GT (sup x1) _ then x1 else _). assert (X2 : static x2 = static (ox s0)) by (unfold x2; destruct (SEQ_GT _ _); exact X1). clearbody x2.
  assert (A1 : armed (mkOst (tp s0) x2)) by (apply (armed_copy s0); try reflexivity; [split; [reflexivity|exact X2]|exact A0]).
  set (sa := if negb (force _) || _ then _ else _). assert (SA : armed sa) by (unfold sa; destruct (_ || _); [apply advance_armed|apply persist_armed]; exact A1). clearbody sa. destruct r; try exact SA. apply back_armed, SA.
Qed.
Lemma send_armed v r s pl s2 oq ag : send v r s pl = Ret (s2, oq, ag) -> armed s -> armed s2.
Proof.
  unfold send. cbv zeta. intros E Ha. set (opts := if noopt _ then _ else _) in *. clearbody opts. set (sx := if negb (noopt (ox s)) && l_syn pl then _ else s) in *.
  assert (Ax : armed sx) by (unfold sx; destruct (_ && _); [|exact Ha]; apply (armed_copy s); try reflexivity; try exact Ha; split; reflexivity). clearbody sx. set (cut := maxopd _ <? _) in *. clearbody cut. set (n := if cut then _ else _) in *. clearbody n.
  assert (Em : obind (payload sx (l_off pl) n) (fun d : list Z => let '(s0, q) := emit v r sx pl opts (l_syn pl) (l_fin pl && negb cut) n d in Ret (s0, Some (q, r), cut || is_hole (l_hole pl))) = Ret (s2, oq, ag) -> armed s2).
  { destruct (payload sx (l_off pl) n) as [d| |]; cbn [obind]; try discriminate. pose proof (emit_armed v r sx pl opts (l_syn pl) (l_fin pl && negb cut) n d Ax) as K. destruct (emit v r sx pl opts (l_syn pl) (l_fin pl && negb cut) n d) as [s' q]. intros E2. injection E2 as <- _ _. exact K. }
  destruct r; [injection E as <- _ _; apply announce_armed, Ax|apply Em, E|apply Em, E].
Qed.
Lemma pass_armed v r idle s d : pass v r idle s = Ret d -> armed s -> armed (match d with Quiet s2 => s2 | Made s2 _ _ => s2 end).
Proof.
  unfold pass. destruct (make_plan s) as [[s1 pl]| |] eqn:E; cbn [obind]; try discriminate. intros K Ha. pose proof (plan_armed _ _ _ E Ha) as H1.
  assert (S : forall s1', armed s1' -> obind (send v r s1' pl) (fun '(s, q, a) => Ret (Made s q a)) = Ret d -> armed (match d with Quiet s2 => s2 | Made s2 _ _ => s2 end)).
  { intros s1' P. destruct (send v r s1' pl) as [[[s2 oq] ag]| |] eqn:Es; cbn [obind]; try discriminate. intros J. injection J as <-. apply (send_armed _ _ _ _ _ _ _ Es P). }
  destruct (data_now idle s1 pl); [apply (S s1); assumption|]. apply see_armed in H1. destruct (_ || _); [apply (S (see_data s1)); assumption|]. destruct (no_send (see_data s1)) as [s2| |] eqn:En; cbn [obind] in K; try discriminate. injection K as <-. apply (no_send_armed _ _ En H1).
Qed.
Lemma passes_armed v idle : forall fuel i s s' l, passes fuel i v idle s = Ret (s', l) -> armed s -> armed s'.
Proof.
  induction fuel as [|fuel IH]; intros i s s' l; cbn [passes]; [discriminate|]. destruct (pass v (w_res v i) idle s) as [d| |] eqn:E; cbn [obind]; try discriminate. intros K Ha. pose proof (pass_armed _ _ _ _ _ E Ha) as A2. destruct d as [s2|s2 oq ag]; [injection K as <- _; exact A2|].
  destruct ag; [|injection K as <- _; exact A2]. destruct (passes fuel (S i) v idle s2) as [[s3 l3]| |] eqn:E3; cbn [obind] in K; try discriminate. injection K as <- _. apply (IH _ _ _ _ E3 A2).
Qed.
(* nothing sent although there are bytes in the buffer *)
Lemma quiet_armed s s' : no_send s = Ret s' -> snd_cc (tp s) <> 0 -> rexmt (tp s') = true \/ persist (tp s') = true.
Proof.
  unfold no_send. cbv zeta. intros E Hc. destruct (sackp (tp s) && _ && _ && _); [injection E as <-; left; reflexivity|]. destruct (Z.eqb_spec (snd_cc (tp s)) 0); [congruence|]. cbn [negb andb] in E.
  destruct (rexmt (tp s)) eqn:E1; cbn [negb andb] in E; [injection E as <-; left; exact E1|]. destruct (persist (tp s)) eqn:E2; cbn [negb andb] in E; [injection E as <-; right; exact E2|]. rewrite setpersist_ok in E by exact E1. injection E as <-. right. reflexivity.
Qed.
Lemma send_some v r s pl s2 oq ag : send v r s pl = Ret (s2, oq, ag) -> r <> PNoMem -> oq <> None.
Proof.
  unfold send. cbv zeta. set (opts := if noopt _ then _ else _). set (sx := if negb (noopt (ox s)) && l_syn pl then _ else s). set (cut := maxopd _ <? _). set (n := if cut then _ else _). intros E Hr. clearbody opts sx cut n.
  assert (Em : obind (payload sx (l_off pl) n) (fun d : list Z => let '(s0, q) := emit v r sx pl opts (l_syn pl) (l_fin pl && negb cut) n d in Ret (s0, Some (q, r), cut || is_hole (l_hole pl))) = Ret (s2, oq, ag) -> oq <> None).
  { destruct (payload sx (l_off pl) n) as [d| |]; cbn [obind]; try discriminate. destruct (emit v r sx pl opts (l_syn pl) (l_fin pl && negb cut) n d) as [s' q]. intros E2. injection E2 as _ <- _. discriminate. }
  destruct r; [congruence|apply Em, E|apply Em, E].
Qed.
Lemma passes_quiet v idle : (forall i, w_res v i <> PNoMem) -> forall fuel i s s', passes fuel i v idle s = Ret (s', []) -> snd_cc (tp s) <> 0 -> rexmt (tp s') = true \/ persist (tp s') = true.
Proof.
  intros Hr fuel i s s'. destruct fuel as [|fuel]; cbn [passes]; [discriminate|]. destruct (pass v (w_res v i) idle s) as [d| |] eqn:E; cbn [obind]; try discriminate. intros K Hc.
  unfold pass in E. destruct (make_plan s) as [[s1 pl]| |] eqn:Ep; cbn [obind] in E; try discriminate. pose proof (see_any _ _ _ (plan_any _ _ _ Ep)) as P.
  assert (S : forall s1', obind (send v (w_res v i) s1' pl) (fun '(s, q, a) => Ret (Made s q a)) = Ret d -> False).
  { intros s1'. destruct (send v (w_res v i) s1' pl) as [[[s2 oq] ag]| |] eqn:Es; cbn [obind]; try discriminate. intros J. injection J as <-. pose proof (send_some _ _ _ _ _ _ _ Es (Hr i)) as Q. destruct oq as [q|]; [|congruence]. destruct ag; [destruct (passes fuel (Datatypes.S i) v idle s2) as [[? ?]| |]; cbn [obind] in K; discriminate|discriminate]. }
  destruct (data_now idle s1 pl); [destruct (S _ E)|]. destruct (_ || _); [destruct (S _ E)|]. destruct (no_send (see_data s1)) as [s3| |] eqn:En; cbn [obind] in E; try discriminate. injection E as <-. injection K as <-. apply (quiet_armed _ _ En). rewrite (frame_cc _ _ (z_frame _ _ _ P)). exact Hc.
Qed.
