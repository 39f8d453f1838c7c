From Verif Require Import Base TcpSeqModel TcpSeqProps TcpOptModel TcpOptProof TcpReassModel TcpInModel TcpInSpec SockModel SockSpec SockProof SackModel SackSpec SackProof SackProof2 SackProof3 TcpOutModel TcpOutSpec TcpOutProof TcpOutProof2 TcpOutProof3 TcpOutProof4 TcpOutProof5 TcpOutProof6 TcpOutProof7 TcpOutProof8.
Ltac Zify.zify_post_hook ::= idtac.

(* ---- a segment with data or FIN leaves a timer running ---- *)
Lemma advance_runs b w cl U N M l f s n (fin : bool) p : Inv b w cl U N M l f s -> 0 <= n -> (p = None -> n + (if fin then 1 else 0) + N <= zlen w + 1) ->
  match p with None => 0 < n \/ fin = true | Some _ => U < M end -> rexmt (tp (advance n false fin p s)) = true.
Proof.
  intros H Hn He Hp. pose proof (inv_range _ _ _ _ _ _ _ _ _ H) as R. unfold advance. cbv zeta. rewrite Z.add_0_r. rewrite (i_n _ _ _ _ _ _ _ _ _ H), (q_add (b + N)), (q_add (b + N + (if fin then 1 else 0))).
  set (t1 := if is_hole p then _ else _). assert (T : rexmt t1 = rexmt (tp s) /\ snd_una t1 = snd_una (tp s)) by (unfold t1; destruct (is_hole p); [split; reflexivity|]; destruct (SEQ_GT _ _); split; reflexivity).
  assert (C : (is_hole p && negb (snd_nxt t1 =? snd_max t1)) || negb (snd_nxt t1 =? snd_una t1) = true).
  { destruct T as [_ ->]. rewrite (i_u _ _ _ _ _ _ _ _ _ H). unfold t1. destruct p as [g|]; cbn [is_hole andb].
    - change (snd_nxt (set_snd_nxt (wire (b + N + (if fin then 1 else 0))) (tp s))) with (wire (b + N + (if fin then 1 else 0))). change (snd_max (set_snd_nxt (wire (b + N + (if fin then 1 else 0))) (tp s))) with (snd_max (tp s)). rewrite (i_m _ _ _ _ _ _ _ _ _ H).
      destruct (Z.eqb_spec (wire (b + N + (if fin then 1 else 0))) (wire (b + M))) as [E1|E1]; [|reflexivity]. destruct (Z.eqb_spec (wire (b + N + (if fin then 1 else 0))) (wire (b + U))) as [E2|E2]; [|reflexivity]. rewrite E1 in E2. apply wire_inj in E2; lia.
    - assert (En : snd_nxt (if SEQ_GT (wire (b + N + (if fin then 1 else 0) + n)) (snd_max (set_snd_nxt (wire (b + N + (if fin then 1 else 0) + n)) (tp s))) then set_snd_max (wire (b + N + (if fin then 1 else 0) + n)) (set_snd_nxt (wire (b + N + (if fin then 1 else 0) + n)) (tp s)) else set_snd_nxt (wire (b + N + (if fin then 1 else 0) + n)) (tp s)) = wire (b + N + (if fin then 1 else 0) + n)) by (destruct (SEQ_GT _ _); reflexivity).
      rewrite En. destruct (Z.eqb_spec (wire (b + N + (if fin then 1 else 0) + n)) (wire (b + U))) as [E2|E2]; [|reflexivity]. exfalso. specialize (He eq_refl). apply wire_inj in E2; destruct fin; destruct Hp; try discriminate; lia. }
  rewrite C, andb_true_r. destruct T as [T _]. clearbody t1. rewrite T. destruct (rexmt (tp s)) eqn:Er; cbn [negb]; [exact T|reflexivity].
Qed.
Lemma emit_runs b w cl U N M l f v r s pl opts cut fin n : Ready b w cl U N M l f v s pl opts cut fin n -> 0 < n \/ fin = true -> armed (fst (emit v r s pl opts false fin n (part w (U + l_off pl) n))).
Proof.
  intros [H P Hn Hn0 Hsz Hcut Hfin El] Hx. unfold emit. cbv zeta. cbn [fst]. apply announce_armed.
  assert (Fw : fin = true -> cl = true /\ U <= zlen w) by (intros K; apply (p_fin _ _ _ _ _ _ _ _ P); apply Hfin; exact K).
  destruct (pull_fin _ _ _ _ _ _ _ _ _ fin H Fw) as (N0 & H0 & F0 & Ox0 & Pe0 & HN0). cbv zeta in H0, F0, Ox0, Pe0. set (s0 := if fin && _ && _ then _ else s) in *. clearbody s0.
  pose proof (inv_range _ _ _ _ _ _ _ _ _ H) as R. pose proof (inv_range _ _ _ _ _ _ _ _ _ H0) as R0. pose proof (p_hole _ _ _ _ _ _ _ _ P) as Ph. pose proof (i_fin _ _ _ _ _ _ _ _ _ H) as Fi.
  set (x1 := match l_hole pl with Some _ => _ | None => _ end). assert (X1 : static x1 = static (ox s0)) by (unfold x1; destruct (l_hole pl); reflexivity). clearbody x1.
  set (x2 := if SEQ_GT (sup x1) _ then x1 else _). assert (X2 : static x2 = static (ox s0)) by (unfold x2; destruct (SEQ_GT _ _); exact X1). clearbody x2. pose proof X2 as X3. apply (f_equal force) in X3. change (force x2 = force (ox s0)) in X3.
  assert (SA : armed (if negb (force x2) || negb (persist (tp s0)) then advance n false fin (l_hole pl) (mkOst (tp s0) x2) else advance_persist n false fin (mkOst (tp s0) x2))).
  { destruct (negb (force x2) || negb (persist (tp s0))) eqn:C.
    - left. change (advance n false fin (l_hole pl) (mkOst (tp s0) x2)) with (advance n false fin (l_hole pl) (mkOst (tp s0) x2)).
      (* advance looks at the control block, not at x2 *)
      assert (I0 : rexmt (tp (advance n false fin (l_hole pl) (mkOst (tp s0) x2))) = rexmt (tp (advance n false fin (l_hole pl) s0))) by (unfold advance; cbv zeta; cbn [tp ox]; match goal with |- context [if ?c then mkOst _ _ else _] => destruct c end; reflexivity).
      rewrite I0. apply (advance_runs _ _ _ _ _ _ _ _ _ n fin (l_hole pl) H0); [lia| |].
      + intros Ep. rewrite Ep in Ph. destruct Ph as [Ph1 Ph2].
        assert (Nd : 0 < n -> N0 = N /\ N + n <= zlen w). { intros L. destruct (Ph1 ltac:(lia)) as [K1 K2]. split; [|lia]. destruct HN0 as [(-> & _)|(_ & EM & _ & Sf)]; [reflexivity|]. rewrite Sf in Fi. lia. }
        destruct fin; [|destruct (Z.eq_dec n 0); [lia|]; destruct (Nd ltac:(lia)); lia].
        destruct (Hfin eq_refl) as (K1 & K2 & K3). specialize (Ph2 K1). destruct HN0 as [(-> & K6)|(-> & EM & _ & Sf)].
        * destruct (sentfin (ox s)) eqn:Sf; [specialize (K6 eq_refl eq_refl)|]; (destruct (Z.eq_dec n 0); [lia|]; destruct (Nd ltac:(lia)) as (_ & K7); lia).
        * rewrite Sf in Fi. destruct (Z.eq_dec n 0); [lia|]. destruct (Ph1 ltac:(lia)). lia.
      + destruct (l_hole pl) as [g|]; [|exact Hx]. destruct Ph as (h & -> & Od & _ & L2 & Hf). destruct (o_in _ _ _ _ Od) as (pp & qq & El2 & _). assert (Ih : In h l) by (rewrite El2; apply in_or_app; right; left; reflexivity). pose proof (inv_hole _ _ _ _ _ _ _ _ _ h H Ih) as Hh. lia.
    - apply orb_false_iff in C. destruct C as [C1 C2]. apply negb_false_iff in C1, C2. apply persist_armed. right. split; [exact C2|]. intros _. rewrite X3 in C1. rewrite Ox0 in C1. rewrite Pe0 in C2. pose proof (p_fp _ _ _ _ _ _ _ _ P C1 C2) as Z0.
      assert (F1 : frame s (mkOst (tp s0) x2)) by (apply (frame_trans _ _ _ F0); split; [reflexivity|exact X2]). rewrite (frame_swin _ _ F1). exact Z0. }
  cbn [ox tp]. match goal with |- armed (match r with PFail => back_out n false (l_hole pl) ?z | _ => _ end) => set (sa := z) in * end. clearbody sa. destruct r; try exact SA. apply back_armed, SA.
Qed.
Lemma send_shape v r b w cl U N M l f s pl : Inv b w cl U N M l f s -> PlanOK b w cl U N l s pl -> env_ok v s -> r <> PNoMem ->
  exists opts cut fin n, Ready b w cl U N M l f v s pl opts cut fin n /\ (fin = l_fin pl && negb cut) /\ (cut = false -> n = l_len pl) /\
    send v r s pl = (let '(s2, q) := emit v r s pl opts false fin n (part w (U + l_off pl) n) in Ret (s2, Some (q, r), cut || is_hole (l_hole pl))).
Proof.
  intros H P (V1 & V2 & V3) Nr. pose proof (inv_range _ _ _ _ _ _ _ _ _ H) as R. unfold send. cbv zeta. rewrite (p_syn _ _ _ _ _ _ _ _ P). rewrite !andb_false_r.
  set (opts := if noopt (ox s) then [] else addoptions (options_of v s false)).
  assert (Lo : 0 <= zlen opts <= 40) by (unfold opts; destruct (noopt (ox s)); [cbn; lia|]; destruct (addoptions_ok (options_of v s false)) as (_ & K & _); unfold zlen; lia).
  set (cut := maxopd (ox s) <? l_len pl + zlen opts + w_ipopt v). pose proof (p_len _ _ _ _ _ _ _ _ P) as Ll.
  set (n := if cut then u32 (maxopd (ox s) - zlen opts - w_ipopt v) else l_len pl). set (fin := l_fin pl && negb cut).
  assert (Hc : cut = false -> n = l_len pl) by (unfold n; intros ->; reflexivity).
  assert (Hn : 0 <= n <= l_len pl /\ (0 < l_len pl -> 0 < n) /\ n + zlen opts + w_ipopt v <= maxopd (ox s) /\ (cut = true -> n < l_len pl /\ 0 < n) /\ (fin = true -> l_fin pl = true /\ cut = false /\ n = l_len pl)).
  { unfold n, fin, cut. destruct (Z.ltb_spec (maxopd (ox s)) (l_len pl + zlen opts + w_ipopt v)) as [L|L]; [rewrite u32_small by lia; rewrite andb_false_r; repeat split; try lia; discriminate|]. rewrite andb_true_r. repeat split; try lia; try discriminate. assumption. }
  destruct Hn as (Hn & Hn0 & Hsz & Hcut & Hfin). clearbody n.
  assert (Poff : 0 < n -> 0 <= l_off pl /\ U + l_off pl + n <= zlen w).
  { intros L. pose proof (p_hole _ _ _ _ _ _ _ _ P) as Ph. destruct (l_hole pl) as [g|].
    - destruct Ph as (h & _ & Od & -> & L2 & _). destruct (o_in _ _ _ _ Od) as (pp & qq & El & _). assert (Ih : In h l) by (rewrite El; apply in_or_app; right; left; reflexivity). pose proof (inv_hole _ _ _ _ _ _ _ _ _ h H Ih). lia.
    - destruct Ph as [Ph _]. destruct (Ph ltac:(lia)). lia. }
  destruct (payload_ok _ _ _ _ _ _ _ _ _ (l_off pl) n H ltac:(lia) Poff) as [Ep El].
  exists opts, cut, fin, n. split; [constructor; assumption|]. split; [reflexivity|]. split; [exact Hc|]. rewrite Ep. cbn [obind]. destruct r; [congruence|reflexivity|reflexivity].
Qed.
Lemma emit_data v r s pl opts syn fin n d : q_data (snd (emit v r s pl opts syn fin n d)) = d /\ q_fin (snd (emit v r s pl opts syn fin n d)) = fin.
Proof. split; reflexivity. Qed.
Lemma send_runs v r b w cl U N M l f s pl s2 q r' ag : Inv b w cl U N M l f s -> PlanOK b w cl U N l s pl -> env_ok v s -> send v r s pl = Ret (s2, Some (q, r'), ag) -> q_data q <> [] \/ q_fin q = true -> armed s2.
Proof.
  intros H P V E Hq. assert (Nr : r <> PNoMem) by (intros ->; unfold send in E; cbv zeta in E; congruence).
  destruct (send_shape v r _ _ _ _ _ _ _ _ _ _ H P V Nr) as (opts & cut & fin & n & Y & _ & _ & Es). rewrite E in Es. destruct (emit_data v r s pl opts false fin n (part w (U + l_off pl) n)) as [Q1 Q2].
  assert (Hx : 0 < n \/ fin = true -> armed (fst (emit v r s pl opts false fin n (part w (U + l_off pl) n)))) by (apply (emit_runs _ _ _ _ _ _ _ _ _ _ _ _ _ _ _ _ Y)).
  destruct (emit v r s pl opts false fin n (part w (U + l_off pl) n)) as [s' q']. cbn [fst snd] in *. injection Es as -> -> _ _. apply Hx. destruct Hq as [Hq|Hq]; [left|right; congruence]. pose proof (y_n _ _ _ _ _ _ _ _ _ _ _ _ _ _ _ Y) as Hn. pose proof (y_len _ _ _ _ _ _ _ _ _ _ _ _ _ _ _ Y) as Hl. destruct (Z.eq_dec n 0) as [->|]; [|lia]. destruct Hq. rewrite Q1. reflexivity.
Qed.
Lemma pass_runs v r idle b w cl U N M l f s s2 q r' ag : Inv b w cl U N M l f s -> calm s -> env_ok v s -> pass v r idle s = Ret (Made s2 (Some (q, r')) ag) -> q_data q <> [] \/ q_fin q = true -> armed s2.
Proof.
  intros H Hc Hv. destruct (plan_ok _ _ _ _ _ _ _ _ _ H Hc) as (s1 & pl & N1 & E & H1 & F1 & P & _ & Nn). unfold pass. rewrite E. cbn [obind]. intros K Hq.
  assert (S : forall s1', Inv b w cl U N1 M l f s1' -> PlanOK b w cl U N1 l s1' pl -> frame s s1' -> obind (send v r s1' pl) (fun '(s, q, a) => Ret (Made s q a)) = Ret (Made s2 (Some (q, r')) ag) -> armed s2).
  { intros s1' H1' P' F1'. destruct (send v r s1' pl) as [[[sx ox'] ax]| |] eqn:Es; cbn [obind]; try discriminate. intros J. injection J as -> -> ->. apply (send_runs _ _ _ _ _ _ _ _ _ _ _ _ _ _ _ _ H1' P' (env_frame _ _ _ F1' Hv) Es Hq). }
  destruct (data_now idle s1 pl); [apply (S s1 H1 P F1 K)|]. destruct (see_data_ok _ _ _ _ _ _ _ _ _ _ H1 P) as (H2 & P2 & F2). destruct (update_due v (see_data s1) || ctl_now (see_data s1) pl); [apply (S _ H2 P2 (frame_trans _ _ _ F1 F2) K)|].
  destruct (no_send (see_data s1)) as [s3| |]; cbn [obind] in K; discriminate.
Qed.
Lemma passes_runs b w cl U f v idle : forall fuel i N M l s s' qs, Inv b w cl U N M l f s -> calm s -> env_ok v s -> passes fuel i v idle s = Ret (s', qs) ->
  (exists q, In q qs /\ (q_data (fst q) <> [] \/ q_fin (fst q) = true)) -> armed s'.
Proof.
  induction fuel as [|fuel IH]; intros i N M l s s' qs H Hc Hv; cbn [passes]; [discriminate|]. destruct (pass_ok b w cl U N M l f v (w_res v i) idle s H Hc Hv) as (d & Ep & K). rewrite Ep. cbn [obind]. destruct d as [s2|s2 oq ag].
  - intros E. injection E as <- <-. intros (q & [] & _).
  - destruct K as (N2 & M2 & l2 & K1 & K2 & K3 & _ & K5). intros E (q & Hq & Hd).
    assert (R : forall q0, oq = Some q0 -> q_data (fst q0) <> [] \/ q_fin (fst q0) = true -> armed s2) by (intros [q0 r0] -> Hd0; apply (pass_runs _ _ _ _ _ _ _ _ _ _ _ _ _ _ _ _ H Hc Hv Ep Hd0)).
    destruct ag; [|injection E as <- <-; destruct oq as [q0|]; [|destruct Hq]; destruct Hq as [->|[]]; apply (R q eq_refl Hd)].
    destruct (passes fuel (S i) v idle s2) as [[s3 l3]| |] eqn:E3; cbn [obind] in E; try discriminate. injection E as <- <-. apply in_app_or in Hq. destruct Hq as [Hq|Hq].
    + destruct oq as [q0|]; [|destruct Hq]. destruct Hq as [->|[]]. apply (passes_armed _ _ _ _ _ _ _ E3). apply (R q eq_refl Hd).
    + apply (IH _ _ _ _ _ _ _ K1 (K3 eq_refl) (env_frame _ _ _ K2 Hv) E3). exists q. auto.
Qed.

(* ---- everything at once ---- *)
Lemma plan_exact b w cl U N M l f s : Inv b w cl U N M l f s -> sackp (tp s) = false \/ N = M -> sackp (tp s) && frec (tp s) = false -> force (ox s) = false -> zlen w - U <= swin s -> N < zlen w ->
  exists s1 pl, make_plan s = Ret (s1, pl) /\ tp s1 = tp s /\ static (ox s1) = static (ox s) /\ l_len pl = zlen w - N /\ l_off pl = N - U /\ l_hole pl = None.
Proof.
  intros H Hs Hr Hf Hw Hn. pose proof (inv_range _ _ _ _ _ _ _ _ _ H) as R. unfold make_plan. cbv zeta.
  assert (Et : skip_sacked (tp s) (ox s) = tp s). { unfold skip_sacked. destruct (sackp (tp s)); [|reflexivity]. destruct Hs as [|Hs]; [discriminate|]. rewrite (i_n _ _ _ _ _ _ _ _ _ H), (i_m _ _ _ _ _ _ _ _ _ H), q_lt by lia. destruct (Z.ltb_spec (b + N) (b + M)); [lia|reflexivity]. }
  rewrite Et. unfold sack_part. rewrite Hr. cbn [obind]. rewrite (est_nosyn _ _ _ _ (i_set _ _ _ _ _ _ _ _ _ H)). unfold force_part. change (force (ox (mkOst (tp s) (set_board (sync (tp s) (board (ox s))) (ox s))))) with (force (ox s)). rewrite Hf. cbn [tp ox len_part andb negb].
  rewrite (i_n _ _ _ _ _ _ _ _ _ H), (i_u _ _ _ _ _ _ _ _ _ H), s32_sub_wire by (change (2 ^ 31) with 2147483648; lia). change (Z.min (snd_wnd (tp s)) (cwnd (ox s))) with (swin s). replace (b + N - (b + U)) with (N - U) by lia. cbn [Z.eqb].
  replace (Z.min (snd_cc (tp s)) (swin s) - (N - U)) with (zlen w - N) by lia. destruct (Z.ltb_spec (zlen w - N) 0); [lia|]. cbn [obind]. eexists _, _. split; [reflexivity|]. cbn [tp ox l_len l_off l_hole]. repeat split; reflexivity.
Qed.
Lemma emit_exact b w cl U N M l f v s pl opts cut fin n : Ready b w cl U N M l f v s pl opts cut fin n -> l_hole pl = None -> force (ox s) = false -> 0 < n ->
  exists N2, Inv b w cl U N2 (Z.max M N2) l f (fst (emit v PSent s pl opts false fin n (part w (U + l_off pl) n))) /\ N2 = N + n + (if fin then 1 else 0).
Proof.
  intros [H P Hn Hn0 Hsz Hcut Hfin El] Eh Hf Hx. unfold emit. cbv zeta. cbn [fst]. rewrite Eh.
  assert (Fw : fin = true -> cl = true /\ U <= zlen w) by (intros K; apply (p_fin _ _ _ _ _ _ _ _ P); apply Hfin; exact K).
  destruct (pull_fin _ _ _ _ _ _ _ _ _ fin H Fw) as (N0 & H0 & F0 & Ox0 & Pe0 & HN0). cbv zeta in H0, F0, Ox0, Pe0. set (s0 := if fin && _ && _ then _ else s) in *. clearbody s0.
  pose proof (inv_range _ _ _ _ _ _ _ _ _ H) as R. pose proof (p_hole _ _ _ _ _ _ _ _ P) as Ph. rewrite Eh in Ph. destruct Ph as [Ph1 Ph2]. pose proof (i_fin _ _ _ _ _ _ _ _ _ H) as Fi. destruct (Ph1 ltac:(lia)) as [Q1 Q2].
  assert (N0 = N) as -> by (destruct HN0 as [(-> & _)|(_ & EM & _ & Sf)]; [reflexivity|]; rewrite Sf in Fi; lia).
  set (x2 := if SEQ_GT (sup (ox s0)) _ then _ else _). assert (X2 : static x2 = static (ox s0) /\ sndb x2 = sndb (ox s0) /\ sentfin x2 = sentfin (ox s0) /\ board x2 = board (ox s0) /\ force x2 = force (ox s0)) by (unfold x2; destruct (SEQ_GT _ _); repeat split; reflexivity). clearbody x2. destruct X2 as (X2 & X3 & X4 & X5 & X6).
  assert (F1 : frame s0 (mkOst (tp s0) x2)) by (split; [reflexivity|exact X2]).
  assert (H1 : Inv b w cl U N M l f (mkOst (tp s0) x2)).
  { apply (inv_move _ _ _ _ _ _ _ _ _ _ _ _ H0 F1); cbn [tp ox]; try assumption; try lia; [apply (i_n _ _ _ _ _ _ _ _ _ H0)|apply (i_m _ _ _ _ _ _ _ _ _ H0)|]. rewrite X4. apply (i_fin _ _ _ _ _ _ _ _ _ H0). }
  cbn [ox tp]. rewrite X6, Ox0, Hf. cbn [negb orb]. exists (N + n + (if fin then 1 else 0)). split; [|reflexivity]. apply announce_ok.
  apply (advance_none _ _ _ _ _ _ _ _ _ n fin H1); [lia|lia|]. intros K. destruct (Hfin K) as (K1 & K2 & K3). specialize (Ph2 K1). split; [apply Fw, K|lia].
Qed.
Lemma part_split w p n m : 0 <= p -> 0 <= n -> 0 <= m -> part w p (n + m) = part w p n ++ part w (p + n) m.
Proof.
  intros. unfold part. rewrite Z2Nat.inj_add by lia. rewrite (Z2Nat.inj_add p n) by lia. rewrite <- (skip_skip (Z.to_nat n) (Z.to_nat p) w). generalize (skipn (Z.to_nat p) w). intros l. generalize (Z.to_nat n) (Z.to_nat m). clear. intros n. revert l. induction n as [|n IH]; intros l m; [reflexivity|]. destruct l as [|x l]; [rewrite skipn_nil, !firstn_nil; reflexivity|]. cbn [Nat.add firstn skipn app]. f_equal. apply IH.
Qed.
Lemma passes_all b w cl U f v idle : (forall i, w_res v i = PSent) -> forall fuel i N M l s s' qs, Inv b w cl U N M l f s -> env_ok v s ->
  sackp (tp s) = false \/ N = M -> sackp (tp s) && frec (tp s) = false -> force (ox s) = false -> zlen w - U <= swin s -> nodelay (ox s) = true -> morecome (ox s) = false -> nopush (ox s) = false ->
  passes fuel i v idle s = Ret (s', qs) -> all_data qs = part w N (Z.max 0 (zlen w - N)) /\ exists N2 M2 l2 f2, Inv b w cl U N2 M2 l2 f2 s' /\ (N < zlen w -> zlen w <= N2).
Proof.
  intros Hr. induction fuel as [|fuel IH]; intros i N M l s s' qs H Hv C1 C2 C3 C4 C5 C6 C7; cbn [passes]; [discriminate|]. pose proof (inv_range _ _ _ _ _ _ _ _ _ H) as R. rewrite Hr.
  assert (Hc : calm s) by (intros K; congruence). destruct (Z_lt_ge_dec N (zlen w)) as [L|L].
  - destruct (plan_ok _ _ _ _ _ _ _ _ _ H Hc) as (s1 & pl & N1 & E & H1 & F1 & P & _ & _). destruct (plan_exact _ _ _ _ _ _ _ _ _ H C1 C2 C3 C4 L) as (s1' & pl' & E' & Et & Ex & El & Eo & Eh). rewrite E in E'. injection E' as <- <-.
    assert (N1 = N) as -> by (pose proof (inv_range _ _ _ _ _ _ _ _ _ H1); pose proof (i_n _ _ _ _ _ _ _ _ _ H1) as K1; rewrite Et, (i_n _ _ _ _ _ _ _ _ _ H) in K1; apply wire_inj in K1; lia).
    assert (D : data_now idle s1 pl = true).
    { unfold data_now. cbv zeta. rewrite El, Eo, Et. pose proof (f_equal nodelay Ex) as X1. pose proof (f_equal morecome Ex) as X2. pose proof (f_equal nopush Ex) as X3. cbn in X1, X2, X3. rewrite X1, X2, X3, C5, C6, C7. destruct (Z.eqb_spec (zlen w - N) 0); [lia|]. cbn [negb andb]. rewrite (orb_true_r idle). replace (snd_cc (tp s) <=? zlen w - N + (N - U)) with true by (symmetry; apply Z.leb_le; lia). cbn [andb]. rewrite orb_true_r. reflexivity. }
    unfold pass. rewrite E. cbn [obind]. rewrite D. destruct (send_shape v PSent _ _ _ _ _ _ _ _ _ _ H1 P (env_frame _ _ _ F1 Hv) ltac:(discriminate)) as (opts & cut & fin & n & Y & Ef & Ec & Es). rewrite Es. clear Es.
    assert (Hn : 0 < n <= zlen w - N) by (pose proof (y_n _ _ _ _ _ _ _ _ _ _ _ _ _ _ _ Y); pose proof (y_n0 _ _ _ _ _ _ _ _ _ _ _ _ _ _ _ Y ltac:(lia)); lia).
    destruct (emit_exact _ _ _ _ _ _ _ _ _ _ _ _ _ _ _ Y Eh ltac:(rewrite (frame_force _ _ F1); exact C3) ltac:(lia)) as (N2 & H2 & E2). pose proof (y_fin _ _ _ _ _ _ _ _ _ _ _ _ _ _ _ Y) as Hfin. destruct (emit_data v PSent s1 pl opts false fin n (part w (U + l_off pl) n)) as [Q1 Q2]. pose proof (emit_any v PSent s1 pl opts false fin n (part w (U + l_off pl) n)) as EA.
    destruct (emit v PSent s1 pl opts false fin n (part w (U + l_off pl) n)) as [s2 q]. cbn [fst snd] in *. pose proof (e_frame _ _ _ _ _ _ _ _ _ (EA _ _ eq_refl)) as F2. pose proof (frame_trans _ _ _ F1 F2) as F3. cbn [obind]. rewrite Eh, orb_false_r. rewrite Eo in Q1. replace (U + (N - U)) with N in Q1 by lia.
    destruct cut.
    + rewrite andb_false_r in Ef. subst fin. intros K. destruct (passes fuel (S i) v idle s2) as [[s3 l3]| |] eqn:E3; cbn [obind] in K; try discriminate. injection K as <- <-.
      destruct (IH (S i) N2 (Z.max M N2) l s2 s3 l3 H2 (env_frame _ _ _ F3 Hv)) as [J1 (N4 & M4 & l4 & f4 & J2 & J3)]; rewrite ?(frame_sackp _ _ F3), ?(frame_frec _ _ F3), ?(frame_force _ _ F3), ?(frame_swin _ _ F3); try assumption.
      * destruct C1 as [C1|C1]; [left; exact C1|right; lia].
      * pose proof (fx nodelay F3) as X. cbn in X. congruence.
      * pose proof (fx morecome F3) as X. cbn in X. congruence.
      * pose proof (fx nopush F3) as X. cbn in X. congruence.
      * assert (Lt : n < zlen w - N) by (pose proof (y_cut _ _ _ _ _ _ _ _ _ _ _ _ _ _ _ Y eq_refl); lia). split; [|exists N4, M4, l4, f4; split; [exact J2|intros _; apply J3; lia]].
        cbn [all_data map concat app fst]. unfold all_data in J1. rewrite J1, Q1. rewrite !Z.max_r by lia. replace (zlen w - N) with (n + (zlen w - N2)) by lia. rewrite part_split by lia. f_equal. f_equal. lia.
    + intros K. injection K as <- <-. rewrite Ec in * by reflexivity. cbn [all_data map concat app fst]. rewrite app_nil_r, Q1, El, Z.max_r by lia. split; [reflexivity|]. exists N2, (Z.max M N2), l, f. split; [exact H2|]. intros _. destruct fin; lia.
  - destruct (plan_ok _ _ _ _ _ _ _ _ _ H Hc) as (s1 & pl & N1 & E & H1 & F1 & P & _ & Nn).
    destruct (pass_ok b w cl U N M l f v PSent idle s H Hc Hv) as (d & Ep & K). rewrite Ep. cbn [obind]. rewrite Z.max_l by lia.
    assert (Z0 : l_len pl = 0 /\ is_hole (l_hole pl) = false).
    { pose proof (p_hole _ _ _ _ _ _ _ _ P) as Ph. pose proof (z_hole _ _ _ (plan_any _ _ _ E) C2) as Eh. rewrite Eh in *. split; [|reflexivity]. pose proof (p_len _ _ _ _ _ _ _ _ P). destruct (Z.eq_dec (l_len pl) 0) as [|Nz]; [assumption|]. destruct Ph as [Ph _]. destruct (Ph ltac:(lia)). specialize (Nn ltac:(lia)). lia. }
    destruct d as [s2|s2 oq ag].
    + intros J. injection J as <- <-. split; [reflexivity|]. destruct K as (N2 & K1 & _). exists N2, M, l, f. split; [exact K1|lia].
    + unfold pass in Ep. rewrite E in Ep. cbn [obind] in Ep.
      assert (S : exists s1', Inv b w cl U N1 M l f s1' /\ PlanOK b w cl U N1 l s1' pl /\ frame s s1' /\ obind (send v PSent s1' pl) (fun '(s, q, a) => Ret (Made s q a)) = Ret (Made s2 oq ag)).
      { destruct (data_now idle s1 pl); [exists s1; auto|]. destruct (see_data_ok _ _ _ _ _ _ _ _ _ _ H1 P) as (H2 & P2 & F2). destruct (update_due v (see_data s1) || ctl_now (see_data s1) pl); [exists (see_data s1); split; [exact H2|]; split; [exact P2|]; split; [apply (frame_trans _ _ _ F1 F2)|exact Ep]|]. destruct (no_send (see_data s1)) as [s3| |]; cbn [obind] in Ep; discriminate. }
      destruct S as (s1' & H1' & P' & F1' & Es). destruct Z0 as [Z0 Z1]. destruct (send_shape v PSent _ _ _ _ _ _ _ _ _ _ H1' P' (env_frame _ _ _ F1' Hv) ltac:(discriminate)) as (opts & cut & fin & n & Y & Ef & Ec & Es2). rewrite Es2 in Es. clear Es2.
      pose proof (y_n _ _ _ _ _ _ _ _ _ _ _ _ _ _ _ Y) as Hn. assert (cut = false) as -> by (destruct cut; [pose proof (y_cut _ _ _ _ _ _ _ _ _ _ _ _ _ _ _ Y eq_refl); lia|reflexivity]). destruct (emit_data v PSent s1' pl opts false fin n (part w (U + l_off pl) n)) as [Q1 _]. assert (n = 0) as -> by lia.
      destruct (emit v PSent s1' pl opts false fin 0 (part w (U + l_off pl) 0)) as [s3 q]. cbn [fst snd obind] in *. injection Es as -> <- <-. rewrite Z1. cbn [orb]. intros J. injection J as <- <-. cbn [all_data map concat fst]. rewrite Q1. split; [reflexivity|]. destruct K as (N2 & M2 & l2 & K1 & _). exists N2, M2, l2, f. split; [exact K1|lia].
Qed.
