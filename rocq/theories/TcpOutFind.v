(* Concrete runs of the TCP output model: the hypotheses of C81-C88 are met, and what does not hold. *)
From Verif Require Import Base TcpSeqModel TcpSeqProps TcpOptModel TcpReassModel TcpReassSpec TcpInModel TcpInSpec TcpInProps SockModel SockSpec SackModel TcpOutModel TcpOutSpec TcpOutNet TcpOutProps.

(* a connection: our byte 0 is at 100, 500 is expected next, window 1000, 50 bytes to a segment, TCP_NODELAY *)
Definition t0 : tcp := set_snd_nxt 100 (set_snd_max 100 (set_snd_cc 0 (set_rexmt false (conn ESTABLISHED 600)))).
Definition x0 : oext := mkOx 10000 100 0 50 50 0 (mkSb [] None 0 0 0 100 100 0%nat) sb_empty false false true false false false false false false [] 0.
Definition v0 : oenv := mkOenv 1000 65536 1000 1460 0 (fun _ => PSent).
Definition s0 : ost := mkOst t0 x0.
Definition with_buf (bf : sbuf) (s : ost) : ost :=
  mkOst (set_snd_cc (sb_cc bf) (tp s)) (mkOx (cwnd (ox s)) (sup (ox s)) (newdata (ox s)) (maxopd (ox s)) (maxseg (ox s)) (rxtshift (ox s)) (board (ox s)) bf (lastidle (ox s)) (morecome (ox s)) (nodelay (ox s)) (noopt (ox s)) (nopush (ox s)) (reqts (ox s)) (force (ox s)) (sentfin (ox s)) (wndupd (ox s)) (sblks (ox s)) (tsoff (ox s))).
Definition wr (d : list Z) (s : ost) : ost := with_buf (fst (put_last (fun _ => false) (sndb (ox s)) (mkPk 1 d))) s.
Definition w0 : list Z := map Z.of_nat (List.seq 0 120).
Definition s1 : ost := wr w0 s0.
Lemma not_forced s : force (ox s) = false -> calm s.
Proof. intros E K. rewrite E in K. discriminate. Qed.
Lemma hist0 : hist 100 [] false 0 s0.
Proof. apply h_new; try reflexivity. unfold settings. cbn. unfold ESTABLISHED, TIME_WAIT. repeat split; try lia; discriminate. Qed.
Lemma hist1 : hist 100 w0 false 0 s1.
Proof. eapply (h_write 100 [] 0 s0 (mkPk 1 w0)); [exact hist0|vm_compute; discriminate|reflexivity|reflexivity|reflexivity]. Qed.
Definition seen (r : outcome (ost * list (oseg * pres))) :=
  match r with Ret (s, l) => Some (map (fun q => (q_seq (fst q), q_data (fst q), q_fin (fst q), q_ack (fst q), q_win (fst q))) l, (snd_nxt (tp s), snd_max (tp s), rexmt (tp s), persist (tp s))) | _ => None end.
Definition st (v : oenv) (s : ost) : ost := match output 9 v s with Ret (s', _) => s' | _ => s end.
Definition sl (v : oenv) (s : ost) : list (oseg * pres) := match output 9 v s with Ret (_, l) => l | _ => [] end.
(* 120 bytes leave in three segments *)
Example ex_out : seen (output 9 v0 s1) = Some ([(100, part w0 0 50, false, 500, 1000); (150, part w0 50 50, false, 500, 1000); (200, part w0 100 20, false, 500, 1000)], (220, 220, true, false)).
Proof. vm_compute. reflexivity. Qed.
Example ex_out_hyp : calm s1 /\ env_ok v0 s1 /\ zlen w0 - 0 <= swin s1 /\ (forall i, w_res v0 i = PSent) /\ 0 <= w_space v0 < 2 ^ 30 /\ edge s1 = 100.
Proof. split; [apply not_forced; vm_compute; reflexivity|]. unfold env_ok. repeat split; try (vm_compute; congruence); try reflexivity; vm_compute; discriminate. Qed.
(* the first 60 bytes are acknowledged, the user has closed: the FIN follows the last byte *)
Definition s2 : ost := match output 9 v0 s1 with Ret (s, _) => s | _ => s1 end.
Definition bd3 : sb := match on_ack 100 100 (sync (tp s2) (board (ox s2))) None 160 with Ret b => b | _ => board (ox s2) end.
Definition bf3 : sbuf := match sbdrop copy_fuel (sndb (ox s2)) 60 with Ret (b, _) => b | _ => sndb (ox s2) end.
Definition s3 : ost := with_buf bf3 (mkOst (set_t_state FIN_WAIT_1 (set_snd_una 160 (tp s2))) (set_board bd3 (ox s2))).
Lemma hist2 : hist 100 w0 false 0 s2.
Proof.
  destruct (output 9 v0 s1) as [[s l]| |] eqn:E; [|vm_compute in E; discriminate|vm_compute in E; discriminate].
  replace s2 with s by (unfold s2; rewrite E; reflexivity). eapply h_output; [exact hist1|apply ex_out_hyp|apply ex_out_hyp|exact E].
Qed.
Lemma hist3 : hist 100 w0 true 60 s3.
Proof.
  refine (h_other 100 w0 true 0 s2 100 100 None 160 bd3 bf3 [] s3 60 (h_close _ _ _ _ hist2) _ _ _ _ _ _ _ _ _ _ _ _ _ _).
  - lia.
  - lia.
  - exact Logic.I.
  - vm_compute. reflexivity.
  - vm_compute. reflexivity.
  - vm_compute. reflexivity.
  - exists 60. split; [vm_compute; split; discriminate|vm_compute; reflexivity].
  - left. vm_compute. reflexivity.
  - vm_compute. reflexivity.
  - vm_compute. reflexivity.
  - unfold s3, with_buf. cbn [ox sndb]. reflexivity.
  - vm_compute. reflexivity.
  - vm_compute. reflexivity.
  - unfold settings. split; [vm_compute; split; discriminate|]. split; [vm_compute; reflexivity|]. split; [intros _; split; [reflexivity|vm_compute; discriminate]|]. split; vm_compute; discriminate.
Qed.
Example ex_fin_out : seen (output 9 v0 s3) = Some ([(220, [], true, 500, 1000)], (221, 221, true, false)) /\ calm s3 /\ env_ok v0 s3.
Proof. split; [vm_compute; reflexivity|]. split; [apply not_forced; vm_compute; reflexivity|]. unfold env_ok. split; vm_compute; [discriminate|split; [reflexivity|discriminate]]. Qed.

(* ---------- what does not hold ---------- *)
(* If every packet is refused, a call with more than one segment to send never returns. *)
Definition v_fail : oenv := mkOenv 1000 65536 1000 1460 0 (fun _ => PFail).
Definition sa0 : ost := mkOst (tp s1) (set_lastidle false (ox s1)).
Definition after (s : ost) : ost := match pass v_fail PFail true s with Ret (Made s' _ _) => s' | _ => s end.
Definition made (s : ost) : option (oseg * pres) := match pass v_fail PFail true s with Ret (Made _ q _) => q | _ => None end.
Lemma run1 : pass v_fail PFail true sa0 = Ret (Made (after sa0) (made sa0) true).
Proof. vm_compute. reflexivity. Qed.
Lemma run2 : pass v_fail PFail true (after sa0) = Ret (Made (after (after sa0)) (made (after sa0)) true).
Proof. vm_compute. reflexivity. Qed.
Lemma run3 : pass v_fail PFail true (after (after sa0)) = Ret (Made (after (after sa0)) (made (after (after sa0))) true).
Proof. vm_compute. reflexivity. Qed.
Lemma run0 fuel : output fuel v_fail s1 = passes fuel 0 v_fail true sa0.
Proof. unfold output. assert (A : is_idle s1 = true) by (vm_compute; reflexivity). assert (B : morecome (ox s1) = false) by (vm_compute; reflexivity). rewrite A, B. reflexivity. Qed.
(* the first two passes fail; from then on every pass leaves the state as it is *)
Lemma loops v a b c q1 q2 q3 : (forall i, w_res v i = PFail) -> pass v PFail true a = Ret (Made b q1 true) -> pass v PFail true b = Ret (Made c q2 true) -> pass v PFail true c = Ret (Made c q3 true) ->
  forall fuel, passes fuel 0 v true a = Diverge.
Proof.
  intros R P1 P2 P3. assert (L : forall fuel i, passes fuel i v true c = Diverge).
  { intros fl. induction fl as [|fl IH]; intros i; [reflexivity|]. cbn [passes]. rewrite R, P3. cbn [obind]. rewrite IH. reflexivity. }
  intros [|[|fuel]]; [reflexivity|cbn [passes]; rewrite R, P1; reflexivity|]. cbn [passes]. rewrite R, P1. cbn [obind]. rewrite R, P2. cbn [obind]. rewrite L. reflexivity.
Qed.
Lemma stuck fuel : output fuel v_fail s1 = Diverge.
Proof. rewrite run0. apply (loops v_fail _ _ _ _ _ _ (fun _ => eq_refl) run1 run2 run3). Qed.
Lemma env_fail : env_ok v_fail s1.
Proof. unfold env_ok; split; vm_compute; [discriminate|split; [reflexivity|discriminate]]. Qed.
Lemma calm1 : calm s1.
Proof. apply not_forced. vm_compute. reflexivity. Qed.
Theorem tcp_output_returns_refuted :
  ~ (forall b w cl U s v, hist b w cl U s -> calm s -> env_ok v s -> exists fuel s' l, output fuel v s = Ret (s', l)).
Proof. intros H. destruct (H _ _ _ _ _ _ hist1 calm1 env_fail) as (fuel & s' & l & E). rewrite stuck in E. discriminate E. Qed.
(* There are bytes to send, the window is closed, nothing is outstanding, and the call just acknowledges: no timer runs that
   would ever probe the window. The same without a packet to build the segment in. *)
Definition closed_s : ost := mkOst (set_acknow true (set_snd_wnd 0 (tp s1))) (ox s1).
Definition v_nomem : oenv := mkOenv 1000 65536 1000 1460 0 (fun _ => PNoMem).
Lemma hist_c (s : ost) : (exists a wn, s = mkOst (set_acknow a (set_snd_wnd wn (tp s1))) (ox s1) /\ 0 <= wn) -> hist 100 w0 false 0 s.
Proof.
  intros (a & wn & -> & Hw). eapply (h_other 100 w0 false 0 s1 100 100 None 100 _ (sndb (ox s1))); [exact hist1|lia|lia|exact Logic.I|vm_compute; reflexivity|reflexivity|reflexivity| |left; vm_compute; reflexivity|reflexivity| |reflexivity|reflexivity|reflexivity|].
  - exists 0. split; [vm_compute; split; discriminate|reflexivity].
  - vm_compute. reflexivity.
  - unfold settings. split; [vm_compute; split; discriminate|]. split; [reflexivity|]. split; [discriminate|]. split; [exact Hw|vm_compute; discriminate].
Qed.
Theorem tcp_output_no_timer_refuted :
  ~ (forall b w cl U s v fuel s' l, hist b w cl U s -> calm s -> env_ok v s -> (forall i, w_res v i = PSent) -> output fuel v s = Ret (s', l) -> 0 < snd_cc (tp s') ->
     rexmt (tp s') = true \/ persist (tp s') = true).
Proof.
  intros H. destruct (output 9 v0 closed_s) as [[s' l]| |] eqn:E; [|vm_compute in E; discriminate|vm_compute in E; discriminate].
  assert (X : s' = match output 9 v0 closed_s with Ret (s, _) => s | _ => closed_s end) by (rewrite E; reflexivity).
  assert (Y : rexmt (tp s') = true \/ persist (tp s') = true).
  { eapply H; [apply hist_c; exists true, 0; split; [reflexivity|lia]|apply not_forced; vm_compute; reflexivity| | |exact E|].
    - unfold env_ok. split; vm_compute; [discriminate|split; [reflexivity|discriminate]].
    - reflexivity.
    - rewrite X. vm_compute. reflexivity. }
  rewrite X in Y. vm_compute in Y. destruct Y; discriminate.
Qed.
Theorem tcp_output_no_timer_without_memory_refuted :
  ~ (forall b w cl U s v fuel s', hist b w cl U s -> calm s -> env_ok v s -> output fuel v s = Ret (s', []) -> 0 < snd_cc (tp s') -> 0 < swin s ->
     rexmt (tp s') = true \/ persist (tp s') = true).
Proof.
  intros H. set (s := wr [1;2;3] s0). assert (Hs : hist 100 [1;2;3] false 0 s) by (eapply (h_write 100 [] 0 s0 (mkPk 1 [1;2;3])); [exact hist0|vm_compute; discriminate|reflexivity|reflexivity|reflexivity]).
  destruct (output 9 v_nomem s) as [[s' l]| |] eqn:E; [|vm_compute in E; discriminate|vm_compute in E; discriminate].
  assert (L : l = []) by (change l with (match Ret (s', l) with Ret (_, l) => l | _ => [] end); rewrite <- E; vm_compute; reflexivity).
  assert (X : s' = match output 9 v_nomem s with Ret (s, _) => s | _ => s0 end) by (rewrite E; reflexivity). rewrite L in E.
  assert (Y : rexmt (tp s') = true \/ persist (tp s') = true).
  { eapply H; [exact Hs|apply not_forced; vm_compute; reflexivity| |exact E| |vm_compute; reflexivity].
    - unfold env_ok. split; vm_compute; [discriminate|split; [reflexivity|discriminate]].
    - rewrite X. vm_compute. reflexivity. }
  rewrite X in Y. vm_compute in Y. destruct Y; discriminate.
Qed.
(* An acknowledgement that could not be sent for want of memory is taken for sent: the request for it is forgotten. *)
Theorem tcp_output_ack_forgotten_refuted :
  ~ (forall v fuel s s', output fuel v s = Ret (s', []) -> acknow (tp s) = true -> acknow (tp s') = true).
Proof.
  intros H. destruct (output 9 v_nomem closed_s) as [[s' l]| |] eqn:E; [|vm_compute in E; discriminate|vm_compute in E; discriminate].
  assert (L : l = []) by (change l with (match Ret (s', l) with Ret (_, l) => l | _ => [] end); rewrite <- E; vm_compute; reflexivity).
  assert (X : s' = match output 9 v_nomem closed_s with Ret (s, _) => s | _ => s0 end) by (rewrite E; reflexivity). rewrite L in E.
  specialize (H _ _ _ _ E eq_refl). rewrite X in H. vm_compute in H. discriminate.
Qed.
(* The window offered can shrink: with a scale, by the part that is not a multiple of the unit. *)
Theorem tcp_output_edge_refuted :
  ~ (forall v fuel s s' l q r, output fuel v s = Ret (s', l) -> In (q, r) l -> 0 <= w_space v < 2 ^ 30 -> 0 <= rcv_scale (tp s) <= 14 -> 0 <= edge s <= 65535 -> q_syn q = false ->
     edge s <= q_win q * 2 ^ rcv_scale (tp s)).
Proof.
  intros H. set (s := mkOst (set_rcv_scale 4 (set_acknow true t0)) x0). set (v := mkOenv 50 65536 1000 1460 0 (fun _ => PSent)).
  destruct (output 9 v s) as [[s' l]| |] eqn:E; [|vm_compute in E; discriminate|vm_compute in E; discriminate].
  assert (L : l = match output 9 v s with Ret (_, l) => l | _ => [] end) by (rewrite E; reflexivity). vm_compute in L. destruct l as [|[q r] l]; [discriminate|].
  injection L as -> -> ->. specialize (H _ _ _ _ _ _ _ E (or_introl eq_refl)).
  assert (Y : edge s <= 96) by (apply H; try reflexivity; split; vm_compute; try discriminate; reflexivity). vm_compute in Y. apply Y. reflexivity.
Qed.
(* A refused segment that carries data and the FIN is taken back only in part: the FIN still counts as sent. *)
Theorem tcp_output_back_out_refuted :
  ~ (forall b w cl U s v fuel s' q, hist b w cl U s -> calm s -> env_ok v s -> snd_nxt (tp s) = snd_max (tp s) -> output fuel v s = Ret (s', [(q, PFail)]) -> force (ox s) = false ->
     snd_nxt (tp s') = snd_nxt (tp s)).
Proof.
  intros H. set (sx := wr [1;2;3] s0). set (s := mkOst (set_t_state FIN_WAIT_1 (tp sx)) (ox sx)).
  assert (Hs : hist 100 [1;2;3] true 0 s).
  { assert (hist 100 [1;2;3] true 0 sx) by (apply h_close; eapply (h_write 100 [] 0 s0 (mkPk 1 [1;2;3])); [exact hist0|vm_compute; discriminate|reflexivity|reflexivity|reflexivity]).
    eapply (h_other 100 [1;2;3] true 0 sx 100 100 None 100 _ (sndb (ox sx))); [exact H0|lia|lia|exact Logic.I|vm_compute; reflexivity|reflexivity|reflexivity| |left; vm_compute; reflexivity|reflexivity| |reflexivity|reflexivity|reflexivity|].
    - exists 0. split; [vm_compute; split; discriminate|reflexivity].
    - vm_compute. reflexivity.
    - unfold settings. split; [vm_compute; split; discriminate|]. split; [reflexivity|]. split; [intros _; split; [reflexivity|vm_compute; discriminate]|]. split; vm_compute; discriminate. }
  destruct (output 9 v_fail s) as [[s' l]| |] eqn:E; [|vm_compute in E; discriminate|vm_compute in E; discriminate].
  assert (L : exists q, l = [(q, PFail)]) by (change l with (match Ret (s', l) with Ret (_, l) => l | _ => [] end); rewrite <- E; vm_compute; eexists; reflexivity). destruct L as (q & ->).
  assert (X : s' = match output 9 v_fail s with Ret (s, _) => s | _ => s0 end) by (rewrite E; reflexivity).
  assert (Y : snd_nxt (tp s') = snd_nxt (tp s)).
  { eapply H; [exact Hs|apply not_forced; vm_compute; reflexivity| |reflexivity|exact E|reflexivity]. unfold env_ok. split; vm_compute; [discriminate|split; [reflexivity|discriminate]]. }
  rewrite X in Y. vm_compute in Y. discriminate.
Qed.
(* Without the condition that a forced send is a probe (calm): a forced send (urgent data, say) into a closed window during recovery
   with SACK sends the oldest missing byte under the sequence number of the next new one. *)
Definition bd4 : sb := match on_ack 100 100 (sync (tp s2) (board (ox s2))) (Some [(150, 200)]) 100 with Ret b => b | _ => board (ox s2) end.
Definition s4 : ost := mkOst (set_snd_recover 220 (set_frec true (set_sackp true (set_snd_wnd 0 (tp s2)))))
  (mkOx 10000 100 0 50 50 0 bd4 (sndb (ox s2)) false false true false false false true false false [] 0).
Lemma hist4 : hist 100 w0 false 0 s4.
Proof.
  refine (h_other 100 w0 false 0 s2 100 100 (Some [(150, 200)]) 100 bd4 (sndb (ox s2)) [] s4 0 hist2 _ _ _ _ _ _ _ _ _ _ _ _ _ _).
  - lia.
  - lia.
  - split; [cbn; lia|]. constructor; [cbn; lia|constructor].
  - vm_compute. reflexivity.
  - vm_compute. reflexivity.
  - vm_compute. reflexivity.
  - exists 120. split; [vm_compute; split; discriminate|vm_compute; reflexivity].
  - left. vm_compute. reflexivity.
  - vm_compute. reflexivity.
  - vm_compute. reflexivity.
  - vm_compute. reflexivity.
  - vm_compute. reflexivity.
  - vm_compute. reflexivity.
  - unfold settings. split; [vm_compute; split; discriminate|]. split; [vm_compute; reflexivity|]. split; [assert (Z0 : out_fin (t_state (tp s4)) || needfin (tp s4) = false) by (vm_compute; reflexivity); rewrite Z0; discriminate|]. split; vm_compute; discriminate.
Qed.
Lemma run4 : output 9 v0 s4 = Ret (st v0 s4, sl v0 s4).
Proof. vm_compute. reflexivity. Qed.
Lemma run4_l : map (fun q => (q_seq (fst q), q_data (fst q))) (sl v0 s4) = [(220, [0])].
Proof. vm_compute. reflexivity. Qed.
Lemma env4 : env_ok v0 s4.
Proof. unfold env_ok; split; vm_compute; [discriminate|split; [reflexivity|discriminate]]. Qed.
Theorem tcp_output_content_uncalm_refuted :
  ~ (forall b w cl U s v fuel s' l, hist b w cl U s -> env_ok v s -> output fuel v s = Ret (s', l) -> Forall (fun q => carries b w cl U (fst q)) l).
Proof.
  intros H. specialize (H _ _ _ _ _ _ _ _ _ hist4 env4 run4). pose proof run4_l as L. generalize dependent (sl v0 s4). intros [|q l] H L; [discriminate|]. inversion H as [|? ? C1 _]; subst. cbn [map] in L. injection L as L1 L2 _. destruct C1 as (p & P1 & P2 & P3 & _).
  rewrite L1 in P2. rewrite L2 in P3. destruct (P3 ltac:(discriminate)) as [_ P4]. change (zlen w0) with 120 in *. unfold wire in P2. rewrite Z.mod_small in P2 by (change (2 ^ 32) with 4294967296; lia).
  change (zlen [0]) with 1 in P4. lia.
Qed.

(* both ends: the second segment arrives before the first, the first again after the third, then the FIN *)
Definition rx : tcp := set_rcv_adv 1100 (set_rnxt 100 (conn ESTABLISHED 600)).
Definition as_seg (seq : Z) (d : list Z) (fin : bool) : seg := sg seq 100 1000 false fin false true d.
Definition rcv (g : seg) (t : tcp) : tcp := match do_segment (env1 1000) out1 g t with Ret (t', _) => t' | _ => t end.
Lemma run5 : output 9 v0 s1 = Ret (st v0 s1, sl v0 s1).
Proof. vm_compute. reflexivity. Qed.
Lemma run6 : output 9 v0 s3 = Ret (st v0 s3, sl v0 s3).
Proof. vm_compute. reflexivity. Qed.
Definition mk (seq : Z) (push fin : bool) (d : list Z) : oseg * pres := (mkOseg seq 500 1000 false fin false true push None [] d, PSent).
Lemma run5_l : sl v0 s1 = [mk 100 false false (part w0 0 50); mk 150 false false (part w0 50 50); mk 200 true false (part w0 100 20)].
Proof. vm_compute. reflexivity. Qed.
Lemma run6_l : sl v0 s3 = [mk 220 false true []].
Proof. vm_compute. reflexivity. Qed.
Example ex_net : exists sent t, net out1 100 w0 true sent t 221 w0 true.
Proof.
  assert (Sy : synchronized rx) by (unfold synchronized; cbn; unfold SYN_RECEIVED, ESTABLISHED, FIN_WAIT_2; lia).
  pose proof (n_start out1 100 rx Sy eq_refl eq_refl eq_refl) as K. apply (n_write out1 100) with (x := w0) in K. change ([] ++ w0) with w0 in K.
  eassert (K1 := n_output out1 100 _ _ _ _ _ _ _ _ _ _ _ _ _ [0; 50; 100] K hist1 (proj1 ex_out_hyp) (proj1 (proj2 ex_out_hyp)) run5 _). Unshelve.
  2: { rewrite run5_l. repeat constructor; vm_compute; congruence. }
  clear K. apply n_close in K1.
  eassert (K2 := n_output out1 100 _ _ _ _ _ _ _ _ _ _ _ _ _ [120] K1 hist3 (proj1 (proj2 ex_fin_out)) (proj2 (proj2 ex_fin_out)) run6 _). Unshelve.
  2: { rewrite run6_l. repeat constructor; vm_compute; congruence. }
  clear K1. rewrite run5_l, run6_l in K2. cbn [map fst combine app] in K2.
  clear Sy. assert (SS : forall t, 3 <= t_state t <= 9 -> synchronized t) by (intros t Ht; exact Ht).
  assert (EV : 0 < e_maxseg (env1 1000) /\ 0 <= e_hiwat (env1 1000) /\ e_space (env1 1000) < 2147483648) by (cbn; lia).
  eassert (K3 := n_deliver out1 100 _ _ _ _ _ _ _ 50 _ (env1 1000) (as_seg 150 (part w0 50 50) false) _ _ K2 ltac:(right; left; reflexivity) ltac:(apply SS; vm_compute; split; discriminate) eq_refl eq_refl eq_refl eq_refl (or_introl eq_refl) ltac:(vm_compute; reflexivity) ltac:(vm_compute; reflexivity) ltac:(discriminate) EV ltac:(unfold wf; vm_compute; repeat split; discriminate) ltac:(vm_compute; reflexivity)).
  clear K2. vm_compute in K3.
  eassert (K4 := n_deliver out1 100 _ _ _ _ _ _ _ 0 _ (env1 1000) (as_seg 100 (part w0 0 50) false) _ _ K3 ltac:(left; reflexivity) ltac:(apply SS; vm_compute; split; discriminate) eq_refl eq_refl eq_refl eq_refl (or_introl eq_refl) ltac:(vm_compute; reflexivity) ltac:(vm_compute; reflexivity) ltac:(discriminate) EV ltac:(unfold wf; vm_compute; repeat split; discriminate) ltac:(vm_compute; reflexivity)).
  clear K3. vm_compute in K4.
  eassert (K5 := n_deliver out1 100 _ _ _ _ _ _ _ 100 _ (env1 1000) (as_seg 200 (part w0 100 20) false) _ _ K4 ltac:(right; right; left; reflexivity) ltac:(apply SS; vm_compute; split; discriminate) eq_refl eq_refl eq_refl eq_refl (or_introl eq_refl) ltac:(vm_compute; reflexivity) ltac:(vm_compute; reflexivity) ltac:(discriminate) EV ltac:(unfold wf; vm_compute; repeat split; discriminate) ltac:(vm_compute; reflexivity)).
  clear K4. vm_compute in K5.
  eassert (K6 := n_deliver out1 100 _ _ _ _ _ _ _ 0 _ (env1 1000) (as_seg 100 (part w0 0 50) false) _ _ K5 ltac:(left; reflexivity) ltac:(apply SS; vm_compute; split; discriminate) eq_refl eq_refl eq_refl eq_refl (or_introl eq_refl) ltac:(vm_compute; reflexivity) ltac:(vm_compute; reflexivity) ltac:(discriminate) EV ltac:(unfold wf; vm_compute; repeat split; discriminate) ltac:(vm_compute; reflexivity)).
  clear K5. vm_compute in K6.
  eassert (K7 := n_deliver out1 100 _ _ _ _ _ _ _ 120 _ (env1 1000) (as_seg 220 [] true) _ _ K6 ltac:(right; right; right; left; reflexivity) ltac:(apply SS; vm_compute; split; discriminate) eq_refl eq_refl eq_refl eq_refl (or_introl eq_refl) ltac:(vm_compute; reflexivity) ltac:(vm_compute; reflexivity) ltac:(intros _; vm_compute; discriminate) EV ltac:(unfold wf; vm_compute; repeat split; discriminate) ltac:(vm_compute; reflexivity)).
  clear K6. eexists _, _. vm_compute in K7. exact K7.
Qed.

Print Assumptions tcp_output_content.
Print Assumptions tcp_output_window.
Print Assumptions tcp_output_returns.
Print Assumptions tcp_output_touches.
Print Assumptions tcp_output_discharges_input.
Print Assumptions tcp_output_offers.
Print Assumptions tcp_output_timer_partial.
Print Assumptions tcp_output_nodelay_sends_all.
Print Assumptions tcp_end_to_end_partial.
Print Assumptions tcp_output_returns_refuted.
