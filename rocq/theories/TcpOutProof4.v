From Verif Require Import Base TcpSeqModel TcpSeqProps TcpOptModel TcpOptProof TcpReassModel TcpInModel TcpInSpec SockModel SockSpec SockProof SackModel SackSpec SackProof SackProof2 SackProof3 TcpOutModel TcpOutSpec TcpOutProof TcpOutProof2 TcpOutProof3.
Ltac Zify.zify_post_hook ::= idtac.

Lemma b2 (c : bool) : (if c then 1 else 0) = 0 \/ (if c then 1 else 0) = 1. Proof. destruct c; auto. Qed.
Lemma skip_skip {X} a c (l : list X) : skipn a (skipn c l) = skipn (c + a) l.
Proof. revert l. induction c as [|c IH]; intros l; [reflexivity|]. destruct l; [cbn; apply skipn_nil|]. cbn [skipn Nat.add]. apply IH. Qed.
Lemma q_sub1 x n : u32 (wire x - n) = wire (x - n).
Proof. replace (wire x - n) with (wire x + - n) by lia. rewrite q_add. f_equal. Qed.
Lemma inv_max b w cl U N M l f s M2 t' : Inv b w cl U N M l f s -> M <= M2 -> M2 <= zlen w + 1 -> snd_una t' = snd_una (tp s) -> snd_max t' = wire (b + M2) -> A (sync t' (board (ox s))) l f (b + U) (b + U) (b + M2).
Proof.
  intros H L1 L2 E1 E2. pose proof (inv_range _ _ _ _ _ _ _ _ _ H) as R. pose proof (A_max _ _ _ _ _ _ (b + M2) (i_a _ _ _ _ _ _ _ _ _ H) ltac:(lia)) as K. unfold sync in *. cbn [holes hint numholes rexb fack una smax nid] in K. rewrite E1, E2. exact K.
Qed.
(* the state after some of the fields have changed *)
Lemma inv_move b w cl U N M l f s N2 M2 s' : Inv b w cl U N M l f s -> frame s s' -> sndb (ox s') = sndb (ox s) -> board (ox s') = board (ox s) ->
  snd_nxt (tp s') = wire (b + N2) -> snd_max (tp s') = wire (b + M2) -> U <= N2 <= M2 -> M <= M2 -> (if sentfin (ox s') then cl = true /\ M2 = zlen w + 1 else M2 <= zlen w) -> Inv b w cl U N2 M2 l f s'.
Proof.
  intros H F E1 E2 E3 E4 L1 L2 Fi. pose proof (inv_range _ _ _ _ _ _ _ _ _ H) as R. constructor; try assumption.
  - rewrite (frame_una _ _ F). apply (i_u _ _ _ _ _ _ _ _ _ H).
  - lia.
  - rewrite (frame_cc _ _ F). apply (i_cc _ _ _ _ _ _ _ _ _ H).
  - rewrite E1. apply (i_buf _ _ _ _ _ _ _ _ _ H).
  - rewrite E2. apply (inv_max _ _ _ _ _ _ _ _ _ M2 _ H L2); [destruct (sentfin (ox s')); lia|apply (frame_una _ _ F)|exact E4].
  - apply (i_front _ _ _ _ _ _ _ _ _ H).
  - apply (i_top _ _ _ _ _ _ _ _ _ H).
  - apply (frame_settings _ _ _ _ _ F). apply (i_set _ _ _ _ _ _ _ _ _ H).
Qed.
Lemma announce_frame rw s : frame s (announce rw s).
Proof. unfold announce. cbv zeta. destruct (SEQ_GT _ _); split; reflexivity. Qed.
Lemma announce_ok rw b w cl U N M l f s : Inv b w cl U N M l f s -> Inv b w cl U N M l f (announce rw s).
Proof. intros H. unfold announce. cbv zeta. destruct (SEQ_GT _ _); apply (inv_view _ _ _ _ _ _ _ _ _ _ H); reflexivity. Qed.
Lemma announce_timers rw s : rexmt (tp (announce rw s)) = rexmt (tp s) /\ persist (tp (announce rw s)) = persist (tp s) /\ snd_nxt (tp (announce rw s)) = snd_nxt (tp s) /\ snd_max (tp (announce rw s)) = snd_max (tp s).
Proof. unfold announce. cbv zeta. destruct (SEQ_GT _ _); auto. Qed.

Lemma payload_ok b w cl U N M l f s off n : Inv b w cl U N M l f s -> 0 <= n -> (0 < n -> 0 <= off /\ U + off + n <= zlen w) ->
  payload s off n = Ret (part w (U + off) n) /\ zlen (part w (U + off) n) = n.
Proof.
  intros H Hn Ho. pose proof (inv_range _ _ _ _ _ _ _ _ _ H) as R. unfold payload. destruct (Z.eqb_spec n 0) as [->|Nn]; [split; reflexivity|].
  destruct (Ho ltac:(lia)) as [O1 O2]. destruct (Z.ltb_spec off 0); [lia|]. destruct (i_buf _ _ _ _ _ _ _ _ _ H) as (pl & Qp & E).
  assert (Ep : firstn (Z.to_nat n) (skipn (Z.to_nat off) (bytes pl)) = part w (U + off) n). { rewrite E, skip_skip. unfold part. f_equal. f_equal. lia. }
  assert (El : zlen (part w (U + off) n) = n). { unfold part, zlen in *. rewrite firstn_length, skipn_length. lia. }
  rewrite (copy_out_ok _ pl) by (try assumption; try lia; unfold copy_fuel; pose proof (q_len _ _ Qp); lia). cbn [obind]. rewrite Ep, El, Z.eqb_refl. auto.
Qed.
Lemma advance_persist_off n syn fin p s : persist (tp (advance n syn fin p s)) = true -> persist (tp s) = true.
Proof.
  unfold advance. cbv zeta. match goal with |- context [if ?c then mkOst _ _ else _] => destruct c end; [discriminate|]. cbn [tp]. destruct (is_hole p); [intros K; exact K|]. destruct (SEQ_GT _ _); intros K; exact K.
Qed.
Lemma advance_none b w cl U N M l f s n fin : Inv b w cl U N M l f s -> 0 <= n -> (0 < n -> N + n <= zlen w) -> (fin = true -> cl = true /\ N + n = zlen w) ->
  let N2 := N + n + (if fin then 1 else 0) in let s' := advance n false fin None s in
  Inv b w cl U N2 (Z.max M N2) l f s' /\ frame s s' /\ sentfin (ox s') = sentfin (ox s) || fin.
Proof.
  intros H Hn H1 H2. cbv zeta. pose proof (inv_range _ _ _ _ _ _ _ _ _ H) as R. pose proof (i_fin _ _ _ _ _ _ _ _ _ H) as Fi. set (N2 := N + n + _). assert (L : N <= N2 <= zlen w + 1) by (unfold N2; destruct fin; lia).
  unfold advance. cbv zeta. cbn [is_hole]. rewrite Z.add_0_r. rewrite (i_n _ _ _ _ _ _ _ _ _ H), (q_add (b + N)), (q_add (b + N + (if fin then 1 else 0))). replace (b + N + (if fin then 1 else 0) + n) with (b + N2) by (unfold N2; lia).
  change (snd_max (set_snd_nxt (wire (b + N2)) (tp s))) with (snd_max (tp s)). rewrite (i_m _ _ _ _ _ _ _ _ _ H), q_gt by lia.
  set (t1 := if b + M <? b + N2 then _ else _). set (x1 := if fin then set_sentfin true (ox s) else ox s).
  assert (T1 : snd_nxt t1 = wire (b + N2) /\ snd_max t1 = wire (b + Z.max M N2) /\ core t1 = core (tp s)).
  { unfold t1. destruct (Z.ltb_spec (b + M) (b + N2)); (split; [reflexivity|split; [|reflexivity]]); [cbn; f_equal; lia|]. change (snd_max (tp s) = wire (b + Z.max M N2)). rewrite (i_m _ _ _ _ _ _ _ _ _ H). f_equal. lia. }
  destruct T1 as (T1 & T2 & T3).
  assert (X1 : static x1 = static (ox s) /\ sndb x1 = sndb (ox s) /\ board x1 = board (ox s) /\ sentfin x1 = sentfin (ox s) || fin) by (unfold x1; destruct fin; rewrite ?orb_true_r, ?orb_false_r; auto).
  destruct X1 as (X1 & X2 & X3 & X4). clearbody t1 x1.
  assert (Sf : if sentfin (ox s) || fin then cl = true /\ Z.max M N2 = zlen w + 1 else Z.max M N2 <= zlen w).
  { destruct (sentfin (ox s)) eqn:E; cbn [orb]; [split; [tauto|lia]|]. destruct fin; [specialize (H2 eq_refl); split; [tauto|unfold N2; lia]|]. unfold N2 in *. destruct (Z.eq_dec n 0); lia. }
  match goal with |- context [if ?c then _ else _] => destruct c end.
  - set (x2 := if persist t1 then set_rxtshift 0 x1 else x1). assert (Y : static x2 = static (ox s) /\ sndb x2 = sndb (ox s) /\ board x2 = board (ox s) /\ sentfin x2 = sentfin (ox s) || fin) by (unfold x2; destruct (persist t1); auto).
    destruct Y as (Y1 & Y2 & Y3 & Y4). clearbody x2. assert (F : frame s (mkOst (set_rexmt true (set_persist false t1)) x2)) by (split; [exact T3|exact Y1]). split; [|split; [exact F|exact Y4]].
    apply (inv_move _ _ _ _ _ _ _ _ _ _ _ _ H F); try assumption; try lia. cbn [ox]. rewrite Y4. exact Sf.
  - assert (F : frame s (mkOst t1 x1)) by (split; [exact T3|exact X1]). split; [|split; [exact F|exact X4]]. apply (inv_move _ _ _ _ _ _ _ _ _ _ _ _ H F); try assumption; try lia. cbn [ox]. rewrite X4. exact Sf.
Qed.
Lemma advance_hole b w cl U N M l f s n fin g : Inv b w cl U N M l f s -> (fin = true -> sentfin (ox s) = true /\ N < M) ->
  let N2 := N + (if fin then 1 else 0) in let s' := advance n false fin (Some g) s in
  Inv b w cl U N2 M l f s' /\ frame s s' /\ board (ox s') = board (ox s) /\ sentfin (ox s') = sentfin (ox s).
Proof.
  intros H H2. cbv zeta. pose proof (inv_range _ _ _ _ _ _ _ _ _ H) as R. pose proof (i_fin _ _ _ _ _ _ _ _ _ H) as Fi. set (N2 := N + _). assert (L : N <= N2 <= M) by (unfold N2; destruct fin; [specialize (H2 eq_refl)|]; lia).
  unfold advance. cbv zeta. cbn [is_hole]. rewrite Z.add_0_r. rewrite (i_n _ _ _ _ _ _ _ _ _ H), (q_add (b + N)). replace (b + N + (if fin then 1 else 0)) with (b + N2) by (unfold N2; lia).
  set (t1 := set_snd_nxt (wire (b + N2)) (tp s)). set (x1 := if fin then set_sentfin true (ox s) else ox s).
  assert (T1 : snd_nxt t1 = wire (b + N2) /\ snd_max t1 = wire (b + M) /\ core t1 = core (tp s)) by (split; [reflexivity|split; [apply (i_m _ _ _ _ _ _ _ _ _ H)|reflexivity]]).
  destruct T1 as (T1 & T2 & T3).
  assert (X1 : static x1 = static (ox s) /\ sndb x1 = sndb (ox s) /\ board x1 = board (ox s) /\ sentfin x1 = sentfin (ox s)) by (unfold x1; destruct fin; [destruct (H2 eq_refl) as [-> _]|]; auto).
  destruct X1 as (X1 & X2 & X3 & X4). clearbody t1 x1.
  match goal with |- context [if ?c then _ else _] => destruct c end.
  - set (x2 := if persist t1 then set_rxtshift 0 x1 else x1). assert (Y : static x2 = static (ox s) /\ sndb x2 = sndb (ox s) /\ board x2 = board (ox s) /\ sentfin x2 = sentfin (ox s)) by (unfold x2; destruct (persist t1); auto).
    destruct Y as (Y1 & Y2 & Y3 & Y4). clearbody x2. assert (F : frame s (mkOst (set_rexmt true (set_persist false t1)) x2)) by (split; [exact T3|exact Y1]). split; [|split; [exact F|split; [exact Y3|exact Y4]]].
    apply (inv_move _ _ _ _ _ _ _ _ _ _ _ _ H F); try assumption; try lia. cbn [ox]. rewrite Y4. exact Fi.
  - assert (F : frame s (mkOst t1 x1)) by (split; [exact T3|exact X1]). split; [|split; [exact F|split; [exact X3|exact X4]]]. apply (inv_move _ _ _ _ _ _ _ _ _ _ _ _ H F); try assumption; try lia. cbn [ox]. rewrite X4. exact Fi.
Qed.
Lemma persist_none b w cl U N M l f s n : Inv b w cl U N M l f s -> 0 <= n -> (0 < n -> N + n <= zlen w) ->
  let s' := advance_persist n false false s in Inv b w cl U N (Z.max M (N + n)) l f s' /\ frame s s' /\ sentfin (ox s') = sentfin (ox s).
Proof.
  intros H Hn H1. cbv zeta. pose proof (inv_range _ _ _ _ _ _ _ _ _ H) as R. pose proof (i_fin _ _ _ _ _ _ _ _ _ H) as Fi. unfold advance_persist. cbv zeta. rewrite !Z.add_0_r. rewrite (i_n _ _ _ _ _ _ _ _ _ H), (i_m _ _ _ _ _ _ _ _ _ H), q_add.
  assert (N + n <= zlen w + 1) by (destruct (Z.eq_dec n 0); lia). rewrite q_gt by lia. destruct (Z.ltb_spec (b + M) (b + N + n)).
  - assert (F : frame s (mkOst (set_snd_max (wire (b + N + n)) (tp s)) (ox s))) by (split; reflexivity). split; [|split; [exact F|reflexivity]].
    apply (inv_move _ _ _ _ _ _ _ _ _ _ _ _ H F); try reflexivity; try lia; [apply (i_n _ _ _ _ _ _ _ _ _ H)|cbn [tp]; change (wire (b + N + n) = wire (b + Z.max M (N + n))); f_equal; lia|]. cbn [ox]. destruct (sentfin (ox s)); [split; [tauto|lia]|]. destruct (Z.eq_dec n 0); lia.
  - replace (Z.max M (N + n)) with M by lia. split; [apply (inv_view _ _ _ _ _ _ _ _ _ _ H); reflexivity|split; [split; reflexivity|reflexivity]].
Qed.
