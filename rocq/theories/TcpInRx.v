From Verif Require Import Base TcpSeqModel TcpOptModel TcpReassModel TcpReassSpec TcpReassProof TcpInModel TcpInSpec TcpInProof.
Ltac Zify.zify_post_hook ::= idtac.

Definition carries (c : cur) : Prop := zlen (c_data c) <> 0 \/ c_fin c = true.
(* the part of the segment inside the window [N, N + w) *)
Definition Trim (N A w : Z) (g : seg) (c : cur) : Prop :=
  exists a n, 0 <= a <= zlen (g_data g) /\ 0 <= n <= zlen (g_data g) - a /\
    c_data c = firstn (Z.to_nat n) (skipn (Z.to_nat a) (g_data g)) /\ c_seq c = seqno (A + a) /\
    (carries c -> N <= A + a /\ (N < A + a -> a = 0) /\ A + a + n <= N + w) /\
    (n < zlen (g_data g) - a -> c_fin c = false /\ (carries c -> A + a + n = N + w)) /\ (c_fin c = true -> g_ffin g = true).
Definition PreT (N A : Z) (g : seg) (c : cur) : Prop :=
  exists a, 0 <= a <= zlen (g_data g) /\ c_data c = skipn (Z.to_nat a) (g_data g) /\
    c_seq c = seqno (A + a - (if c_syn c then 1 else 0)) /\
    (carries c -> N <= A + a /\ (N < A + a -> a = 0)) /\ (c_fin c = true -> g_ffin g = true) /\ (c_urg c = true -> g_furg g = true).
Lemma skipn_zlen a (l : list Z) : 0 <= a <= zlen l -> zlen (skipn (Z.to_nat a) l) = zlen l - a.
Proof. unfold zlen. rewrite skipn_length. lia. Qed.
Lemma firstn_zlen a (l : list Z) : 0 <= a <= zlen l -> zlen (firstn (Z.to_nat a) l) = a.
Proof. unfold zlen. rewrite firstn_length. lia. Qed.
Lemma zlen_nonneg l : 0 <= zlen l. Proof. unfold zlen. lia. Qed.
Ltac kp := intros; cbv zeta; repeat (match goal with |- context [if ?b then _ else _] => destruct b end); (apply keep_refl || (split; reflexivity)).

Section Rx.
Context (out : tcp -> tcp) (Ho : output_ok out) (e : env) (g : seg) (N A w : Z).
Context (HA : N - 2147483648 < A - 1) (HB : A + zlen (g_data g) + 1 < N + 2147483648) (Hw : 0 <= w < 2147483648).
Definition Q (t t' : tcp) (v : ev) : Prop := Rnone (K t) t' v \/ exists c, Trim N A w g c /\ RX e g c t t' v.
Definition pre (t : tcp) : Prop := synchronized t /\ rnxt t = seqno N /\ (g_furg g = false \/ oobinline t = true).
Lemma Q_keep t t1 t' v : keep t t1 -> Q t1 t' v -> Q t t' v.
Proof.
  intros Hk [H|(c & H1 & H2)].
  - left. destruct Hk as [<- _]. exact H.
  - right. exists c. split; [exact H1|]. eapply RX_keep; eauto.
Qed.
Lemma pre_keep t t1 : keep t t1 -> pre t -> pre t1.
Proof.
  intros [HK HS] (P1 & P2 & P3). destruct (K_fields _ _ HK) as (F1 & _ & _ & _ & _ & F6). unfold pre, synchronized. rewrite HS, F1, F6. auto.
Qed.
Lemma urg_of t c : pre t -> (c_urg c = true -> g_furg g = true) -> c_urg c = false \/ oobinline t = true.
Proof. intros (_ & _ & P) H. destruct (c_urg c); [|left; reflexivity]. rewrite (H eq_refl) in P. destruct P; [discriminate|right; assumption]. Qed.
Lemma ts_syn_Q tw c t : pre t -> (c_urg c = true -> g_furg g = true) -> (c_syn c = false -> Trim N A w g c) ->
  wlp (ts_syn e out tw g c t) (Q t).
Proof.
  intros P Hu HT. eapply wlp_mono; [apply (ts_syn_rx out Ho); [apply P|apply urg_of; auto]|].
  intros t' v H. destruct (c_syn c) eqn:ES; [left; exact H|]. right. exists c. auto.
Qed.
Lemma daa_Q c t : wlp (dropafterack out g c t) (Q t).
Proof.
  unfold dropafterack. apply wlp_if; intros _; apply wlp_ret; left; apply Rnone_K; auto. left. rewrite (K_out out Ho). reflexivity.
Qed.
Lemma trim_tail_Q tw c t : pre t -> rcv_wnd t = w -> PreT N A g c -> wlp (trim_tail e out tw g c t) (Q t).
Proof.
  intros P Hwn (a & Ha & Hd & Hs & Hc & Hf & Hu). unfold trim_tail. cbv zeta.
  set (sy := if c_syn c then 1 else 0) in *. assert (Hsy : 0 <= sy <= 1) by (subst sy; destruct (c_syn c); lia).
  assert (HL : zlen (c_data c) = zlen (g_data g) - a) by (rewrite Hd; apply skipn_zlen; exact Ha).
  assert (HX : u32 (c_seq c + zlen (c_data c) - (rnxt t + rcv_wnd t)) = u32 (A + a - sy + zlen (c_data c) - (N + w))).
  { destruct P as (_ & P2 & _). rewrite Hwn, P2, Hs. unfold u32, seqno.
    replace ((A + a - sy) mod 4294967296 + zlen (c_data c) - (N mod 4294967296 + w)) with (((A + a - sy) mod 4294967296 + (zlen (c_data c) - w)) - N mod 4294967296) by ring.
    rewrite Zminus_mod_idemp_r, <- Zminus_mod_idemp_l, Zplus_mod_idemp_l, Zminus_mod_idemp_l. f_equal. lia. }
  rewrite HX. set (td := A + a - sy + zlen (c_data c) - (N + w)) in *.
  assert (HD : zlen (c_data c) = 0 /\ c_fin c = false \/ carries c).
  { unfold carries. destruct (Z.eq_dec (zlen (c_data c)) 0); [|right; left; auto]. destruct (c_fin c); [right; right; reflexivity|left; auto]. }
  destruct HD as [(HD1 & HD2)|HD].
  { (* nothing left: nothing to trim *)
    assert (T0 : forall c', c_data c' = [] -> c_fin c' = false -> c_seq c' = c_seq c -> c_syn c' = c_syn c -> (c_syn c' = false -> Trim N A w g c')).
    { intros c' D F S Y1 Y. rewrite Y1 in Y. exists a, 0. split; [exact Ha|]. split; [lia|]. split; [cbn; exact D|]. split.
      { rewrite S, Hs. f_equal. subst sy. rewrite Y. lia. }
      assert (NC : ~ carries c') by (intros [X|X]; [rewrite D in X; elim X; reflexivity|congruence]).
      split; [tauto|]. split; [intros _; split; [exact F|tauto]|congruence]. }
    assert (D0 : c_data c = []) by (unfold zlen in HD1; destruct (c_data c); [reflexivity|cbn in HD1; lia]).
    apply wlp_if; intros E1.
    - apply wlp_if; intros E2.
      + apply wlp_if; intros E3; [|apply daa_Q].
        eapply wlp_mono; [apply ts_syn_Q|]. { eapply pre_keep; [|exact P]. split; reflexivity. } { exact Hu. }
        { apply T0; try reflexivity. cbn [c_data]. rewrite D0. apply firstn_nil. }
        intros t' v H. eapply Q_keep; [|exact H]. split; reflexivity.
      + apply ts_syn_Q; auto. apply T0; try reflexivity. cbn [c_data]. rewrite D0. apply firstn_nil.
    - apply ts_syn_Q; auto. }
  destruct (Hc HD) as (Hc1 & Hc2).
  assert (HT : s32 (u32 td) = td). { apply s32_small. subst td. lia. }
  rewrite HT. pose proof (zlen_nonneg (c_data c)) as HP.
  apply wlp_if; intros E1.
  - apply wlp_if; intros E2.
    + apply wlp_if; intros E3; [|apply daa_Q].
      eapply wlp_mono; [apply ts_syn_Q|]. { eapply pre_keep; [|exact P]. split; reflexivity. } { exact Hu. }
      { cbn [c_syn]. intros Y. exists a, 0. cbn [c_data c_seq c_fin]. split; [exact Ha|]. split; [lia|]. split.
        { replace (Z.to_nat (zlen (c_data c) - td)) with 0%nat by lia. reflexivity. }
        split. { rewrite Hs. f_equal. subst sy. rewrite Y. lia. }
        match goal with |- (?q -> _) /\ _ => assert (NC : ~ q) end.
        { intros [X|X]; cbn [c_data c_fin] in X; [|discriminate]. replace (Z.to_nat (zlen (c_data c) - td)) with 0%nat in X by lia. elim X; reflexivity. }
        split; [tauto|]. split; [tauto|discriminate]. }
      intros t' v H. eapply Q_keep; [|exact H]. split; reflexivity.
    + apply ts_syn_Q; auto. cbn [c_syn]. intros Y. assert (sy = 0) by (subst sy; rewrite Y; reflexivity).
      exists a, (zlen (c_data c) - td). cbn [c_data c_seq c_fin]. split; [exact Ha|]. split; [subst td; lia|]. split; [rewrite <- Hd; reflexivity|].
      split; [rewrite Hs; f_equal; lia|]. split. { intros _. split; [exact Hc1|]. split; [exact Hc2|]. subst td. lia. }
      split; [intros _; split; [reflexivity|intros _; subst td; lia]|discriminate].
  - apply ts_syn_Q; auto. intros Y. assert (sy = 0) by (subst sy; rewrite Y; reflexivity).
    exists a, (zlen (c_data c)). split; [exact Ha|]. split; [lia|]. split; [rewrite <- Hd; unfold zlen; rewrite Nat2Z.id, firstn_all; reflexivity|].
    split; [rewrite Hs; f_equal; lia|]. split. { intros _. split; [exact Hc1|]. split; [exact Hc2|]. subst td. lia. }
    split; [|exact Hf]. intros X. lia.
Qed.
Lemma after_close_Q tw c t : pre t -> rcv_wnd t = w -> PreT N A g c -> wlp (after_close e out tw g c t) (Q t).
Proof.
  intros P Hwn HT. unfold after_close. apply wlp_if; intros _; [|apply trim_tail_Q; auto].
  apply wlp_ret. left. unfold Rnone, K. cbn. auto 10.
Qed.
Definition start : cur := mkCur (g_seq g) (g_urp g) (g_fsyn g) (g_ffin g) (g_furg g) (g_data g).
Context (Hseq : g_seq g = seqno (A - (if g_fsyn g then 1 else 0))).
Lemma strip_start : let c := strip_syn start in
  c_data c = g_data g /\ c_seq c = seqno A /\ c_syn c = false /\ c_fin c = g_ffin g /\ (c_urg c = true -> g_furg g = true).
Proof.
  cbv zeta. unfold strip_syn, start. cbn [c_syn]. destruct (g_fsyn g) eqn:E; cbn [c_data c_seq c_syn c_fin c_urg]; rewrite Hseq.
  - split; [reflexivity|]. split; [rewrite seqno_add; f_equal; lia|]. split; [reflexivity|]. split; [reflexivity|]. intros H. apply andb_prop in H. apply H.
  - split; [reflexivity|]. split; [f_equal; lia|]. auto.
Qed.
Lemma trim_head_Q tw t : pre t -> rcv_wnd t = w -> wlp (trim_head e out tw g start t) (Q t).
Proof.
  intros P Hwn. unfold trim_head. cbv zeta. set (sy := if g_fsyn g then 1 else 0) in *. assert (Hsy : 0 <= sy <= 1) by (subst sy; destruct (g_fsyn g); lia).
  pose proof (zlen_nonneg (g_data g)) as HP.
  assert (HX : s32 (u32 (rnxt t - c_seq start)) = N - (A - sy)).
  { destruct P as (_ & P2 & _). unfold start. cbn [c_seq]. rewrite P2, Hseq. rewrite (u32_sub_seq _ N) by (unfold u32, seqno; rewrite Z.mod_mod by lia; reflexivity).
    apply s32_small. lia. }
  rewrite HX. change (c_syn start) with (g_fsyn g).
  replace (if g_fsyn g then N - (A - sy) - 1 else N - (A - sy)) with (N - A) by (subst sy; destruct (g_fsyn g); lia).
  destruct strip_start as (S1 & S2 & S3 & S4 & S5). set (c1 := strip_syn start) in *. clearbody c1. rewrite S1, S4.
  apply wlp_if; intros E1.
  - apply wlp_if; intros E2.
    + eapply wlp_mono; [apply after_close_Q|].
      { eapply pre_keep; [|exact P]. split; reflexivity. } { exact Hwn. }
      { exists (zlen (g_data g)). unfold cut_head. cbn [c_data c_seq c_syn c_fin c_urg]. rewrite S1, S2, S3. split; [lia|]. split; [reflexivity|].
        split; [rewrite seqno_add; f_equal; lia|]. split. { intros [X|X]; cbn [c_data c_fin] in X; [|discriminate]. rewrite skipn_zlen in X by lia. lia. }
        split; [discriminate|]. intros X. apply andb_prop in X. apply S5, X. }
      intros t' v H. eapply Q_keep; [|exact H]. split; reflexivity.
    + apply after_close_Q; auto. apply orb_false_elim in E2. destruct E2 as [E2 E3].
      exists (N - A). unfold cut_head. cbn [c_data c_seq c_syn c_fin c_urg]. rewrite S1, S2, S3. split; [lia|]. split; [reflexivity|].
      split; [rewrite seqno_add; f_equal; lia|]. split; [lia|]. split; [auto|]. intros X. apply andb_prop in X. apply S5, X.
  - apply after_close_Q; auto. exists 0. unfold start. cbn [c_data c_seq c_syn c_fin c_urg]. fold sy. split; [lia|]. split; [reflexivity|].
    split; [rewrite Hseq; f_equal; lia|]. split; [|auto]. intros _. split; [|auto]. lia.
Qed.
Lemma slow_Q tw t : pre t -> w = window e t -> wlp (slow e out tw g t) (Q t).
Proof.
  intros P Hwn. unfold slow. cbv zeta. fold start.
  assert (Hwn2 : Z.max (if e_space e <? 0 then 0 else e_space e) (s32 (u32 (rcv_adv t - rnxt t))) = w).
  { rewrite Hwn. unfold window, dist. f_equal. destruct (Z.ltb_spec (e_space e) 0); lia. }
  rewrite Hwn2. set (t1 := set_rcv_wnd w t). assert (Hk : keep t t1) by (split; reflexivity).
  assert (P1 : pre t1) by (eapply pre_keep; eauto). assert (W1 : rcv_wnd t1 = w) by reflexivity. clearbody t1.
  cut (wlp (if (t_state t1 =? SYN_RECEIVED) && g_fack g && (SEQ_LEQ (g_ack g) (snd_una t1) || SEQ_GT (g_ack g) (snd_max t1)) then dropwithreset g start t1
    else if t_state t1 =? SYN_SENT then syn_sent e out tw g start t1 else if g_frst g then do_rst e g start t1 else paws e out tw g start t1) (Q t1)).
  { intros H. eapply wlp_mono; [exact H|]. intros t' v. apply Q_keep, Hk. }
  assert (N1 : forall t2 v, rx t2 = rx t1 -> v_out v = [] -> v_eof v = false -> Q t1 t2 v).
  { intros t2 v H ? ?. left. unfold rx in H. injection H as ? ? ? ?. unfold Rnone, K. cbn. auto 10. }
  apply wlp_if; intros E1; [apply wlp_ret, N1; reflexivity|].
  apply wlp_if; intros E2; [destruct P1 as (P1 & _); unfold synchronized, SYN_SENT, SYN_RECEIVED in *; lia|].
  apply wlp_if; intros E3.
  { unfold do_rst. cbv zeta. repeat (apply wlp_if; intros _); apply wlp_ret, N1; reflexivity. }
  assert (LC : forall t2, keep t1 t2 -> rcv_wnd t2 = rcv_wnd t1 -> wlp (land_check e out tw g start t2) (Q t1)).
  { intros t2 Hk2 Hr. unfold land_check. eapply wlp_mono; [|intros t' v; apply Q_keep, Hk2].
    apply wlp_if; intros _. { apply wlp_ret. left. apply Rnone_K; auto. }
    apply trim_head_Q; [eapply pre_keep; eauto|congruence]. }
  unfold paws. destruct (o_ts _) as [[tsv tse]|]; [|apply LC; [apply keep_refl|reflexivity]].
  apply wlp_if; intros _; [|apply LC; [apply keep_refl|reflexivity]].
  apply wlp_if; intros _; [apply LC; [split; reflexivity|reflexivity]|].
  apply wlp_if; intros _; [apply daa_Q|apply wlp_ret, N1; reflexivity].
Qed.
Lemma do_segment_Q t : pre t -> w = window e t -> e_space e <= window e t -> wlp (do_segment e out g t) (Q t).
Proof.
  intros P Hwn Hsp. unfold do_segment, predict.
  replace (t_state t =? SYN_SENT) with false by (destruct P as (P & _); unfold synchronized, SYN_SENT, SYN_RECEIVED in *; lia). cbn [andb].
  set (tw := Z.shiftl _ _). apply wlp_if; intros E1; [apply slow_Q; auto|]. cbv zeta.
  pose proof (keep_pts e g t) as Hk.
  assert (HW : window e (pred_ts e g t) = window e t) by (unfold pred_ts; destruct (o_ts _) as [[? ?]|]; [destruct (SEQ_LEQ _ _)|]; reflexivity).
  assert (SL : wlp (slow e out tw g (pred_ts e g t)) (Q t)).
  { eapply wlp_mono; [apply slow_Q; [eapply pre_keep; eauto|congruence]|]. intros t' v. apply Q_keep, Hk. }
  unfold pred_cond in E1. apply negb_false_iff in E1. rewrite !andb_true_iff in E1.
  destruct E1 as (((((((((((((E0 & E2) & Esyn) & Efin) & E5) & E6) & E7) & E8) & E9) & E10) & E11) & E12) & Eq) & _).
  assert (Hp := pre_keep _ _ Hk P).
  apply wlp_if; intros F1.
  - apply wlp_if; intros F2; [|exact SL]. apply wlp_if; intros F3; [apply wlp_ub|].
    apply wlp_ret. left. apply Rnone_K; auto. left.
    assert (Hk2 : keep (pred_ts e g t) (pred_ack out g (pred_ts e g t))).
    { unfold pred_ack. cbv zeta. eapply keep_trans; [|apply keep_cdel].
      match goal with |- keep ?t0 (if _ then ?a else _) => assert (X : keep t0 a) by kp end.
      destruct (snd_cc _ =? 0); [exact X|]. eapply keep_trans; [exact X|apply (keep_out out Ho)]. }
    destruct Hk2 as [X _], Hk as [Y _]. congruence.
  - apply wlp_if; intros F2; [|exact SL]. apply wlp_ret. right. exists start.
    assert (D1 : zlen (g_data g) <= e_space e) by (apply andb_prop in F2; lia).
    assert (Hsyn : g_fsyn g = false) by (destruct (g_fsyn g); [discriminate|reflexivity]).
    assert (Hfin : g_ffin g = false) by (destruct (g_ffin g); [discriminate|reflexivity]).
    rewrite Hsyn in Hseq. rewrite Z.sub_0_r in Hseq.
    assert (HN : A = N). { destruct P as (_ & P2 & _). assert (X : seqno A = seqno N) by (rewrite <- Hseq, <- P2; lia).
      destruct (Z_le_dec N A); [|symmetry].
      - pose proof (seqno_eq A N ltac:(pose proof (zlen_nonneg (g_data g)); lia)) as Y. rewrite X, Z.eqb_refl in Y. lia.
      - pose proof (seqno_eq N A ltac:(pose proof (zlen_nonneg (g_data g)); lia)) as Y. rewrite X, Z.eqb_refl in Y. lia. }
    split.
    { exists 0, (zlen (g_data g)). pose proof (zlen_nonneg (g_data g)). split; [lia|]. split; [lia|]. unfold start. cbn [c_data c_seq c_fin].
      split; [cbn [Z.to_nat skipn]; unfold zlen; rewrite Nat2Z.id, firstn_all; reflexivity|]. split; [rewrite Hseq; f_equal; lia|].
      split; [intros _; lia|]. split; [lia|auto]. }
    left. right. destruct (K_fields _ _ (proj1 Hk)) as (G1 & G2 & G3 & G4 & G5 & G6). unfold Rdata, start. cbn [c_data c_seq c_fin].
    split; [left; lia|]. split; [exact D1|].
    destruct (tsegq t) eqn:Esq; [|discriminate].
    assert (Eest : HAVEESTABLISHED (t_state t) = true) by (unfold HAVEESTABLISHED; lia).
    unfold K. cbn [k_nxt k_q k_len k_cant k_est]. rewrite Esq, Eest. unfold tcp_data. cbn [segq rcv_nxt estab i_seq].
    rewrite E2. cbn [andb]. eexists _, _. split; [reflexivity|]. cbn [te_out te_ret rcv_nxt segq segqlen i_fin i_len i_uid i_seq i_data v_out v_eof].
    rewrite Hfin, G4, orb_false_r. split; [reflexivity|]. split; [reflexivity|].
    set (tp := pred_ts e g t) in *.
    assert (Hk3 : keep (set_rnxt (u32 (rnxt tp + zlen (g_data g))) tp) (pred_data e out g tp)).
    { unfold pred_data. cbv zeta. eapply keep_trans; [|apply keep_cdel]. destruct (e_delayack e); [split; reflexivity|].
      eapply keep_trans; [|apply (keep_out out Ho)]. split; reflexivity. }
    destruct (K_fields _ _ (proj1 Hk3)) as (H1 & H2 & H3 & H4 & _). rewrite H1, H2, H3, H4. cbn. rewrite G1. auto.
Qed.
End Rx.
