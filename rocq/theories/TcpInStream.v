From Verif Require Import Base TcpSeqModel TcpOptModel TcpReassModel TcpReassSpec TcpReassProof TcpReassRun TcpReassProps TcpInModel TcpInSpec TcpInProof TcpInRx TcpInTx.
Ltac Zify.zify_post_hook ::= idtac.

(* segments that carry the FIN end at F *)
Definition fins (F : Z) (X : Prop) (q : list tseg) : Prop := Forall (fun s => s_fin s = true -> u32 (s_seq s + s_len s) = seqno F /\ X) q.
Lemma u32_idem x y : u32 (u32 x + y) = u32 (x + y).
Proof. unfold u32. apply Zplus_mod_idemp_l. Qed.
Lemma present_fins F X : forall q n n' q' o fl, fins F X q -> present_loop n q = (n', q', o, fl) -> fins F X q' /\ (fl = true -> n' = seqno F /\ X).
Proof.
  induction q as [|s q IH]; intros n n' q' o fl H E; cbn [present_loop] in E.
  - injection E as <- <- <- <-. split; [constructor|discriminate].
  - destruct (Z.eqb_spec (s_seq s) n) as [E1|E1].
    + destruct (present_loop (u32 (n + s_len s)) q) as [[[m r] o'] f'] eqn:EP. injection E as <- <- <- <-.
      inversion H as [|x y H1 H2]; subst. destruct (IH _ _ _ _ _ H2 EP) as [I1 I2]. split; [exact I1|].
      destruct o' as [|x o'].
      * intros Hf. destruct (H1 Hf) as [H3 H4]. split; [|exact H4]. rewrite <- H3.
        assert (m = u32 (s_seq s + s_len s)); [|congruence].
        destruct q as [|s2 q]; cbn [present_loop] in EP; [congruence|]. destruct (s_seq s2 =? _); [|congruence].
        destruct (present_loop _ q) as [[[? ?] ?] ?]. discriminate.
      * intros Hf. apply I2, Hf.
    + injection E as <- <- <- <-. split; [exact H|discriminate].
Qed.
Lemma trim_fins F X e : forall q q' n fd, fins F X q -> trim_succ e q = (q', n, fd) -> fins F X q'.
Proof.
  induction q as [|s q IH]; intros q' n fd H E; cbn [trim_succ] in E; [injection E as <- <- <-; constructor|].
  inversion H as [|x y H1 H2]; subst. destruct (_ <=? 0); [injection E as <- <- <-; exact H|].
  destruct (_ <? s_len s).
  - injection E as <- <- <-. constructor; [|exact H2]. cbn [s_fin s_seq s_len]. intros Hf. destruct (H1 Hf) as [H3 H4]. split; [|exact H4]. rewrite u32_idem, <- H3. f_equal. lia.
  - destruct (trim_succ e q) as [[q1 n1] f1] eqn:ET. injection E as <- <- <-. eapply IH; eauto.
Qed.
Lemma split_fins F X s : forall q a b, fins F X q -> split_at s q = (a, b) -> fins F X a /\ fins F X b.
Proof.
  induction q as [|x q IH]; intros a b H E; cbn [split_at] in E; [injection E as <- <-; split; constructor|].
  inversion H as [|? ? H1 H2]; subst. destruct (SEQ_GT _ _); [injection E as <- <-; split; [constructor|exact H]|].
  destruct (split_at s q) as [a1 b1] eqn:ES. injection E as <- <-. destruct (IH _ _ H2 eq_refl). split; [constructor; auto|auto].
Qed.
Lemma present_fins2 F X cr st fd al zf tl st' te : fins F X (segq st) -> present cr st fd al zf tl = (st', te) ->
  fins F X (segq st') /\ (te_ret te = true -> rcv_nxt st' = seqno F /\ X).
Proof.
  intros H E. unfold present in E. destruct (estab st); cbn [negb] in E; [|injection E as <- <-; split; [exact H|discriminate]].
  destruct (present_loop _ _) as [[[n q] o] fl] eqn:EP. injection E as <- <-. cbn [segq te_ret rcv_nxt]. eapply present_fins; eauto.
Qed.
Lemma data_fins F X hw ms al cr st g st' te : fins F X (segq st) -> (i_fin g = true -> u32 (i_seq g + i_len g) = seqno F /\ X) ->
  tcp_data hw ms al cr st g = Ret (st', te) -> fins F X (segq st') /\ (te_ret te = true -> rcv_nxt st' = seqno F /\ X).
Proof.
  intros H Hg E.
  assert (R : tcp_reass hw ms al cr st (Some g) = Ret (st', te) -> fins F X (segq st') /\ (te_ret te = true -> rcv_nxt st' = seqno F /\ X)).
  { clear E. unfold tcp_reass. destruct (ms =? 0); [discriminate|].
    destruct (_ && _) eqn:E1; [intros E; injection E as <- <-; split; [exact H|discriminate]|].
    destruct (negb al && _) eqn:E2; [intros E; injection E as <- <-; split; [exact H|discriminate]|].
    destruct (split_at _ _) as [a b] eqn:ES. destruct (split_fins F X _ _ _ _ H ES) as [Fa Fb].
    set (i := match rev a with [] => 0 | _ => _ end).
    destruct ((i >? 0) && (i >=? i_len g)) eqn:E3.
    - intros E. injection E as E. eapply (present_fins2 F X); [|exact E]. exact H.
    - destruct (trim_succ _ b) as [[b' n] fd] eqn:ET. intros E. injection E as E. eapply (present_fins2 F X); [|exact E]. cbn [segq].
      apply Forall_app. split; [exact Fa|]. constructor; [|eapply trim_fins; eauto]. cbn [s_fin s_seq s_len]. intros Hf. destruct (Hg Hf) as [H3 H4]. split; [|exact H4]. rewrite <- H3.
      destruct (i >? 0); [rewrite u32_idem; f_equal; lia|reflexivity]. }
  unfold tcp_data in E. destruct (segq st) eqn:EQ; [|apply R, E]. destruct ((i_seq g =? rcv_nxt st) && estab st) eqn:E1; [|apply R, E].
  injection E as <- <-. cbn [segq te_ret rcv_nxt]. split; [constructor|]. intros Hf. destruct (Hg Hf) as [H3 H4]. split; [|exact H4]. rewrite <- H3. f_equal. apply andb_prop in E1. lia.
Qed.

Lemma data_estab hw ms al cr st g st' te : tcp_data hw ms al cr st g = Ret (st', te) -> estab st' = estab st.
Proof.
  assert (P : forall st0 fd a z l, estab (fst (present cr st0 fd a z l)) = estab st0).
  { intros. unfold present. destruct (estab st0) eqn:E; cbn [negb]; [|exact E]. destruct (present_loop _ _) as [[[? ?] ?] ?]. reflexivity. }
  assert (R : tcp_reass hw ms al cr st (Some g) = Ret (st', te) -> estab st' = estab st).
  { unfold tcp_reass. destruct (ms =? 0); [discriminate|]. destruct (_ && _); [intros E; injection E as <- <-; reflexivity|].
    destruct (_ && _); [intros E; injection E as <- <-; reflexivity|]. destruct (split_at _ _) as [a b]. destruct (_ && _).
    - intros E. injection E as E. match type of E with present ?a ?b ?c ?d ?e ?f = _ => pose proof (P b c d e f) as X end. rewrite E in X. exact X.
    - destruct (trim_succ _ b) as [[b' n] fd]. intros E. injection E as E. match type of E with present ?a ?b ?c ?d ?e ?f = _ => pose proof (P b c d e f) as X end. rewrite E in X. exact X. }
  unfold tcp_data. destruct (segq st); [|exact R]. destruct (_ && _); [|exact R]. intros E. injection E as <- <-. reflexivity.
Qed.

Section Stream.
Context (out : tcp -> tcp) (Ho : output_ok out) (f : Z -> Z) (n0 F : Z).
Definition BB (x b : Z) : Prop := b = f x /\ x < F.
Definition I0 (t : tcp) (N : Z) (d : list Z) : Prop :=
  exists est acc drp es, conn BB n0 est acc drp (rview t) N es /\ delivered es = d /\ fins F (F < N + 2147483648) (tsegq t).
Definition I1 (t : tcp) (N : Z) (d : list Z) (b : bool) : Prop :=
  d = stream_from f n0 (if b then F - n0 else N - n0) /\ n0 <= N /\ (b = true -> N = F + 1 /\ n0 <= F) /\
  (synchronized t -> rnxt t = seqno N) /\ (synchronized t -> b = false -> I0 t N d) /\ (synchronized t -> b = true -> HAVEESTABLISHED (t_state t) = true).

Lemma conn_facts est acc drp st N es : conn BB n0 est acc drp st N es ->
  n0 <= N /\ delivered es = stream_from f n0 (N - n0) /\ rcv_nxt st = seqno N /\ (n0 < N -> N <= F).
Proof.
  intros C. destruct (conn_inv _ _ _ _ _ _ _ _ C) as (J1 & J2 & J3 & _). split; [lia|].
  assert (A : at_pos (fun x b => b = f x) n0 (delivered es)) by (intros i b Hb; apply (J3 i b Hb)).
  split; [rewrite (at_pos_stream f n0 _ A) at 1; f_equal; lia|]. split; [exact (iv_nxt _ _ _ _ J1)|].
  intros L. destruct (nth_error (delivered es) (Z.to_nat (N - n0 - 1))) as [b|] eqn:E.
  - destruct (J3 _ _ E) as [_ X]. lia.
  - apply nth_error_None in E. lia.
Qed.
Lemma nth_stream A n i b : nth_error (stream_from f A n) i = Some b -> b = f (A + Z.of_nat i) /\ Z.of_nat i < n.
Proof.
  unfold stream_from. rewrite nth_error_map. destruct (nth_error (List.seq 0 (Z.to_nat n)) i) as [k|] eqn:EK; [|discriminate]. intros H. injection H as <-.
  assert (Hi : (i < length (List.seq 0 (Z.to_nat n)))%nat) by (apply nth_error_Some; congruence).
  pose proof (nth_error_nth _ _ 0%nat EK) as X. rewrite seq_length in Hi. rewrite seq_nth in X by exact Hi. subst k. split; [reflexivity|lia].
Qed.
Lemma nth_firstn {X} (l : list X) n i b : nth_error (firstn n l) i = Some b -> nth_error l i = Some b.
Proof. revert l i. induction n as [|n IH]; intros [|x l] [|i] H; cbn in *; try discriminate; auto. Qed.
Lemma nth_skipn {X} (l : list X) n i : nth_error (skipn n l) i = nth_error l (n + i).
Proof. revert l. induction n as [|n IH]; intros l; [reflexivity|]. destruct l; cbn; [destruct i; reflexivity|apply IH]. Qed.

(* a data step of the connection *)
Lemma data_conn e g c k est acc drp es N A t t' v :
  conn BB n0 est acc drp (mkTcb (k_nxt k) (k_q k) (k_len k) (k_est k)) N es -> fins F (F < N + 2147483648) (k_q k) ->
  segment_of f F N A e t g -> Trim N A (window e t) g c -> Rdata e g c k t' v ->
  exists acc' drp' es' r te, conn BB n0 est acc' drp' r (N + Z.of_nat (length (ev_bytes v))) es' /\ delivered es' = delivered es ++ ev_bytes v /\ fins F (F < N + 2147483648) (segq r) /\
    tsegq t' = segq r /\ tsegqlen t' = segqlen r /\ estab r = k_est k /\
    rnxt t' = (if v_eof v then u32 (rcv_nxt r + 1) else rcv_nxt r) /\ (v_eof v = true -> N + Z.of_nat (length (ev_bytes v)) = F) /\ v_eof v = te_ret te.
Proof.
  intros C Hf SO (a & n & Ha & Hn & Hd & Hs & Hc & Hcf & Hcg) (R0 & R1 & r & te & R2 & R3 & R4 & R5 & R6 & R7 & R8).
  destruct SO as [SQ SD SE SF SL SH SU (SV1 & SV2 & SV3) SW]. fold (zlen (g_data g)) in *. destruct (Hc R0) as (Hc1 & Hc2 & Hc3).
  assert (SE2 : A + zlen (g_data g) <= F) by (destruct R0 as [R0|R0]; [apply SE; intros X; rewrite X, skipn_nil, firstn_nil in Hd; rewrite Hd in R0; cbn in R0; lia|destruct (SF (Hcg R0)); lia]).
  clear SE. rename SE2 into SE.
  assert (HL : zlen (c_data c) = n). { rewrite Hd. apply firstn_zlen. rewrite skipn_zlen; lia. }
  assert (W : window e t < 2147483648). { unfold window. assert (dist (rcv_adv t) (rnxt t) < 2147483648); [|lia]. unfold dist, s32.
    destruct (Z.ltb_spec (u32 (rcv_adv t - rnxt t) mod 4294967296) 2147483648); [lia|]. pose proof (Z.mod_pos_bound (u32 (rcv_adv t - rnxt t)) 4294967296). lia. }
  set (i := mkIn (g_uid g) (c_seq c) (zlen (c_data c)) (g_ffin g) (c_data c)) in *.
  assert (AC : acceptable N (A + a) i).
  { unfold acceptable, i. cbn [i_seq i_len i_data]. rewrite HL. split; [exact Hs|]. split; [exact Hc1|]. split; [lia|]. rewrite <- HL. reflexivity. }
  assert (AP : at_pos BB (A + a) (i_data i)).
  { intros j b Hj. cbn [i i_data] in Hj. rewrite Hd in Hj. apply nth_firstn in Hj. rewrite nth_skipn, SD in Hj. apply nth_stream in Hj. fold (zlen (g_data g)) in Hj.
    destruct Hj as [-> Hj]. split; [f_equal; lia|lia]. }
  pose proof (conn_data BB n0 est acc drp _ N es (A + a) i _ _ _ _ _ _ C AC AP SV1 SV2 R2) as C2.
  assert (EB : ev_bytes v = bytes_of te) by (unfold ev_bytes, bytes_of; rewrite R3; reflexivity).
  assert (NB : nbytes te = Z.of_nat (length (ev_bytes v))) by (unfold nbytes; rewrite EB; reflexivity). rewrite NB in C2.
  assert (FI : i_fin i = true -> u32 (i_seq i + i_len i) = seqno F /\ F < N + 2147483648).
  { cbn [i i_fin i_seq i_len]. intros X. destruct (SF X) as [SF1 SF2]. split; [|lia]. rewrite Hs, seqno_add, HL. f_equal.
    destruct (Z.eq_dec n (zlen (g_data g) - a)) as [E|E]; [lia|]. exfalso.
    destruct (Hcf ltac:(lia)) as [_ HE]. specialize (HE R0). lia. }
  destruct (data_fins F (F < N + 2147483648) _ _ _ _ (mkTcb (k_nxt k) (k_q k) (k_len k) (k_est k)) _ _ _ Hf FI R2) as [D1 D2].
  assert (EE : estab r = k_est k) by (apply (data_estab _ _ _ _ _ _ _ _ R2)).
  eexists _, _, _, r, te. split; [exact C2|]. split; [rewrite delivered_app, EB; reflexivity|].
  split; [exact D1|]. split; [exact R6|]. split; [exact R7|]. split; [exact EE|].
  rewrite R4. split; [exact R5|]. split; [|reflexivity].
  intros X. destruct (D2 X) as [D3 D4]. destruct (conn_facts _ _ _ _ _ _ C2) as (G1 & G2 & G3 & G4).
  assert (HNN : n0 <= N) by (destruct (conn_facts _ _ _ _ _ _ C) as (Y & _); exact Y).
  assert (HF : N + Z.of_nat (length (ev_bytes v)) <= F). { destruct (Z.eq_dec (N + Z.of_nat (length (ev_bytes v))) n0); [lia|apply G4; lia]. }
  pose proof (seqno_eq F (N + Z.of_nat (length (ev_bytes v))) ltac:(lia)) as Y. rewrite <- D3, G3, Z.eqb_refl in Y. lia.
Qed.

Lemma fins_mono (X Y : Prop) q : (X -> Y) -> fins F X q -> fins F Y q.
Proof. intros H. apply Forall_impl. intros s Hs Hf. destruct (Hs Hf). auto. Qed.
Lemma conn_estab est acc drp st N es : conn BB n0 est acc drp st N es -> conn BB n0 est acc drp (mkTcb (rcv_nxt st) (segq st) (segqlen st) true) N (es ++ [mkTE [] [] 0 0 false 0 false]).
Proof.
  intros C. pose proof (conn_est _ _ _ _ _ _ _ _ false false _ _ C eq_refl) as X. cbn in X. rewrite Z.add_0_r in X. exact X.
Qed.
Lemma delivered_nil es : delivered (es ++ [mkTE [] [] 0 0 false 0 false]) = delivered es.
Proof. rewrite delivered_app. apply app_nil_r. Qed.
(* re-establish the relation for the new control block *)
Lemma relate est acc drp r N es d t' : conn BB n0 est acc drp r N es -> delivered es = d -> fins F (F < N + 2147483648) (segq r) ->
  rnxt t' = rcv_nxt r -> tsegq t' = segq r -> tsegqlen t' = segqlen r -> (estab r = true -> HAVEESTABLISHED (t_state t') = true) -> I0 t' N d.
Proof.
  intros C D Hf H1 H2 H3 H4. unfold I0, rview. rewrite H1, H2, H3.
  destruct (HAVEESTABLISHED (t_state t')) eqn:E.
  - exists est, acc, drp, (es ++ [mkTE [] [] 0 0 false 0 false]). split; [apply conn_estab, C|]. split; [rewrite delivered_nil; exact D|exact Hf].
  - exists est, acc, drp, es. split; [|auto]. destruct (estab r) eqn:E2; [specialize (H4 eq_refl); discriminate|]. rewrite <- E2. destruct r; exact C.
Qed.
(* a connection past the handshake stays past it *)
Lemma stays_est e g t t' v : synchronized t -> HAVEESTABLISHED (t_state t) = true -> P2 e g t t' v -> synchronized t' -> HAVEESTABLISHED (t_state t') = true.
Proof.
  unfold HAVEESTABLISHED, synchronized. intros Hs He HP Hs'.
  assert (HC : t_state t' <> CLOSED) by (unfold CLOSED, SYN_RECEIVED in *; lia).
  destruct HP as [[_ [(_ & _ & [(_ & _ & X)|(_ & _ & _ & X)])|[((X & _) & _)|((X & _) & _)]]]|(_ & _ & _ & (X & _) & _)]; try congruence.
  - rewrite X. unfold after_fin, ESTABLISHED, SYN_RECEIVED, CLOSE_WAIT, FIN_WAIT_1, FIN_WAIT_2, CLOSING, TIME_WAIT in *.
    destruct (v_eof v); [|lia]. destruct (_ || _); [lia|]. destruct (_ =? 6); [lia|]. destruct (_ =? 9); lia.
  - rewrite X in *. unfold after_fin, after_ack, opened, ESTABLISHED, SYN_RECEIVED, CLOSE_WAIT, FIN_WAIT_1, FIN_WAIT_2, CLOSING, TIME_WAIT, LAST_ACK, CLOSED in *.
    clear X. generalize dependent (acked_now t g >? snd_cc t). intros fa H1 H2. generalize dependent (t_state t). intros s H3 H4 H1 H2.
    destruct (Z.eqb_spec s 3); [lia|].
    destruct fa; destruct (v_eof v); repeat match goal with |- context [if ?b then _ else _] => destruct b eqn:? end; try lia; repeat match goal with H : context [if ?b then _ else _] |- _ => destruct b eqn:? end; try lia.
Qed.
Lemma eof_est e g t t' v : P2 e g t t' v -> v_eof v = true -> synchronized t' -> HAVEESTABLISHED (t_state t') = true.
Proof.
  unfold HAVEESTABLISHED, synchronized. intros HP He Hs'.
  assert (HC : t_state t' <> CLOSED) by (unfold CLOSED, SYN_RECEIVED in *; lia).
  assert (G : forall s, t_state t' = after_fin s true -> t_state t' >=? ESTABLISHED = true).
  { intros s X. rewrite X in *. unfold after_fin, ESTABLISHED, SYN_RECEIVED, CLOSE_WAIT, FIN_WAIT_1, FIN_WAIT_2, CLOSING, TIME_WAIT in *.
    destruct (Z.eqb_spec s 3); [reflexivity|]. destruct (Z.eqb_spec s 4); [reflexivity|]. cbn [orb] in *. destruct (s =? 6); [lia|]. destruct (s =? 9); lia. }
  destruct HP as [[_ [(_ & _ & [(_ & _ & X)|(_ & _ & _ & X)])|[((X & _) & _)|((X & _) & _)]]]|(_ & _ & _ & (X & _) & _)]; try congruence; rewrite He in X; eapply G, X.
Qed.
Lemma est_fins X st cr call r te : fins F X (segq st) -> tstep st (Establish call cr) = Ret (r, te) -> fins F X (segq r) /\ estab r = true /\ (call = false -> te_out te = []).
Proof.
  intros H. cbn [tstep]. destruct call.
  - cbn [tcp_reass]. intros E. injection E as E. destruct (present_fins2 F X cr (mkTcb (rcv_nxt st) (segq st) (segqlen st) true) [] 0 0 0 r te H E) as [P1 _].
    split; [exact P1|]. split; [|discriminate]. unfold present in E. cbn [estab negb] in E. destruct (present_loop _ _) as [[[? ?] ?] ?]. injection E as <- <-. reflexivity.
  - intros E. injection E as <- <-. auto.
Qed.
Lemma seg_I1 t N d b e A g t' v : I1 t N d b -> synchronized t -> segment_of f F N A e t g -> do_segment e out g t = Ret (t', v) ->
  I1 t' (N + Z.of_nat (length (ev_bytes v)) + (if v_eof v then 1 else 0)) (d ++ ev_bytes v) (b || v_eof v).
Proof.
  intros (J1 & J2 & J3 & J4 & J5 & J6) Hs SO E.
  assert (SO2 := SO). destruct SO as [SQ SD SE SF SL SH SU (SV1 & SV2 & SV3) SW]. fold (zlen (g_data g)) in *.
  assert (W : 0 <= window e t < 2147483648). { unfold window. assert (dist (rcv_adv t) (rnxt t) < 2147483648); [|lia]. unfold dist, s32.
    destruct (Z.ltb_spec (u32 (rcv_adv t - rnxt t) mod 4294967296) 2147483648); [lia|]. pose proof (Z.mod_pos_bound (u32 (rcv_adv t - rnxt t)) 4294967296). lia. }
  pose proof (do_segment_Q out Ho e g N A (window e t) SL SH W SQ t ltac:(split; [exact Hs|]; split; [apply J4, Hs|exact SU]) eq_refl ltac:(unfold window; lia) t' v E) as HQ.
  pose proof (do_segment_P out Ho e g t Hs SW t' v E) as HP.
  assert (None_case : Rnone (K t) t' v -> I1 t' (N + Z.of_nat (length (ev_bytes v)) + (if v_eof v then 1 else 0)) (d ++ ev_bytes v) (b || v_eof v)).
  { unfold Rnone, K. cbn [k_nxt k_q k_len k_cant]. intros (R1 & R2 & R3 & R4 & R5 & R6). rewrite R6, orb_false_r. unfold ev_bytes. rewrite R5. cbn [map concat length Z.of_nat].
    rewrite app_nil_r, !Z.add_0_r. split; [exact J1|]. split; [exact J2|]. split; [exact J3|]. split; [intros _; rewrite R1; apply J4, Hs|].
    split; [|intros Hs' Hb; eapply (stays_est e g t t' v); auto].
    intros Hs' Hb. destruct (J5 Hs Hb) as (est & acc & drp & es & C & D & Fi).
    eapply (relate est acc drp (rview t) N es); [exact C|exact D|exact Fi|exact R1|exact R2|exact R3|]. cbn. intros X. eapply (stays_est e g t t' v); auto. }
  destruct b.
  { (* after the end of the stream: nothing any more *)
    destruct (J3 eq_refl) as [J7 J8]. specialize (J6 Hs eq_refl).
    destruct HQ as [HQ|(c & HT & HR)]; [apply None_case, HQ|].
    assert (NC : forall k t2 v2, ~ Rdata e g c k t2 v2).
    { intros k t2 v2 (R0 & _). destruct HT as (a & n & Ha & Hn & Hd & Hsq & Hc & _ & Hcg). destruct (Hc R0) as (Hc1 & _).
      assert (SE2 : A + zlen (g_data g) <= F) by (destruct R0 as [R0|R0]; [apply SE; intros X; rewrite X, skipn_nil, firstn_nil in Hd; rewrite Hd in R0; cbn in R0; lia|destruct (SF (Hcg R0)); lia]). lia. }
    destruct HR as [[HR|HR]|(call & r & te & v0 & R1 & _)]; [apply None_case, HR|elim (NC _ _ _ HR)|].
    rewrite R1 in J6. discriminate. }
  cbn [orb]. cbn in J1.
  destruct HQ as [HQ|(c & HT & HR)]; [apply None_case, HQ|].
  destruct (J5 Hs eq_refl) as (est & acc & drp & es & C & D & Fi).
  (* the state after: what the bytes are follows from the connection history *)
  assert (Fin : forall acc drp r es N', conn BB n0 est acc drp r N' es -> fins F (F < N' + 2147483648) (segq r) ->
     N' = N + Z.of_nat (length (ev_bytes v)) -> delivered es = d ++ ev_bytes v -> tsegq t' = segq r -> tsegqlen t' = segqlen r ->
     rnxt t' = (if v_eof v then u32 (rcv_nxt r + 1) else rcv_nxt r) -> (v_eof v = true -> N' = F) -> (estab r = true -> synchronized t' -> HAVEESTABLISHED (t_state t') = true) ->
     I1 t' (N + Z.of_nat (length (ev_bytes v)) + (if v_eof v then 1 else 0)) (d ++ ev_bytes v) (v_eof v)).
  { intros acc' drp' r es' N' C' F' EN ED G1 G2 G3 G4 G5. destruct (conn_facts _ _ _ _ _ _ C') as (H1 & H2 & H3 & H4). rewrite <- EN.
    destruct (v_eof v) eqn:EV.
    - specialize (G4 eq_refl). split; [rewrite <- ED, H2; f_equal; lia|]. split; [lia|]. split; [lia|]. split; [intros _; rewrite G3, H3, seqno_add; reflexivity|].
      split; [discriminate|]. intros Hs' _. eapply eof_est; eauto.
    - rewrite Z.add_0_r. split; [rewrite <- ED, H2; reflexivity|]. split; [exact H1|]. split; [discriminate|]. split; [intros _; rewrite G3; exact H3|].
      split; [|discriminate]. intros Hs' _. eapply relate; [exact C'|exact ED|exact F'|exact G3|exact G1|exact G2|auto]. }
  assert (FM : forall M q, N <= M -> fins F (F < N + 2147483648) q -> fins F (F < M + 2147483648) q) by (intros M q HM; apply fins_mono; lia).
  destruct HR as [[HR|HR]|(call & r & te & v0 & R1 & R2 & R3 & R4 & R5 & R6 & R7)]; [apply None_case, HR| |].
  - destruct (data_conn e g c (K t) est acc drp es N A t t' v C Fi SO2 HT HR) as (acc' & drp' & es' & r & te & C' & D' & F' & H1 & H2 & H3 & H4 & H5 & H6).
    eapply Fin; [exact C'|apply FM; [lia|exact F']|reflexivity|rewrite D', D; reflexivity|exact H1|exact H2|exact H4|exact H5|].
    intros X Hs'. rewrite H3 in X. eapply (stays_est e g t t' v); auto.
  - destruct (est_fins (F < N + 2147483648) (rview t) _ _ _ _ Fi R3) as (Fr & Er & Ec).
    pose proof (conn_est _ _ _ _ _ _ _ _ _ _ _ _ C R3) as C1.
    assert (EB : ev_bytes v = bytes_of te ++ ev_bytes v0) by (unfold ev_bytes, bytes_of; rewrite R5, map_app, concat_app; reflexivity).
    (* after the handshake the state is past it *)
    assert (PE : synchronized t' -> HAVEESTABLISHED (t_state t') = true).
    { intros X. unfold past, synchronized, HAVEESTABLISHED, CLOSED, SYN_RECEIVED, ESTABLISHED in *. lia. }
    destruct R4 as [R4|R4].
    + unfold Rnone, kest in R4. cbn [k_nxt k_q k_len k_cant] in R4. destruct R4 as (Q1 & Q2 & Q3 & Q4 & Q5 & Q6). rewrite Q6 in R6.
      assert (EB2 : ev_bytes v = bytes_of te) by (rewrite EB; unfold ev_bytes; rewrite Q5; apply app_nil_r).
      eapply Fin; [exact C1| |rewrite EB2; reflexivity|rewrite delivered_app, EB2, D; reflexivity|exact Q2|exact Q3|rewrite R6; exact Q1|rewrite R6; discriminate|auto].
      apply FM; [unfold nbytes; lia|exact Fr].
    + destruct call.
      { destruct (R2 eq_refl) as [X1 X2]. destruct R4 as ([Y|Y] & _); [lia|congruence]. }
      specialize (Ec eq_refl). assert (B0 : bytes_of te = []) by (unfold bytes_of; rewrite Ec; reflexivity).
      assert (N0 : nbytes te = 0) by (unfold nbytes; rewrite B0; reflexivity). rewrite N0, Z.add_0_r in C1. rewrite B0 in EB. cbn [app] in EB.
      destruct (data_conn e g c (kest r t) est acc drp (es ++ [te]) N A t t' v0) as (acc' & drp' & es' & r2 & te2 & C' & D' & F' & H1 & H2 & H3 & H4 & H5 & H6); auto.
      { unfold kest. cbn [k_nxt k_q k_len k_est]. destruct r. exact C1. }
      rewrite <- R6 in *. rewrite <- EB in *.
      eapply Fin; [exact C'|apply FM; [lia|exact F']|reflexivity|rewrite D', delivered_app, B0, D, app_nil_r; reflexivity|exact H1|exact H2|exact H4|exact H5|auto].
Qed.
End Stream.
