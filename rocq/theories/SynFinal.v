(* The statements behind C75-C77. *)
From Verif Require Import Base TcpSeqModel TcpOptModel SynModel SynSpec SynProof SynLook SynCookie.
Ltac Zify.zify_post_hook ::= idtac.

Lemma pcbcount_table : forall s, Inv s -> pcbcount s = Z.of_nat (length (table s)) /\ Z.of_nat (length (table s)) <= 30720.
Proof.
  intros s (R & _).
  assert (L : forall ns a, fold_left (fun a i => a + h_len (s_b s (Z.of_nat i))) ns a = a + Z.of_nat (length (flat_map (fun n => h_l (s_b s (Z.of_nat n))) ns))).
  { induction ns as [|n ns IH]; intro a; cbn [fold_left flat_map]; [simpl; lia|]. rewrite IH, app_length.
    rewrite (row_ok_len _ _ (R (Z.of_nat n))). lia. }
  assert (B : forall ns, (length (flat_map (fun n => h_l (s_b s (Z.of_nat n))) ns) <= 30 * length ns)%nat).
  { induction ns as [|n ns IH]; [simpl; lia|]. cbn [flat_map]. rewrite app_length. destruct (R (Z.of_nat n)) as (_ & N & _). cbn [length]. lia. }
  specialize (B (seq 0 1024)). rewrite seq_length in B. fold (table s) in B.
  assert (B' : Z.of_nat (length (table s)) <= 30720).
  { apply inj_le in B. rewrite Nat2Z.inj_mul in B. change (Z.of_nat 30 * Z.of_nat 1024) with 30720 in B. exact B. }
  split; [|exact B'].
  unfold pcbcount. rewrite L. fold (table s). rewrite Z.add_0_l. unfold s32. cbv zeta.
  rewrite Z.mod_small by lia. destruct (Z.ltb_spec (Z.of_nat (length (table s))) 2147483648); [reflexivity|lia].
Qed.

Lemma table_row : forall s x, Inv s -> In x (table s) <-> In x (row s (sc_inc x)).
Proof.
  intros s x (R & _). unfold table, row. rewrite in_flat_map. split.
  - intros (n & Hn & Hx). destruct (R (Z.of_nat n)) as (_ & _ & F). rewrite Forall_forall in F. destruct (F x Hx) as (_ & ->). exact Hx.
  - intro Hx. pose proof (bucket_range (sc_inc x)). exists (Z.to_nat (bucket (sc_inc x))). rewrite Z2Nat.id by lia. split; [apply in_seq; lia|auto].
Qed.
Lemma lookup_table : forall s i x, SInv s -> inc_ok i -> not_compat i -> lookup s i = Some x <-> In x (table s) /\ same_conn i (sc_inc x).
Proof.
  intros s i x S Hi Hn. rewrite look_iff by auto. pose proof S as (I & _). split; intros (A & B); split; auto.
  - apply table_row; auto. unfold row in *. rewrite <- (same_conn_bucket _ _ B). auto.
  - apply table_row in A; auto. unfold row in *. rewrite (same_conn_bucket _ _ B). auto.
Qed.

(* sequence arithmetic *)
Lemma dist_range : forall a b, 0 <= dist a b < 4294967296.
Proof. intros. apply Z.mod_pos_bound. lia. Qed.
Lemma seq_signed : forall a b, s32 (u32 (a - b)) = if dist b a <? 2147483648 then dist b a else dist b a - 4294967296.
Proof. intros. unfold s32, u32, dist. rewrite Z.mod_mod by lia. reflexivity. Qed.
Lemma dist_shift : forall irs q w, 0 <= w <= 65535 -> dist (u32 (irs + w)) q = (dist irs q - w) mod 4294967296.
Proof.
  intros. unfold dist, u32. rewrite Zminus_mod_idemp_r, Zminus_mod_idemp_l. f_equal. lia.
Qed.
Lemma window_new : forall irs q w, 0 <= w <= 65535 ->
  SEQ_LEQ q irs || SEQ_GT q (u32 (irs + w)) = false <-> 1 <= dist irs q <= w.
Proof.
  intros irs q w Hw. unfold SEQ_LEQ, SEQ_GT. rewrite !seq_signed, dist_shift by auto. pose proof (dist_range irs q) as D.
  rewrite orb_false_iff, Z.leb_gt, Z.gtb_ltb, Z.ltb_ge.
  set (d := dist irs q) in *. destruct (Z_lt_ge_dec d w).
  - rewrite <- (Z_mod_plus_full (d - w) 1). rewrite (Z.mod_small (d - w + 1 * 4294967296)) by lia.
    destruct (Z.ltb_spec d 2147483648); [|lia]. destruct (Z.ltb_spec (d - w + 1 * 4294967296) 2147483648); lia.
  - rewrite (Z.mod_small (d - w)) by lia. destruct (Z.ltb_spec d 2147483648), (Z.ltb_spec (d - w) 2147483648); lia.
Qed.
Lemma window_rst : forall irs q w, 0 <= w <= 65535 ->
  SEQ_GEQ q irs && SEQ_LEQ q (u32 (irs + w)) = true <-> dist irs q <= w.
Proof.
  intros irs q w Hw. unfold SEQ_LEQ, SEQ_GEQ. rewrite !seq_signed, dist_shift by auto. pose proof (dist_range irs q) as D.
  rewrite andb_true_iff, Z.geb_le, Z.leb_le.
  set (d := dist irs q) in *. destruct (Z_lt_ge_dec d w).
  - rewrite <- (Z_mod_plus_full (d - w) 1). rewrite (Z.mod_small (d - w + 1 * 4294967296)) by lia.
    destruct (Z.ltb_spec d 2147483648); [|lia]. destruct (Z.ltb_spec (d - w + 1 * 4294967296) 2147483648); lia.
  - rewrite (Z.mod_small (d - w)) by lia. destruct (Z.ltb_spec d 2147483648), (Z.ltb_spec (d - w) 2147483648); lia.
Qed.
Definition ts_agree (x : sc) (g : sseg) : Prop :=
  match o_ts (g_to g) with None => True | Some (_, tsecr) => f_tst x = true /\ tsecr = sc_ts x end.
Lemma valid_iff : forall x g, 0 <= sc_wnd x <= 65535 ->
  valid x g = true <-> g_ack g = u32 (sc_iss x + 1) /\ 1 <= dist (sc_irs x) (g_seq g) <= sc_wnd x /\ ts_agree x g.
Proof.
  intros x g Hw. unfold valid, ts_agree. rewrite !andb_true_iff, negb_true_iff, Z.eqb_eq, window_new by auto.
  destruct (o_ts (g_to g)) as [[v r]|]; [rewrite andb_true_iff, Z.eqb_eq|]; tauto.
Qed.

Definition pure_ack (g : sseg) : Prop := g_fack g = true /\ g_frst g = false /\ g_fsyn g = false.
Lemma ack_step : forall H c k e i g s, pure_ack g -> step H c (Seg k e i g) s = Ret (expand H c e i g s).
Proof. intros H c k e i g s (A & B & C). cbn [step]. unfold listen_input. rewrite A, B, C. reflexivity. Qed.

Lemma expand_entry : forall H c e i g s x, lookup s i = Some x -> exists s', expand H c e i g s = (s', finish e x g).
Proof.
  intros H c e i g s x L. apply lookup_take in L as (r & T). unfold row in T. unfold expand. rewrite T. eauto.
Qed.

(* own events *)
Lemma removed : forall s i x r, SInv s -> inc_ok i -> not_compat i -> take (matches i) (row s i) = Some (x, r) ->
  lookup (drop_row s (bucket i) r) i = None.
Proof.
  intros s i x r (I & Pn & D) Hi Hn T. destruct (take_row s i x r I Hi Hn T) as (l1 & l2 & E & -> & S & _).
  apply lookup_none_take. apply take_all_false. unfold row. rewrite row_drop, Z.eqb_refl.
  specialize (D (bucket i)). rewrite E in D. apply distinct_app in D as (D1 & (D2 & _) & D3).
  rewrite Forall_forall. intros y Hy. apply not_true_is_false. intro M. apply matches_same in M; auto.
  2:{ apply (row_inc_ok s i); auto. unfold row. rewrite E. apply in_app_or in Hy. apply in_or_app. simpl. tauto. }
  apply in_app_or in Hy as [Hy|Hy].
  - rewrite Forall_forall in D3. specialize (D3 y Hy). inversion D3; subst. apply H1. eapply same_conn_trans; [apply same_conn_sym; eauto|auto].
  - rewrite Forall_forall in D2. apply (D2 y Hy). eapply same_conn_trans; [apply same_conn_sym; eauto|auto].
Qed.
Lemma ack_consumes : forall H c k e i g s s' v, SInv s -> inc_ok i -> not_compat i -> pure_ack g ->
  step H c (Seg k e i g) s = Ret (s', v) -> lookup s' i = None.
Proof.
  intros H c k e i g s s' v S Hi Hn A E. rewrite ack_step in E by auto. unfold expand in E.
  destruct (take (matches i) (h_l (s_b s (bucket i)))) as [[x r]|] eqn:T.
  - inversion E; subst. eapply removed; eauto.
  - assert (s' = s) as ->. { destruct (negb (c_cook c)); [inversion E; auto|]. destruct (cookie_lookup _ _ _ _ _); inversion E; auto. }
    apply lookup_none_take. exact T.
Qed.
Lemma modified : forall s i x r f, SInv s -> inc_ok i -> not_compat i -> take (matches i) (row s i) = Some (x, r) -> sc_inc (f x) = sc_inc x ->
  lookup (mkSt (upd (s_b s) (bucket i) (set_row (s_b s (bucket i)) (modify (matches i) f (h_l (s_b s (bucket i)))) (h_len (s_b s (bucket i))))) (s_cnt s) (s_live s) (s_pend s)) i = Some (f x).
Proof.
  intros s i x r f (I & Pn & D) Hi Hn T Hf. pose proof T as T'. apply take_some in T' as (l1 & l2 & E & _ & M & F).
  apply lookup_take. exists (l1 ++ l2). unfold row, upd. cbn [s_b]. rewrite Z.eqb_refl. unfold set_row; cbn [h_l]. unfold row in E. rewrite E.
  rewrite modify_split by auto. apply take_split; auto.
  unfold matches in *. rewrite Hf. exact M.
Qed.

(* a new SYN *)
Lemma syn_step : forall H c k e i g s, plain_syn g = true -> syn_sane i g = true -> step H c (Seg k e i g) s = syn H c e k i g s.
Proof.
  intros H c k e i g s P S. unfold plain_syn in P. apply andb_true_iff in P as (P & R). apply andb_true_iff in P as (P & A).
  apply negb_true_iff in A, R. cbn [step]. unfold listen_input. rewrite A, R, P, S. reflexivity.
Qed.
Lemma syn_sent : forall H c e k i g s s' kk, lookup s i = None -> syn H c e k i g s = Ret (s', ESent kk) ->
  kk = respond c e (entry H c e s i g) /\
  (c_cook c = true -> sg (s_b s' (bucket i)) = reseed e (sg (s_b s (bucket i)))).
Proof.
  intros H c e k i g s s' kk L E. apply lookup_none_take in L. unfold row in L.
  unfold syn, syn_begin in E. rewrite L in E.
  set (s1 := if e_a1 e then s else _) in E.
  assert (E1 : forall b, sg (s_b s1 b) = sg (s_b s b)).
  { intro b0. unfold s1. destruct (e_a1 e); [auto|]. destruct (h_l (s_b s (bucket i))); [auto|apply sg_drop]. }
  set (s2 := if e_a1 e || e_a2 e then _ else s1) in E.
  assert (E2 : forall b, sg (s_b s2 b) = sg (s_b s b)) by (intro b0; unfold s2; destruct (e_a1 e || e_a2 e); apply E1).
  destruct (negb (e_a1 e || e_a2 e) && negb (c_cook c)) eqn:G; [cbn [fst snd] in E; inversion E|]. cbn [fst snd] in E.
  set (hx := if c_cook c then generate H c e (s_b s2 (bucket i)) (fill c e i g) else (s_b s2 (bucket i), fill c e i g)) in E.
  assert (HX : snd hx = entry H c e s i g).
  { unfold hx, entry. destruct (c_cook c); [|reflexivity]. unfold generate. cbn [snd].
    specialize (E2 (bucket i)). unfold sg in E2. inversion E2 as [[A1 A2 A3 A4]]. rewrite !A4.
    destruct (h_reseed (s_b s (bucket i)) <? uptime (e_ticks e)); cbn [h_odd h_so h_se]; rewrite ?A1, ?A2, ?A3; reflexivity. }
  match type of E with syn_end _ _ _ ?q = _ => set (s3 := q) in E end.
  assert (S3 : c_cook c = true -> sg (s_b s3 (bucket i)) = reseed e (sg (s_b s (bucket i)))).
  { intro C. unfold s3, upd; cbn [s_b]. rewrite Z.eqb_refl. unfold hx. rewrite C, generate_sg, E2. reflexivity. }
  pose proof (sg_syn_end _ _ _ _ _ _ (bucket i) E) as SE.
  split; [|intro C; rewrite SE; auto].
  unfold syn_end, s3 in E. cbn [s_pend pend_take] in E. rewrite Z.eqb_refl in E.
  destruct (negb (e_out e)); [inversion E|]. rewrite <- HX.
  destruct (negb (e_a1 e || e_a2 e) || c_cook c && c_only c); [congruence|].
  destruct (insert _ _ _); try discriminate. cbn [obind] in E. congruence.
Qed.

(* cookies, end to end *)
Lemma u32_dist1 : forall x, w32 x -> dist x (u32 (x + 1)) = 1.
Proof. intros x Hx. unfold dist, u32. rewrite Zminus_mod_idemp_l. replace (x + 1 - x) with 1 by lia. reflexivity. Qed.
Lemma sec_sg : forall h p, sec_of h p = match sg h with (_, so, se, _) => if p then so else se end.
Proof. reflexivity. Qed.
Lemma entry_cook : forall H c e s i g, c_cook c = true -> entry H c e s i g = snd (generate H c e (s_b s (bucket i)) (fill c e i g)).
Proof. intros. unfold entry. rewrite H0. reflexivity. Qed.

Lemma cookie_end_to_end : forall H c e0 i g0 s s' k0 kk l s2 evs e2 g2 k2,
  c_cook c = true -> (forall b, sg_small (sg (s_b s b))) ->
  env_ok e0 -> inc_ok i -> seg_ok g0 -> 0 <= e_ticks e0 < 2147483648 ->
  plain_syn g0 = true -> syn_sane i g0 = true -> lookup s i = None -> step H c (Seg k0 e0 i g0) s = Ret (s', ESent kk) ->
  Forall young l -> Forall (within (uptime (e_ticks e0) + LIFETIME)) l -> run H c l s' = Ret (s2, evs) ->
  lookup s2 i = None -> 0 <= e_ticks e2 < 2147483648 -> uptime (e_ticks e2) <= uptime (e_ticks e0) + LIFETIME ->
  e_sock e2 = true -> 1 <= e_space e2 -> pure_ack g2 -> g_ack g2 = u32 (k_seq kk + 1) -> g_seq g2 = k_ack kk ->
  match o_ts (g_to g2) with
  | None => exists n, step H c (Seg k2 e2 i g2) s2 = Ret (s2, EConn n) /\
      n_inc n = i /\ n_iss n = k_seq kk /\ n_rnxt n = k_ack kk /\ n_nxt n = g_ack g2 /\ n_offer n = cookie_mss c e0 (fill c e0 i g0)
  | Some (v, r) => forall tv tr, k_ts kk = Some (tv, tr) -> r = tv ->
      k_sack kk = true \/ (exists w, k_ws kk = Some w /\ w <> 0) ->
      exists n, step H c (Seg k2 e2 i g2) s2 = Ret (s2, EConn n) /\
      n_inc n = i /\ n_iss n = k_seq kk /\ n_rnxt n = k_ack kk /\ n_nxt n = g_ack g2 /\ n_offer n = cookie_mss c e0 (fill c e0 i g0)
      /\ n_sack n = k_sack kk /\ (exists off, n_ts n = Some (v, off)) /\
      (forall w, k_ws kk = Some w -> w <> 0 -> exists sw, o_ws (g_to g0) = Some sw /\ n_ws n = Some (sw, w))
  end.
Proof.
  intros H c e0 i g0 s s' k0 kk l s2 evs e2 g2 k2 C Sm He Hi Hg Ht P Sa L E F1 F2 R L2 Ht2 Hu Sk Sp A EA ES.
  rewrite syn_step in E by auto. destruct (syn_sent _ _ _ _ _ _ _ _ _ L E) as (-> & Sg). specialize (Sg C).
  rewrite entry_cook in * by auto.
  set (x := fill c e0 i g0) in *. set (h := s_b s (bucket i)) in *. set (y := snd (generate H c e0 h x)) in *. set (p := h_odd (fst (generate H c e0 h x))).
  assert (Ok : sc_ok x) by (apply fill_ok; auto).
  assert (Yok : sc_ok y) by (apply generate_sc_ok; auto).
  pose proof (uptime_young _ Ht) as U0.
  assert (SmH : sg_small (reseed e0 (sg h))) by (apply reseed_small; [auto|apply Sm]).
  (* the secret survives *)
  pose proof (kept_start e0 (sg h) Ht) as K0. rewrite <- (generate_sg H c e0 h x) in K0, Sg, SmH.
  assert (K1 : kept p (sec_of (fst (generate H c e0 h x)) p) (uptime (e_ticks e0)) (sg (s_b s' (bucket i)))).
  { rewrite Sg. exact K0. }
  pose proof (kept_run H c (bucket i) p _ _ l s' s2 evs F1 F2 ltac:(lia) R K1) as K2.
  assert (Sm2 : sg_small (sg (s_b s2 (bucket i)))).
  { assert (SS : step H c (Seg k0 e0 i g0) s = Ret (s', ESent (respond c e0 y))) by (rewrite syn_step; auto).
    eapply small_run; [exact F1|exact R|]. eapply small_step; [|exact SS|auto]. exact Ht. }
  set (h2 := s_b s2 (bucket i)) in *.
  assert (Sec : sec_of h2 p = sec_of (fst (generate H c e0 h x)) p /\ uptime (e_ticks e2) <= u32 (h_reseed h2 + LIFETIME)).
  { unfold kept, sg in K2. destruct K2 as (K2 & K3 & _). split; [exact K2|]. unfold sg_small, sg in Sm2. unfold LIFETIME in *. rewrite u32_small by lia. lia. }
  destruct Sec as (Sec & Fr).
  pose proof (cookie_back H c e0 h x e2 h2 g2 Ok Sec Fr EA ES) as CB. fold y in CB.
  assert (Inc : sc_inc x = i) by reflexivity. rewrite Inc in CB.
  assert (T2 : take (matches i) (h_l (s_b s2 (bucket i))) = None) by (apply lookup_none_take; auto).
  assert (STEP : forall z, cookie_lookup H e2 h2 i g2 = Some z -> sc_iss z = sc_iss y -> sc_irs z = sc_irs x -> 1 <= sc_wnd z <= 65535 -> ts_agree z g2 ->
     step H c (Seg k2 e2 i g2) s2 = Ret (s2, EConn (socket_of z))).
  { intros z EZ Ei Er Wz Tz. rewrite ack_step by auto. unfold expand. rewrite T2, C. cbn [negb]. fold h2. rewrite EZ.
    unfold finish. replace (valid z g2) with true; [rewrite Sk; reflexivity|]. symmetry. apply valid_iff; [lia|].
    rewrite Ei, Er. split; [exact EA|]. split; [|exact Tz]. rewrite ES. change (k_ack (respond c e0 y)) with (u32 (sc_irs x + 1)).
    rewrite u32_dist1 by apply Ok. lia. }
  assert (WND : 1 <= Z.min (Z.max (e_space e2) 0) MAXWIN <= 65535) by (unfold MAXWIN; lia).
  destruct (o_ts (g_to g2)) as [[v r]|] eqn:TS.
  - intros tv tr KT -> SW.
    assert (NO : f_noopt y = false /\ f_tst y = true /\ tv = sc_ts y).
    { unfold respond in KT. cbn [k_ts] in KT. destruct (f_noopt y); [discriminate|]. destruct (f_tst y); [|discriminate]. inversion KT; auto. }
    destruct NO as (NO & FT & ->).
    assert (NO' : f_noopt x = false) by exact NO. assert (FT' : f_tst x = true) by exact FT.
    assert (SW' : f_sack x = true \/ sc_s x <> 0 \/ sc_r x <> 0).
    { destruct SW as [SW|(w & SW & W0)].
      - left. unfold respond in SW. cbn [k_sack] in SW. rewrite NO in SW. exact SW.
      - right; right. unfold respond in SW. cbn [k_ws] in SW. rewrite NO in SW. destruct (f_ws y); [|discriminate]. inversion SW. subst w. exact W0. }
    destruct (CB FT' eq_refl SW') as (z & EZ & Z1 & Z2 & Z3 & Z4 & Z5 & Z6 & Z7 & Z8 & Z9 & Z10 & Z11 & Z12 & Z13 & Z14 & Z15).
    exists (socket_of z). split; [apply STEP; auto; [rewrite Z5; exact WND|unfold ts_agree; rewrite TS; auto]|].
    unfold socket_of. cbn [n_inc n_iss n_rnxt n_nxt n_offer n_sack n_ts n_ws].
    rewrite Z1, Z2, Z3, Z4, Z6, Z7, Z12. repeat split; auto.
    + unfold respond. cbn [k_sack]. rewrite NO. reflexivity.
    + eexists. rewrite Z11. reflexivity.
    + intros w KW W0. unfold respond in KW. cbn [k_ws] in KW. rewrite NO in KW. destruct (f_ws y) eqn:FW; [|discriminate]. assert (KW' : w = sc_r x) by (change (sc_r x) with (sc_r y); congruence). clear KW. subst w.
      assert (FW' : f_ws x = true) by exact FW. unfold x, fill in FW'. cbn [f_ws] in FW'. destruct (c_1323 c) eqn:C13; [|discriminate].
      destruct (o_ws (g_to g0)) as [sw|] eqn:OW; [|discriminate].
      assert (Hsw : 0 <= sw <= 14) by (destruct Hg as (_ & _ & (_ & Ow & _)); apply Ow; auto).
      assert (XS : sc_s x = sw).
      { unfold x, fill. cbn [sc_s]. rewrite C13, OW. apply Z.mod_small. lia. }
      assert (XR : 0 <= sc_r x <= 14).
      { unfold x, fill. cbn [sc_r]. rewrite C13, OW. pose proof (wscale_range 14 0 (c_sbmax c) ltac:(lia)). rewrite Z.mod_small; lia. }
      rewrite Z15, Z14, Z13. rewrite XS. rewrite !Z.min_l by lia. exists sw. split; [auto|].
      destruct (Z.eqb_spec (sc_r x) 0) as [Z0|Z0]; [exfalso; apply W0; exact Z0|]. rewrite andb_false_r. reflexivity.
  - destruct CB as (z & EZ & Z1 & Z2 & Z3 & Z4 & Z5 & Z6 & Z7 & Z8 & Z9).
    exists (socket_of z). split; [apply STEP; auto; [rewrite Z5; exact WND|unfold ts_agree; rewrite TS; auto]|].
    unfold socket_of. cbn [n_inc n_iss n_rnxt n_nxt n_offer]. rewrite Z1, Z2, Z3, Z4. repeat split; auto.
Qed.
