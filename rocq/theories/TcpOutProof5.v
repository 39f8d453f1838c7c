From Verif Require Import Base TcpSeqModel TcpSeqProps TcpOptModel TcpOptProof TcpReassModel TcpInModel TcpInSpec SockModel SockSpec SockProof SackModel SackSpec SackProof SackProof2 SackProof3 TcpOutModel TcpOutSpec TcpOutProof TcpOutProof2 TcpOutProof3 TcpOutProof4.
Ltac Zify.zify_post_hook ::= idtac.

Definition todo (l : list hole) : Z := fold_right (fun h a => he h - hr h + a) 0 l.
Lemma todo_app a c : todo (a ++ c) = todo a + todo c.
Proof. induction a as [|h a IH]; [reflexivity|]. cbn [app todo fold_right]. fold (todo (a ++ c)). fold (todo a). rewrite IH. lia. Qed.
Lemma todo_pos lo l hi : chain lo l hi -> 0 <= todo l.
Proof. revert lo. induction l as [|h l IH]; intros lo C; cbn [todo fold_right]; [lia|]. cbn in C. destruct C as (_ & _ & C & C2). fold (todo l). specialize (IH _ C2). lia. Qed.
Record SegOK (b : Z) (w : list Z) (cl : bool) (U N : Z) (v : oenv) (s : ost) (pl : plan) (q : oseg) (p n : Z) : Prop := {
  g_p : U <= p <= zlen w + 1; g_sq : q_seq q = wire (b + p); g_d : q_data q = part w p n; g_n : zlen (q_data q) = n;
  g_len : 0 <= n <= l_len pl; g_end : 0 < n -> p + n <= zlen w; g_fn : q_fin q = true -> cl = true /\ p + n = zlen w; g_sy : q_syn q = false;
  g_size : n + zlen (q_opts q) + w_ipopt v <= maxopd (ox s);
  g_pos : 0 < n -> match l_hole pl with None => p = N | Some g => hr g = wire (b + p) end }.

Lemma pull_fin b w cl U N M l f s fin : Inv b w cl U N M l f s -> (fin = true -> cl = true /\ U <= zlen w) ->
  let s' := if fin && sentfin (ox s) && (snd_nxt (tp s) =? snd_max (tp s)) then mkOst (set_snd_nxt (u32 (snd_nxt (tp s) - 1)) (tp s)) (ox s) else s in
  exists N0, Inv b w cl U N0 M l f s' /\ frame s s' /\ ox s' = ox s /\ persist (tp s') = persist (tp s) /\ ((N0 = N /\ (fin = true -> sentfin (ox s) = true -> N < M)) \/ (N0 = N - 1 /\ N = M /\ fin = true /\ sentfin (ox s) = true)).
Proof.
  intros H Hf. cbv zeta. pose proof (inv_range _ _ _ _ _ _ _ _ _ H) as R. pose proof (i_fin _ _ _ _ _ _ _ _ _ H) as Fi. rewrite (i_n _ _ _ _ _ _ _ _ _ H), (i_m _ _ _ _ _ _ _ _ _ H).
  destruct fin; cbn [andb]; [|exists N; split; [exact H|]; split; [apply frame_refl|]; split; [reflexivity|]; split; [reflexivity|]; left; split; [reflexivity|discriminate]].
  destruct (sentfin (ox s)) eqn:Sf; cbn [andb]; [|exists N; split; [exact H|]; split; [apply frame_refl|]; split; [reflexivity|]; split; [reflexivity|]; left; split; [reflexivity|discriminate]].
  destruct (Z.eqb_spec (wire (b + N)) (wire (b + M))) as [E|E].
  - apply wire_inj in E; [|lia]. assert (N = M) by lia. subst N. exists (M - 1). destruct (Hf eq_refl). split; [|split; [split; reflexivity|split; [reflexivity|split; [reflexivity|right; auto]]]].
    destruct H. constructor; try assumption; cbn [tp]; [change (u32 (wire (b + M) - 1) = wire (b + (M - 1))); rewrite q_sub1; f_equal; lia|lia].
  - exists N. split; [exact H|]. split; [apply frame_refl|]. split; [reflexivity|]. split; [reflexivity|]. left. split; [reflexivity|]. intros _ _. destruct (Z.eq_dec N M) as [->|]; [congruence|lia].
Qed.

(* what a segment of a pass rests on *)
Record Ready (b : Z) (w : list Z) (cl : bool) (U N M : Z) (l : list hole) (f : Z) (v : oenv) (s : ost) (pl : plan) (opts : list Z) (cut fin : bool) (n : Z) : Prop := {
  y_inv : Inv b w cl U N M l f s; y_plan : PlanOK b w cl U N l s pl;
  y_n : 0 <= n <= l_len pl; y_n0 : 0 < l_len pl -> 0 < n; y_sz : n + zlen opts + w_ipopt v <= maxopd (ox s);
  y_cut : cut = true -> n < l_len pl /\ 0 < n; y_fin : fin = true -> l_fin pl = true /\ cut = false /\ n = l_len pl;
  y_len : zlen (part w (U + l_off pl) n) = n }.
Definition emits (b : Z) (w : list Z) (cl : bool) (U N M : Z) (l : list hole) (f : Z) (v : oenv) (r : pres) (s : ost) (pl : plan) (opts : list Z) (cut fin : bool) (n : Z) : Prop :=
  let '(s2, q) := emit v r s pl opts false fin n (part w (U + l_off pl) n) in
  exists N2 M2 l2, Inv b w cl U N2 M2 l2 f s2 /\ frame s s2 /\ (r = PSent -> cut || is_hole (l_hole pl) = true -> todo l2 - N2 < todo l - N) /\ exists p n, SegOK b w cl U N v s pl q p n.
Lemma send_hole b w cl U N M l f v r s pl opts cut fin n : Ready b w cl U N M l f v s pl opts cut fin n -> r <> PNoMem -> is_hole (l_hole pl) = true -> emits b w cl U N M l f v r s pl opts cut fin n.
Proof.
  intros [H P Hn Hn0 Hsz Hcut Hfin El] Nr Eh0. unfold emits, emit. cbv zeta. pose proof (inv_range _ _ _ _ _ _ _ _ _ H) as R. pose proof (i_fin _ _ _ _ _ _ _ _ _ H) as Fi.
  assert (Fw : fin = true -> cl = true /\ U <= zlen w) by (intros K; apply (p_fin _ _ _ _ _ _ _ _ P); apply Hfin; exact K).
  destruct (pull_fin _ _ _ _ _ _ _ _ _ fin H Fw) as (N0 & H0 & F0 & Ox0 & Pe0 & HN0). cbv zeta in H0, F0, Ox0, Pe0. set (s0 := if fin && _ && _ then _ else s) in *. clearbody s0.
  pose proof (inv_range _ _ _ _ _ _ _ _ _ H0) as R0. pose proof (p_hole _ _ _ _ _ _ _ _ P) as Ph.
  assert (Force0 : force (ox s0) = force (ox s)) by (rewrite Ox0; reflexivity).
  destruct (l_hole pl) as [g|] eqn:Eh; [|discriminate].  
    (* from the scoreboard *)
    destruct Ph as (h & -> & Od & Eo & L2 & Hf). pose proof (o_opn _ _ _ _ Od) as O. destruct (o_in _ _ _ _ Od) as (pp & qq & Ell & Dp). assert (Ih : In h l) by (rewrite Ell; apply in_or_app; right; left; reflexivity). pose proof (inv_hole _ _ _ _ _ _ _ _ _ h H Ih) as Hh.
    cbn [is_hole] in *. assert (Np : 0 < n) by lia.
    assert (Fsf : fin = true -> sentfin (ox s) = true /\ hr h + n = b + zlen w /\ N0 < M).
    { intros K. destruct (Hfin K) as (K1 & K2 & K3). specialize (Hf K1). destruct (sentfin (ox s)) eqn:Sf; [|lia]. split; [reflexivity|]. split; [lia|]. destruct HN0 as [(-> & K4)|(-> & -> & _)]; [apply K4; [exact K|reflexivity]|lia]. }
    assert (Ebd : forall k t, board_add (wh h) (hr (wh h) + n) k t = board_add (wh h) (wire (hr h + n)) k t) by (intros k t; unfold board_add; cbn [wh hr hid]; rewrite q_add, wire_u32; reflexivity).
    rewrite Ebd. set (x1 := set_board _ (ox s0)). set (x2 := if SEQ_GT (sup x1) (snd_nxt (tp s0)) then x1 else set_sup (snd_una (tp s0)) x1).
    assert (X2 : static x2 = static (ox s0) /\ sndb x2 = sndb (ox s0) /\ sentfin x2 = sentfin (ox s0) /\ board x2 = board x1 /\ force x2 = force (ox s0)) by (unfold x2; destruct (SEQ_GT _ _); repeat split; reflexivity).
    destruct X2 as (X2 & X3 & X4 & X5 & X6).
    set (l2 := pp ++ mkHole (hid h) (hs h) (he h) (hr h + n) :: qq).
    assert (F1 : frame s0 (mkOst (tp s0) x2)) by (split; [reflexivity|exact X2]).
    assert (A1 : A (sync (tp s0) (board x2)) l2 f (b + U) (b + U) (b + M)).
    { rewrite X5. unfold x1. cbn [set_board board]. change (sync (tp s0) (board_add (wh h) (wire (hr h + n)) n (board (ox s0)))) with (board_add (wh h) (wire (hr h + n)) n (sync (tp s0) (board (ox s0)))).
      pose proof (mark_ok (sync (tp s0) (board (ox s0))) pp h qq f (b + U) (b + U) (b + M) (hr h + n)) as K. replace (hr h + n - hr h) with n in K by lia. apply K; [rewrite <- Ell; apply (i_a _ _ _ _ _ _ _ _ _ H0)|lia|exact O]. }
    assert (H1 : Inv b w cl U N0 M l2 f (mkOst (tp s0) x2)).
    { constructor; cbn [tp ox]; try (apply (i_u _ _ _ _ _ _ _ _ _ H0) || apply (i_n _ _ _ _ _ _ _ _ _ H0) || apply (i_m _ _ _ _ _ _ _ _ _ H0) || apply (i_o _ _ _ _ _ _ _ _ _ H0) || apply (i_cc _ _ _ _ _ _ _ _ _ H0)).
      - rewrite X3. apply (i_buf _ _ _ _ _ _ _ _ _ H0).
      - rewrite X4. apply (i_fin _ _ _ _ _ _ _ _ _ H0).
      - exact A1.
      - apply (front_mark pp h qq (hr h + n) (b + U) f); [rewrite <- Ell; apply (a_c _ _ _ _ _ _ (i_a _ _ _ _ _ _ _ _ _ H))|exact Dp|lia|rewrite <- Ell; apply (i_front _ _ _ _ _ _ _ _ _ H)|exact O].
      - intros _ K. apply (i_top _ _ _ _ _ _ _ _ _ H); [rewrite Ell; destruct pp; discriminate|]. rewrite Ell. unfold l2 in K. rewrite inh_app, inh_cons in *. exact K.
      - apply (frame_settings _ _ _ _ _ F1). apply (i_set _ _ _ _ _ _ _ _ _ H0). }
    (* persist state is not possible *)
    assert (Np2 : force x2 = true -> persist (tp s0) = true -> False).
    { rewrite X6, Force0, Pe0. intros K1 K2. pose proof (p_fp _ _ _ _ _ _ _ _ P K1 K2) as Z0. pose proof (p_win _ _ _ _ _ _ _ _ P ltac:(lia)) as K. rewrite Eh in K. destruct K as [_ K]. pose proof (a_r _ _ _ _ _ _ (i_a _ _ _ _ _ _ _ _ _ H)) as Er2. cbn [sync rexb] in Er2. pose proof (o_sum _ _ _ _ Od). lia. }
    cbn [ox tp]. replace (negb (force x2) || negb (persist (tp s0))) with true by (symmetry; destruct (force x2) eqn:E1, (persist (tp s0)) eqn:E2; try reflexivity; destruct (Np2 eq_refl eq_refl)).
    destruct (advance_hole _ _ _ _ _ _ _ _ _ n fin (wh h) H1) as (H2 & F2 & B2 & S2); [intros K; destruct (Fsf K) as (K1 & K2 & K3); split; [cbn [ox]; rewrite X4, Ox0; exact K1|exact K3]|]. cbv zeta in H2, F2, B2, S2. pose proof (advance_persist_off n false fin (Some (wh h)) (mkOst (tp s0) x2)) as Pof. set (s2 := advance n false fin (Some (wh h)) (mkOst (tp s0) x2)) in *. clearbody s2.
    assert (F3 : frame s s2) by (apply (frame_trans _ _ _ F0); apply (frame_trans _ _ _ F1 F2)).
    assert (SEG : forall q, q_seq q = hr (wh h) -> q_data q = part w (U + l_off pl) n -> q_fin q = fin -> q_syn q = false -> q_opts q = opts -> exists p n, SegOK b w cl U N v s pl q p n).
    { intros q Q1 Q2 Q3 Q4 Q5. exists (U + l_off pl), n. constructor; try assumption; rewrite ?Q3, ?Q5, ?Q2; try lia; try assumption.
      - rewrite Q1. cbn [wh hr]. f_equal. lia.
      - intros K. destruct (Fsf K) as (_ & K1 & _). split; [apply Fw; exact K|lia].
      - intros _. rewrite Eh. cbn [wh hr]. f_equal. lia. }
    assert (N2 : N <= N0 + (if fin then 1 else 0)) by (destruct HN0 as [(-> & _)|(-> & _ & Eff & _)]; [destruct fin; lia|rewrite Eff; lia]).
    destruct r; [congruence| |].
    + eexists _, M, l2. split; [apply announce_ok; exact H2|]. split; [apply (frame_trans _ _ _ F3), announce_frame|]. split; [|apply SEG; reflexivity].
      intros _ _. rewrite Ell. unfold l2. rewrite !todo_app. cbn [todo fold_right he hr]. fold (todo qq). lia.
    + (* taken back *)
      assert (H4 : Inv b w cl U (N0 + (if fin then 1 else 0)) M l f (back_out n false (Some (wh h)) s2) /\ frame s (back_out n false (Some (wh h)) s2)).
      { unfold back_out. cbn [negb andb]. rewrite andb_true_r.
        assert (Fs : force (ox s2) = force x2) by (transitivity (force (ox (mkOst (tp s0) x2))); [apply (frame_force _ _ F2)|reflexivity]).
        assert (C : negb (force (ox s2)) || negb (persist (tp s2)) = true).
        { rewrite Fs. destruct (force x2) eqn:E1; [|reflexivity]. cbn [negb orb]. destruct (persist (tp s2)) eqn:E2; [|reflexivity]. exfalso.
          apply Np2; [reflexivity|]. apply Pof. reflexivity. }
        rewrite C. split; [|apply (frame_trans _ _ _ F3); split; reflexivity].
        destruct H2. constructor; try assumption.
        - cbn [tp ox]. change (board (set_board (board_add (wh h) (hr (wh h)) (- n) (board (ox s2))) (ox s2))) with (board_add (wh h) (hr (wh h)) (- n) (board (ox s2))). rewrite B2. cbn [ox]. rewrite X5. unfold x1. cbn [set_board board].
          change (sync (tp s2) (board_add (wh h) (hr (wh h)) (- n) (board_add (wh h) (wire (hr h + n)) n (board (ox s0))))) with (board_add (wh h) (wire (hr h)) (- n) (board_add (wh h) (wire (hr h + n)) n (sync (tp s2) (board (ox s0))))).
          rewrite Ell. apply unmark_ok; [|lia|exact O]. rewrite <- Ell. pose proof (TcpOutProof2.i_a _ _ _ _ _ _ _ _ _ H0) as K0. unfold sync in *. rewrite i_u, i_m. rewrite (TcpOutProof2.i_u _ _ _ _ _ _ _ _ _ H0), (TcpOutProof2.i_m _ _ _ _ _ _ _ _ _ H0) in K0. exact K0.
        - apply (TcpOutProof2.i_front _ _ _ _ _ _ _ _ _ H).
        - apply (TcpOutProof2.i_top _ _ _ _ _ _ _ _ _ H). }
      destruct H4 as [H4 F4]. eexists _, M, l. split; [apply announce_ok; exact H4|]. split; [apply (frame_trans _ _ _ F4), announce_frame|]. split; [discriminate|apply SEG; reflexivity].
Qed.
Lemma frame_nxt s n : frame s (mkOst (set_snd_nxt n (tp s)) (ox s)).
Proof. split; reflexivity. Qed.
Lemma persist_keep n syn fin s : persist (tp (advance_persist n syn fin s)) = persist (tp s).
Proof. unfold advance_persist. cbv zeta. destruct (SEQ_GT _ _); reflexivity. Qed.
Lemma send_none b w cl U N M l f v r s pl opts cut fin n : Ready b w cl U N M l f v s pl opts cut fin n -> r <> PNoMem -> is_hole (l_hole pl) = false -> emits b w cl U N M l f v r s pl opts cut fin n.
Proof.
  intros [H P Hn Hn0 Hsz Hcut Hfin El] Nr Eh0. unfold emits, emit. cbv zeta. pose proof (inv_range _ _ _ _ _ _ _ _ _ H) as R. pose proof (i_fin _ _ _ _ _ _ _ _ _ H) as Fi.
  assert (Fw : fin = true -> cl = true /\ U <= zlen w) by (intros K; apply (p_fin _ _ _ _ _ _ _ _ P); apply Hfin; exact K).
  destruct (pull_fin _ _ _ _ _ _ _ _ _ fin H Fw) as (N0 & H0 & F0 & Ox0 & Pe0 & HN0). cbv zeta in H0, F0, Ox0, Pe0. set (s0 := if fin && _ && _ then _ else s) in *. clearbody s0.
  pose proof (inv_range _ _ _ _ _ _ _ _ _ H0) as R0. pose proof (p_hole _ _ _ _ _ _ _ _ P) as Ph.
  assert (Force0 : force (ox s0) = force (ox s)) by (rewrite Ox0; reflexivity).
  destruct (l_hole pl) as [g|] eqn:Eh; [discriminate|].  
    (* new data, or a retransmission from snd_nxt on *)
    destruct Ph as [Ph1 Ph2]. cbn [is_hole] in *. rewrite orb_false_r in *.
    set (x2 := if SEQ_GT (sup (ox s0)) (snd_nxt (tp s0)) then ox s0 else set_sup (snd_una (tp s0)) (ox s0)).
    assert (X2 : static x2 = static (ox s0) /\ sndb x2 = sndb (ox s0) /\ sentfin x2 = sentfin (ox s0) /\ board x2 = board (ox s0) /\ force x2 = force (ox s0)) by (unfold x2; destruct (SEQ_GT _ _); repeat split; reflexivity).
    destruct X2 as (X2 & X3 & X4 & X5 & X6). clearbody x2.
    assert (F1 : frame s0 (mkOst (tp s0) x2)) by (split; [reflexivity|exact X2]).
    assert (H1 : Inv b w cl U N0 M l f (mkOst (tp s0) x2)).
    { apply (inv_move _ _ _ _ _ _ _ _ _ _ _ _ H0 F1); cbn [tp ox]; try assumption; try lia; [apply (i_n _ _ _ _ _ _ _ _ _ H0)|apply (i_m _ _ _ _ _ _ _ _ _ H0)|]. rewrite X4. apply (i_fin _ _ _ _ _ _ _ _ _ H0). }
    assert (Nd : 0 < n -> N0 = N /\ N + n <= zlen w /\ l_off pl = N - U).
    { intros L. destruct (Ph1 ltac:(lia)) as [K1 K2]. split; [|split; [lia|exact K1]]. destruct HN0 as [(-> & _)|(_ & EM & _ & Sf)]; [reflexivity|]. rewrite Sf in Fi. lia. }
    assert (Fz : fin = true -> cl = true /\ N0 + n = zlen w).
    { intros K. destruct (Hfin K) as (K1 & K2 & K3). specialize (Ph2 K1). destruct (Fw K) as [K4 K5]. split; [exact K4|]. destruct HN0 as [(-> & K6)|(-> & EM & _ & Sf)].
      - destruct (sentfin (ox s)) eqn:Sf.
        + specialize (K6 K eq_refl). destruct (Z.eq_dec n 0); [lia|]. destruct (Nd ltac:(lia)) as (_ & K7 & _). lia.
        + destruct (Z.eq_dec n 0); [lia|]. destruct (Nd ltac:(lia)) as (_ & K7 & _). lia.
      - rewrite Sf in Fi. destruct (Z.eq_dec n 0); [lia|]. destruct (Ph1 ltac:(lia)). lia. }
    assert (SEG : forall q, q_seq q = (if negb (n =? 0) || false || fin || persist (tp s0) then snd_nxt (tp s0) else snd_max (tp s0)) -> q_data q = part w (U + l_off pl) n -> q_fin q = fin -> q_syn q = false -> q_opts q = opts -> exists p n, SegOK b w cl U N v s pl q p n).
    { intros q Q1 Q2 Q3 Q4 Q5. rewrite orb_false_r, (i_n _ _ _ _ _ _ _ _ _ H0), (i_m _ _ _ _ _ _ _ _ _ H0) in Q1. exists (if negb (n =? 0) || fin || persist (tp s0) then N0 else M), n.
      assert (Ed : q_data q = part w (if negb (n =? 0) || fin || persist (tp s0) then N0 else M) n).
      { rewrite Q2. destruct (Z.eqb_spec n 0) as [->|Nn]; [reflexivity|]. cbn [negb orb]. destruct (Nd ltac:(lia)) as (-> & _ & ->). f_equal. lia. }
      constructor; try assumption; rewrite ?Q3, ?Q5; try lia; try assumption.
      - destruct (negb (n =? 0) || fin || persist (tp s0)); lia.
      - rewrite Q1. destruct (negb (n =? 0) || fin || persist (tp s0)); reflexivity.
      - rewrite Q2. exact El.
      - intros L. destruct (Z.eqb_spec n 0); [lia|]. cbn [negb orb]. destruct (Nd L) as (-> & K & _). lia.
      - intros K. rewrite K, orb_true_r. cbn [orb]. apply Fz. exact K.
      - intros L. rewrite Eh. destruct (Z.eqb_spec n 0); [lia|]. cbn [negb orb]. destruct (Nd L) as (K & _). exact K. }
    cbn [ox tp]. destruct (force x2 && persist (tp s0)) eqn:FP.
    + apply andb_prop in FP. destruct FP as [FP1 FP2]. rewrite FP1, FP2. cbn [negb orb]. rewrite X6, Force0 in FP1. pose proof FP2 as FP0. rewrite Pe0 in FP2.
      assert (Nf : fin = false) by (destruct fin eqn:E; [|reflexivity]; destruct (Hfin eq_refl) as (K & _); rewrite (p_probe _ _ _ _ _ _ _ _ P FP1 FP2) in K; discriminate).
      assert (Nc : cut = false).
      { destruct cut eqn:Ec; [|reflexivity]. destruct (Hcut eq_refl) as [K1 K2]. exfalso. pose proof (p_fp _ _ _ _ _ _ _ _ P FP1 FP2) as Z0. pose proof (p_win _ _ _ _ _ _ _ _ P ltac:(lia)) as K. rewrite Eh in K. destruct K as [K|[(_ & _ & K & _)|(_ & K3 & K4)]]; [lia|lia|].
        pose proof (a_r _ _ _ _ _ _ (i_a _ _ _ _ _ _ _ _ _ H)) as Er2. cbn [sync rexb] in Er2. pose proof (sumr_bound _ _ _ (a_c _ _ _ _ _ _ (i_a _ _ _ _ _ _ _ _ _ H))). pose proof (Z.mod_pos_bound (snd_nxt (tp s) - newdata (ox s)) 4294967296 ltac:(lia)) as Bv. fold (u32 (snd_nxt (tp s) - newdata (ox s))) in Bv. unfold swin in Z0. lia. }
      rewrite Nf in *. destruct (persist_none _ _ _ _ _ _ _ _ _ n H1 ltac:(lia)) as (H2 & F2 & S2); [intros L; destruct (Nd L) as (-> & ? & _); lia|]. cbv zeta in H2, F2, S2.
      set (s2 := advance_persist n false false (mkOst (tp s0) x2)) in *.
      assert (Pp : persist (tp s2) = true) by (unfold s2; rewrite persist_keep; exact FP0). clearbody s2.
      assert (F3 : frame s s2) by (apply (frame_trans _ _ _ F0); apply (frame_trans _ _ _ F1 F2)).
      assert (Bk : back_out n false None s2 = s2) by (unfold back_out; rewrite Pp, (frame_force _ _ F3), FP1; reflexivity).
      replace (match r with PFail => back_out n false None s2 | _ => s2 end) with s2 by (destruct r; [congruence|reflexivity|rewrite Bk; reflexivity]).
      exists N0, (Z.max M (N0 + n)), l. split; [apply announce_ok; exact H2|]. split; [apply (frame_trans _ _ _ F3), announce_frame|]. split; [rewrite Nc; intros _; discriminate|apply SEG; try reflexivity; cbn [q_seq]; rewrite FP0; destruct (n =? 0); reflexivity].
    + replace (negb (force x2) || negb (persist (tp s0))) with true by (destruct (force x2), (persist (tp s0)); try reflexivity; discriminate).
      destruct (advance_none _ _ _ _ _ _ _ _ _ n fin H1 ltac:(lia)) as (H2 & F2 & S2); [intros L; destruct (Nd L) as (-> & ? & _); lia|exact Fz|]. cbv zeta in H2, F2, S2.
      pose proof (advance_persist_off n false fin None (mkOst (tp s0) x2)) as Pof. set (s2 := advance n false fin None (mkOst (tp s0) x2)) in *. clearbody s2.
      assert (F3 : frame s s2) by (apply (frame_trans _ _ _ F0); apply (frame_trans _ _ _ F1 F2)).
      destruct r; [congruence| |].
      * eexists _, _, l. split; [apply announce_ok; exact H2|]. split; [apply (frame_trans _ _ _ F3), announce_frame|]. split; [|apply SEG; try reflexivity; cbn [q_seq]; rewrite ?orb_false_r; reflexivity].
        intros _ K. rewrite ?orb_false_r in K. destruct (Hcut K) as [K1 K2]. destruct (Nd K2) as (-> & _). destruct fin; lia.
      * assert (Bk : back_out n false None s2 = mkOst (set_snd_nxt (u32 (snd_nxt (tp s2) - n)) (tp s2)) (ox s2)).
        { unfold back_out. rewrite (frame_force _ _ F3). replace (force (ox s)) with (force x2) by (rewrite X6, Force0; reflexivity). destruct (force x2); [|reflexivity]. cbn [negb orb andb] in *.
          destruct (persist (tp s2)); [|reflexivity]. specialize (Pof eq_refl). cbn [tp] in Pof. rewrite Pof in FP. discriminate. }
        rewrite Bk. set (N2 := N0 + n + (if fin then 1 else 0)) in *.
        assert (H3 : Inv b w cl U (N2 - n) (Z.max M N2) l f (mkOst (set_snd_nxt (u32 (snd_nxt (tp s2) - n)) (tp s2)) (ox s2))).
        { assert (Fx : frame s2 (mkOst (set_snd_nxt (u32 (snd_nxt (tp s2) - n)) (tp s2)) (ox s2))) by apply frame_nxt.
          apply (inv_move _ _ _ _ _ _ _ _ _ _ _ _ H2 Fx); try reflexivity; try (unfold N2; destruct fin; lia).
          - cbn [tp set_snd_nxt snd_nxt]. rewrite (i_n _ _ _ _ _ _ _ _ _ H2), q_sub1. f_equal. lia.
          - apply (i_m _ _ _ _ _ _ _ _ _ H2).
          - apply (i_fin _ _ _ _ _ _ _ _ _ H2). }
        eexists _, _, l. split; [apply announce_ok; exact H3|]. split; [|split; [discriminate|apply SEG; try reflexivity; cbn [q_seq]; rewrite ?orb_false_r; reflexivity]]. apply (frame_trans _ _ _ F3). eapply frame_trans; [|apply announce_frame]. apply frame_nxt.
Qed.
Lemma send_ok v r b w cl U N M l f s pl : Inv b w cl U N M l f s -> PlanOK b w cl U N l s pl -> env_ok v s ->
  exists s2 oq ag N2 M2 l2, send v r s pl = Ret (s2, oq, ag) /\ Inv b w cl U N2 M2 l2 f s2 /\ frame s s2 /\
    (ag = true -> is_hole (l_hole pl) = true \/ 1 < l_len pl) /\ (r = PSent -> ag = true -> todo l2 - N2 < todo l - N) /\
    match oq with None => r = PNoMem | Some (q, r') => r' = r /\ r <> PNoMem /\ exists p n, SegOK b w cl U N v s pl q p n end.
Proof.
  intros H P (V1 & V2 & V3). pose proof (inv_range _ _ _ _ _ _ _ _ _ H) as R. pose proof (i_fin _ _ _ _ _ _ _ _ _ H) as Fi. unfold send. cbv zeta. rewrite (p_syn _ _ _ _ _ _ _ _ P). rewrite !andb_false_r.
  set (opts := if noopt (ox s) then [] else addoptions (options_of v s false)).
  assert (Lo : 0 <= zlen opts <= 40) by (unfold opts; destruct (noopt (ox s)); [cbn; lia|]; destruct (addoptions_ok (options_of v s false)) as (_ & K & _); unfold zlen; lia).
  set (cut := maxopd (ox s) <? l_len pl + zlen opts + w_ipopt v). pose proof (p_len _ _ _ _ _ _ _ _ P) as Ll.
  set (n := if cut then u32 (maxopd (ox s) - zlen opts - w_ipopt v) else l_len pl). set (fin := l_fin pl && negb cut).
  assert (Hn : 0 <= n <= l_len pl /\ (0 < l_len pl -> 0 < n) /\ n + zlen opts + w_ipopt v <= maxopd (ox s) /\ (cut = true -> n < l_len pl /\ 0 < n) /\ (fin = true -> l_fin pl = true /\ cut = false /\ n = l_len pl)).
  { unfold n, fin, cut. destruct (Z.ltb_spec (maxopd (ox s)) (l_len pl + zlen opts + w_ipopt v)) as [L|L]; [rewrite u32_small by lia; rewrite andb_false_r; repeat split; try lia; discriminate|]. rewrite andb_true_r. repeat split; try lia; try discriminate. assumption. }
  destruct Hn as (Hn & Hn0 & Hsz & Hcut & Hfin). clearbody n.
  assert (Ag : cut || is_hole (l_hole pl) = true -> is_hole (l_hole pl) = true \/ 1 < l_len pl) by (intros K; apply orb_prop in K; destruct K as [K|K]; [destruct (Hcut K); lia|auto]).
  destruct (match r with PNoMem => true | _ => false end) eqn:Er.
  { destruct r; try discriminate. eexists _, _, _, N, M, l. split; [reflexivity|]. split; [apply announce_ok; exact H|]. split; [apply announce_frame|]. split; [exact Ag|]. split; [discriminate|reflexivity]. }
  assert (Nr : r <> PNoMem) by (intros ->; discriminate).
  assert (Poff : 0 < n -> 0 <= l_off pl /\ U + l_off pl + n <= zlen w).
  { intros L. pose proof (p_hole _ _ _ _ _ _ _ _ P) as Ph. destruct (l_hole pl) as [g|].
    - destruct Ph as (h & _ & Od & -> & L2 & _). destruct (o_in _ _ _ _ Od) as (pp & qq & El & _). assert (Ih : In h l) by (rewrite El; apply in_or_app; right; left; reflexivity). pose proof (inv_hole _ _ _ _ _ _ _ _ _ h H Ih). lia.
    - destruct Ph as [Ph _]. destruct (Ph ltac:(lia)). lia. }
  destruct (payload_ok _ _ _ _ _ _ _ _ _ (l_off pl) n H ltac:(lia) Poff) as [Ep El].
  assert (Y : Ready b w cl U N M l f v s pl opts cut fin n) by (constructor; assumption).
  assert (G : emits b w cl U N M l f v r s pl opts cut fin n) by (destruct (l_hole pl) eqn:Eh; [eapply send_hole|eapply send_none]; try eassumption; rewrite Eh; reflexivity).
  unfold emits in G. rewrite Ep. cbn [obind]. destruct (emit v r s pl opts false fin n (part w (U + l_off pl) n)) as [s2 q]. destruct G as (N2 & M2 & l2 & K1 & K2 & K3 & K4).
  exists s2, (Some (q, r)), (cut || is_hole (l_hole pl)), N2, M2, l2. split; [destruct r; [congruence|reflexivity|reflexivity]|]. split; [exact K1|]. split; [exact K2|]. split; [exact Ag|]. split; [exact K3|]. split; [reflexivity|]. split; [exact Nr|exact K4].
Qed.
