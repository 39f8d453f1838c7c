From Verif Require Import Base TcpSeqModel TcpSeqProps TcpOptModel TcpOptProof TcpReassModel TcpInModel TcpInSpec SockModel SockSpec SockProof SackModel SackSpec SackProof SackProof2 SackProof3 TcpOutModel TcpOutSpec TcpOutProof TcpOutProof2.
Ltac Zify.zify_post_hook ::= idtac.

(* ---- 200-488: the plan ---- *)
Record PlanOK (b : Z) (w : list Z) (cl : bool) (U N : Z) (l : list hole) (s : ost) (pl : plan) : Prop := {
  p_syn : l_syn pl = false; p_len : 0 <= l_len pl;
  p_fin : l_fin pl = true -> cl = true /\ U <= zlen w;
  p_probe : force (ox s) = true -> persist (tp s) = true -> l_fin pl = false;
  p_fp : force (ox s) = true -> persist (tp s) = true -> swin s = 0;
  p_hole : match l_hole pl with
           | None => (0 < l_len pl -> l_off pl = N - U /\ N + l_len pl <= zlen w) /\ (l_fin pl = true -> zlen w <= N + l_len pl)
           | Some g => exists h, g = wh h /\ opened b U l h /\ l_off pl = hr h - (b + U) /\ 0 < l_len pl <= he h - hr h /\ (l_fin pl = true -> b + zlen w <= hr h + l_len pl)
           end;
  p_win : 0 < l_len pl -> match l_hole pl with
           | None => N + l_len pl <= U + swin s \/ (force (ox s) = true /\ swin s = 0 /\ l_len pl = 1 /\ N = U) \/
               (sackp (tp s) && frec (tp s) = true /\ N + l_len pl <= U + snd_wnd (tp s) /\ rexb (board (ox s)) + u32 (snd_nxt (tp s) - newdata (ox s)) + l_len pl <= cwnd (ox s))
           | Some _ => sackp (tp s) && frec (tp s) = true /\ rexb (board (ox s)) + l_len pl <= swin s
           end }.
Lemma setpersist_ok s : rexmt (tp s) = false -> setpersist s = Ret (mkOst (set_persist true (tp s)) (set_rxtshift (if rxtshift (ox s) <? 12 then rxtshift (ox s) + 1 else rxtshift (ox s)) (ox s))).
Proof. intros H. unfold setpersist. rewrite H. reflexivity. Qed.
Lemma force_ok s off sw fin : exists s' sw' fin', force_part s off sw fin = (s', sw', fin') /\
  ((force (ox s) = false /\ s' = s /\ sw' = sw /\ fin' = fin) \/
   (force (ox s) = true /\ sw = 0 /\ s' = s /\ sw' = 1 /\ fin' = fin && negb (off <? snd_cc (tp s))) \/
   (force (ox s) = true /\ sw <> 0 /\ s' = mkOst (set_persist false (tp s)) (set_rxtshift 0 (ox s)) /\ sw' = sw /\ fin' = fin)).
Proof.
  unfold force_part. destruct (force (ox s)); [|eexists _, _, _; split; [reflexivity|]; left; auto]. destruct (Z.eqb_spec sw 0); eexists _, _, _; (split; [reflexivity|]); right; [left|right]; auto.
Qed.
Lemma est_nosyn w cl U s : settings w cl U s -> out_syn (t_state (tp s)) || needsyn (tp s) = false.
Proof. intros (H & -> & _). unfold out_syn, SYN_SENT, SYN_RECEIVED, ESTABLISHED in *. rewrite orb_false_r. apply orb_false_iff. split; apply Z.eqb_neq; lia. Qed.

Lemma plan_ok b w cl U N M l f s : Inv b w cl U N M l f s -> calm s ->
  exists s1 pl N1, make_plan s = Ret (s1, pl) /\ Inv b w cl U N1 M l f s1 /\ frame s s1 /\ PlanOK b w cl U N1 l s1 pl /\ (persist (tp s1) = true -> persist (tp s) = true \/ N1 = U) /\ (0 < l_len pl -> N <= N1).
Proof.
  intros H Hc. destruct (skip_ok _ _ _ _ _ _ _ _ _ H) as (N1 & R1 & R2 & R3 & H1 & F1 & Pe & Re). unfold make_plan. cbv zeta. set (t := skip_sacked (tp s) (ox s)) in *.
  pose proof (inv_range _ _ _ _ _ _ _ _ _ H1) as R. cbn [tp] in R.
  assert (Eo : s32 (u32 (snd_nxt t - snd_una t)) = N1 - U). { pose proof (i_u _ _ _ _ _ _ _ _ _ H1) as E1. pose proof (i_n _ _ _ _ _ _ _ _ _ H1) as E2. cbn [tp] in E1, E2. rewrite E1, E2, s32_sub_wire by (change (2 ^ 31) with 2147483648; lia). lia. }
  rewrite Eo. clear Eo. destruct (sack_part_ok _ _ _ _ _ _ _ _ _ H1) as (bd & off & len & p & sb & Es & Ab & Sb & Sb0 & Hp). cbn [tp ox] in Es, Sb, Hp. rewrite Es. cbn [obind].
  pose proof (i_set _ _ _ _ _ _ _ _ _ H1) as St. pose proof (est_nosyn _ _ _ _ St) as Ns. cbn [tp] in Ns. rewrite Ns.
  set (s2 := mkOst t (set_board bd (ox s))). set (fin0 := out_fin (t_state t) || needfin t).
  assert (H2 : Inv b w cl U N1 M l f s2).
  { destruct H1. constructor; try assumption. cbn [tp ox s2 set_board board]. unfold sync in *. cbn [tp ox] in *. destruct Ab. constructor; cbn [holes hint numholes rexb fack una smax nid] in *; assumption. }
  assert (F2 : frame s s2) by (apply (frame_trans _ _ _ F1); split; reflexivity).
  assert (Sw0 : 0 <= swin s) by (destruct (i_set _ _ _ _ _ _ _ _ _ H) as (_ & _ & _ & Z1 & Z2); unfold swin; lia).
  assert (Ew : swin (mkOst t (ox s)) = swin s) by (apply (frame_swin _ _ F1)). rewrite Ew in Hp.
  assert (Ews : Z.min (snd_wnd t) (cwnd (ox s)) = swin s) by (rewrite <- Ew; reflexivity). rewrite Ews.
  destruct (force_ok s2 off (swin s) fin0) as (s3 & sw & fin1 & Ef & Hf). rewrite Ef. rewrite !andb_false_l. cbn [andb negb].
  assert (H3 : Inv b w cl U N1 M l f s3 /\ frame s s3 /\ (force (ox s) = false -> persist (tp s3) = persist (tp s)) /\ (persist (tp s3) = true -> persist (tp s) = true) /\ board (ox s3) = bd /\ snd_nxt (tp s3) = snd_nxt t).
  { destruct Hf as [(_ & -> & _)|[(_ & _ & -> & _)|(E & _ & -> & _)]]; [split; [exact H2|split; [exact F2|cbn [tp s2]; rewrite Pe; auto]]..|]. split; [apply (inv_view _ _ _ _ _ _ _ _ _ _ H2); reflexivity|]. split; [apply (frame_trans _ _ _ F2); split; reflexivity|]. cbn [ox s2] in E. change (force (set_board bd (ox s))) with (force (ox s)) in E. split; [congruence|]. split; [cbn; discriminate|]. split; reflexivity. }
  destruct H3 as (H3 & F3 & Pf & Pt & Ebd & En3). change (force (ox s2)) with (force (ox s)) in Hf.
  assert (Cc : snd_cc (tp s3) = Z.max 0 (zlen w - U)) by (apply (inv_range _ _ _ _ _ _ _ _ _ H3)). change (snd_cc (tp s2)) with (snd_cc t) in Hf. replace (snd_cc t) with (snd_cc (tp s3)) in Hf by (transitivity (snd_cc (tp s)); [apply frame_cc; exact F3|symmetry; apply (frame_cc _ _ F1)]).
  assert (Sw1 : sw = swin s \/ (sw = 1 /\ swin s = 0 /\ force (ox s) = true)) by (destruct Hf as [(_ & _ & -> & _)|[(? & ? & _ & -> & _)|(? & _ & _ & -> & _)]]; auto).
  assert (Wd : snd_wnd (tp s3) = snd_wnd (tp s)) by (apply frame_wnd; exact F3). assert (Cw : cwnd (ox s3) = cwnd (ox s)) by (apply frame_cwnd; exact F3).
  assert (Csf : sackp t && frec t = sackp (tp s) && frec (tp s)) by (pose proof (frame_sackp _ _ F1) as E1; pose proof (frame_frec _ _ F1) as E2; cbn [tp] in E1, E2; rewrite E1, E2; reflexivity). rewrite Csf in *.
  (* data only from where snd_nxt is, or from a hole *)
  set (len1 := len_part (tp s3) (ox s3) p len off sw sb).
  assert (Len : match p with
           | Some _ => len1 = len
           | None => 0 < len1 -> off = N1 - U /\ N1 + len1 <= zlen w /\ (N1 + len1 <= U + swin s \/ (force (ox s) = true /\ swin s = 0 /\ len1 = 1 /\ N1 = U) \/
               (sackp (tp s) && frec (tp s) = true /\ N1 + len1 <= U + snd_wnd (tp s) /\ rexb bd + u32 (snd_nxt t - newdata (ox s)) + len1 <= cwnd (ox s)))
           end).
  { unfold len1, len_part. destruct p as [g|]; [reflexivity|]. destruct Hp as [Hl Hp]. destruct (Z.eqb_spec sb 0) as [E0|E0].
    - intros L. destruct Hp as [Ho|(h & Od & Ho & E1 & E2 & E3)].
      + split; [exact Ho|]. split; [lia|]. destruct Sw1 as [->|(-> & Z1 & Z2)]; [left; lia|]. right. left. split; [exact Z2|]. split; [exact Z1|]. lia.
      + pose proof (o_sum _ _ _ _ Od). assert (swin s = 0) by lia. destruct Sw1 as [->|(-> & Z1 & Z2)]; [lia|].
        destruct (Hc Z2 Z1) as [(C1 & C2)|(_ & C2)]; [|congruence]. fold t in C1. assert (N1 = U). { pose proof (i_u _ _ _ _ _ _ _ _ _ H1) as X1. pose proof (i_n _ _ _ _ _ _ _ _ _ H1) as X2. cbn [tp] in X1, X2. rewrite X2 in C1. rewrite <- (frame_una _ _ F1) in C1. cbn [tp] in C1. rewrite X1 in C1. apply wire_inj in C1; lia. }
        split; [lia|]. split; [lia|]. right. left. split; [exact Z2|]. split; [exact Z1|]. lia.
    - destruct Sb as [Sb|[Sb1 Sb2]]; [lia|]. set (x0 := Z.min (snd_cc (tp s3)) (snd_wnd (tp s3)) - off). destruct (Z.ltb_spec 0 x0) as [Lx|Lx]; [|intros; lia].
      intros L. destruct Hp as [Ho|(h & Od & Ho & E1 & E2 & E3)].
      + split; [exact Ho|]. unfold x0 in *. split; [lia|]. right. right. split; [exact Sb1|]. split; [lia|]. rewrite En3 in L |- *. replace (newdata (ox s3)) with (newdata (ox s)) in * by (symmetry; exact (fx newdata F3)). lia.
      + exfalso. pose proof (o_sum _ _ _ _ Od). unfold x0 in *. assert (C3 : cwnd (ox s3) <= sb \/ snd_wnd (tp s3) <= sb) by (unfold swin in E2; lia).
        destruct C3 as [C3|C3]; [|lia]. set (v := u32 _) in *. pose proof (Z.mod_pos_bound (snd_nxt (tp s3) - newdata (ox s3)) 4294967296 ltac:(lia)) as Bv. fold (u32 (snd_nxt (tp s3) - newdata (ox s3))) in Bv. fold v in Bv. lia. }
  assert (Fin : fin1 = true -> cl = true /\ U <= zlen w). { assert (K : fin0 = true -> cl = true /\ U <= zlen w) by apply St. destruct Hf as [(_ & _ & _ & ->)|[(_ & _ & _ & _ & ->)|(_ & _ & _ & _ & ->)]]; [exact K| |exact K]. intros K2. apply andb_prop in K2. apply K, K2. }
  assert (Prb : force (ox s) = true -> persist (tp s3) = true -> fin1 = false).
  { intros K1 K2. destruct Hf as [(? & _)|[(_ & Z1 & _ & _ & ->)|(_ & _ & -> & _)]]; [congruence| |discriminate].
    specialize (Pt K2). destruct (Hc K1 Z1) as [(C1 & C2)|(C2 & _)]; [|congruence]. rewrite <- (frame_cc _ _ F3), Cc in C2. replace (off <? snd_cc (tp s3)) with true; [apply andb_false_r|]. symmetry. apply Z.ltb_lt.
    destruct p as [g|].
    - destruct Hp as (h & _ & Od & -> & L & _). destruct (o_in _ _ _ _ Od) as (pp & qq & El & _). assert (Ih : In h l) by (rewrite El; apply in_or_app; right; left; reflexivity). pose proof (inv_hole _ _ _ _ _ _ _ _ _ h H Ih). lia.
    - destruct Hp as [_ [->|(h & Od & -> & _)]].
      + fold t in C1. assert (N1 = U); [|lia]. pose proof (i_u _ _ _ _ _ _ _ _ _ H1) as X1. pose proof (i_n _ _ _ _ _ _ _ _ _ H1) as X2. cbn [tp] in X1, X2. rewrite X2 in C1. rewrite <- (frame_una _ _ F1) in C1. cbn [tp] in C1. rewrite X1 in C1. apply wire_inj in C1; lia.
      + destruct (o_in _ _ _ _ Od) as (pp & qq & El & _). assert (Ih : In h l) by (rewrite El; apply in_or_app; right; left; reflexivity). pose proof (inv_hole _ _ _ _ _ _ _ _ _ h H Ih). pose proof (o_opn _ _ _ _ Od) as O. unfold opn in O. lia. }
  clearbody len1.
  (* the closed window *)
  assert (Tail : exists s4 len4 N4, (if len1 <? 0 then if sw =? 0 then if persist (tp s3) then Ret (mkOst (set_snd_nxt (snd_una (tp s3)) (set_rexmt false (tp s3))) (set_rxtshift 0 (ox s3)), 0)
        else obind (setpersist (mkOst (set_snd_nxt (snd_una (tp s3)) (set_rexmt false (tp s3))) (set_rxtshift 0 (ox s3)))) (fun s => Ret (s, 0)) else Ret (s3, 0) else Ret (s3, len1)) = Ret (s4, len4) /\
      Inv b w cl U N4 M l f s4 /\ frame s s4 /\ board (ox s4) = bd /\ ((s4 = s3 /\ N4 = N1 /\ len4 = Z.max 0 len1) \/ (N4 = U /\ len4 = 0 /\ swin s = 0 /\ force (ox s) = false))).
  { destruct (Z.ltb_spec len1 0) as [L|L]; [|exists s3, len1, N1; split; [reflexivity|]; split; [exact H3|split; [exact F3|split; [exact Ebd|left; split; [reflexivity|split; [reflexivity|lia]]]]]].
    destruct (Z.eqb_spec sw 0) as [E|E]; [|exists s3, 0, N1; split; [reflexivity|]; split; [exact H3|split; [exact F3|split; [exact Ebd|left; split; [reflexivity|split; [reflexivity|lia]]]]]].
    assert (Z0 : swin s = 0 /\ force (ox s) = false). { destruct Hf as [(? & _ & -> & _)|[(_ & _ & _ & -> & _)|(_ & ? & _ & -> & _)]]; [auto|lia|congruence]. }
    assert (H4 : forall v x, x = ox s3 \/ x = set_rxtshift v (ox s3) -> forall t', t' = set_snd_nxt (snd_una (tp s3)) (set_rexmt false (tp s3)) \/ t' = set_persist true (set_snd_nxt (snd_una (tp s3)) (set_rexmt false (tp s3))) -> Inv b w cl U U M l f (mkOst t' x) /\ frame s (mkOst t' x) /\ board x = bd).
    { intros v x Hx t' Ht. split; [|split; [apply (frame_trans _ _ _ F3); destruct Hx as [->| ->], Ht as [->| ->]; split; reflexivity|destruct Hx as [->| ->]; exact Ebd]].
      destruct H3. destruct Hx as [->| ->], Ht as [->| ->]; (constructor; try assumption; cbn [tp]; lia). }
    destruct (persist (tp s3)).
    - eexists _, 0, U. split; [reflexivity|]. destruct (H4 0 _ (or_intror eq_refl) _ (or_introl eq_refl)) as (K1 & K2 & K3). split; [exact K1|]. split; [exact K2|]. split; [exact K3|]. right. auto.
    - rewrite setpersist_ok by reflexivity. cbn [obind tp ox]. eexists _, 0, U. split; [reflexivity|]. set (z := if _ <? _ then _ else _). change (set_rxtshift z (set_rxtshift 0 (ox s3))) with (set_rxtshift z (ox s3)). destruct (H4 z _ (or_intror eq_refl) _ (or_intror eq_refl)) as (K1 & K2 & K3). split; [exact K1|]. split; [exact K2|]. split; [exact K3|]. right. auto. }
  destruct Tail as (s4 & len4 & N4 & Et & H4 & F4 & Eb4 & Hn). rewrite andb_true_r. cbn [negb] in *. rewrite Et. cbn [obind].
  eexists _, _, N4. split; [reflexivity|]. split; [exact H4|]. split; [exact F4|].
  pose proof (inv_range _ _ _ _ _ _ _ _ _ H4) as R4. pose proof (frame_force _ _ F4) as Ff.
  assert (Lp : p <> None -> s4 = s3 /\ N4 = N1 /\ len4 = len1).
  { intros Np. destruct p as [g|]; [|congruence]. destruct Hp as (h & _ & Od & _ & L & Lw). subst len1. destruct Hn as [(-> & -> & ->)|(_ & _ & Z0 & _)]; [split; [reflexivity|split; [reflexivity|lia]]|]. pose proof (o_sum _ _ _ _ Od). lia. }
  split.
  2: { split; [intros K; destruct Hn as [(-> & _)|(-> & _)]; [left; apply Pt; exact K|right; reflexivity]|]. cbn [l_len]. destruct Hn as [(_ & -> & _)|(_ & -> & _)]; lia. }
  constructor; cbn [l_syn l_len l_fin l_hole l_off].
  - reflexivity.
  - destruct Hn as [(_ & _ & ->)|(_ & -> & _)]; lia.
  - intros K. apply andb_prop in K. apply Fin, K.
  - rewrite Ff. intros K1 K2. destruct Hn as [(-> & _)|(_ & _ & _ & K3)]; [|congruence]. rewrite (Prb K1 K2). reflexivity.
  - rewrite Ff, (frame_swin _ _ F4). intros K1 K2. destruct Hn as [(-> & _)|(_ & _ & K3 & _)]; [|exact K3]. destruct Hf as [(? & _)|[(_ & Z1 & _)|(_ & _ & -> & _)]]; [congruence|exact Z1|discriminate].
  - destruct p as [g|].
    + destruct (Lp ltac:(discriminate)) as (-> & -> & ->). subst len1. destruct Hp as (h & -> & Od & -> & L & _). exists h. split; [reflexivity|]. split; [exact Od|]. split; [reflexivity|]. split; [exact L|].
      intros K. apply andb_prop in K. destruct K as [K1 K2]. specialize (Fin K1). destruct (o_in _ _ _ _ Od) as (pp & qq & El & _). assert (Ih : In h l) by (rewrite El; apply in_or_app; right; left; reflexivity). pose proof (inv_hole _ _ _ _ _ _ _ _ _ h H Ih).
      apply negb_true_iff in K2. rewrite (i_u _ _ _ _ _ _ _ _ _ H3), Cc in K2. cbn [wh hr] in K2. rewrite !q_add, q_lt in K2 by lia. apply Z.ltb_ge in K2. lia.
    + split.
      * intros L. destruct Hn as [(-> & -> & ->)|(_ & -> & _)]; [|lia]. destruct (Len ltac:(lia)) as (K1 & K2 & _). split; [exact K1|lia].
      * intros K. apply andb_prop in K. destruct K as [K1 K2]. specialize (Fin K1). apply negb_true_iff in K2. rewrite (i_u _ _ _ _ _ _ _ _ _ H4), (i_n _ _ _ _ _ _ _ _ _ H4) in K2.
        assert (L4 : 0 <= len4 <= 4128705). { destruct Hn as [(_ & _ & ->)|(_ & -> & _)]; [|lia]. destruct (Z_le_gt_dec len1 0); [lia|]. destruct (Len ltac:(lia)) as (_ & Q & _). lia. }
        replace (snd_cc (tp s4)) with (Z.max 0 (zlen w - U)) in K2 by (symmetry; apply R4). rewrite !q_add, q_lt in K2 by lia. apply Z.ltb_ge in K2. lia.
  - intros L. rewrite (frame_swin _ _ F4), (frame_sackp _ _ F4), (frame_frec _ _ F4), (frame_wnd _ _ F4), (frame_cwnd _ _ F4), Ff, Eb4. destruct p as [g|].
    + destruct (Lp ltac:(discriminate)) as (-> & -> & ->). subst len1. destruct Sb as [Sb|[Sb _]].
      * (* sb = 0 says nothing of the flags *) destruct Hp as (h & -> & Od & _ & _ & Lw). rewrite (a_r _ _ _ _ _ _ Ab). split; [|lia].
        destruct (sackp (tp s) && frec (tp s)) eqn:SF; [reflexivity|]. unfold sack_part in Es. rewrite Csf in Es. discriminate.
      * destruct Hp as (h & -> & Od & _ & _ & Lw). rewrite (a_r _ _ _ _ _ _ Ab). split; [exact Sb|lia].
    + destruct Hn as [(-> & -> & E4)|(_ & E4 & _)]; [|lia]. replace len4 with len1 in * by lia. destruct (Len ltac:(lia)) as (_ & _ & [K|[K|(K1 & K2 & K3)]]); [left; exact K|right; left; exact K|]. right; right.
      split; [exact K1|]. split; [exact K2|]. rewrite En3. replace (newdata (ox s3)) with (newdata (ox s)) by (symmetry; exact (fx newdata F3)). exact K3.
Qed.
