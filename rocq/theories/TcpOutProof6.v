From Verif Require Import Base TcpSeqModel TcpSeqProps TcpOptModel TcpOptProof TcpReassModel TcpInModel TcpInSpec SockModel SockSpec SockProof SackModel SackSpec SackProof SackProof2 SackProof3 TcpOutModel TcpOutSpec TcpOutProof TcpOutProof2 TcpOutProof3 TcpOutProof4 TcpOutProof5.
Ltac Zify.zify_post_hook ::= idtac.

(* all that is known of a segment; f: where the peer's SACK information ends *)
Definition good (b : Z) (w : list Z) (cl : bool) (U f : Z) (v : oenv) (s : ost) (q : oseg) : Prop :=
  let n := zlen (q_data q) in
  exists p, U <= p <= zlen w + 1 /\ q_seq q = wire (b + p) /\ q_data q = part w p n /\ (0 < n -> p + n <= zlen w) /\ (q_fin q = true -> cl = true /\ p + n = zlen w) /\ q_syn q = false /\
    n + zlen (q_opts q) + w_ipopt v <= maxopd (ox s) /\
    (0 < n -> p + n <= U + swin s \/ (force (ox s) = true /\ swin s = 0 /\ n = 1 /\ p = U) \/ (sackp (tp s) && frec (tp s) = true /\ (p + n <= U + snd_wnd (tp s) \/ b + p + n <= f))).
Lemma good_frame b w cl U f v s s' q : frame s s' -> good b w cl U f v s' q -> good b w cl U f v s q.
Proof. intros F. unfold good. rewrite (frame_maxopd _ _ F), (frame_swin _ _ F), (frame_force _ _ F), (frame_sackp _ _ F), (frame_frec _ _ F), (frame_wnd _ _ F). auto. Qed.
Lemma good_seg b w cl U N M l f v s pl q p n : Inv b w cl U N M l f s -> PlanOK b w cl U N l s pl -> SegOK b w cl U N v s pl q p n -> good b w cl U f v s q.
Proof.
  intros H P [G1 G2 G3 G4 G5 G6 G7 G8 G9 G10]. pose proof (inv_range _ _ _ _ _ _ _ _ _ H) as R. unfold good. rewrite G4. exists p. repeat (split; [assumption|]). intros L. specialize (G10 L). pose proof (p_win _ _ _ _ _ _ _ _ P ltac:(lia)) as W. pose proof (p_hole _ _ _ _ _ _ _ _ P) as Ph.
  destruct (l_hole pl) as [g|].
  - destruct Ph as (h & -> & Od & _ & L2 & _). destruct W as [W _]. right. right. split; [exact W|]. right. destruct (o_in _ _ _ _ Od) as (pp & qq & El & _). assert (Ih : In h l) by (rewrite El; apply in_or_app; right; left; reflexivity). pose proof (inv_hole _ _ _ _ _ _ _ _ _ h H Ih) as Hh.
    cbn [wh hr] in G10. apply wire_inj in G10; [|lia]. pose proof (a_c _ _ _ _ _ _ (i_a _ _ _ _ _ _ _ _ _ H)) as C. pose proof (topped_end _ _ _ h C (i_top _ _ _ _ _ _ _ _ _ H) Ih). lia.
  - subst p. destruct W as [W|[(W1 & W2 & W3 & W4)|(W1 & W2 & _)]]; [left; lia|right; left|right; right]; [repeat (split; [assumption|]); split; lia|]. split; [exact W1|]. left. lia.
Qed.
Lemma see_data_ok b w cl U N M l f s pl : Inv b w cl U N M l f s -> PlanOK b w cl U N l s pl -> Inv b w cl U N M l f (see_data s) /\ PlanOK b w cl U N l (see_data s) pl /\ frame s (see_data s).
Proof.
  intros H P. unfold see_data. destruct (_ && _); [|split; [exact H|split; [exact P|apply frame_refl]]]. split; [|split; [destruct P; constructor; assumption|split; reflexivity]]. destruct H. constructor; assumption.
Qed.
Lemma no_send_ok b w cl U N M l f s : Inv b w cl U N M l f s -> exists s', no_send s = Ret s' /\ Inv b w cl U N M l f s' /\ frame s s'.
Proof.
  intros H. unfold no_send. cbv zeta. destruct (sackp (tp s) && _ && _ && _); [eexists; split; [reflexivity|]; split; [destruct H; constructor; assumption|split; reflexivity]|].
  destruct (negb (snd_cc (tp s) =? 0)) eqn:E1; cbn [andb]; [|eexists; split; [reflexivity|]; split; [exact H|apply frame_refl]].
  destruct (rexmt (tp s)) eqn:E2; cbn [negb andb]; [eexists; split; [reflexivity|]; split; [exact H|apply frame_refl]|].
  destruct (persist (tp s)) eqn:E3; cbn [negb andb]; [eexists; split; [reflexivity|]; split; [exact H|apply frame_refl]|].
  rewrite setpersist_ok by exact E2. eexists. split; [reflexivity|]. split; [destruct H; constructor; assumption|split; reflexivity].
Qed.
Lemma sent_calm b w cl U N M l f s s' pl : Inv b w cl U N M l f s -> PlanOK b w cl U N l s pl -> frame s s' -> is_hole (l_hole pl) = true \/ 1 < l_len pl -> calm s'.
Proof.
  intros H P F Hl F1 Z0. exfalso. rewrite (frame_force _ _ F) in F1. rewrite (frame_swin _ _ F) in Z0. pose proof (inv_range _ _ _ _ _ _ _ _ _ H) as R. pose proof (p_hole _ _ _ _ _ _ _ _ P) as Ph. pose proof (p_win _ _ _ _ _ _ _ _ P) as W.
  pose proof (a_r _ _ _ _ _ _ (i_a _ _ _ _ _ _ _ _ _ H)) as Er. cbn [sync rexb] in Er. pose proof (sumr_bound _ _ _ (a_c _ _ _ _ _ _ (i_a _ _ _ _ _ _ _ _ _ H))).
  destruct (l_hole pl) as [g|].
  - destruct Ph as (h & _ & _ & _ & L & _). destruct (W ltac:(lia)). lia.
  - destruct Hl as [Hl|Hl]; [discriminate|]. destruct (W ltac:(lia)) as [K|[K|(_ & K3 & K4)]]; [lia|lia|].
    pose proof (Z.mod_pos_bound (snd_nxt (tp s) - newdata (ox s)) 4294967296 ltac:(lia)) as Bv. fold (u32 (snd_nxt (tp s) - newdata (ox s))) in Bv. unfold swin in Z0. lia.
Qed.
Lemma env_frame v s s' : frame s s' -> env_ok v s -> env_ok v s'.
Proof. intros F. unfold env_ok. rewrite (frame_maxopd _ _ F). auto. Qed.

Lemma pass_ok b w cl U N M l f v r idle s : Inv b w cl U N M l f s -> calm s -> env_ok v s ->
  exists d, pass v r idle s = Ret d /\ match d with
  | Quiet s2 => exists N2, Inv b w cl U N2 M l f s2 /\ frame s s2
  | Made s2 oq ag => exists N2 M2 l2, Inv b w cl U N2 M2 l2 f s2 /\ frame s s2 /\ (ag = true -> calm s2) /\ (r = PSent -> ag = true -> todo l2 - N2 < todo l - N) /\
      match oq with None => r = PNoMem | Some (q, r') => r' = r /\ r <> PNoMem /\ good b w cl U f v s q end
  end.
Proof.
  intros H Hc Hv. destruct (plan_ok _ _ _ _ _ _ _ _ _ H Hc) as (s1 & pl & N1 & E & H1 & F1 & P & _ & Nn). unfold pass. rewrite E. cbn [obind].
  assert (Snd : forall s1', Inv b w cl U N1 M l f s1' -> PlanOK b w cl U N1 l s1' pl -> frame s s1' -> exists d, obind (send v r s1' pl) (fun '(s, q, a) => Ret (Made s q a)) = Ret d /\ match d with
    | Quiet s2 => False
    | Made s2 oq ag => exists N2 M2 l2, Inv b w cl U N2 M2 l2 f s2 /\ frame s s2 /\ (ag = true -> calm s2) /\ (r = PSent -> ag = true -> todo l2 - N2 < todo l - N) /\
        match oq with None => r = PNoMem | Some (q, r') => r' = r /\ r <> PNoMem /\ good b w cl U f v s q end end).
  { intros s1' H1' P' F1'. destruct (send_ok v r _ _ _ _ _ _ _ _ _ _ H1' P' (env_frame _ _ _ F1' Hv)) as (s2 & oq & ag & N2 & M2 & l2 & Es & K1 & K2 & K3 & K4 & K5). rewrite Es. cbn [obind]. eexists. split; [reflexivity|]. exists N2, M2, l2.
    split; [exact K1|]. split; [apply (frame_trans _ _ _ F1' K2)|]. split; [intros A; apply (sent_calm _ _ _ _ _ _ _ _ _ _ _ H1' P' K2 (K3 A))|]. split.
    - intros Er A. specialize (K4 Er A). assert (0 < l_len pl); [|specialize (Nn ltac:(lia)); lia]. destruct (K3 A) as [K|K]; [|lia]. pose proof (p_hole _ _ _ _ _ _ _ _ P') as Ph. destruct (l_hole pl) as [g|]; [|discriminate]. destruct Ph as (h & _ & _ & _ & L & _). lia.
    - destruct oq as [[q r']|]; [|exact K5]. destruct K5 as (-> & K5 & p & n & K6). split; [reflexivity|]. split; [exact K5|]. apply (good_frame _ _ _ _ _ _ _ _ _ F1'). apply (good_seg _ _ _ _ _ _ _ _ _ _ _ _ _ _ H1' P' K6). }
  destruct (data_now idle s1 pl).
  - destruct (Snd s1 H1 P F1) as (d & -> & K). exists d. split; [reflexivity|]. destruct d; [destruct K|exact K].
  - destruct (see_data_ok _ _ _ _ _ _ _ _ _ _ H1 P) as (H2 & P2 & F2). pose proof (frame_trans _ _ _ F1 F2) as F3. destruct (update_due v (see_data s1) || ctl_now (see_data s1) pl).
    + destruct (Snd _ H2 P2 F3) as (d & -> & K). exists d. split; [reflexivity|]. destruct d; [destruct K|exact K].
    + destruct (no_send_ok _ _ _ _ _ _ _ _ _ H2) as (s3 & -> & H4 & F4). cbn [obind]. eexists. split; [reflexivity|]. exists N1. split; [exact H4|apply (frame_trans _ _ _ F3 F4)].
Qed.

(* a call: any results of the passes *)
Definition sofar (b : Z) (w : list Z) (cl : bool) (U f : Z) (v : oenv) (s : ost) (o : outcome (ost * list (oseg * pres))) : Prop :=
  match o with
  | UB => False
  | Diverge => True
  | Ret (s2, qs) => (exists N2 M2 l2, Inv b w cl U N2 M2 l2 f s2) /\ frame s s2 /\ Forall (fun q => snd q <> PNoMem /\ good b w cl U f v s (fst q)) qs
  end.
Lemma passes_ok b w cl U f v idle : forall fuel i N M l s, Inv b w cl U N M l f s -> calm s -> env_ok v s -> sofar b w cl U f v s (passes fuel i v idle s).
Proof.
  induction fuel as [|fuel IH]; intros i N M l s H Hc Hv; [exact Logic.I|]. cbn [passes]. destruct (pass_ok b w cl U N M l f v (w_res v i) idle s H Hc Hv) as (d & -> & K). cbn [obind]. destruct d as [s2|s2 oq ag].
  - destruct K as (N2 & K1 & K2). split; [exists N2, M, l; exact K1|]. split; [exact K2|constructor].
  - destruct K as (N2 & M2 & l2 & K1 & K2 & K3 & _ & K5). set (hd := match oq with Some q => [q] | None => [] end).
    assert (Hd : Forall (fun q => snd q <> PNoMem /\ good b w cl U f v s (fst q)) hd) by (unfold hd; destruct oq as [[q r']|]; [|constructor]; destruct K5 as (-> & K5 & K6); constructor; [split; [exact K5|exact K6]|constructor]).
    destruct ag; [|split; [exists N2, M2, l2; exact K1|split; [exact K2|exact Hd]]].
    pose proof (IH (S i) N2 M2 l2 s2 K1 (K3 eq_refl) (env_frame _ _ _ K2 Hv)) as J. destruct (passes fuel (S i) v idle s2) as [[s3 qs]| |]; cbn [obind]; [|exact J|exact J]. destruct J as (J1 & J2 & J3). split; [exact J1|]. split; [apply (frame_trans _ _ _ K2 J2)|]. apply Forall_app. split; [exact Hd|].
    eapply Forall_impl; [|exact J3]. cbv beta. intros q [Q1 Q2]. split; [exact Q1|apply (good_frame _ _ _ _ _ _ _ _ _ K2 Q2)].
Qed.
Lemma passes_end b w cl U f v idle k : (forall i, (k <= i)%nat -> w_res v i = PSent) -> forall fuel i N M l s, Inv b w cl U N M l f s -> calm s -> env_ok v s ->
  (k <= i)%nat -> todo l - N + zlen w + 1 < Z.of_nat fuel -> passes fuel i v idle s <> Diverge.
Proof.
  intros Hk. induction fuel as [|fuel IH]; intros i N M l s H Hc Hv Hi Hf; pose proof (inv_range _ _ _ _ _ _ _ _ _ H) as R; pose proof (todo_pos _ _ _ (a_c _ _ _ _ _ _ (i_a _ _ _ _ _ _ _ _ _ H))) as T; [lia|].
  cbn [passes]. destruct (pass_ok b w cl U N M l f v (w_res v i) idle s H Hc Hv) as (d & -> & K). cbn [obind]. destruct d as [s2|s2 oq ag]; [discriminate|]. destruct K as (N2 & M2 & l2 & K1 & K2 & K3 & K4 & _). destruct ag; [|discriminate].
  specialize (K4 (Hk i Hi) eq_refl). pose proof (IH (S i) N2 M2 l2 s2 K1 (K3 eq_refl) (env_frame _ _ _ K2 Hv) ltac:(lia) ltac:(lia)) as J. destruct (passes fuel (S i) v idle s2) as [[s3 qs]| |]; [discriminate|discriminate|congruence].
Qed.
Lemma todo_bound l : forall lo hi, chain lo l hi -> todo l <= hi - lo.
Proof. induction l as [|h l IH]; intros lo hi C; cbn in C; [cbn; lia|]. destruct C as (C1 & C2 & C3 & C4). specialize (IH _ _ C4). cbn [todo fold_right]. fold (todo l). lia. Qed.
Lemma passes_term b w cl U f v idle k : (forall i, (k <= i)%nat -> w_res v i = PSent) -> forall j i N M l s, (i + j = k)%nat -> Inv b w cl U N M l f s -> calm s -> env_ok v s ->
  forall fuel, 2 * snd_cc (tp s) + 3 < Z.of_nat fuel - Z.of_nat j -> passes fuel i v idle s <> Diverge.
Proof.
  intros Hk. induction j as [|j IH]; intros i N M l s Ei H Hc Hv fuel Hf; pose proof (inv_range _ _ _ _ _ _ _ _ _ H) as R.
  - apply (passes_end b w cl U f v idle k Hk fuel i N M l s H Hc Hv); [lia|]. pose proof (todo_bound _ _ _ (a_c _ _ _ _ _ _ (i_a _ _ _ _ _ _ _ _ _ H))). pose proof (a_f _ _ _ _ _ _ (i_a _ _ _ _ _ _ _ _ _ H)). lia.
  - destruct fuel as [|fuel]; [lia|]. cbn [passes]. destruct (pass_ok b w cl U N M l f v (w_res v i) idle s H Hc Hv) as (d & -> & K). cbn [obind]. destruct d as [s2|s2 oq ag]; [discriminate|]. destruct K as (N2 & M2 & l2 & K1 & K2 & K3 & _ & _). destruct ag; [|discriminate].
    pose proof (IH (S i) N2 M2 l2 s2 ltac:(lia) K1 (K3 eq_refl) (env_frame _ _ _ K2 Hv) fuel ltac:(rewrite (frame_cc _ _ K2); lia)) as J. destruct (passes fuel (S i) v idle s2) as [[s3 qs]| |]; [discriminate|discriminate|congruence].
Qed.
Lemma output_inv b w cl U N M l f v fuel s : Inv b w cl U N M l f s -> calm s -> env_ok v s -> sofar b w cl U f v s (output fuel v s).
Proof.
  intros H Hc Hv. unfold output. cbv zeta. set (s0 := mkOst (tp s) (set_lastidle _ (ox s))). assert (F : frame s s0) by (split; reflexivity).
  assert (H0 : Inv b w cl U N M l f s0) by (destruct H; constructor; assumption). pose proof (passes_ok b w cl U f v (is_idle s && negb (morecome (ox s))) fuel 0%nat N M l s0 H0 Hc Hv) as J.
  destruct (passes _ _ _ _ s0) as [[s2 qs]| |]; [|exact J|exact J]. destruct J as (J1 & J2 & J3). split; [exact J1|]. split; [apply (frame_trans _ _ _ F J2)|]. eapply Forall_impl; [|exact J3]. cbv beta. intros q [Q1 Q2]. split; [exact Q1|apply (good_frame _ _ _ _ _ _ _ _ _ F Q2)].
Qed.

(* ---- histories ---- *)
Lemma hist_inv b w cl U s : hist b w cl U s -> exists N M l f, Inv b w cl U N M l f s.
Proof.
  induction 1 as [s E1 E2 E3 E4 E5 E6 E7 E8 E9 E10 E11|w U s m bf t' x' _ IH Sm Ep -> ->|w U s _ IH|w cl U s maxh av opt ack bd bf fr s' U' _ IH Hm Hk Ho Ea Eu Em Hn Hb -> Ed Eb Ec Ef Hs|w cl U s v fuel s' l _ IH Hc Hv Eo].
  - exists 0, 0, [], b. constructor; rewrite ?E1, ?E2, ?E3, ?Z.add_0_r; try reflexivity; try lia.
    + exact E4.
    + exists []. rewrite E5. split; [apply Q_empty|reflexivity].
    + rewrite E10. cbn. lia.
    + constructor; cbn [sync holes hint numholes rexb fack una smax nid]; rewrite ?E1, ?E3, ?E6, ?E7, ?E8, ?E9, ?Z.add_0_r; try reflexivity; try lia; try (cbn; lia); try congruence; try exact Logic.I; try constructor.
    + apply front_nil.
    + apply topped_nil.
    + exact E11.
  - destruct IH as (N & M & l & f & H). exists N, M, l, f. pose proof (inv_range _ _ _ _ _ _ _ _ _ H) as R. destruct H as [A1 A2 A3 A4 A5 (pl & A6 & A7) A8 A9 A10 A11 A12]. destruct (put_last_ok (fun _ => false) _ _ m A6 ltac:(unfold plen; unfold zlen in Sm; lia)) as (sb' & fa & Eq & Q1 & Q2).
    rewrite Ep in Eq. injection Eq as <- <-. unfold bspec in Q1, Q2. destruct (Nat.ltb (length pl) ROOM); [|discriminate]. cbn [fst snd] in Q1, Q2.
    assert (Uw : U <= zlen w) by (destruct (sentfin (ox s)); [destruct A8; discriminate|lia]).
    assert (Bw : bytes (pl ++ [m]) = skipn (Z.to_nat U) (w ++ pk_data m)) by (rewrite bytes_app, A7, skipn_app; cbn [bytes map concat]; rewrite app_nil_r; replace (Z.to_nat U - length w)%nat with 0%nat by (unfold zlen in Uw; lia); reflexivity).
    constructor; try assumption.
    + change (sb_cc bf = zlen (skipn (Z.to_nat U) (w ++ pk_data m))). rewrite (q_cc _ _ Q1), Bw. reflexivity.
    + exists (pl ++ [m]). split; [exact Q1|exact Bw].
    + cbn [ox sentfin]. destruct (sentfin (ox s)); [destruct A8; discriminate|]. unfold zlen in *. rewrite app_length. lia.
    + unfold settings in *. destruct A12 as (B1 & B2 & B3 & B4). split; [exact B1|]. split; [exact B2|]. split; [|exact B4]. intros K. destruct (B3 K). discriminate.
  - destruct IH as (N & M & l & f & H). exists N, M, l, f. destruct H as [A1 A2 A3 A4 A5 A6 A8 A9 A10 A11 A12]. constructor; try assumption.
    + destruct (sentfin (ox s)); [destruct A8; discriminate|exact A8].
    + unfold settings in *. destruct A12 as (B1 & B2 & B3 & B4). split; [exact B1|]. split; [exact B2|]. split; [|exact B4]. intros K. destruct (B3 K). discriminate.
  - destruct IH as (N & M & l & f & H). pose proof (inv_range _ _ _ _ _ _ _ _ _ H) as R. destruct H as [A1 A2 A3 A4 A5 (pl & A6 & A7) A8 A9 A10 A11 A12].
    (* the acknowledgement *)
    assert (Ack : exists U' l' f', una bd = wire (b + U') /\ U <= U' <= M /\ A bd l' f' (b + U') (b + U') (b + M) /\ front l' /\ topped l' f').
    { destruct (ack_split (b + M) ack Hk) as [G|(G & ak & -> & L)].
      - exists U, l, f. unfold on_ack in Ea. cbn [sync smax] in Ea. rewrite A3, G in Ea. injection Ea as <-. split; [cbn [sync una]; exact A1|]. split; [lia|]. split; [exact A9|]. split; [exact A10|exact A11].
      - destruct (on_ack_ok maxh av _ _ _ _ _ ak opt A9 L Ho) as (bd' & l' & f' & bl & Ea' & Ha & _ & St & _ & _). cbv zeta in *. rewrite Ea in Ea'. injection Ea' as <-. exists (Z.max (b + U) ak - b), l', f'. rewrite (a_u _ _ _ _ _ _ Ha). replace (b + (Z.max (b + U) ak - b)) with (Z.max (b + U) ak) by lia.
        split; [reflexivity|]. split; [lia|]. split; [exact Ha|]. split; [apply (front_step _ _ _ _ _ _ (b + U) f St (a_c _ _ _ _ _ _ A9)); [intros; lia|exact A10]|exact (st_top _ _ _ _ _ _ St A11)]. }
    destruct Ack as (U' & l' & f' & Eu' & Lu & Ha & Fr & Tp). rewrite Eu' in *. assert (EU : U + u32 (wire (b + U') - snd_una (tp s)) = U') by (rewrite A1, wire_sub; unfold wire; rewrite Z.mod_small by lia; lia). rewrite EU in *.
    destruct (sbdrop_ok pl (sndb (ox s)) (U' - U) copy_fuel A6 ltac:(pose proof (q_len _ _ A6); unfold copy_fuel; lia)) as (bf' & fr' & Ed' & Qd). rewrite Ed in Ed'. injection Ed' as <- <-. rewrite <- Eb in *.
    assert (Bd : bytes (drop_bytes (U' - U) pl) = skipn (Z.to_nat U') w) by (rewrite drop_bytes_stream, A7, skip_skip; f_equal; lia).
    destruct Hn as (k & Lk & En). rewrite Eu, Em, A3, wire_sub in Lk. unfold wire in Lk at 1. rewrite Z.mod_small in Lk by lia. rewrite Eu, q_add in En.
    assert (Bx : exists l2 f2, A (sync (tp s') (board (ox s'))) l2 f2 (b + U') (b + U') (b + M) /\ front l2 /\ topped l2 f2).
    { destruct Hb as [Hb|Hb]; rewrite Hb.
      - exists l', f'. split; [|split; [exact Fr|exact Tp]]. destruct Ha. constructor; cbn [sync holes hint numholes rexb fack una smax nid]; try assumption; congruence.
      - destruct (free_ok _ _ _ _ _ _ Ha) as [Ha2 _]. exists [], (b + U'). split; [|split; [apply front_nil|apply topped_nil]]. destruct Ha2. constructor; cbn [sync holes hint numholes rexb fack una smax nid]; try assumption; congruence. }
    destruct Bx as (l2 & f2 & Ha2 & Fr2 & Tp2). exists (U' + k), M, l2, f2. constructor; try assumption.
    + rewrite En. f_equal. lia.
    + congruence.
    + lia.
    + rewrite Ec. rewrite (q_cc _ _ Qd), Bd. reflexivity.
    + exists (drop_bytes (U' - U) pl). split; [exact Qd|exact Bd].
    + rewrite Ef. exact A8.
  - destruct IH as (N & M & l0 & f & H). pose proof (output_inv _ _ _ _ _ _ _ _ v fuel _ H Hc Hv) as J. rewrite Eo in J. destruct J as ((N2 & M2 & l2 & J) & _). exists N2, M2, l2, f. exact J.
Qed.
