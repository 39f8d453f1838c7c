From Verif Require Import Base TcpSeqModel TcpSeqProps TcpOptModel TcpOptProof TcpReassModel TcpInModel TcpInSpec SockModel SockSpec SockProof SackModel SackSpec SackProof SackProof2 SackProof3 TcpOutModel TcpOutSpec TcpOutProof.
Ltac Zify.zify_post_hook ::= idtac.

Record Inv (b : Z) (w : list Z) (cl : bool) (U N M : Z) (l : list hole) (f : Z) (s : ost) : Prop := {
  i_u : snd_una (tp s) = wire (b + U); i_n : snd_nxt (tp s) = wire (b + N); i_m : snd_max (tp s) = wire (b + M);
  i_o : 0 <= U /\ U <= N /\ N <= M;
  i_cc : snd_cc (tp s) = zlen (skipn (Z.to_nat U) w);
  i_buf : exists pl, Q (sndb (ox s)) pl /\ bytes pl = skipn (Z.to_nat U) w;
  i_fin : if sentfin (ox s) then cl = true /\ M = zlen w + 1 else M <= zlen w;
  i_a : A (sync (tp s) (board (ox s))) l f (b + U) (b + U) (b + M);
  i_front : front l; i_top : topped l f;
  i_set : settings w cl U s }.
Lemma inv_view b w cl U N M l f s s' : Inv b w cl U N M l f s ->
  snd_una (tp s') = snd_una (tp s) -> snd_nxt (tp s') = snd_nxt (tp s) -> snd_max (tp s') = snd_max (tp s) -> snd_cc (tp s') = snd_cc (tp s) -> sndb (ox s') = sndb (ox s) ->
  sentfin (ox s') = sentfin (ox s) -> sync (tp s') (board (ox s')) = sync (tp s) (board (ox s)) -> t_state (tp s') = t_state (tp s) -> needsyn (tp s') = needsyn (tp s) ->
  needfin (tp s') = needfin (tp s) -> snd_wnd (tp s') = snd_wnd (tp s) -> cwnd (ox s') = cwnd (ox s) -> Inv b w cl U N M l f s'.
Proof.
  intros [] E1 E2 E3 E4 E5 E6 E7 E8 E9 E10 E11 E12. constructor; rewrite ?E1, ?E2, ?E3, ?E4, ?E5, ?E6, ?E7; try assumption.
  unfold settings in *. rewrite E8, E9, E10, E11, E12. exact i_set0.
Qed.
Lemma skip_len (w : list Z) U : 0 <= U -> zlen (skipn (Z.to_nat U) w) = Z.max 0 (zlen w - U).
Proof. intros H. unfold zlen. rewrite skipn_length. lia. Qed.
Lemma inv_range b w cl U N M l f s : Inv b w cl U N M l f s -> 0 <= U /\ U <= N /\ N <= M /\ M <= zlen w + 1 /\ snd_cc (tp s) = Z.max 0 (zlen w - U) /\ zlen w - U <= 4128705.
Proof.
  intros H. destruct (i_o _ _ _ _ _ _ _ _ _ H) as (A1 & A2 & A3). pose proof (i_fin _ _ _ _ _ _ _ _ _ H) as Fi. pose proof (i_cc _ _ _ _ _ _ _ _ _ H) as C. rewrite skip_len in C by lia.
  destruct (i_buf _ _ _ _ _ _ _ _ _ H) as (pl & Qp & E). pose proof (bytes_bound pl (q_small _ _ Qp)) as Bb. pose proof (q_len _ _ Qp). rewrite E in Bb. fold (zlen (skipn (Z.to_nat U) w)) in Bb. rewrite skip_len in Bb by lia.
  split; [lia|]. split; [lia|]. split; [lia|]. split; [destruct (sentfin (ox s)); lia|]. split; [exact C|]. lia.
Qed.
Lemma inv_hole b w cl U N M l f s h : Inv b w cl U N M l f s -> In h l -> b + U <= hs h /\ hs h < he h /\ hs h <= hr h <= he h /\ he h <= b + M - 1 /\ he h <= b + zlen w.
Proof.
  intros H Hi. pose proof (i_a _ _ _ _ _ _ _ _ _ H) as Ha. pose proof (a_c _ _ _ _ _ _ Ha) as C. pose proof (chain_in _ _ _ h C Hi). pose proof (topped_end _ _ _ h C (i_top _ _ _ _ _ _ _ _ _ H) Hi). pose proof (a_f _ _ _ _ _ _ Ha). pose proof (inv_range _ _ _ _ _ _ _ _ _ H). lia.
Qed.

(* ---- what a call leaves alone ---- *)
Definition static (x : oext) : oext := set_sup 0 (set_rxtshift 0 (set_board (mkSb [] None 0 0 0 0 0 0) (set_lastidle false (set_sentfin false (set_wndupd false x))))).
Definition frame (s s' : ost) : Prop := core (tp s') = core (tp s) /\ static (ox s') = static (ox s).
Lemma frame_refl s : frame s s.
Proof. split; reflexivity. Qed.
Lemma frame_trans s1 s2 s3 : frame s1 s2 -> frame s2 s3 -> frame s1 s3.
Proof. intros [A1 A2] [B1 B2]. split; congruence. Qed.
Definition fr {X} (g : tcp -> X) {s s'} (F : frame s s') : g (core (tp s')) = g (core (tp s)) := f_equal g (proj1 F).
Definition fx {X} (g : oext -> X) {s s'} (F : frame s s') : g (static (ox s')) = g (static (ox s)) := f_equal g (proj2 F).
Lemma frame_wnd s s' : frame s s' -> snd_wnd (tp s') = snd_wnd (tp s). Proof. intros F. exact (fr snd_wnd F). Qed.
Lemma frame_una s s' : frame s s' -> snd_una (tp s') = snd_una (tp s). Proof. intros F. exact (fr snd_una F). Qed.
Lemma frame_cc s s' : frame s s' -> snd_cc (tp s') = snd_cc (tp s). Proof. intros F. exact (fr snd_cc F). Qed.
Lemma frame_sackp s s' : frame s s' -> sackp (tp s') = sackp (tp s). Proof. intros F. exact (fr sackp F). Qed.
Lemma frame_frec s s' : frame s s' -> frec (tp s') = frec (tp s). Proof. intros F. exact (fr frec F). Qed.
Lemma frame_cwnd s s' : frame s s' -> cwnd (ox s') = cwnd (ox s). Proof. intros F. exact (fx cwnd F). Qed.
Lemma frame_force s s' : frame s s' -> force (ox s') = force (ox s). Proof. intros F. exact (fx force F). Qed.
Lemma frame_maxopd s s' : frame s s' -> maxopd (ox s') = maxopd (ox s). Proof. intros F. exact (fx maxopd F). Qed.
Lemma frame_swin s s' : frame s s' -> swin s' = swin s. Proof. intros F. unfold swin. rewrite (frame_wnd _ _ F), (frame_cwnd _ _ F). reflexivity. Qed.
Lemma frame_settings w cl U s s' : frame s s' -> settings w cl U s -> settings w cl U s'.
Proof.
  intros F S. unfold settings in *. rewrite (frame_wnd _ _ F), (frame_cwnd _ _ F). pose proof (fr t_state F) as E1. pose proof (fr needsyn F) as E2. pose proof (fr needfin F) as E3. cbn in E1, E2, E3. rewrite E1, E2, E3. exact S.
Qed.

(* ---- 200-276 ---- *)
Lemma skip_ok b w cl U N M l f s : Inv b w cl U N M l f s -> exists N1, N <= N1 <= M /\
  (forall x, N <= x < N1 -> ~ inh (b + x) l) /\ (N1 = N \/ N1 < M \/ N1 = f - b) /\ Inv b w cl U N1 M l f (mkOst (skip_sacked (tp s) (ox s)) (ox s)) /\ frame s (mkOst (skip_sacked (tp s) (ox s)) (ox s)) /\ persist (skip_sacked (tp s) (ox s)) = persist (tp s) /\ rexmt (skip_sacked (tp s) (ox s)) = rexmt (tp s).
Proof.
  intros H. pose proof (inv_range _ _ _ _ _ _ _ _ _ H) as R. pose proof (i_a _ _ _ _ _ _ _ _ _ H) as Ha. unfold skip_sacked.
  assert (Same : exists N1, N <= N1 <= M /\ (forall x, N <= x < N1 -> ~ inh (b + x) l) /\ (N1 = N \/ N1 < M \/ N1 = f - b) /\ Inv b w cl U N1 M l f (mkOst (tp s) (ox s)) /\ frame s (mkOst (tp s) (ox s)) /\ persist (tp s) = persist (tp s) /\ rexmt (tp s) = rexmt (tp s)).
  { exists N. split; [lia|]. split; [lia|]. split; [auto|]. split; [|split; [split; reflexivity|auto]]. destruct s. exact H. }
  destruct (sackp (tp s)); [|exact Same]. cbn [andb]. rewrite (i_n _ _ _ _ _ _ _ _ _ H), (i_m _ _ _ _ _ _ _ _ _ H), q_lt by lia. destruct (Z.ltb_spec (b + N) (b + M)) as [L|L]; [|exact Same].
  destruct (adjust_ok _ l f (b + U) (b + U) (b + M) (b + N) Ha ltac:(lia)) as (r & E & R1 & R2 & R3 & R4). rewrite E. exists (r - b). split; [lia|].
  split; [intros x Hx; apply R3; lia|]. split; [destruct (Z.eq_dec r (b + N)); [left; lia|right]; pose proof (a_f _ _ _ _ _ _ Ha); destruct (Z.eq_dec r (b + M)); [right|left]; lia|].
  split; [|split; [split; reflexivity|split; reflexivity]]. destruct H. constructor; try assumption; cbn [tp]; [cbn; f_equal; lia|lia].
Qed.
Record opened (b U : Z) (l : list hole) (h : hole) : Prop := { o_in : exists p q, l = p ++ h :: q /\ Forall donE p; o_opn : opn h; o_sum : 0 <= sumr l <= hr h - (b + U) }.
Lemma sack_part_ok b w cl U N M l f s : Inv b w cl U N M l f s ->
  exists bd off len p sb, sack_part (tp s) (ox s) (N - U) = Ret (bd, off, len, p, sb) /\
    A bd l f (b + U) (b + U) (b + M) /\ (sb = 0 \/ (sackp (tp s) && frec (tp s) = true /\ sb = rexb bd)) /\ 0 <= sb /\
    match p with
    | Some g => exists h, g = wh h /\ opened b U l h /\ off = hr h - (b + U) /\ 0 < len <= he h - hr h /\ sumr l + len <= swin s
    | None => len = 0 /\ (off = N - U \/ exists h, opened b U l h /\ off = hr h - (b + U) /\ sb = sumr l /\ swin s <= sb /\ sackp (tp s) && frec (tp s) = true)
    end.
Proof.
  intros H. pose proof (inv_range _ _ _ _ _ _ _ _ _ H) as R. pose proof (i_a _ _ _ _ _ _ _ _ _ H) as Ha. unfold sack_part. destruct (sackp (tp s) && frec (tp s)) eqn:SF.
  2: { eexists _, _, _, _, _. split; [reflexivity|]. cbn [snd_una sync]. split; [exact Ha|]. split; [left; reflexivity|]. split; [lia|]. split; [reflexivity|left; reflexivity]. }
  destruct (SackProof3.output_ok _ _ _ _ _ _ Ha) as [(t1 & E & A1 & D)|(t1 & p & h & q & E & A1 & El & D & O)]; rewrite E; cbn [obind].
  { eexists _, _, _, _, _. split; [reflexivity|]. split; [exact A1|]. split; [right; auto|]. rewrite (a_r _ _ _ _ _ _ A1). pose proof (sumr_bound _ _ _ (a_c _ _ _ _ _ _ A1)). split; [lia|]. split; [reflexivity|left; reflexivity]. }
  assert (Hi : In h l) by (rewrite El; apply in_or_app; right; left; reflexivity). pose proof (inv_hole _ _ _ _ _ _ _ _ _ h H Hi) as Hh. pose proof (a_r _ _ _ _ _ _ A1) as Er.
  assert (Sm : 0 <= sumr l <= hr h - (b + U)) by (rewrite El; apply (sumr_front p h q (b + U) f); [rewrite <- El; apply (a_c _ _ _ _ _ _ A1)|rewrite <- El; apply (i_front _ _ _ _ _ _ _ _ _ H)|exact O]).
  assert (Od : opened b U l h) by (constructor; [exists p, q; auto|exact O|exact Sm]). unfold opn in O. cbn [wh he hr]. set (rc := snd_recover (tp s)). cbv zeta.
  destruct (SEQ_GT (wire (he h)) rc && SEQ_GEQ (wire (hr h)) rc) eqn:Rc.
  { eexists _, _, _, _, _. split; [reflexivity|]. split; [exact A1|]. split; [right; auto|]. split; [lia|]. split; [reflexivity|left; reflexivity]. }
  set (dl := u32 ((if SEQ_GT (wire (he h)) rc then rc else wire (he h)) - wire (hr h))).
  assert (Dl : 0 < dl <= he h - hr h).
  { unfold dl. destruct (SEQ_GT (wire (he h)) rc) eqn:G; [|rewrite q_sub by lia; lia]. cbn [andb] in Rc.
    unfold SEQ_GT in G. unfold SEQ_GEQ in Rc. rewrite Z.gtb_lt in G. rewrite Z.geb_leb in Rc. apply Z.leb_gt in Rc. rewrite s32_u32 in G, Rc.
    assert (P : forall x, 0 < s32 x -> 0 < u32 x < 2147483648) by (intros x; unfold s32, u32; pose proof (Z.mod_pos_bound x 4294967296 ltac:(lia)); cbv zeta; destruct (Z.ltb_spec (x mod 4294967296) 2147483648); lia).
    assert (P2 : forall x, s32 x < 0 -> 2147483648 <= u32 x) by (intros x; unfold s32, u32; pose proof (Z.mod_pos_bound x 4294967296 ltac:(lia)); cbv zeta; destruct (Z.ltb_spec (x mod 4294967296) 2147483648); lia).
    apply P in G. apply P2 in Rc.
    assert (X : u32 (u32 (rc - wire (hr h)) + u32 (wire (he h) - rc)) = he h - hr h).
    { rewrite <- (q_sub (he h) (hr h)) by lia. unfold u32. rewrite <- Zplus_mod. f_equal. lia. }
    assert (Y : u32 (u32 (wire (hr h) - rc) + u32 (rc - wire (hr h))) = 0) by (unfold u32; rewrite <- Zplus_mod; replace (wire (hr h) - rc + (rc - wire (hr h))) with 0 by lia; reflexivity).
    pose proof (Z.mod_pos_bound (rc - wire (hr h)) 4294967296 ltac:(lia)) as B1. pose proof (Z.mod_pos_bound (wire (hr h) - rc) 4294967296 ltac:(lia)) as B2. fold (u32 (rc - wire (hr h))) in B1. fold (u32 (wire (hr h) - rc)) in B2.
    assert (V : u32 (wire (hr h) - rc) + u32 (rc - wire (hr h)) = 4294967296).
    { destruct (Z_lt_ge_dec (u32 (wire (hr h) - rc) + u32 (rc - wire (hr h))) 4294967296) as [Lq|Lq]; [rewrite u32_small in Y by lia; lia|].
      pose proof (Z.mod_small (u32 (wire (hr h) - rc) + u32 (rc - wire (hr h)) - 4294967296) 4294967296 ltac:(lia)) as W. unfold u32 at 1 in Y. replace (u32 (wire (hr h) - rc) + u32 (rc - wire (hr h))) with (u32 (wire (hr h) - rc) + u32 (rc - wire (hr h)) - 4294967296 + 1 * 4294967296) in Y by lia. rewrite Z.mod_add in Y by lia. lia. }
    rewrite (u32_small (u32 (rc - wire (hr h)) + _)) in X by lia. lia. }
  rewrite (i_u _ _ _ _ _ _ _ _ _ H). rewrite s32_sub_wire by (change (2 ^ 31) with 2147483648; lia).
  change (Z.min (snd_wnd (tp s)) (cwnd (ox s))) with (swin s). rewrite Er.
  set (n := Z.min _ dl). destruct (Z.ltb_spec 0 n) as [Ln|Ln].
  - eexists _, _, _, _, _. split; [reflexivity|]. split; [exact A1|]. split; [right; auto|]. split; [lia|]. exists h. split; [reflexivity|]. split; [exact Od|]. split; [reflexivity|]. unfold n in *. lia.
  - eexists _, _, _, _, _. split; [reflexivity|]. split; [exact A1|]. split; [right; auto|]. split; [lia|]. split; [unfold n in *; lia|]. right. exists h. split; [exact Od|]. split; [reflexivity|]. split; [reflexivity|]. split; [unfold n in *; lia|reflexivity].
Qed.
