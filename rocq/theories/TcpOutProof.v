From Verif Require Import Base TcpSeqModel TcpSeqProps TcpOptModel TcpOptProof TcpReassModel TcpInModel SockModel SockSpec SockProof SackModel SackSpec SackProof SackProof2 SackProof3 TcpOutModel TcpOutSpec.
Ltac Zify.zify_post_hook ::= idtac.

Lemma wire_u32 x : u32 (wire x) = wire x.
Proof. unfold u32, wire. change (2 ^ 32) with 4294967296. apply Z.mod_mod. lia. Qed.
Lemma s32_u32 x : s32 (u32 x) = s32 x.
Proof. unfold s32, u32. rewrite Z.mod_mod by lia. reflexivity. Qed.
Lemma wire_sub x y : u32 (wire x - wire y) = wire (x - y).
Proof. unfold u32, wire. change (2 ^ 32) with 4294967296. rewrite <- Zminus_mod. reflexivity. Qed.
Lemma zlen_nonneg l : 0 <= zlen l.
Proof. unfold zlen. lia. Qed.

(* ---- the scoreboard: what has been retransmitted is the lower part of what is missing, and the last byte sent is not missing ---- *)
Definition front (l : list hole) : Prop := forall x y, x < y -> inh x l -> rtx y l -> rtx x l.
Definition topped (l : list hole) (f : Z) : Prop := l <> [] -> ~ inh (f - 1) l.
Lemma front_nil : front [].
Proof. intros x y _ K. destruct (inh_nil x K). Qed.
Lemma topped_nil f : topped [] f.
Proof. intros K. congruence. Qed.
Lemma front_step l f m bl l' f' lo hi : Step l f m bl l' f' -> chain lo l hi -> (l <> [] -> hi <= f) -> front l -> front l'.
Proof.
  intros St C Hf F x y L Hx Hy. apply (st_rtx _ _ _ _ _ _ St) in Hy. destruct Hy as [Hy1 Hy2]. apply (st_rtx _ _ _ _ _ _ St). split; [|exact Hx].
  destruct (st_sub _ _ _ _ _ _ St x Hx) as [K|[K _]]; [apply (F x y L K Hy1)|]. exfalso. pose proof (rtx_inh _ _ _ y C Hy1) as Iy. pose proof (inh_bound _ _ _ y C Iy).
  destruct l; [destruct (inh_nil y Iy)|]. cbn [base] in K. specialize (Hf ltac:(discriminate)). lia.
Qed.
Lemma front_mark p h q r lo hi : chain lo (p ++ h :: q) hi -> Forall donE p -> hr h <= r <= he h -> front (p ++ h :: q) -> opn h -> front (p ++ mkHole (hid h) (hs h) (he h) r :: q).
Proof.
  intros C D Hr F O x y L Hx Hy. unfold opn in O. apply chain_app in C. destruct C as (m & C1 & C2). cbn in C2. destruct C2 as (C2 & C3 & C4 & C5).
  rewrite inh_app, inh_cons in Hx. rewrite rtx_app, rtx_cons in Hy |- *. cbn [hs he hr] in *.
  destruct Hx as [Hx|[Hx|Hx]]; [left; apply done_not_open; assumption| |].
  - destruct Hy as [Hy|[Hy|Hy]]; [|right; left; lia|].
    + pose proof (rtx_inh _ _ _ _ C1 Hy) as K. pose proof (inh_bound _ _ _ _ C1 K). lia.
    + exfalso. pose proof (rtx_inh _ _ _ _ C5 Hy) as K. pose proof (inh_bound _ _ _ _ C5 K).
      assert (Q : rtx (hr h) (p ++ h :: q)). { apply (F (hr h) y ltac:(lia)); [rewrite inh_app, inh_cons; right; left; lia|rewrite rtx_app, rtx_cons; right; right; exact Hy]. }
      rewrite rtx_app, rtx_cons in Q. destruct Q as [Q|[Q|Q]]; [pose proof (inh_bound _ _ _ _ C1 (rtx_inh _ _ _ _ C1 Q)); lia|lia|pose proof (inh_bound _ _ _ _ C5 (rtx_inh _ _ _ _ C5 Q)); lia].
  - right. right. destruct Hy as [Hy|[Hy|Hy]].
    + pose proof (inh_bound _ _ _ _ C1 (rtx_inh _ _ _ _ C1 Hy)). pose proof (inh_bound _ _ _ _ C5 Hx). lia.
    + pose proof (inh_bound _ _ _ _ C5 Hx). lia.
    + assert (Q : rtx x (p ++ h :: q)). { apply (F x y L); [rewrite inh_app, inh_cons; auto|rewrite rtx_app, rtx_cons; auto]. }
      pose proof (inh_bound _ _ _ _ C5 Hx). rewrite rtx_app, rtx_cons in Q. destruct Q as [Q|[Q|Q]]; [pose proof (inh_bound _ _ _ _ C1 (rtx_inh _ _ _ _ C1 Q)); lia|lia|exact Q].
Qed.
Lemma sumr_front p h q lo hi : chain lo (p ++ h :: q) hi -> front (p ++ h :: q) -> opn h -> 0 <= sumr (p ++ h :: q) <= hr h - lo.
Proof.
  intros C F O. unfold opn in O. pose proof C as C0. apply chain_app in C. destruct C as (m & C1 & C2). cbn in C2. destruct C2 as (C2 & C3 & C4 & C5).
  assert (Z0 : forall l lo', chain lo' l hi -> (forall y, ~ rtx y l) -> sumr l = 0).
  { clear. induction l as [|g l IH]; intros lo' C N; [reflexivity|]. cbn in C. destruct C as (C1 & C2 & C3 & C4). cbn [sumr fold_right]. fold (sumr l). rewrite (IH (he g) C4) by (intros y K; apply (N y); rewrite rtx_cons; auto).
    destruct (Z.eq_dec (hr g) (hs g)) as [E|E]; [lia|]. exfalso. apply (N (hs g)). rewrite rtx_cons. left. lia. }
  rewrite sumr_app. cbn [sumr fold_right]. fold (sumr q). rewrite (Z0 q (he h) C5); [pose proof (sumr_bound _ _ _ C1); lia|].
  intros y Hy. pose proof (inh_bound _ _ _ _ C5 (rtx_inh _ _ _ _ C5 Hy)).
  assert (Q : rtx (hr h) (p ++ h :: q)). { apply (F (hr h) y ltac:(lia)); [rewrite inh_app, inh_cons; right; left; lia|rewrite rtx_app, rtx_cons; right; right; exact Hy]. }
  rewrite rtx_app, rtx_cons in Q. destruct Q as [Q|[Q|Q]]; [pose proof (inh_bound _ _ _ _ C1 (rtx_inh _ _ _ _ C1 Q)); lia|lia|pose proof (inh_bound _ _ _ _ C5 (rtx_inh _ _ _ _ C5 Q)); lia].
Qed.
Lemma topped_end l f lo h : chain lo l f -> topped l f -> In h l -> he h <= f - 1.
Proof.
  intros C T H. pose proof (chain_in _ _ _ h C H). destruct (Z.eq_dec (he h) f) as [E|E]; [|lia]. exfalso.
  apply (T ltac:(intros ->; destruct H)). exists h. split; [exact H|lia].
Qed.
Lemma mark_ok t p h q f lo au am r : A t (p ++ h :: q) f lo au am -> hr h <= r <= he h -> opn h ->
  A (board_add (wh h) (wire r) (r - hr h) t) (p ++ mkHole (hid h) (hs h) (he h) r :: q) f lo au am.
Proof.
  intros Ha Hr O. unfold opn in O. pose proof (a_c _ _ _ _ _ _ Ha) as Hc. pose proof Hc as Hc2. apply chain_app in Hc2. destruct Hc2 as (m & C1 & C2). cbn in C2. destruct C2 as (C2 & C3 & C4 & C5). pose proof (chain_le _ _ _ C1). pose proof (chain_le _ _ _ C5).
  pose proof (a_w _ _ _ _ _ _ Ha) as Hw. pose proof (a_f _ _ _ _ _ _ Ha) as Hf. pose proof (sumr_bound _ _ _ Hc) as Sb. set (h' := mkHole (hid h) (hs h) (he h) r).
  assert (Cn : chain lo (p ++ h' :: q) f) by (apply chain_app; exists m; split; [exact C1|]; cbn; split; [lia|split; [lia|split; [lia|exact C5]]]).
  assert (Es : sumr (p ++ h' :: q) = sumr (p ++ h :: q) + (r - hr h)) by (rewrite !sumr_app; cbn [sumr fold_right h' hs hr]; fold (sumr q); lia).
  pose proof (sumr_bound _ _ _ Cn) as Sb2. unfold board_add. rewrite wire_u32. cbn [wh hid].
  destruct Ha. constructor; cbn [holes hint numholes rexb fack una smax nid]; try assumption.
  - rewrite a_h. apply set_rxmit_ok. assumption.
  - intros _. apply a_k. destruct p; discriminate.
  - rewrite a_n, !app_length. reflexivity.
  - rewrite a_r, s32_id; lia.
  - apply (hint_one _ p h h' q a_ids a_hint eq_refl). unfold donE. cbn. lia.
  - rewrite map_app in *. exact a_ids.
  - apply Forall_app in a_new. destruct a_new as [W1 W2]. inversion W2; subst. apply Forall_app. split; [assumption|constructor; assumption].
Qed.
Lemma unmark_ok t p h q f lo au am n : A t (p ++ h :: q) f lo au am -> 0 <= n <= he h - hr h -> opn h ->
  A (board_add (wh h) (wire (hr h)) (- n) (board_add (wh h) (wire (hr h + n)) n t)) (p ++ h :: q) f lo au am.
Proof.
  intros Ha Hn O. pose proof (mark_ok t p h q f lo au am (hr h + n) Ha ltac:(lia) O) as Hb. replace (hr h + n - hr h) with n in Hb by lia.
  pose proof (a_r _ _ _ _ _ _ Hb) as Rb. pose proof (a_h _ _ _ _ _ _ Hb) as Eb. pose proof (a_ids _ _ _ _ _ _ Hb) as Ib.
  set (tb := board_add (wh h) (wire (hr h + n)) n t) in *. pose proof (sumr_bound _ _ _ (a_c _ _ _ _ _ _ Ha)) as Sb. pose proof (a_w _ _ _ _ _ _ Ha) as Hw. pose proof (a_f _ _ _ _ _ _ Ha) as Hf.
  rewrite sumr_app in Rb. cbn [sumr fold_right hs hr] in Rb. fold (sumr q) in Rb. rewrite sumr_app in Sb. cbn [sumr fold_right] in Sb. fold (sumr q) in Sb.
  unfold board_add at 1. rewrite wire_u32. cbn [wh hid].
  set (h' := mkHole (hid h) (hs h) (he h) (hr h + n)) in *.
  assert (Es : set_rxmit (hid h) (wire (hr h)) (holes tb) = map wh (p ++ h :: q)).
  { rewrite Eb. change (hid h) with (hid h'). rewrite (set_rxmit_ok p h' q (hr h) Ib). destruct h. reflexivity. }
  rewrite Es. destruct Ha. constructor; cbn [holes hint numholes rexb fack una smax nid]; try assumption; try reflexivity.
  rewrite Rb. rewrite sumr_app. cbn [sumr fold_right]. fold (sumr q). rewrite s32_id; lia.
Qed.
Lemma A_max t l f lo au am am' : A t l f lo au am -> am <= am' < au + 2147483648 ->
  A (mkSb (holes t) (hint t) (numholes t) (rexb t) (fack t) (una t) (wire am') (nid t)) l f lo au am'.
Proof. intros [] H. constructor; cbn [holes hint numholes rexb fack una smax nid]; try assumption; try reflexivity; lia. Qed.
