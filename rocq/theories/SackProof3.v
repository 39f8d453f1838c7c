From Verif Require Import Base TcpSeqModel TcpSeqProps SackModel SackSpec SackProof SackProof2.
From Coq Require Import Permutation.
Ltac Zify.zify_post_hook ::= idtac.

Lemma in_range_wire s e x : Z.abs (x - s) < 2147483648 -> Z.abs (x - e) < 2147483648 -> in_range (wire s) (wire e) x <-> s <= x < e.
Proof. intros H1 H2. unfold in_range. rewrite q_le, q_lt by lia. rewrite Z.leb_le, Z.ltb_lt. reflexivity. Qed.
Lemma missing_inh t l f lo au am x : A t l f lo au am -> am - 2147483648 < x < au + 2147483648 -> missing t x <-> inh x l.
Proof.
  intros Ha Hx. unfold missing. rewrite (a_h _ _ _ _ _ _ Ha). split.
  - intros (h & Hh & Hr). apply in_map_iff in Hh. destruct Hh as (g & <- & Hg). exists g. split; [exact Hg|]. pose proof (chain_in _ _ _ g (a_c _ _ _ _ _ _ Ha) Hg). pose proof (a_w _ _ _ _ _ _ Ha). pose proof (a_f _ _ _ _ _ _ Ha). cbn [wh hs he] in Hr. apply in_range_wire in Hr; lia.
  - intros (g & Hg & Hr). exists (wh g). split; [apply in_map; exact Hg|]. pose proof (chain_in _ _ _ g (a_c _ _ _ _ _ _ Ha) Hg). pose proof (a_w _ _ _ _ _ _ Ha). pose proof (a_f _ _ _ _ _ _ Ha). cbn [wh hs he]. apply in_range_wire; lia.
Qed.
Lemma resent_rtx t l f lo au am x : A t l f lo au am -> am - 2147483648 < x < au + 2147483648 -> resent t x <-> rtx x l.
Proof.
  intros Ha Hx. unfold resent. rewrite (a_h _ _ _ _ _ _ Ha). split.
  - intros (h & Hh & Hr). apply in_map_iff in Hh. destruct Hh as (g & <- & Hg). exists g. split; [exact Hg|]. pose proof (chain_in _ _ _ g (a_c _ _ _ _ _ _ Ha) Hg). pose proof (a_w _ _ _ _ _ _ Ha). pose proof (a_f _ _ _ _ _ _ Ha). cbn [wh hs hr] in Hr. apply in_range_wire in Hr; lia.
  - intros (g & Hg & Hr). exists (wh g). split; [apply in_map; exact Hg|]. pose proof (chain_in _ _ _ g (a_c _ _ _ _ _ _ Ha) Hg). pose proof (a_w _ _ _ _ _ _ Ha). pose proof (a_f _ _ _ _ _ _ Ha). cbn [wh hs hr]. apply in_range_wire; lia.
Qed.

(* ---- an acknowledgement ---- *)
Lemma ack_split am ack : word ack -> (SEQ_GT ack (wire am) = true) \/ (SEQ_GT ack (wire am) = false /\ exists ak, ack = wire ak /\ am - 2147483648 <= ak <= am).
Proof.
  intros W. destruct (lift am ack W) as (ak & -> & L). rewrite d_gt by lia. destruct (Z.ltb_spec am ak); [left; reflexivity|right]. split; [reflexivity|]. exists ak. split; [reflexivity|lia].
Qed.
Definition opt_ok (opt : option (list (Z * Z))) : Prop := match opt with Some bs => (length bs <= 4)%nat /\ Forall (fun b => word (fst b) /\ word (snd b)) bs | None => True end.
Lemma on_ack_ok maxh av t l f au am ak opt : A t l f au au am -> am - 2147483648 <= ak <= am -> opt_ok opt -> let m := Z.max au ak in
  exists t' l' f' bl, on_ack maxh av t opt (wire ak) = Ret t' /\ A t' l' f' m m am /\ (forall b, In b bl <-> acc au am ak opt b) /\
    Step l f m bl l' f' /\ (numholes t <= maxh -> numholes t' <= maxh) /\ (numholes t + 5 <= maxh -> 5 <= av -> Exact l f m bl l').
Proof.
  intros Ha Hak Ho m. unfold on_ack. rewrite (a_m _ _ _ _ _ _ Ha). pose proof (a_w _ _ _ _ _ _ Ha) as Hw. rewrite d_gt by lia. destruct (Z.ltb_spec am ak); [lia|].
  assert (Mid : exists t' l' f' bl, (if is_some opt || negb (is_nil (holes t)) then doack maxh av t opt (wire ak) else Ret t) = Ret t' /\ A t' l' f' m au am /\ (forall b, In b bl <-> acc au am ak opt b) /\
    Step l f m bl l' f' /\ (numholes t <= maxh -> numholes t' <= maxh) /\ (numholes t + 5 <= maxh -> 5 <= av -> Exact l f m bl l')).
  { destruct (is_some opt || negb (is_nil (holes t))) eqn:E; [apply doack_ok; assumption|]. apply orb_false_iff in E. destruct E as [E1 E2]. destruct opt; [discriminate|].
    assert (l = []) as -> by (rewrite (a_h _ _ _ _ _ _ Ha) in E2; destruct l; [reflexivity|discriminate]).
    exists t, [], m, []. split; [reflexivity|]. split; [|split; [|split; [|split; [auto|]]]].
    - destruct Ha. constructor; try assumption; try congruence; unfold m; cbn; lia.
    - intros b. split; [intros []|intros (_ & _ & _ & l & K & _); discriminate].
    - constructor; [intros x K; destruct (inh_nil x K)|intros x K; lia|intros x; split; [intros K; destruct (rtx_nil x K)|intros [K _]; destruct (rtx_nil x K)]|intros x K; destruct (inh_nil x K)|congruence].
    - intros _ _ x. split; [intros K; destruct (inh_nil x K)|]. intros (_ & _ & [K|(_ & b & [] & _)]). destruct (inh_nil x K). }
  destruct Mid as (t' & l' & f' & bl & E & B & Sb & St & Nm & Ex). rewrite E. cbn [obind]. rewrite (a_u _ _ _ _ _ _ B), d_le by lia.
  destruct (Z.leb_spec ak au) as [L|L].
  - exists t', l', f', bl. split; [reflexivity|]. replace m with au in * by (unfold m; lia). auto 10.
  - exists (mkSb (holes t') (hint t') (numholes t') (rexb t') (fack t') (wire ak) (smax t') (nid t')), l', f', bl. split; [reflexivity|].
    split; [|auto]. destruct B. constructor; cbn [holes hint numholes rexb fack una smax nid]; try assumption; [unfold m; f_equal; lia|lia].
Qed.

(* ---- retransmission ---- *)
Definition opn (h : hole) : Prop := hr h < he h.
Lemma from_id_ok p h q : NoDup (map hid (p ++ h :: q)) -> from_id (hid h) (map wh (p ++ h :: q)) = Some (map wh (h :: q)).
Proof.
  induction p as [|a p IH]; intros N; cbn [app map from_id]; cbn [wh hid]; [rewrite Nat.eqb_refl; reflexivity|].
  cbn [app map] in N. inversion N as [|? ? N1 N2]; subst. destruct (Nat.eqb_spec (hid a) (hid h)) as [E|E]; [|apply IH; exact N2].
  exfalso. apply N1. rewrite E, map_app. apply in_or_app. right. left. reflexivity.
Qed.
Lemma first_open_ok lo l hi : chain lo l hi -> hi < lo + 2147483648 ->
  (first_open (map wh l) = None /\ Forall donE l) \/ exists p h q, l = p ++ h :: q /\ first_open (map wh l) = Some (wh h) /\ Forall donE p /\ opn h.
Proof.
  revert lo. induction l as [|h t IH]; intros lo C L; [left; split; [reflexivity|constructor]|]. cbn in C. destruct C as (C1 & C2 & C3 & C4). pose proof (chain_le _ _ _ C4).
  cbn [map first_open]. cbn [wh hr he]. rewrite q_lt by lia. destruct (Z.ltb_spec (hr h) (he h)) as [O|O]; [right; exists [], h, t; auto|].
  assert (D : donE h) by (unfold donE; lia). destruct (IH (he h) C4 ltac:(lia)) as [[E F]|(p & g & q & -> & E & F & G)]; [left; auto|right; exists (h :: p), g, q; auto].
Qed.
Lemma output_ok t l f lo au am : A t l f lo au am ->
  (exists t', sack_output t = Ret (t', None) /\ A t' l f lo au am /\ Forall donE l) \/
  (exists t' p h q, sack_output t = Ret (t', Some (wh h)) /\ A t' l f lo au am /\ l = p ++ h :: q /\ Forall donE p /\ opn h).
Proof.
  intros Ha. pose proof (a_hint _ _ _ _ _ _ Ha) as Hh. pose proof (a_ids _ _ _ _ _ _ Ha) as Hi. pose proof (a_c _ _ _ _ _ _ Ha) as Hc. pose proof (a_w _ _ _ _ _ _ Ha) as Hw. pose proof (a_f _ _ _ _ _ _ Ha) as Hf.
  unfold sack_output. destruct (hint t) as [i|] eqn:E; [|left; exists t; cbn in Hh; auto]. destruct Hh as (p & h & q & -> & <- & D). rewrite (a_h _ _ _ _ _ _ Ha), (from_id_ok p h q Hi). cbn [map].
  pose proof Hc as Hc2. apply chain_app in Hc2. destruct Hc2 as (m & C1 & C2). cbn in C2. destruct C2 as (C2 & C3 & C4 & C5). pose proof (chain_le _ _ _ C1). pose proof (chain_le _ _ _ C5).
  cbn [wh hr he]. rewrite q_lt by lia. destruct (Z.ltb_spec (hr h) (he h)) as [O|O]; [right; exists t, p, h, q; auto|].
  assert (Dh : donE h) by (unfold donE; lia). destruct (first_open_ok (he h) q f C5 ltac:(lia)) as [[E1 F]|(p2 & g & q2 & -> & E1 & F & G)]; rewrite E1.
  - left. exists t. split; [reflexivity|]. split; [exact Ha|]. apply Forall_app. auto.
  - right. eexists _, (p ++ h :: p2), g, q2. split; [reflexivity|]. split; [|split; [rewrite <- app_assoc; reflexivity|split; [apply Forall_app; auto|exact G]]].
    destruct Ha. constructor; cbn [holes hint numholes rexb fack una smax nid]; try assumption; try reflexivity. cbn [wh hid]. exists (p ++ h :: p2), g, q2. split; [rewrite <- app_assoc; reflexivity|]. split; [reflexivity|]. apply Forall_app. auto.
Qed.
Lemma set_rxmit_ok p h q r : NoDup (map hid (p ++ h :: q)) -> set_rxmit (hid h) (wire r) (map wh (p ++ h :: q)) = map wh (p ++ mkHole (hid h) (hs h) (he h) r :: q).
Proof.
  intros N. assert (K : forall l, ~ In (hid h) (map hid l) -> set_rxmit (hid h) (wire r) (map wh l) = map wh l).
  { induction l as [|a l IH]; intros H; [reflexivity|]. cbn [map set_rxmit]. cbn [wh hid]. cbn in H. destruct (Nat.eqb_spec (hid a) (hid h)); [exfalso; apply H; left; assumption|]. f_equal. apply IH. intros K. apply H. right. exact K. }
  rewrite map_app in N. cbn in N. apply NoDup_remove_2 in N. unfold set_rxmit in *. rewrite !map_app. cbn [map]. rewrite !K by (intros H; apply N, in_or_app; auto). cbn [wh hid]. rewrite Nat.eqb_refl. reflexivity.
Qed.
Lemma done_not_open l x : Forall donE l -> inh x l -> rtx x l.
Proof. intros D (h & H & Hx). pose proof (proj1 (Forall_forall _ _) D h H) as E. unfold donE in E. exists h. split; [exact H|lia]. Qed.
Lemma retransmit_ok t l f lo au am cwin r mss sent : A t l f lo au am -> 0 <= cwin -> 0 <= mss -> lo <= r <= am ->
  exists t' l' res, retransmit t cwin (wire r) mss sent = Ret (t', res) /\ A t' l' f lo au am /\ length l' = length l /\ (forall x, inh x l' <-> inh x l) /\
  match res with
  | None => (forall x, rtx x l' <-> rtx x l) /\ (0 < cwin -> 0 < mss -> forall x, inh x l -> x < r -> rtx x l)
  | Some (q, n) => exists p, q = wire p /\ 0 < n /\ n <= cwin /\ n <= mss /\ p + n <= r /\ lo <= p /\ (forall x, p <= x < p + n -> inh x l /\ ~ rtx x l) /\ (forall x, inh x l -> ~ rtx x l -> p <= x) /\
      (forall x, rtx x l' <-> rtx x l \/ (sent = true /\ p <= x < p + n))
  end.
Proof.
  intros Ha H1 H2 Hr. unfold retransmit. destruct (output_ok t l f lo au am Ha) as [(t1 & E & A1 & D)|(t1 & p & h & q & E & A1 & -> & D & O)]; rewrite E; cbn [obind].
  - exists t1, l, None. split; [reflexivity|]. split; [exact A1|]. split; [reflexivity|]. split; [tauto|]. split; [tauto|]. intros _ _ x Hx _. apply done_not_open; assumption.
  - pose proof (a_c _ _ _ _ _ _ A1) as Hc. pose proof Hc as Hc2. apply chain_app in Hc2. destruct Hc2 as (m & C1 & C2). cbn in C2. destruct C2 as (C2 & C3 & C4 & C5). pose proof (chain_le _ _ _ C1). pose proof (chain_le _ _ _ C5).
    pose proof (a_w _ _ _ _ _ _ A1) as Hw. pose proof (a_f _ _ _ _ _ _ A1) as Hf. unfold opn in O. cbn [wh he hr hid].
    assert (El : (if SEQ_GT (wire (he h)) (wire r) then if SEQ_GEQ (wire (hr h)) (wire r) then 0 else Z.min cwin (u32 (wire r - wire (hr h))) else Z.min cwin (u32 (wire (he h) - wire (hr h)))) = if r <=? hr h then if he h <=? r then Z.min cwin (he h - hr h) else 0 else Z.min cwin (Z.min (he h) r - hr h)).
    { rewrite q_gt, q_ge by lia. destruct (Z.ltb_spec r (he h)), (Z.leb_spec r (hr h)), (Z.leb_spec (he h) r); try lia; rewrite q_sub by lia; f_equal; lia. }
    rewrite El. set (n := Z.min _ mss).
    assert (Hn : n = if r <=? hr h then 0 else Z.min (Z.min cwin (Z.min (he h) r - hr h)) mss) by (unfold n; destruct (Z.leb_spec r (hr h)), (Z.leb_spec (he h) r); lia).
    clearbody n. assert (InA : forall x, inh x p -> x < hs h) by (intros x Hx; pose proof (inh_bound _ _ _ x C1 Hx); lia). assert (InQ : forall x, inh x q -> he h <= x) by (intros x Hx; pose proof (inh_bound _ _ _ x C5 Hx); lia).
    assert (RtA : forall x, rtx x p -> x < hs h) by (intros x Hx; apply InA, (rtx_inh _ _ _ x C1 Hx)). assert (RtQ : forall x, rtx x q -> he h <= x) by (intros x Hx; apply InQ, (rtx_inh _ _ _ x C5 Hx)).
    assert (Fst : forall x, inh x (p ++ h :: q) -> ~ rtx x (p ++ h :: q) -> hr h <= x).
    { intros x Hx Nx. rewrite inh_app, inh_cons in Hx. rewrite rtx_app, rtx_cons in Nx. destruct Hx as [Hx|[Hx|Hx]]; [exfalso; apply Nx; left; apply done_not_open; assumption|lia|specialize (InQ x Hx); lia]. }
    destruct (Z.leb_spec n 0) as [Ln|Ln].
    + exists t1, (p ++ h :: q), None. split; [reflexivity|]. split; [exact A1|]. split; [reflexivity|]. split; [tauto|]. split; [tauto|]. intros K1 K2 x Hx Lx.
      destruct (Z_lt_ge_dec (hr h) r) as [Lr|Lr]; [exfalso; destruct (Z.leb_spec r (hr h)); lia|].
      rewrite inh_app, inh_cons in Hx. rewrite rtx_app, rtx_cons. destruct Hx as [Hx|[Hx|Hx]]; [left; apply done_not_open; assumption|right; left; lia|specialize (InQ x Hx); lia].
    + destruct (Z.leb_spec r (hr h)) as [|Lr]; [lia|].
      assert (Q1 : 0 < n /\ n <= cwin /\ n <= mss /\ hr h + n <= r /\ hr h + n <= he h) by lia.
      assert (Q2 : forall x, hr h <= x < hr h + n -> inh x (p ++ h :: q) /\ ~ rtx x (p ++ h :: q)).
      { intros x Hx. rewrite inh_app, inh_cons, rtx_app, rtx_cons. split; [right; left; lia|]. intros [K|[K|K]]; [specialize (RtA x K); lia|lia|specialize (RtQ x K); lia]. }
      destruct sent.
      * set (h' := mkHole (hid h) (hs h) (he h) (hr h + n)). pose proof (sumr_bound _ _ _ Hc) as Sb.
        assert (Cn : chain lo (p ++ h' :: q) f) by (apply chain_app; exists m; split; [exact C1|]; cbn; split; [lia|split; [lia|split; [lia|exact C5]]]).
        assert (Es : sumr (p ++ h' :: q) = sumr (p ++ h :: q) + n) by (rewrite !sumr_app; cbn [sumr fold_right h' hs hr]; fold (sumr q); lia).
        pose proof (sumr_bound _ _ _ Cn) as Sb2. eexists _, (p ++ h' :: q), (Some (wire (hr h), n)). split; [reflexivity|]. split; [|split; [rewrite !app_length; reflexivity|split]].
        -- destruct A1. constructor; cbn [holes hint numholes rexb fack una smax nid]; try assumption.
           ++ rewrite a_h, q_add. apply set_rxmit_ok. assumption.
           ++ intros _. apply a_k. destruct p; discriminate.
           ++ rewrite a_n, !app_length. reflexivity.
           ++ rewrite a_r, s32_id; lia.
           ++ apply (hint_one _ p h h' q a_ids a_hint eq_refl). unfold donE. cbn. lia.
           ++ rewrite map_app in *. exact a_ids.
           ++ apply Forall_app in a_new. destruct a_new as [W1 W2]. inversion W2; subst. apply Forall_app. split; [assumption|constructor; assumption].
        -- intros x. rewrite !inh_app, !inh_cons. cbn [h' hs he]. tauto.
        -- exists (hr h). split; [reflexivity|]. split; [lia|]. split; [lia|]. split; [lia|]. split; [lia|]. split; [lia|]. split; [exact Q2|]. split; [exact Fst|].
           intros x. rewrite !rtx_app, !rtx_cons. cbn [h' hs hr]. split; [intros [K|[K|K]]; [tauto| |tauto]|intros [[K|[K|K]]|[_ K]]; [tauto| |tauto|right; left; lia]].
           ++ destruct (Z_lt_ge_dec x (hr h)); [left; right; left; lia|right; split; [reflexivity|lia]].
           ++ right; left; lia.
      * exists t1, (p ++ h :: q), (Some (wire (hr h), n)). split; [reflexivity|]. split; [exact A1|]. split; [reflexivity|]. split; [tauto|]. exists (hr h). split; [reflexivity|]. split; [lia|]. split; [lia|]. split; [lia|]. split; [lia|]. split; [lia|]. split; [exact Q2|]. split; [exact Fst|].
        intros x. split; [auto|intros [K|[K _]]; [exact K|discriminate]].
Qed.

(* ---- timeout ---- *)
Lemma free_fold l : forall i n, (i = None \/ exists j, i = Some j /\ In j (map hid l)) ->
  fold_left (fun (x : option nat * Z * list hole) h => let '(i, n, l) := x in (if opt_eqb i (hid h) then hd_id (tl l) else i, n - 1, tl l)) l (i, n, l) = (None, n - Z.of_nat (length l), []).
Proof.
  induction l as [|h l IH]; intros i n H; cbn [fold_left length].
  - destruct H as [->|(j & _ & [])]. f_equal. f_equal. lia.
  - cbn [tl]. rewrite IH; [f_equal; f_equal; lia|]. destruct H as [->|(j & -> & [E|H])]; cbn [opt_eqb].
    + left. reflexivity.
    + rewrite E, Nat.eqb_refl. destruct l; cbn; [left; reflexivity|right]. exists (hid h0). auto.
    + destruct (Nat.eqb_spec j (hid h)); [|right; exists j; auto]. destruct l; cbn; [left; reflexivity|right]. exists (hid h0). auto.
Qed.
Lemma free_ok t l f lo au am : A t l f lo au am -> A (free_holes t) [] lo lo au am /\ numholes (free_holes t) = 0.
Proof.
  intros Ha. unfold free_holes. pose proof (a_hint _ _ _ _ _ _ Ha) as Hh. rewrite free_fold.
  - cbn [fst snd]. rewrite (a_n _ _ _ _ _ _ Ha), (a_h _ _ _ _ _ _ Ha), map_length. split; [|cbn; lia]. destruct Ha.
    constructor; cbn [holes hint numholes rexb fack una smax nid]; try assumption; try reflexivity; try (cbn; lia); [congruence|constructor|constructor|constructor].
  - rewrite (a_h _ _ _ _ _ _ Ha). destruct (hint t) as [i|]; [right|left; reflexivity]. destruct Hh as (p & h & q & -> & <- & _). exists (hid h). split; [reflexivity|]. rewrite map_map. cbn [wh hid]. rewrite map_app. apply in_or_app. right. left. reflexivity.
Qed.

(* ---- where to send from next ---- *)
Lemma adjust_loop_ok f an lo0 : forall l cur lo, chain lo (cur :: l) f -> lo0 <= lo -> lo0 <= an < f -> f < lo0 + 2147483648 ->
  exists r, adjust_loop (wire an) (wire f) (wh cur) (map wh l) = wire r /\ an <= r <= f /\ (forall x, an <= x < r -> ~ inh x (cur :: l)) /\ (hs cur <= an -> inh r (cur :: l) \/ r = f).
Proof.
  induction l as [|p l IH]; intros cur lo C L0 L L2; pose proof C as C'; destruct C as (C1 & C2 & C3 & C4); pose proof (chain_le _ _ _ C4) as C5; cbn [map adjust_loop]; cbn [wh he hs]; rewrite q_lt by lia.
  - destruct (Z.ltb_spec an (he cur)) as [Q|Q].
    + exists an. split; [reflexivity|]. split; [lia|]. split; [lia|]. intros K. left. apply inh_cons. left. lia.
    + exists f. split; [reflexivity|]. split; [lia|]. split; [|auto]. intros x Hx Ix. rewrite inh_cons in Ix. destruct Ix as [Ix|Ix]; [lia|destruct (inh_nil x Ix)].
  - destruct (Z.ltb_spec an (he cur)) as [Q|Q].
    + exists an. split; [reflexivity|]. split; [lia|]. split; [lia|]. intros K. left. apply inh_cons. left. lia.
    + destruct C4 as (D1 & D2 & D3 & D4). pose proof (chain_le _ _ _ D4) as D5. rewrite q_ge by lia. destruct (Z.leb_spec (hs p) an) as [Q2|Q2].
      * destruct (IH p (he cur)) as (r & E & R1 & R2 & R3); [cbn; auto|lia|lia|lia|]. exists r. split; [exact E|]. split; [exact R1|]. split.
        -- intros x Hx Ix. rewrite inh_cons in Ix. destruct Ix as [Ix|Ix]; [lia|]. apply (R2 x Hx Ix).
        -- intros _. destruct (R3 Q2) as [K|K]; [left; apply inh_cons; right; exact K|right; exact K].
      * exists (hs p). split; [reflexivity|]. split; [lia|]. split.
        -- intros x Hx Ix. rewrite !inh_cons in Ix. destruct Ix as [Ix|[Ix|Ix]]; [lia|lia|]. pose proof (inh_bound _ _ _ x D4 Ix). lia.
        -- intros _. left. rewrite !inh_cons. right. left. lia.
Qed.
Lemma adjust_ok t l f lo au am an : A t l f lo au am -> lo <= an <= am ->
  exists r, adjust t (wire an) = wire r /\ an <= r <= am /\ (an < r -> l <> [] /\ r <= f) /\ (forall x, an <= x < r -> ~ inh x l) /\ (an < f -> (exists y, inh y l /\ y <= an) -> inh r l \/ r = f).
Proof.
  intros Ha Hn. pose proof (a_c _ _ _ _ _ _ Ha) as Hc. pose proof (a_w _ _ _ _ _ _ Ha) as Hw. pose proof (a_f _ _ _ _ _ _ Ha) as Hf. unfold adjust. rewrite (a_h _ _ _ _ _ _ Ha). destruct l as [|cur l]; cbn [map].
  - exists an. split; [reflexivity|]. split; [lia|]. split; [lia|]. split; [lia|]. intros _ (y & K & _). destruct (inh_nil y K).
  - rewrite (a_k _ _ _ _ _ _ Ha) by discriminate. pose proof (chain_le _ _ _ Hc). rewrite q_ge by lia. destruct (Z.leb_spec f an) as [Q|Q].
    + exists an. split; [reflexivity|]. split; [lia|]. split; [lia|]. split; [lia|]. lia.
    + destruct (adjust_loop_ok f an lo l cur lo Hc ltac:(lia) ltac:(lia) ltac:(lia)) as (r & E & R1 & R2 & R3). exists r. split; [exact E|]. split; [lia|]. split; [split; [discriminate|lia]|]. split; [exact R2|].
      intros _ (y & Hy & Ly). apply R3. rewrite inh_cons in Hy. cbn in Hc. destruct Hc as (C1 & C2 & C3 & C4). destruct Hy as [Hy|Hy]; [lia|]. pose proof (inh_bound _ _ _ y C4 Hy). lia.
Qed.
