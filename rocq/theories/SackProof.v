From Verif Require Import Base TcpSeqModel TcpSeqProps SackModel SackSpec.
Ltac Zify.zify_post_hook ::= idtac.

(* ---- sequence numbers ---- *)
Lemma q_lt x y : Z.abs (x - y) < 2147483648 -> SEQ_LT (wire x) (wire y) = (x <? y).
Proof. intros H. apply (seq_compare_correct x y). exact H. Qed.
Lemma q_le x y : Z.abs (x - y) < 2147483648 -> SEQ_LEQ (wire x) (wire y) = (x <=? y).
Proof. intros H. apply (seq_compare_correct x y). exact H. Qed.
Lemma q_gt x y : Z.abs (x - y) < 2147483648 -> SEQ_GT (wire x) (wire y) = (y <? x).
Proof. intros H. destruct (seq_compare_correct x y H) as (_ & _ & E & _). rewrite E, Z.gtb_ltb. reflexivity. Qed.
Lemma q_ge x y : Z.abs (x - y) < 2147483648 -> SEQ_GEQ (wire x) (wire y) = (y <=? x).
Proof. intros H. destruct (seq_compare_correct x y H) as (_ & _ & _ & E & _). rewrite E, Z.geb_leb. reflexivity. Qed.
Lemma q_min x y : Z.abs (x - y) < 2147483648 -> SEQ_MIN (wire x) (wire y) = wire (Z.min x y).
Proof. intros H. apply (seq_compare_correct x y H). Qed.
Lemma q_max x y : Z.abs (x - y) < 2147483648 -> SEQ_MAX (wire x) (wire y) = wire (Z.max x y).
Proof. intros H. apply (seq_compare_correct x y H). Qed.
Lemma q_sub x y : 0 <= x - y < 4294967296 -> u32 (wire x - wire y) = x - y.
Proof. intros H. unfold u32, wire. change (2 ^ 32) with 4294967296. rewrite <- Zminus_mod. apply Z.mod_small. exact H. Qed.
Lemma q_add x n : u32 (wire x + n) = wire (x + n).
Proof. unfold u32, wire. change (2 ^ 32) with 4294967296. rewrite Zplus_mod_idemp_l. reflexivity. Qed.
Lemma s32_id x : -2147483648 <= x < 2147483648 -> s32 x = x.
Proof.
  intros H. unfold s32. destruct (Z_lt_ge_dec x 0) as [N|N].
  - rewrite <- (Z.mod_add x 1) by lia. rewrite Z.mod_small by lia. destruct (Z.ltb_spec (x + 1 * 4294967296) 2147483648); lia.
  - rewrite Z.mod_small by lia. destruct (Z.ltb_spec x 2147483648); lia.
Qed.

(* ---- holes at true positions ---- *)
Definition wh (h : hole) : hole := mkHole (hid h) (wire (hs h)) (wire (he h)) (wire (hr h)).
Definition wb (b : Z * Z) : Z * Z := (wire (fst b), wire (snd b)).
Fixpoint chain (lo : Z) (l : list hole) (hi : Z) : Prop :=
  match l with [] => lo <= hi | h :: t => lo <= hs h /\ hs h < he h /\ hs h <= hr h <= he h /\ chain (he h) t hi end.
Definition inh (x : Z) (l : list hole) : Prop := exists h, In h l /\ hs h <= x < he h.
Definition rtx (x : Z) (l : list hole) : Prop := exists h, In h l /\ hs h <= x < hr h.
Definition sumr (l : list hole) : Z := fold_right (fun h a => hr h - hs h + a) 0 l.
Definition donE (h : hole) : Prop := hr h = he h.
Definition hint_ok (o : option nat) (l : list hole) : Prop :=
  match o with None => Forall donE l | Some i => exists p h q, l = p ++ h :: q /\ hid h = i /\ Forall donE p end.

Lemma chain_le lo l hi : chain lo l hi -> lo <= hi.
Proof. revert lo. induction l as [|h t IH]; intros lo H; cbn in H; [exact H|]. destruct H as (A & B & _ & D). specialize (IH _ D). lia. Qed.
Lemma chain_app lo a b hi : chain lo (a ++ b) hi <-> exists m, chain lo a m /\ chain m b hi.
Proof.
  revert lo. induction a as [|h t IH]; intros lo; cbn [app chain].
  - split; [intros H; exists lo; split; [cbn; lia|exact H]|]. intros (m & A & B). destruct b as [|h b]; cbn in *; [lia|]. destruct B as (B1 & B2). split; [lia|exact B2].
  - rewrite IH. split; [intros (A & B & C & m & D & E); exists m; auto|intros (m & (A & B & C & D) & E)]. split; [exact A|]. split; [exact B|]. split; [exact C|]. exists m. auto.
Qed.
Lemma chain_mono lo lo' l hi hi' : chain lo l hi -> lo' <= lo -> hi <= hi' -> chain lo' l hi'.
Proof. revert lo lo'. induction l as [|h t IH]; intros lo lo' H A B; cbn in *; [lia|]. destruct H as (C & D & E & F). repeat split; try tauto; try lia. apply (IH _ (he h) F); lia. Qed.
Lemma chain_in lo l hi h : chain lo l hi -> In h l -> lo <= hs h /\ hs h < he h /\ hs h <= hr h <= he h /\ he h <= hi.
Proof.
  revert lo. induction l as [|g t IH]; intros lo C I; [destruct I|]. cbn in C. destruct C as (A & B & D & E). destruct I as [->|I].
  - apply chain_le in E. lia.
  - specialize (IH _ E I). lia.
Qed.
Lemma inh_bound lo l hi x : chain lo l hi -> inh x l -> lo <= x < hi.
Proof. intros C (h & I & H). pose proof (chain_in lo l hi h C I). lia. Qed.
Lemma rtx_inh lo l hi x : chain lo l hi -> rtx x l -> inh x l.
Proof. intros C (h & I & H). pose proof (chain_in lo l hi h C I). exists h. split; [exact I|lia]. Qed.
Lemma sumr_bound lo l hi : chain lo l hi -> 0 <= sumr l <= hi - lo.
Proof. revert lo. induction l as [|h t IH]; intros lo H; cbn in *; [lia|]. destruct H as (A & B & C & D). specialize (IH _ D). fold (sumr t) in *. lia. Qed.
Lemma sumr_app a b : sumr (a ++ b) = sumr a + sumr b.
Proof. induction a as [|h t IH]; [reflexivity|]. change (hr h - hs h + sumr (t ++ b) = hr h - hs h + sumr t + sumr b). rewrite IH. apply Z.add_assoc. Qed.
Lemma inh_app x a b : inh x (a ++ b) <-> inh x a \/ inh x b.
Proof. unfold inh. split; [intros (h & I & H); apply in_app_or in I; destruct I; [left|right]; exists h; auto|intros [(h & I & H)|(h & I & H)]; exists h; (split; [apply in_or_app; auto|exact H])]. Qed.
Lemma rtx_app x a b : rtx x (a ++ b) <-> rtx x a \/ rtx x b.
Proof. unfold rtx. split; [intros (h & I & H); apply in_app_or in I; destruct I; [left|right]; exists h; auto|intros [(h & I & H)|(h & I & H)]; exists h; (split; [apply in_or_app; auto|exact H])]. Qed.
Lemma inh_cons x h l : inh x (h :: l) <-> hs h <= x < he h \/ inh x l.
Proof. unfold inh. split; [intros (g & [->|I] & H); [left; exact H|right; exists g; auto]|intros [H|(g & I & H)]; [exists h; split; [left; reflexivity|exact H]|exists g; split; [right; exact I|exact H]]]. Qed.
Lemma rtx_cons x h l : rtx x (h :: l) <-> hs h <= x < hr h \/ rtx x l.
Proof. unfold rtx. split; [intros (g & [->|I] & H); [left; exact H|right; exists g; auto]|intros [H|(g & I & H)]; [exists h; split; [left; reflexivity|exact H]|exists g; split; [right; exact I|exact H]]]. Qed.
Lemma inh_nil x : ~ inh x [].
Proof. intros (h & [] & _). Qed.
Lemma rtx_nil x : ~ rtx x [].
Proof. intros (h & [] & _). Qed.

(* ---- the hint ---- *)
Lemma hint_split o A cur R : NoDup (map hid (A ++ cur :: R)) -> hint_ok o (A ++ cur :: R) ->
  (o = Some (hid cur) /\ Forall donE A) \/
  (exists i p h q, o = Some i /\ A = p ++ h :: q /\ hid h = i /\ Forall donE p /\ i <> hid cur) \/
  (Forall donE A /\ donE cur /\ match o with None => Forall donE R | Some i => exists p h q, R = p ++ h :: q /\ hid h = i /\ Forall donE p /\ i <> hid cur end).
Proof.
  intros N H. destruct o as [i|]; cbn in H.
  - destruct H as (p & h & q & E & Ei & D).
    assert (Nc : forall x, In x A \/ In x R -> hid x <> hid cur).
    { rewrite map_app in N. cbn in N. apply NoDup_remove_2 in N. intros x Hx Ex. apply N. rewrite <- Ex. apply in_or_app. destruct Hx; [left|right]; apply in_map; assumption. }
    clear N. revert p E D. induction A as [|a A IH]; intros p E D; cbn in *.
    + destruct p as [|a p]; cbn in E; injection E as <- ->; [left; subst i; auto|]. right. right. inversion D; subst. split; [constructor|]. split; [assumption|]. exists p, h, q. split; [reflexivity|]. split; [reflexivity|]. split; [assumption|]. apply Nc. right. apply in_or_app. right. left. reflexivity.
    + destruct p as [|b p]; cbn in E; injection E as <- E.
      * right. left. exists i, [], a, A. split; [reflexivity|]. split; [reflexivity|]. split; [exact Ei|]. split; [constructor|]. subst i. apply Nc. auto.
      * inversion D as [|? ? D1 D2]; subst. destruct (IH (fun x Hx => Nc x ltac:(tauto)) p E D2) as [[K1 K2]|[(j & p' & h' & q' & K1 & K2 & K3 & K4 & K5)|(K1 & K2 & K3)]].
        -- left. auto.
        -- right. left. exists j, (a :: p'), h', q'. split; [exact K1|]. split; [cbn; congruence|]. split; [exact K3|]. split; [constructor; assumption|exact K5].
        -- right. right. auto.
  - right. right. apply Forall_app in H. destruct H as [H1 H2]. inversion H2; subst. auto.
Qed.
Lemma hint_one o A cur cur' R : NoDup (map hid (A ++ cur :: R)) -> hint_ok o (A ++ cur :: R) -> hid cur' = hid cur -> (donE cur -> donE cur') -> hint_ok o (A ++ cur' :: R).
Proof.
  intros N H Hi Hd. destruct (hint_split o A cur R N H) as [[-> K]|[(i & p & h & q & -> & -> & Ei & D & _)|(K1 & K2 & K3)]].
  - exists A, cur', R. auto.
  - exists p, h, (q ++ cur' :: R). split; [rewrite <- app_assoc; reflexivity|]. auto.
  - destruct o as [i|]; cbn.
    + destruct K3 as (p & h & q & -> & Ei & D & _). exists (A ++ cur' :: p), h, q. split; [rewrite <- app_assoc; reflexivity|]. split; [exact Ei|]. apply Forall_app. split; [exact K1|constructor; auto].
    + apply Forall_app. split; [exact K1|constructor; auto].
Qed.
Lemma hint_two o A cur cur' tmp R : NoDup (map hid (A ++ cur :: R)) -> hint_ok o (A ++ cur :: R) -> hid cur' = hid cur -> (donE cur -> donE cur' /\ donE tmp) ->
  hint_ok (if is_some o then o else Some (hid tmp)) (A ++ cur' :: tmp :: R).
Proof.
  intros N H Hi Hd. destruct (hint_split o A cur R N H) as [[-> K]|[(i & p & h & q & -> & -> & Ei & D & _)|(K1 & K2 & K3)]]; cbn [is_some].
  - exists A, cur', (tmp :: R). auto.
  - exists p, h, (q ++ cur' :: tmp :: R). split; [rewrite <- app_assoc; reflexivity|]. auto.
  - destruct (Hd K2). destruct o as [i|]; cbn.
    + destruct K3 as (p & h & q & -> & Ei & D & _). exists (A ++ cur' :: tmp :: p), h, q. split; [rewrite <- app_assoc; reflexivity|]. split; [exact Ei|]. apply Forall_app. split; [exact K1|repeat constructor; auto].
    + exists (A ++ [cur']), tmp, R. split; [rewrite <- app_assoc; reflexivity|]. split; [reflexivity|]. apply Forall_app. split; [exact K1|constructor; auto].
Qed.
Lemma hint_none o A cur R : NoDup (map hid (A ++ cur :: R)) -> hint_ok o (A ++ cur :: R) -> hint_ok (if opt_eqb o (hid cur) then hd_id R else o) (A ++ R).
Proof.
  intros N H. destruct (hint_split o A cur R N H) as [[-> K]|[(i & p & h & q & -> & -> & Ei & D & Ni)|(K1 & K2 & K3)]]; cbn [opt_eqb].
  - rewrite Nat.eqb_refl. destruct R as [|r R]; cbn; [rewrite app_nil_r; exact K|]. exists A, r, R. auto.
  - apply Nat.eqb_neq in Ni. rewrite Ni. exists p, h, (q ++ R). split; [rewrite <- app_assoc; reflexivity|]. auto.
  - destruct o as [i|]; cbn.
    + destruct K3 as (p & h & q & -> & Ei & D & Ni). apply Nat.eqb_neq in Ni. rewrite Ni. exists (A ++ p), h, q. split; [rewrite <- app_assoc; reflexivity|]. split; [exact Ei|]. apply Forall_app. auto.
    + apply Forall_app. auto.
Qed.

(* ---- the sweep ---- *)
Definition wl (w : work) : list hole := rev (left w) ++ right w.
Definition ww (w : work) : work := mkW (map wh (left w)) (map wh (right w)) (whint w) (wn w) (wrex w) (wnid w) (wav w).
Record WI (lo hi : Z) (w : work) : Prop := {
  w_chain : chain lo (wl w) hi;
  w_n : wn w = Z.of_nat (length (wl w));
  w_rex : wrex w = sumr (wl w);
  w_hint : hint_ok (whint w) (wl w);
  w_ids : NoDup (map hid (wl w));
  w_new : Forall (fun h => (hid h < wnid w)%nat) (wl w) }.
Definition cov (b : Z * Z) (x : Z) : Prop := fst b <= x < snd b.
Record Rel (l l' : list hole) (bs : list (Z * Z)) : Prop := {
  r_sub : forall x, inh x l' -> inh x l;
  r_keep : forall x, inh x l -> inh x l' \/ exists b, In b bs /\ cov b x;
  r_rtx : forall x, rtx x l' <-> rtx x l /\ inh x l' }.
Lemma rel_refl lo hi l bs : chain lo l hi -> Rel l l bs.
Proof. intros C. constructor; auto. intros x. split; [intros H; split; [exact H|apply (rtx_inh lo l hi x C H)]|tauto]. Qed.
Lemma rel_trans l l1 l2 bs bs1 bs2 : Rel l l1 bs1 -> Rel l1 l2 bs2 -> (forall b, In b bs1 -> In b bs) -> (forall b, In b bs2 -> In b bs) -> Rel l l2 bs.
Proof.
  intros [A1 A2 A3] [B1 B2 B3] S1 S2. constructor; auto.
  - intros x H. destruct (A2 x H) as [K|(b & K1 & K2)]; [|right; exists b; auto]. destruct (B2 x K) as [K'|(b & K1 & K2)]; [auto|right; exists b; auto].
  - intros x. rewrite B3, A3. split; [tauto|]. intros [H1 H2]. split; [split; [exact H1|apply B1; exact H2]|exact H2].
Qed.
(* replacing one hole by holes inside it *)
Lemma rel_local lo hi A cur mid R b bs : chain lo (A ++ cur :: R) hi -> chain (hs cur) mid (he cur) -> In b bs ->
  (forall x, hs cur <= x < he cur -> inh x mid \/ cov b x) -> (forall x, rtx x mid <-> hs cur <= x < hr cur /\ inh x mid) ->
  chain lo (A ++ mid ++ R) hi /\ Rel (A ++ cur :: R) (A ++ mid ++ R) bs.
Proof.
  intros C M Ib K T. apply chain_app in C. destruct C as (m & CA & CR). cbn in CR. destruct CR as (C1 & C2 & C3 & CR).
  split. { apply chain_app. exists m. split; [exact CA|]. apply chain_app. exists (he cur). split; [apply (chain_mono (hs cur) m mid (he cur) (he cur) M); lia|exact CR]. }
  constructor.
  - intros x. rewrite !inh_app, inh_cons. intros [H|[H|H]]; auto. right. left. apply (inh_bound _ _ _ x M H).
  - intros x. rewrite !inh_app, inh_cons. intros [H|[H|H]]; auto. destruct (K x H); [auto|right; exists b; auto].
  - intros x. rewrite !rtx_app, rtx_cons, !inh_app. split.
    + intros [H|[H|H]]; [split; [auto|left; apply (rtx_inh _ _ _ x CA H)]| |split; [auto|right; right; apply (rtx_inh _ _ _ x CR H)]]. apply T in H. split; [tauto|tauto].
    + intros [[H|[H|H]] I]; auto. destruct I as [I|[I|I]].
      * pose proof (inh_bound _ _ _ x CA I). lia.
      * right. left. apply T. auto.
      * pose proof (inh_bound _ _ _ x CR I). lia.
Qed.
Definition exact_if (maxh : Z) (w : work) (bs : list (Z * Z)) (l' : list hole) : Prop :=
  wn w + Z.of_nat (length bs) <= maxh -> Z.of_nat (length bs) <= wav w -> forall x b, In b bs -> inh x l' -> ~ cov b x.
(* blocks from the bottom are always applied in full *)
Definition low (lo : Z) (bs : list (Z * Z)) (l' : list hole) : Prop := forall x b, In b bs -> fst b <= lo -> inh x l' -> ~ cov b x.
Fixpoint desc (bs : list (Z * Z)) : Prop := match bs with [] => True | b :: t => (forall c, In c t -> snd c <= snd b) /\ desc t end.

Lemma sweep_ok maxh lo hi fuel w bs : hi < lo + 2147483648 -> (length (left w) + length bs < fuel)%nat -> WI lo hi w ->
  Forall (fun b => lo <= fst b /\ fst b < snd b /\ snd b <= hi) bs -> desc bs -> (forall h b, In h (right w) -> In b bs -> snd b <= hs h) ->
  exists w', sweep fuel maxh (ww w) (map wb bs) = Ret (ww w') /\ WI lo hi w' /\ Rel (wl w) (wl w') bs /\ exact_if maxh w bs (wl w') /\
    (wn w <= maxh -> wn w' <= maxh) /\ low lo bs (wl w').
Proof.
  intros Hw. revert w bs. induction fuel as [|fuel IH]; intros w bs Hf I Hb Hd Hc; [lia|].
  destruct bs as [|[s e] bs'].
  { exists w. split; [reflexivity|]. split; [exact I|]. split; [apply (rel_refl lo hi), I|]. split; [intros _ _ x b []|]. split; [auto|intros x b []]. }
  destruct w as [lf R ht n rex ni av]. cbn [left right] in *. destruct lf as [|cur l].
  { exists (mkW [] R ht n rex ni av). split; [reflexivity|]. split; [exact I|]. split; [apply (rel_refl lo hi), I|]. assert (Z0 : forall x b, In b ((s, e) :: bs') -> inh x R -> ~ cov b x); [|split; [intros _ _; exact Z0|split; [auto|intros x b Hi _; apply (Z0 x b Hi)]]].
    intros x b Ib Ix K. destruct Ix as (h & Ih & Hh). cbn in Ih. specialize (Hc h b Ih Ib). destruct K. lia. }
  destruct I as [Ic In_ Ir Ih Ii Iw]. unfold wl in Ic, In_, Ir, Ih, Ii, Iw. cbn [left right whint wn wrex wnid] in *.
  cbn [rev] in Ic, In_, Ir, Ih, Ii, Iw. rewrite <- app_assoc in Ic, In_, Ir, Ih, Ii, Iw. cbn [app] in Ic, In_, Ir, Ih, Ii, Iw. set (A := rev l) in *.
  pose proof Ic as Ic2. apply chain_app in Ic2. destruct Ic2 as (m & CA & CR). cbn in CR. destruct CR as (C1 & C2 & C3 & CR). pose proof (chain_le _ _ _ CA) as Lm. pose proof (chain_le _ _ _ CR) as Lh.
  inversion Hb as [|? ? [B1 [B2 B3]] Hb']; subst. cbn [fst snd] in *. cbn in Hd. destruct Hd as [Hd1 Hd2].
  assert (Hcr : forall h, In h R -> e <= hs h) by (intros h Hh; apply (Hc h (s, e) Hh); left; reflexivity).
  assert (ChR : forall x, inh x R -> he cur <= x /\ e <= x) by (intros x Hx; split; [apply (inh_bound _ _ _ x CR Hx)|destruct Hx as (h & Hh & Hx); specialize (Hcr h Hh); lia]).
  assert (ChA : forall x, inh x A -> x < hs cur) by (intros x Hx; pose proof (inh_bound _ _ _ x CA Hx); lia).
  cbn [map sweep ww left right whint wn wrex wnid wav]. unfold wb at 1. cbn [fst snd]. cbn [hs he hr hid wh]. rewrite (q_ge s (he cur)) by lia.
  destruct (Z.leb_spec (he cur) s) as [L1|L1].
  { (* beyond the current hole *)
    set (w0 := mkW (cur :: l) R ht (Z.of_nat (length (A ++ cur :: R))) (sumr (A ++ cur :: R)) ni av).
    assert (I0 : WI lo hi w0) by (constructor; unfold wl; cbn [w0 left right whint wn wrex wnid rev]; rewrite <- app_assoc; first [assumption|reflexivity]).
    destruct (IH w0 bs') as (w' & E & I' & Rl & X & Nm & Lw); [cbn [w0 left length] in *; lia|exact I0|exact Hb'|exact Hd2|intros h b Hh Hb0; apply (Hc h b Hh); right; exact Hb0|].
    exists w'. split; [exact E|]. split; [exact I'|]. split; [apply (rel_trans _ (wl w0) _ _ [] bs' (rel_refl lo hi _ _ (w_chain _ _ _ I0)) Rl); [intros b []|intros b; right; assumption]|].
    split; [|split; [exact Nm|intros x b [<-|Hi] Hl; [cbn [fst] in Hl; lia|apply (Lw x b Hi Hl)]]]. intros H1 H2 x b [<-|Hi] Hx.
    - apply (r_sub _ _ _ Rl) in Hx. unfold wl in Hx. cbn [w0 left right rev] in Hx. rewrite <- app_assoc in Hx. rewrite inh_app in Hx. cbn [app] in Hx. rewrite inh_cons in Hx. unfold cov. cbn [fst snd]. fold A in Hx. destruct Hx as [Hx|[Hx|Hx]]; [specialize (ChA x Hx)| |specialize (ChR x Hx)]; lia.
    - apply (X ltac:(cbn [w0 wn length] in *; lia) ltac:(cbn [w0 wav length] in *; lia) x b Hi Hx). }
  rewrite (q_le e (hs cur)) by lia. destruct (Z.leb_spec e (hs cur)) as [L2|L2].
  { (* before the current hole *)
    set (w0 := mkW l (cur :: R) ht (Z.of_nat (length (A ++ cur :: R))) (sumr (A ++ cur :: R)) ni av).
    assert (I0 : WI lo hi w0) by (constructor; unfold wl; cbn [w0 left right whint wn wrex wnid]; first [assumption|reflexivity]).
    destruct (IH w0 ((s, e) :: bs')) as (w' & E & I' & Rl & X & Nm & Lw); [cbn [w0 left length] in *; lia|exact I0|exact Hb|split; assumption| |].
    { intros h b [<-|Hh] [<-|Hi]; cbn [snd]; [exact L2|specialize (Hd1 b Hi); lia|apply Hcr; exact Hh|apply (Hc h b Hh); right; exact Hi]. }
    exists w'. split; [exact E|]. split; [exact I'|]. split; [|split; [exact X|split; [exact Nm|exact Lw]]]. unfold wl in *. cbn [w0 left right rev] in *. rewrite <- app_assoc. exact Rl. }
  pose proof (sumr_bound lo _ hi Ic) as Sb. rewrite sumr_app in Sb. cbn [sumr fold_right] in Sb. fold (sumr R) in Sb. pose proof (sumr_bound lo A m CA) as SA. pose proof (sumr_bound _ _ _ CR) as SR.
  assert (Er : s32 (sumr (A ++ cur :: R) - u32 (wire (hr cur) - wire (hs cur))) = sumr A + sumr R).
  { rewrite q_sub by lia. rewrite sumr_app. cbn [sumr fold_right]. fold (sumr R). rewrite s32_id; lia. }
  rewrite Er. set (nn := Z.of_nat (length (A ++ cur :: R))) in *. rewrite (q_le s (hs cur)) by lia. rewrite (q_ge e (he cur)) by lia.
  (* the rest after the current hole became c1 and the holes after it R1 *)
  assert (Next : forall bb c1 R1 ht1 n1 ni1 av1, bb = (s <=? hs c1) ->
    (hs cur <= hs c1 /\ hs c1 < he c1 /\ hs c1 <= hr c1 <= he c1 /\ he c1 <= he cur) ->
    WI lo hi (mkW (c1 :: l) R1 ht1 n1 (sumr (A ++ c1 :: R1)) ni1 av1) -> (forall h, In h R1 -> e <= hs h) ->
    (hs c1 < s \/ (s <= hs c1 /\ e <= hs c1)) ->
    Rel (A ++ cur :: R) (A ++ c1 :: R1) ((s, e) :: bs') ->
    (hs c1 < s -> wn (mkW (cur :: l) R ht nn 0 ni av) + Z.of_nat (length ((s, e) :: bs')) <= maxh -> Z.of_nat (length ((s, e) :: bs')) <= av ->
        (forall x, inh x (A ++ c1 :: R1) -> ~ cov (s, e) x) /\ n1 + Z.of_nat (length bs') <= maxh /\ Z.of_nat (length bs') <= av1) ->
    (s <= hs c1 -> n1 = nn /\ av1 = av) -> (nn <= maxh -> n1 <= maxh) ->
    exists w', (let rex := s32 (sumr A + sumr R1 + u32 (wire (hr c1) - wire (hs c1))) in
       if bb then sweep fuel maxh (mkW (map wh l) (wh c1 :: map wh R1) ht1 n1 rex ni1 av1) ((wire s, wire e) :: map wb bs')
       else sweep fuel maxh (mkW (wh c1 :: map wh l) (map wh R1) ht1 n1 rex ni1 av1) (map wb bs')) = Ret (ww w') /\
      WI lo hi w' /\ Rel (A ++ cur :: R) (wl w') ((s, e) :: bs') /\ exact_if maxh (mkW (cur :: l) R ht nn 0 ni av) ((s, e) :: bs') (wl w') /\ (nn <= maxh -> wn w' <= maxh) /\ low lo ((s, e) :: bs') (wl w')).
  { intros bb c1 R1 ht1 n1 ni1 av1 -> G1 I1 Hr1 Hcase Rl1 Hex Hsm Hnm. cbv zeta.
    pose proof (w_chain _ _ _ I1) as W1. unfold wl in W1. cbn [left right rev] in W1. rewrite <- app_assoc in W1. cbn [app] in W1. fold A in W1.
    pose proof (sumr_bound lo _ hi W1) as S1. assert (Es : sumr (A ++ c1 :: R1) = sumr A + sumr R1 + (hr c1 - hs c1)) by (rewrite sumr_app; cbn [sumr fold_right]; fold (sumr R1); lia).
    replace (s32 (sumr A + sumr R1 + u32 (wire (hr c1) - wire (hs c1)))) with (sumr (A ++ c1 :: R1)) by (rewrite q_sub by lia; rewrite s32_id; lia).
    destruct (Z.leb_spec s (hs c1)) as [Ls|Ls].
    - set (w0 := mkW l (c1 :: R1) ht1 n1 (sumr (A ++ c1 :: R1)) ni1 av1).
      assert (I0 : WI lo hi w0) by (destruct I1 as [J1 J2 J3 J4 J5 J6]; unfold wl in *; cbn [left right rev whint wn wrex wnid w0] in *; rewrite <- app_assoc in *; constructor; assumption).
      destruct (IH w0 ((s, e) :: bs')) as (w' & E & I' & Rl & X & Nm & Lw); [cbn [w0 left length] in *; lia|exact I0|exact Hb|split; assumption| |].
      { intros h b [<-|Hh] [<-|Hi]; cbn [snd]; [lia|specialize (Hd1 b Hi); lia|apply Hr1; exact Hh|specialize (Hd1 b Hi); specialize (Hr1 h Hh); lia]. }
      exists w'. split; [exact E|]. split; [exact I'|]. split; [apply (rel_trans _ (A ++ c1 :: R1) _ _ ((s, e) :: bs') ((s, e) :: bs') Rl1 Rl); auto|]. split; [|split; [intros Hm; apply Nm; cbn; auto|exact Lw]].
      destruct (Hsm Ls) as [-> ->]. exact X.
    - set (w0 := mkW (c1 :: l) R1 ht1 n1 (sumr (A ++ c1 :: R1)) ni1 av1).
      destruct (IH w0 bs') as (w' & E & I' & Rl & X & Nm & Lw); [cbn [w0 left length] in *; lia|exact I1|exact Hb'|exact Hd2|intros h b Hh Hi; specialize (Hd1 b Hi); specialize (Hr1 h Hh); lia|].
      assert (El : wl w0 = A ++ c1 :: R1) by (unfold wl; cbn [w0 left right rev]; rewrite <- app_assoc; reflexivity). rewrite El in Rl.
      exists w'. split; [exact E|]. split; [exact I'|]. split; [apply (rel_trans _ (A ++ c1 :: R1) _ _ ((s, e) :: bs') bs' Rl1 Rl); [auto|intros b; right; assumption]|]. split; [|split; [intros Hm; apply Nm; cbn; auto|intros x b [<-|Hi] Hl; [cbn [fst] in Hl; lia|apply (Lw x b Hi Hl)]]].
      intros H1 H2 x b Hi Hx. destruct (Hex Ls H1 H2) as (K1 & K2 & K3). destruct Hi as [<-|Hi]; [apply K1; apply (r_sub _ _ _ Rl); exact Hx|]. apply (X K2 K3 x b Hi Hx). }
  assert (Wl0 : wl (mkW (cur :: l) R ht nn (sumr (A ++ cur :: R)) ni av) = A ++ cur :: R) by (unfold wl; cbn [left right rev]; rewrite <- app_assoc; reflexivity). rewrite Wl0.
  destruct (Z.leb_spec s (hs cur)) as [L3|L3].
  - destruct (Z.leb_spec (he cur) e) as [L4|L4].
    + (* the hole goes *)
      set (w0 := mkW l R (if opt_eqb ht (hid cur) then hd_id R else ht) (nn - 1) (sumr (A ++ R)) ni (av + 1)).
      assert (E0 : (if opt_eqb ht (hid cur) then hd_id (map wh R) else ht) = (if opt_eqb ht (hid cur) then hd_id R else ht)) by (destruct R; reflexivity). rewrite E0.
      destruct (rel_local lo hi A cur [] R (s, e) ((s, e) :: bs') Ic) as [Cl Rl1]; [cbn; lia|left; reflexivity|intros x Hx; right; unfold cov; cbn; lia|intros x; split; [intros K; destruct (rtx_nil x K)|intros [_ K]; destruct (inh_nil x K)]|]. cbn [app] in Cl, Rl1.
      assert (I0 : WI lo hi w0).
      { constructor; unfold wl; cbn [w0 left right whint wn wrex wnid]; fold A.
        - exact Cl.
        - unfold nn. rewrite !app_length. cbn [length]. lia.
        - reflexivity.
        - apply hint_none; assumption.
        - rewrite map_app in *. cbn in Ii. apply NoDup_remove_1 in Ii. exact Ii.
        - apply Forall_app in Iw. destruct Iw as [W1 W2]. inversion W2; subst. apply Forall_app. auto. }
      replace (sumr A + sumr R) with (sumr (A ++ R)) by (rewrite sumr_app; reflexivity).
      destruct (IH w0 ((s, e) :: bs')) as (w' & E & I' & Rl & X & Nm & Lw); [cbn [w0 left length] in *; lia|exact I0|exact Hb|split; assumption|exact Hc|].
      exists w'. split; [exact E|]. split; [exact I'|]. split; [apply (rel_trans _ (A ++ R) _ _ ((s, e) :: bs') ((s, e) :: bs') Rl1 Rl); auto|].
      split; [intros H1 H2; apply X; cbn [w0 wn wav length] in *; lia|split; [intros Hm; apply Nm; cbn [w0 wn]; lia|exact Lw]].
    + (* its start moves *)
      rewrite q_max by lia. set (c1 := mkHole (hid cur) e (he cur) (Z.max (hr cur) e)).
      destruct (rel_local lo hi A cur [c1] R (s, e) ((s, e) :: bs') Ic) as [Cl Rl1]; [cbn; lia|left; reflexivity| | |].
      { intros x Hx. rewrite inh_cons. cbn [c1 hs he]. destruct (Z_lt_ge_dec x e); [right; unfold cov; cbn; lia|left; left; lia]. }
      { intros x. rewrite rtx_cons, inh_cons. cbn [c1 hs he hr]. split; [intros [K|K]; [lia|destruct (rtx_nil x K)]|intros [K1 [K2|K2]]; [left; lia|destruct (inh_nil x K2)]]. }
      cbn [app] in Cl, Rl1. rewrite (q_le s e) by lia. apply (Next (s <=? e) c1 R ht nn ni av eq_refl).
      * cbn [c1 hs he hr]. lia.
      * constructor; unfold wl; cbn [left right whint wn wrex wnid rev]; rewrite <- app_assoc; fold A; cbn [app].
        -- exact Cl.
        -- unfold nn. rewrite !app_length. reflexivity.
        -- reflexivity.
        -- apply (hint_one ht A cur c1 R Ii Ih eq_refl). unfold donE. cbn [c1 hr he]. lia.
        -- rewrite map_app in *. exact Ii.
        -- apply Forall_app in Iw. destruct Iw as [W1 W2]. inversion W2; subst. apply Forall_app. split; [assumption|constructor; assumption].
      * exact Hcr.
      * right. cbn [c1 hs]. lia.
      * exact Rl1.
      * cbn [c1 hs]. lia.
      * auto.
      * auto.
  - destruct (Z.leb_spec (he cur) e) as [L4|L4].
    + (* its end moves *)
      rewrite q_min by lia. set (c1 := mkHole (hid cur) (hs cur) s (Z.min (hr cur) s)).
      destruct (rel_local lo hi A cur [c1] R (s, e) ((s, e) :: bs') Ic) as [Cl Rl1]; [cbn; lia|left; reflexivity| | |].
      { intros x Hx. rewrite inh_cons. cbn [c1 hs he]. destruct (Z_lt_ge_dec x s); [left; left; lia|right; unfold cov; cbn; lia]. }
      { intros x. rewrite rtx_cons, inh_cons. cbn [c1 hs he hr]. split; [intros [K|K]; [lia|destruct (rtx_nil x K)]|intros [K1 [K2|K2]]; [left; lia|destruct (inh_nil x K2)]]. }
      cbn [app] in Cl, Rl1. apply (Next false c1 R ht nn ni av); [symmetry; apply Z.leb_gt; exact L3|..].
      * cbn [c1 hs he hr]. lia.
      * constructor; unfold wl; cbn [left right whint wn wrex wnid rev]; rewrite <- app_assoc; fold A; cbn [app].
        -- exact Cl.
        -- unfold nn. rewrite !app_length. reflexivity.
        -- reflexivity.
        -- apply (hint_one ht A cur c1 R Ii Ih eq_refl). unfold donE. cbn [c1 hr he]. lia.
        -- rewrite map_app in *. exact Ii.
        -- apply Forall_app in Iw. destruct Iw as [W1 W2]. inversion W2; subst. apply Forall_app. split; [assumption|constructor; assumption].
      * exact Hcr.
      * left. cbn [c1 hs]. lia.
      * exact Rl1.
      * intros _ H1 H2. cbn [wn length] in *. split; [|lia]. intros x Hx. rewrite inh_app, inh_cons in Hx. cbn [c1 hs he] in Hx. unfold cov. cbn [fst snd]. destruct Hx as [Hx|[Hx|Hx]]; [specialize (ChA x Hx)| |specialize (ChR x Hx)]; lia.
      * auto.
      * auto.
    + destruct (can_alloc maxh nn av) eqn:Ca.
      * (* split *)
        rewrite (q_gt (hr cur) e) by lia. rewrite q_min by lia.
        set (c1 := mkHole (hid cur) (hs cur) s (Z.min (hr cur) s)). set (tmp := mkHole ni e (he cur) (Z.max (hr cur) e)).
        assert (Et : mkHole ni (wire e) (wire (he cur)) (if e <? hr cur then wire (hr cur) else wire e) = wh tmp).
        { unfold wh, tmp. cbn [hid hs he hr]. destruct (Z.ltb_spec e (hr cur)); f_equal; f_equal; lia. }
        cbn [hr hs]. 
        assert (Ex : (if e <? hr cur then s32 (sumr A + sumr R + u32 ((if e <? hr cur then wire (hr cur) else wire e) - wire e)) else sumr A + sumr R) = sumr A + sumr (tmp :: R)).
        { cbn [sumr fold_right]. fold (sumr R). cbn [tmp hs hr]. destruct (Z.ltb_spec e (hr cur)); [|lia]. rewrite q_sub by lia. rewrite s32_id; lia. }
        cbv zeta. rewrite Ex, Et.
        destruct (rel_local lo hi A cur [c1; tmp] R (s, e) ((s, e) :: bs') Ic) as [Cl Rl1]; [cbn; lia|left; reflexivity| | |].
        { intros x Hx. rewrite !inh_cons. cbn [c1 tmp hs he]. destruct (Z_lt_ge_dec x s); [left; left; lia|]. destruct (Z_lt_ge_dec x e); [right; unfold cov; cbn; lia|left; right; left; lia]. }
        { intros x. rewrite !rtx_cons, !inh_cons. cbn [c1 tmp hs he hr]. split; [intros [K|[K|K]]; [lia|lia|destruct (rtx_nil x K)]|intros [K1 [K2|[K2|K2]]]; [left; lia|right; left; lia|destruct (inh_nil x K2)]]. }
        cbn [app] in Cl, Rl1. apply (Next false c1 (tmp :: R) (if is_some ht then ht else Some ni) (nn + 1) (S ni) (av - 1)); [symmetry; apply Z.leb_gt; exact L3|..].
        -- cbn [c1 hs he hr]. lia.
        -- constructor; unfold wl; cbn [left right whint wn wrex wnid rev]; rewrite <- app_assoc; fold A; cbn [app].
           ++ exact Cl.
           ++ unfold nn. rewrite !app_length. cbn [length]. lia.
           ++ reflexivity.
           ++ apply (hint_two ht A cur c1 tmp R Ii Ih eq_refl). unfold donE. cbn [c1 tmp hr he]. lia.
           ++ assert (Nt : forall x, In x (map hid (A ++ cur :: R)) -> x <> ni) by (intros x Hx; apply in_map_iff in Hx; destruct Hx as (h & <- & Hh); pose proof (proj1 (Forall_forall _ _) Iw h Hh) as Q; cbn in Q; lia).
              rewrite map_app in *. cbn [map c1 tmp hid] in *. apply NoDup_Add with (a := ni) (l := map hid A ++ hid cur :: map hid R); [|split; [exact Ii|intros K; apply (Nt ni K); reflexivity]].
              change (map hid A ++ hid cur :: ni :: map hid R) with (map hid A ++ [hid cur] ++ ni :: map hid R). rewrite app_assoc. change (map hid A ++ hid cur :: map hid R) with (map hid A ++ [hid cur] ++ map hid R). rewrite (app_assoc (map hid A)). apply Add_app.
           ++ apply Forall_app in Iw. destruct Iw as [W1 W2]. inversion W2 as [|? ? W3 W4]; subst. apply Forall_app. split; [apply (Forall_impl _ (P := fun h => (hid h < ni)%nat)); [cbn; lia|exact W1]|]. constructor; [cbn in *; lia|]. constructor; [cbn; lia|]. apply (Forall_impl _ (P := fun h => (hid h < ni)%nat)); [cbn; lia|exact W4].
        -- intros h [<-|Hh]; [cbn [tmp hs]; lia|apply Hcr; exact Hh].
        -- left. cbn [c1 hs]. lia.
        -- exact Rl1.
        -- intros _ H1 H2. cbn [wn length] in *. split; [|lia]. intros x Hx. rewrite inh_app, !inh_cons in Hx. cbn [c1 tmp hs he] in Hx. unfold cov. cbn [fst snd]. destruct Hx as [Hx|[Hx|[Hx|Hx]]]; [specialize (ChA x Hx)| | |specialize (ChR x Hx)]; lia.
        -- cbn [c1 hs]. lia.
        -- intros _. unfold can_alloc in Ca. apply negb_true_iff, orb_false_iff in Ca. destruct Ca as [Ca _]. rewrite Z.geb_leb in Ca. apply Z.leb_gt in Ca. lia.
      * (* no memory: the hole stays *)
        assert (El : wh cur = mkHole (hid cur) (wire (hs cur)) (wire (he cur)) (wire (hr cur))) by reflexivity. cbv zeta.
        apply (Next false cur R ht nn ni av); [symmetry; apply Z.leb_gt; exact L3|..].
        -- lia.
        -- constructor; unfold wl; cbn [left right whint wn wrex wnid rev]; rewrite <- app_assoc; fold A; cbn [app]; auto.
        -- exact Hcr.
        -- left. lia.
        -- apply (rel_refl lo hi _ _ Ic).
        -- intros _ H1 H2. exfalso. unfold can_alloc in Ca. apply negb_false_iff, orb_true_iff in Ca. cbn [wn length] in *. destruct Ca as [Ca|Ca]; [rewrite Z.geb_leb in Ca; apply Z.leb_le in Ca; lia|apply Z.leb_le in Ca; lia].
        -- lia.
        -- auto.
Qed.
