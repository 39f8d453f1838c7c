From Verif Require Import Base TcpSeqModel TcpSeqProps SackModel SackSpec SackProof.
From Coq Require Import Permutation.
Ltac Zify.zify_post_hook ::= idtac.

(* ---- comparisons on the whole signed range ---- *)
Lemma d_lt x y : -2147483648 <= x - y < 2147483648 -> SEQ_LT (wire x) (wire y) = (x <? y).
Proof. intros H. unfold SEQ_LT. rewrite s32_sub_wire by (change (2 ^ 31) with 2147483648; lia). lia. Qed.
Lemma d_le x y : -2147483648 <= x - y < 2147483648 -> SEQ_LEQ (wire x) (wire y) = (x <=? y).
Proof. intros H. unfold SEQ_LEQ. rewrite s32_sub_wire by (change (2 ^ 31) with 2147483648; lia). lia. Qed.
Lemma d_gt x y : -2147483648 <= x - y < 2147483648 -> SEQ_GT (wire x) (wire y) = (y <? x).
Proof. intros H. unfold SEQ_GT. rewrite s32_sub_wire by (change (2 ^ 31) with 2147483648; lia). lia. Qed.
Lemma d_ge x y : -2147483648 <= x - y < 2147483648 -> SEQ_GEQ (wire x) (wire y) = (y <=? x).
Proof. intros H. unfold SEQ_GEQ. rewrite s32_sub_wire by (change (2 ^ 31) with 2147483648; lia). lia. Qed.
Lemma lift x w : word w -> exists a, w = wire a /\ x - 2147483648 <= a < x + 2147483648.
Proof.
  intros H. exists (x - 2147483648 + (w - (x - 2147483648)) mod 4294967296).
  pose proof (Z.mod_pos_bound (w - (x - 2147483648)) 4294967296 ltac:(lia)). split; [|lia].
  unfold wire. change (2 ^ 32) with 4294967296. rewrite Zplus_mod_idemp_r. replace (x - 2147483648 + (w - (x - 2147483648))) with w by lia.
  symmetry. apply Z.mod_small. exact H.
Qed.
Lemma wire_word x : word (wire x).
Proof. unfold word, wire. change (2 ^ 32) with 4294967296. apply Z.mod_pos_bound. lia. Qed.

(* ---- sorting ---- *)
Fixpoint abubble (x : Z * Z) (l : list (Z * Z)) : (Z * Z) * list (Z * Z) :=
  match l with
  | [] => (x, [])
  | y :: l => if snd y <? snd x then let r := abubble y l in (fst r, x :: snd r) else let r := abubble x l in (fst r, y :: snd r)
  end.
Fixpoint asort_n (n : nat) (l : list (Z * Z)) : list (Z * Z) :=
  match n, l with S n, x :: l => let r := abubble x l in fst r :: asort_n n (snd r) | _, _ => l end.
Definition wnd (lo : Z) (b : Z * Z) : Prop := lo <= snd b < lo + 2147483648.
Lemma bubble_wb lo l : forall x, wnd lo x -> Forall (wnd lo) l -> bubble (wb x) (map wb l) = (wb (fst (abubble x l)), map wb (snd (abubble x l))).
Proof.
  induction l as [|y l IH]; intros x Hx Hl; [reflexivity|]. inversion Hl as [|? ? Hy Hl']; subst. cbn [map bubble abubble].
  unfold wnd in *. cbn [wb snd]. rewrite q_gt by lia. destruct (snd y <? snd x); cbv zeta; rewrite IH by assumption; reflexivity.
Qed.
Lemma abubble_perm l : forall x, Permutation (x :: l) (fst (abubble x l) :: snd (abubble x l)).
Proof.
  induction l as [|y l IH]; intros x; [apply Permutation_refl|]. cbn [abubble]. destruct (snd y <? snd x); cbv zeta; cbn [fst snd].
  - rewrite (perm_swap x (fst _)). constructor. apply IH.
  - rewrite (perm_swap y x). rewrite (perm_swap y (fst _)). constructor. apply IH.
Qed.
Lemma abubble_min l : forall x y, In y (snd (abubble x l)) -> snd (fst (abubble x l)) <= snd y.
Proof.
  assert (K : forall l x, snd (fst (abubble x l)) <= snd x).
  { clear. induction l as [|y l IH]; intros x; cbn [abubble]; [cbn; lia|]. destruct (Z.ltb_spec (snd y) (snd x)); cbv zeta; cbn [fst]; [specialize (IH y)|specialize (IH x)]; lia. }
  induction l as [|z l IH]; intros x y H; [destruct H|]. cbn [abubble] in *. destruct (Z.ltb_spec (snd z) (snd x)); cbv zeta in *; cbn [fst snd] in *; destruct H as [<-|H].
  - specialize (K l z). lia.
  - apply IH. exact H.
  - specialize (K l x). lia.
  - apply IH. exact H.
Qed.
Fixpoint asc (l : list (Z * Z)) : Prop := match l with [] => True | b :: t => (forall c, In c t -> snd b <= snd c) /\ asc t end.
Lemma sort_n_ok lo n : forall l, length l = n -> Forall (wnd lo) l -> sort_n n (map wb l) = map wb (asort_n n l) /\ Permutation l (asort_n n l) /\ asc (asort_n n l).
Proof.
  induction n as [|n IH]; intros l L W; [destruct l; [|discriminate]; repeat split; constructor|].
  destruct l as [|x l]; [discriminate|]. injection L as L. inversion W as [|? ? Wx Wl]; subst. cbn [map sort_n asort_n]. cbv zeta. rewrite (bubble_wb lo) by assumption. cbn [fst snd].
  pose proof (abubble_perm l x) as P. assert (W' : Forall (wnd lo) (fst (abubble x l) :: snd (abubble x l))) by (apply (Permutation_Forall P); exact W).
  inversion W' as [|? ? W1 W2]; subst. destruct (IH (snd (abubble x l))) as (E & Q & S); [apply Permutation_length in P; cbn in P; lia|exact W2|].
  rewrite E. split; [reflexivity|]. split; [rewrite P; constructor; exact Q|]. split; [|exact S]. intros c Hc. apply abubble_min. apply (Permutation_in _ (Permutation_sym Q)). exact Hc.
Qed.
Lemma desc_app l b : desc l -> (forall c, In c l -> snd b <= snd c) -> desc (l ++ [b]).
Proof.
  induction l as [|x l IH]; intros D H; cbn [app desc]; [split; [intros c []|exact I]|]. destruct D as [D1 D2]. split.
  - intros c Hc. apply in_app_or in Hc. destruct Hc as [Hc|[<-|[]]]; [apply D1; exact Hc|apply H; left; reflexivity].
  - apply IH; [exact D2|intros c Hc; apply H; right; exact Hc].
Qed.
Lemma asc_desc l : asc l -> desc (rev l).
Proof. induction l as [|x l IH]; intros H; [exact I|]. destruct H as [H1 H2]. cbn [rev]. apply desc_app; [apply IH; exact H2|intros c Hc; apply H1; apply in_rev; exact Hc]. Qed.
Lemma sorted lo l : Forall (wnd lo) l -> exists d, rev (sort (map wb l)) = map wb d /\ Permutation l d /\ desc d.
Proof.
  intros W. unfold sort. rewrite map_length. destruct (sort_n_ok lo (length l) l eq_refl W) as (E & P & S). exists (rev (asort_n (length l) l)).
  rewrite E, map_rev. split; [reflexivity|]. split; [rewrite P at 1; apply Permutation_rev|apply asc_desc; exact S].
Qed.

(* ---- the blocks of the option ---- *)
Lemma valid_lift au am ak s e : word s -> word e -> au <= am < au + 2147483648 -> am - 2147483648 <= ak <= am ->
  valid (wire au) (wire ak) (wire am) (s, e) = true <-> exists b, (s, e) = wb b /\ Z.max au ak < fst b /\ fst b < snd b /\ snd b <= am.
Proof.
  intros Ws We Ha Hk. unfold valid. cbn [fst snd]. split.
  - intros H. apply andb_prop in H. destruct H as [H E6]. apply andb_prop in H. destruct H as [H E5]. apply andb_prop in H. destruct H as [H E4]. apply andb_prop in H. destruct H as [H E3]. apply andb_prop in H. destruct H as [E1 E2].
    destruct (lift au s Ws) as (a & -> & La). rewrite d_gt in E2 by lia. apply Z.ltb_lt in E2. rewrite d_lt in E4 by lia. apply Z.ltb_lt in E4. rewrite d_gt in E3 by lia. apply Z.ltb_lt in E3.
    destruct (lift a e We) as (b & -> & Lb). rewrite d_gt in E1 by lia. apply Z.ltb_lt in E1. rewrite d_le in E6 by lia. apply Z.leb_le in E6.
    exists (a, b). split; [reflexivity|]. cbn [fst snd]. lia.
  - intros ([a b] & E & H1 & H2 & H3). injection E as -> ->. cbn [fst snd] in *. rewrite !d_gt, d_lt, d_le by lia.
    repeat (apply andb_true_intro; split); try (apply Z.ltb_lt; lia); apply Z.leb_le; lia.
Qed.
Definition acc (au am ak : Z) (opt : option (list (Z * Z))) (b : Z * Z) : Prop :=
  Z.max au ak < fst b /\ fst b < snd b /\ snd b <= am /\ exists l, opt = Some l /\ In (wb b) l.
Lemma wire_inj x y : Z.abs (x - y) < 4294967296 -> wire x = wire y -> x = y.
Proof.
  intros H E. unfold wire in E. change (2 ^ 32) with 4294967296 in E. pose proof (Z.div_mod x 4294967296 ltac:(lia)). pose proof (Z.div_mod y 4294967296 ltac:(lia)).
  assert (x - y = 4294967296 * (x / 4294967296 - y / 4294967296)) by lia. nia.
Qed.
Lemma opt_lift au am ak opt : match opt with Some l => Forall (fun b => word (fst b) /\ word (snd b)) l | None => True end -> au <= am < au + 2147483648 -> am - 2147483648 <= ak <= am ->
  exists bl, match opt with Some l => filter (valid (wire au) (wire ak) (wire am)) l | None => [] end = map wb bl /\ (forall b, In b bl <-> acc au am ak opt b) /\
    (length bl <= match opt with Some l => length l | None => 0 end)%nat.
Proof.
  intros W Ha Hk. destruct opt as [l|]; [|exists []; split; [reflexivity|]; split; [|cbn; lia]; intros b; split; [intros []|intros (_ & _ & _ & l & E & _); discriminate]].
  assert (K : exists bl, filter (valid (wire au) (wire ak) (wire am)) l = map wb bl /\ (forall b, In b bl <-> Z.max au ak < fst b /\ fst b < snd b /\ snd b <= am /\ In (wb b) l) /\ (length bl <= length l)%nat).
  { induction W as [|[s e] l [W1 W2] W IH]; [exists []; split; [reflexivity|]; split; [|cbn; lia]; intros b; split; [intros []|intros (_ & _ & _ & [])]|].
    destruct IH as (bl & E & S & L). cbn [filter]. cbn [fst snd] in *. destruct (valid (wire au) (wire ak) (wire am) (s, e)) eqn:V.
    - apply valid_lift in V; [|assumption..]. destruct V as (b0 & Eb & V1 & V2 & V3). exists (b0 :: bl). rewrite E, Eb. split; [reflexivity|]. split; [|cbn; lia].
      intros b. cbn [In]. rewrite S. split; [intros [<-|(A & B & C & D)]; auto 10|]. intros (A & B & C & [D|D]); [left|right; auto]. unfold wb in D. injection D as D1 D2. apply wire_inj in D1; [|lia]. apply wire_inj in D2; [|lia]. destruct b, b0; cbn in *; congruence.
    - exists bl. split; [exact E|]. split; [|cbn; lia]. intros b. rewrite S. split; [intros (A & B & C & D); repeat split; try assumption; right; exact D|]. intros (A & B & C & [D|D]); [|auto].
      exfalso. rewrite (proj2 (valid_lift au am ak s e W1 W2 Ha Hk)) in V; [discriminate|]. exists b. auto. }
  destruct K as (bl & E & S & L). exists bl. split; [exact E|]. split; [|exact L]. intros b. rewrite S. unfold acc. split; [intros (A & B & C & D); repeat split; try assumption; exists l; auto|intros (A & B & C & l' & D & F); injection D as <-; auto].
Qed.

Lemma classic_inh x l : inh x l \/ ~ inh x l.
Proof.
  induction l as [|h l [IH|IH]]; [right; apply inh_nil|left; rewrite inh_cons; right; exact IH|].
  destruct (Z_le_gt_dec (hs h) x) as [L1|L1]; [|right; rewrite inh_cons; intros [K|K]; [lia|contradiction]].
  destruct (Z_lt_ge_dec x (he h)) as [L2|L2]; [left; rewrite inh_cons; left; lia|right; rewrite inh_cons; intros [K|K]; [lia|contradiction]].
Qed.
(* ---- one acknowledgement ---- *)
Record A (t : sb) (l : list hole) (f lo au am : Z) : Prop := {
  a_h : holes t = map wh l; a_u : una t = wire au; a_m : smax t = wire am;
  a_w : au <= lo /\ lo <= am /\ am < au + 2147483648;
  a_c : chain lo l f; a_f : f <= am; a_k : l <> [] -> fack t = wire f;
  a_n : numholes t = Z.of_nat (length l); a_r : rexb t = sumr l;
  a_hint : hint_ok (hint t) l; a_ids : NoDup (map hid l); a_new : Forall (fun h => (hid h < nid t)%nat) l }.
Lemma chain_tighten lo hi l lo' hi' : chain lo l hi -> (forall x, inh x l -> lo' <= x < hi') -> lo' <= hi' -> chain lo' l hi'.
Proof.
  revert lo lo'. induction l as [|h t IH]; intros lo lo' C H L; cbn in *; [exact L|]. destruct C as (C1 & C2 & C3 & C4).
  assert (H1 : lo' <= hs h) by (specialize (H (hs h)); rewrite inh_cons in H; specialize (H ltac:(left; lia)); lia).
  assert (H2 : he h <= hi') by (specialize (H (he h - 1)); rewrite inh_cons in H; specialize (H ltac:(left; lia)); lia).
  repeat split; try lia. apply (IH (he h)); [exact C4| |exact H2]. intros x Hx. pose proof (inh_bound _ _ _ x C4 Hx). specialize (H x). rewrite inh_cons in H. specialize (H (or_intror Hx)). lia.
Qed.
Definition base (l : list hole) (f m : Z) : Z := match l with [] => m | _ => f end.
(* what the blocks bl, and ak, turn holes l into *)
Record Step (l : list hole) (f m : Z) (bl : list (Z * Z)) (l' : list hole) (f' : Z) : Prop := {
  st_sub : forall x, inh x l' -> inh x l \/ (base l f m <= x /\ exists b, In b bl /\ x < snd b);
  st_rep : forall x, m <= x < f' -> ~ inh x l' -> (x < f /\ l <> [] /\ ~ inh x l) \/ exists b, In b bl /\ cov b x;
  st_rtx : forall x, rtx x l' <-> rtx x l /\ inh x l';
  st_keep : forall x, inh x l -> m <= x -> inh x l' \/ exists b, In b bl /\ cov b x;
  st_top : (l <> [] -> ~ inh (f - 1) l) -> l' <> [] -> ~ inh (f' - 1) l' }.
Definition Exact (l : list hole) (f m : Z) (bl : list (Z * Z)) (l' : list hole) : Prop :=
  forall x, inh x l' <-> m <= x /\ (forall b, In b bl -> ~ cov b x) /\ (inh x l \/ (base l f m <= x /\ exists b, In b bl /\ x < snd b)).
Fixpoint askip (f : Z) (bs : list (Z * Z)) : list (Z * Z) := match bs with b :: t => if f <? fst b then askip f t else bs | [] => [] end.
Lemma askip_in f bs b : In b (askip f bs) -> In b bs.
Proof. induction bs as [|c bs IH]; cbn; [auto|]. destruct (f <? fst c); [intros H; right; apply IH; exact H|auto]. Qed.
Lemma askip_keep f bs b : In b bs -> fst b <= f -> In b (askip f bs).
Proof. induction bs as [|c bs IH]; cbn; [auto|]. intros [->|H] L; [destruct (Z.ltb_spec f (fst b)); [lia|left; reflexivity]|]. destruct (f <? fst c); [apply IH; assumption|right; exact H]. Qed.
Lemma askip_desc f bs : desc bs -> desc (askip f bs).
Proof. induction bs as [|c bs IH]; cbn; [auto|]. intros [H1 H2]. destruct (f <? fst c); [apply IH; exact H2|split; assumption]. Qed.
Lemma askip_hd f bs : match askip f bs with [] => True | b :: _ => fst b <= f end.
Proof. induction bs as [|c bs IH]; cbn; [exact I|]. destruct (Z.ltb_spec f (fst c)); [exact IH|exact H]. Qed.
Lemma skip_wb f bs lo : Forall (fun b => lo <= fst b < lo + 2147483648) bs -> lo <= f < lo + 2147483648 -> skip (wire f) (map wb bs) = map wb (askip f bs).
Proof. intros H L. induction H as [|b bs H Hs IH]; [reflexivity|]. cbn [map skip askip wb fst]. rewrite q_lt by lia. destruct (f <? fst b); [exact IH|reflexivity]. Qed.
Lemma wl_map w : rev (left (ww w)) ++ right (ww w) = map wh (wl w).
Proof. unfold ww, wl. cbn [left right]. rewrite map_app, map_rev. reflexivity. Qed.
Lemma is_nil_map {X Y} (g : X -> Y) l : is_nil (map g l) = is_nil l.
Proof. destruct l; reflexivity. Qed.

Lemma doack_ok maxh av t l f au am ak opt : A t l f au au am -> am - 2147483648 <= ak <= am ->
  match opt with Some bs => (length bs <= 4)%nat /\ Forall (fun b => word (fst b) /\ word (snd b)) bs | None => True end ->
  exists t' l' f' bl, doack maxh av t opt (wire ak) = Ret t' /\ A t' l' f' (Z.max au ak) au am /\ (forall b, In b bl <-> acc au am ak opt b) /\
    Step l f (Z.max au ak) bl l' f' /\ (numholes t <= maxh -> numholes t' <= maxh) /\ (numholes t + 5 <= maxh -> 5 <= av -> Exact l f (Z.max au ak) bl l').
Proof.
  intros [Hh Hu Hm Hw Hc Hf Hk Hn Hr Hhi Hid Hnew] Hak Hopt. set (m := Z.max au ak).
  destruct (opt_lift au am ak opt) as (bl & Ebl & Sbl & Lbl); [destruct opt; [apply Hopt|exact I]|lia|exact Hak|].
  assert (Lb4 : (length bl <= 4)%nat) by (destruct opt; [destruct Hopt as [Ho _]; lia|lia]).
  assert (Fl : l <> [] -> au < f) by (destruct l as [|h l0]; [congruence|]; intros _; cbn in Hc; destruct Hc as (C1 & C2 & _ & C4); apply chain_le in C4; lia).
  set (b0 := if (au <? ak) && negb (is_nil l) then [(au, ak)] else []).
  assert (Ln0 : (length b0 <= 1)%nat) by (unfold b0; destruct ((au <? ak) && negb (is_nil l)); cbn; lia).
  assert (Eb0 : (if SEQ_LT (una t) (wire ak) && negb (is_nil (holes t)) then [(una t, wire ak)] else []) = map wb b0).
  { rewrite Hu, Hh, is_nil_map. unfold b0. destruct l as [|h l0]; cbn [is_nil negb]; [rewrite !andb_false_r; reflexivity|]. rewrite !andb_true_r. specialize (Fl ltac:(discriminate)). rewrite q_lt by lia. destruct (au <? ak); reflexivity. }
  assert (B0 : forall b, In b b0 -> b = (au, ak) /\ au < ak /\ l <> []).
  { intros b. unfold b0. destruct (Z.ltb_spec au ak); [|intros []]. destruct l; [intros []|]. cbn. intros [<-|[]]. split; [reflexivity|]. split; [exact H|discriminate]. }
  assert (B0' : au < ak -> l <> [] -> In (au, ak) b0).
  { intros H1 H2. unfold b0. destruct (Z.ltb_spec au ak); [|lia]. destruct l; [congruence|]. left. reflexivity. }
  assert (Bin : forall b, In b (b0 ++ bl) -> au <= fst b /\ fst b < snd b /\ snd b <= am).
  { intros b Hb. apply in_app_or in Hb. destruct Hb as [Hb|Hb]; [destruct (B0 b Hb) as (-> & B1 & _); cbn; lia|]. apply Sbl in Hb. destruct Hb as (B1 & B2 & B3 & _). lia. }
  destruct (sorted au (b0 ++ bl)) as (D & ED & PD & DD). { apply Forall_forall. intros b Hb. specialize (Bin b Hb). unfold wnd. lia. }
  assert (Din : forall b, In b D <-> In b b0 \/ In b bl) by (intros b; rewrite <- in_app_iff; split; [apply (Permutation_in _ (Permutation_sym PD))|apply (Permutation_in _ PD)]).
  assert (Dw : forall b, In b D -> au <= fst b /\ fst b < snd b /\ snd b <= am) by (intros b Hb; apply Bin, in_or_app, Din, Hb).
  assert (LD : (length D <= 5)%nat) by (apply Permutation_length in PD; rewrite app_length in PD; lia).
  unfold doack. rewrite Eb0, Hu, Hm, Ebl, <- map_app, ED. rewrite <- Hu.
  destruct D as [|[s e] rest].
  { (* nothing new *)
    assert (Nb : bl = []) by (destruct bl as [|b bl0]; [reflexivity|]; destruct (proj2 (Din b) (or_intror (or_introl eq_refl)))). subst bl.
    assert (Na : l <> [] -> ak <= au). { intros H. destruct (Z_lt_ge_dec au ak) as [L|L]; [|lia]. destruct (proj2 (Din (au, ak)) (or_introl (B0' L H))). }
    exists t, l, (base l f m), []. split; [reflexivity|]. split.
    { constructor; try assumption; try (unfold m; lia).
      - destruct l as [|h l0]; [cbn; lia|]. specialize (Na ltac:(discriminate)). unfold m. replace (Z.max au ak) with au by lia. exact Hc.
      - destruct l; cbn [base]; unfold m; lia.
      - destruct l; [congruence|]. intros H. apply Hk. exact H. }
    split; [exact Sbl|]. split; [|split; [auto|]].
    - constructor; [auto| |intros x; split; [intros H; split; [exact H|apply (rtx_inh _ _ _ x Hc H)]|tauto]|auto|intros T Ne; destruct l; [congruence|apply T; exact Ne]].
      intros x Hx Nx. left. destruct l; cbn [base] in Hx; [lia|]. split; [lia|]. split; [discriminate|exact Nx].
    - intros _ _ x. split; [intros H; split; [|split; [intros b []|left; exact H]]|intros (_ & _ & [H|(_ & b & [] & _)]); exact H].
      pose proof (inh_bound _ _ _ x Hc H). destruct l as [|h l0]; [destruct (inh_nil x H)|]. specialize (Na ltac:(discriminate)). unfold m. lia. }
  cbn [map]. unfold wb at 1. cbn [fst snd]. rewrite Hh, is_nil_map, Hu.
  assert (Hse : au <= s /\ s < e /\ e <= am) by (apply (Dw (s, e)); left; reflexivity).
  set (f0 := base l f m).
  assert (Ef : (if is_nil l then SEQ_MAX (wire au) (wire ak) else fack t) = wire f0).
  { unfold f0. destruct l; cbn [is_nil base]; [rewrite q_max by lia; reflexivity|apply Hk; discriminate]. }
  assert (Hf0 : au <= f0 <= am) by (unfold f0; destruct l; cbn [base]; [unfold m; lia|specialize (Fl ltac:(discriminate)); lia]).
  rewrite Ef, (q_lt f0 s) by lia.
  assert (Hlow : forall x w bs l', low au bs l' -> (forall b, In b b0 -> In b bs) -> inh x l' -> Rel (wl w) l' bs -> (forall x, inh x (wl w) -> inh x l \/ f0 <= x) -> m <= x).
  { intros x w bs l' Lo Hb Hx Rl Hs. destruct (Z_lt_ge_dec x m) as [Lx|Lx]; [exfalso|lia]. destruct (Hs x (r_sub _ _ _ Rl x Hx)) as [K|K].
    - pose proof (inh_bound _ _ _ x Hc K). assert (Ne : l <> []) by (intros ->; apply (inh_nil x K)). assert (La : au < ak) by (unfold m in Lx; lia).
      apply (Lo x (au, ak) (Hb _ (B0' La Ne)) ltac:(cbn; lia) Hx). unfold cov, m in *. cbn. lia.
    - unfold f0, base in K. destruct l as [|h l0]; [lia|]. specialize (Fl ltac:(discriminate)). assert (La : au < ak) by (unfold m in Lx; lia).
      apply (Lo x (au, ak) (Hb _ (B0' La ltac:(discriminate))) ltac:(cbn; lia) Hx). unfold cov, m in *. cbn. lia. }
  assert (Cb : forall x, m <= x -> (exists b, In b ((s, e) :: rest) /\ cov b x) -> exists b, In b bl /\ cov b x).
  { intros x Hx (b & Hb & Hcv). apply Din in Hb. destruct Hb as [Hb|Hb]; [|exists b; auto]. destruct (B0 b Hb) as (-> & _ & _). unfold cov, m in *. cbn in Hcv. lia. }
  assert (Cl : forall x, m <= x -> (exists b, In b ((s, e) :: rest) /\ x < snd b) -> exists b, In b bl /\ x < snd b).
  { intros x Hx (b & Hb & Hcv). apply Din in Hb. destruct Hb as [Hb|Hb]; [|exists b; auto]. destruct (B0 b Hb) as (-> & _ & _). unfold m in *. cbn in Hcv. lia. }
  assert (Fin : forall w bs f', right w = [] -> WI au am w -> (forall b, In b bs -> In b ((s, e) :: rest)) -> desc bs -> (forall b, In b b0 -> In b bs) -> f' <= am ->
    (forall x, inh x (wl w) -> x < f') -> ((l <> [] -> ~ inh (f - 1) l) -> forall x, inh x (wl w) -> x < f' - 1) -> (forall x, inh x (wl w) -> inh x l \/ (f0 <= x /\ x < e)) -> (forall x, inh x l -> inh x (wl w)) -> (forall x, rtx x (wl w) <-> rtx x l) ->
    (forall x, m <= x < f' -> ~ inh x (wl w) -> (x < f /\ l <> [] /\ ~ inh x l) \/ exists b, In b ((s, e) :: rest) /\ cov b x) -> (numholes t <= maxh -> wn w <= maxh) ->
    (numholes t + 5 <= maxh -> 5 <= av -> wn w + Z.of_nat (length bs) <= maxh /\ Z.of_nat (length bs) <= wav w /\ (forall b x, In b ((s, e) :: rest) -> In b bs \/ (inh x (wl w) -> ~ cov b x)) /\ (forall x, f0 <= x < e -> (exists b, In b ((s, e) :: rest) /\ cov b x) \/ inh x (wl w))) ->
    exists t' l' f'' bl', obind (sweep (S (length (left (ww w)) + length (map wb bs))) maxh (ww w) (map wb bs)) (fun w => Ret (mkSb (rev (left w) ++ right w) (whint w) (wn w) (wrex w) (wire f') (wire au) (wire am) (wnid w))) = Ret t' /\
      A t' l' f'' m au am /\ (forall b, In b bl' <-> acc au am ak opt b) /\ Step l f m bl' l' f'' /\ (numholes t <= maxh -> numholes t' <= maxh) /\ (numholes t + 5 <= maxh -> 5 <= av -> Exact l f m bl' l')).
  { intros w bs f' Hrt I Hbs Hd Hb0 Hf' Hlf Htop Hsub Hsup Hrtx Hrep Hnm Hex.
    destruct (sweep_ok maxh au am (S (length (left (ww w)) + length (map wb bs))) w bs) as (w' & E & [J1 J2 J3 J4 J5 J6] & Rl & X & Nm & Lw).
    - lia.
    - unfold ww. cbn [left]. rewrite !map_length. lia.
    - exact I.
    - apply Forall_forall. intros b Hb. apply Dw. apply Hbs. exact Hb.
    - exact Hd.
    - rewrite Hrt. intros h b [].
    - assert (Hm' : forall x, inh x (wl w') -> m <= x). { intros x Hx. apply (Hlow x w bs (wl w') Lw Hb0 Hx Rl). intros y Hy. destruct (Hsub y Hy) as [K|[K _]]; auto. }
      assert (Ht' : forall x, inh x (wl w') -> x < f') by (intros x Hx; apply Hlf, (r_sub _ _ _ Rl), Hx).
      rewrite E. cbn [obind]. eexists _, (wl w'), (base (wl w') f' m), bl. split; [reflexivity|]. rewrite wl_map. split; [|split; [exact Sbl|split; [|split]]].
      + constructor; cbn [holes hint numholes rexb fack una smax nid ww whint wn wrex wnid]; try assumption; try reflexivity.
        * unfold m. lia.
        * apply (chain_tighten au am); [exact J1| |].
          -- intros x Hx. split; [apply Hm'; exact Hx|]. destruct (wl w') eqn:W; cbn [base]; [destruct (inh_nil x Hx)|]. apply Ht'. exact Hx.
          -- destruct (wl w') as [|h l0] eqn:W; cbn [base]; [lia|]. cbn in J1. assert (Q : inh (hs h) (h :: l0)) by (apply inh_cons; left; lia). specialize (Hm' _ Q). specialize (Ht' _ Q). lia.
        * destruct (wl w'); cbn [base]; [unfold m; lia|exact Hf'].
        * destruct (wl w'); [congruence|]. intros _. reflexivity.
      + constructor.
        * intros x Hx. pose proof (Hm' x Hx) as Mx. destruct (Hsub x (r_sub _ _ _ Rl x Hx)) as [K|[K1 K2]]; [left; exact K|]. right. split; [exact K1|]. apply Cl; [exact Mx|]. exists (s, e). split; [left; reflexivity|exact K2].
        * intros x Hx Nx. assert (Hx' : m <= x < f') by (destruct (wl w'); cbn [base] in Hx; lia).
          destruct (classic_inh x (wl w)) as [K|K].
          -- destruct (r_keep _ _ _ Rl x K) as [K2|(b & K2 & K3)]; [contradiction|]. right. apply Cb; [lia|]. exists b. auto.
          -- destruct (Hrep x Hx' K) as [K2|K2]; [left; exact K2|right; apply Cb; [lia|exact K2]].
        * intros x. rewrite (r_rtx _ _ _ Rl x), Hrtx. tauto.
        * intros x Hx Mx. destruct (r_keep _ _ _ Rl x (Hsup x Hx)) as [K|(b & K1 & K2)]; [left; exact K|right]. apply Cb; [exact Mx|]. exists b. auto.
        * intros T Ne Hx. replace (base (wl w') f' m) with f' in Hx by (destruct (wl w'); [congruence|reflexivity]). specialize (Htop T _ (r_sub _ _ _ Rl _ Hx)). lia.
      + intros H. cbn [numholes]. apply Nm. apply Hnm. exact H.
      + intros H1 H2. destruct (Hex H1 H2) as (K1 & K2 & K3 & K4). specialize (X K1 K2). intros x. split.
        * intros Hx. split; [apply Hm'; exact Hx|]. split.
          -- intros b Hb. destruct (K3 b x (proj2 (Din b) (or_intror Hb))) as [K|K]; [apply (X x b K Hx)|apply K, (r_sub _ _ _ Rl), Hx].
          -- pose proof (Hm' x Hx) as Mx. destruct (Hsub x (r_sub _ _ _ Rl x Hx)) as [K|[K5 K6]]; [left; exact K|]. right. split; [exact K5|]. apply Cl; [exact Mx|]. exists (s, e). split; [left; reflexivity|exact K6].
        * intros (Mx & Nc & Hx). assert (Nd : forall b, In b ((s, e) :: rest) -> ~ cov b x). { intros b Hb Hcv. destruct (Cb x Mx (ex_intro _ b (conj Hb Hcv))) as (c & Q1 & Q2). apply (Nc c Q1 Q2). }
          assert (Kw : inh x (wl w)).
          { destruct Hx as [Hx|(Hx & b & Hb & Hl)]; [apply Hsup; exact Hx|]. assert (Lx : x < e). { assert (Q : In b ((s, e) :: rest)) by (apply Din; right; exact Hb). destruct Q as [<-|Q]; [exact Hl|]. destruct DD as [DD _]. specialize (DD b Q). cbn in DD. lia. }
            destruct (K4 x ltac:(unfold f0; lia)) as [(c & Q1 & Q2)|Q]; [destruct (Nd c Q1 Q2)|exact Q]. }
          destruct (r_keep _ _ _ Rl x Kw) as [Q|(b & Q1 & Q2)]; [exact Q|]. destruct (Nd b (Hbs b Q1) Q2). }
  destruct DD as [DD1 DD2]. cbn [snd] in DD1.
  assert (LoIn : forall b, In b b0 -> fst b <= f0) by (intros b Hb; destruct (B0 b Hb) as (-> & _ & Ne); cbn; lia).
  assert (LInh : forall x, inh x l -> au <= x < f) by (intros x Hx; apply (inh_bound _ _ _ x Hc Hx)).
  (* blocks up to fack only *)
  assert (Old : forall dd bs, bs = askip f0 ((s, e) :: rest) -> dd = match map wb bs with b :: _ => if SEQ_LT (wire f0) (snd b) then snd b else wire f0 | [] => wire f0 end ->
     (numholes t + 5 <= maxh -> 5 <= av -> bs = (s, e) :: rest) ->
     exists t' l' f'' bl', obind (sweep (S (length (rev (map wh l)) + length (map wb bs))) maxh (mkW (rev (map wh l)) [] (hint t) (numholes t) (rexb t) (nid t) av) (map wb bs)) (fun w => Ret (mkSb (rev (left w) ++ right w) (whint w) (wn w) (wrex w) dd (wire au) (wire am) (wnid w))) = Ret t' /\
      A t' l' f'' m au am /\ (forall b, In b bl' <-> acc au am ak opt b) /\ Step l f m bl' l' f'' /\ (numholes t <= maxh -> numholes t' <= maxh) /\ (numholes t + 5 <= maxh -> 5 <= av -> Exact l f m bl' l')).
  { intros dd bs Ebs -> Hroom. pose proof (askip_hd f0 ((s, e) :: rest)) as Hh0. rewrite <- Ebs in Hh0.
    assert (Sb : forall b, In b bs -> In b ((s, e) :: rest)) by (intros b; rewrite Ebs; apply askip_in).
    set (f' := match bs with b :: _ => Z.max f0 (snd b) | [] => f0 end).
    assert (Ef' : match map wb bs with b :: _ => if SEQ_LT (wire f0) (snd b) then snd b else wire f0 | [] => wire f0 end = wire f').
    { unfold f'. destruct bs as [|b bs0]; [reflexivity|]. pose proof (Dw b (Sb b (or_introl eq_refl))). cbn [map wb snd]. rewrite q_lt by lia. destruct (Z.ltb_spec f0 (snd b)); f_equal; lia. }
    rewrite Ef'. pose (w := mkW (rev l) [] (hint t) (numholes t) (rexb t) (nid t) av).
    assert (Ew : mkW (rev (map wh l)) [] (hint t) (numholes t) (rexb t) (nid t) av = ww w) by (unfold ww, w; cbn [left right whint wn wrex wnid wav map]; rewrite map_rev; reflexivity).
    replace (length (rev (map wh l))) with (length (left (ww w))) by (rewrite <- Ew; reflexivity). rewrite Ew.
    assert (Wl : wl w = l) by (unfold wl, w; cbn [left right]; rewrite rev_involutive, app_nil_r; reflexivity).
    apply (Fin w bs f'); try rewrite Wl.
    - reflexivity.
    - constructor; rewrite Wl; try assumption. apply (chain_mono au au l f am Hc); lia.
    - exact Sb.
    - rewrite Ebs. apply askip_desc. split; assumption.
    - intros b Hb. rewrite Ebs. apply askip_keep; [apply Din; left; exact Hb|apply LoIn; exact Hb].
    - unfold f'. destruct bs as [|b bs0]; [lia|]. pose proof (Dw b (Sb b (or_introl eq_refl))). lia.
    - intros x Hx. assert (Ne : l <> []) by (intros ->; apply (inh_nil x Hx)). specialize (LInh x Hx). unfold f', f0. destruct l; [congruence|]. cbn [base]. destruct bs; lia.
    - intros T x Hx. assert (Ne : l <> []) by (intros ->; apply (inh_nil x Hx)). pose proof (LInh x Hx). assert (x <> f - 1) by (intros ->; apply (T Ne Hx)). assert (f <= f') by (unfold f', f0; destruct l; [congruence|]; cbn [base]; destruct bs; lia). lia.
    - auto.
    - auto.
    - intros x. tauto.
    - intros x Hx Nx. destruct (Z_lt_ge_dec x f0) as [Lx|Lx].
      + left. unfold f0 in Lx. destruct l; cbn [base] in Lx; [lia|]. split; [exact Lx|]. split; [discriminate|exact Nx].
      + right. unfold f' in Hx. destruct bs as [|b bs0]; [lia|]. exists b. split; [apply Sb; left; reflexivity|]. unfold cov. lia.
    - auto.
    - intros H1 H2. specialize (Hroom H1 H2). cbn [w wn wav]. rewrite Hroom in *. cbn [length] in LD |- *. split; [lia|]. split; [lia|]. split; [auto|].
      intros x Hx. left. exists (s, e). split; [left; reflexivity|]. unfold cov. cbn in *. lia. }
  destruct (Z.ltb_spec f0 s) as [Ls|Ls].
  - destruct (can_alloc maxh (numholes t) av) eqn:Ca.
    + (* a new hole on top *)
      set (h := mkHole (nid t) f0 s f0).
      pose (w := mkW (h :: rev l) [] (if is_some (hint t) then hint t else Some (nid t)) (numholes t + 1) (rexb t) (S (nid t)) (av - 1)).
      assert (Ew : mkW (mkHole (nid t) (wire f0) (wire s) (wire f0) :: rev (map wh l)) [] (if is_some (hint t) then hint t else Some (nid t)) (numholes t + 1) (rexb t) (S (nid t)) (av - 1) = ww w) by (unfold ww, w; cbn [left right whint wn wrex wnid wav map]; rewrite map_rev; reflexivity).
      rewrite Ew.
      assert (Wl : wl w = l ++ [h]) by (unfold wl, w; cbn [left right rev]; rewrite rev_involutive, app_nil_r; reflexivity).
      assert (Cf : chain au l f0). { unfold f0. destruct l; cbn [base]; [cbn; unfold m; lia|exact Hc]. }
      unfold can_alloc in Ca. apply negb_true_iff, orb_false_iff in Ca. destruct Ca as [Ca1 Ca2]. rewrite Z.geb_leb in Ca1. apply Z.leb_gt in Ca1. apply Z.leb_gt in Ca2.
      apply (Fin w rest e); try rewrite Wl.
      * reflexivity.
      * constructor; rewrite Wl; cbn [w wn wrex whint wnid].
        -- apply chain_app. exists f0. split; [exact Cf|]. cbn. lia.
        -- rewrite app_length. cbn [length]. lia.
        -- rewrite sumr_app, Hr. cbn. lia.
        -- destruct (hint t) as [i|]; cbn [is_some].
           ++ destruct Hhi as (p & g & q & -> & E & D). exists p, g, (q ++ [h]). split; [rewrite <- app_assoc; reflexivity|auto].
           ++ exists l, h, []. split; [reflexivity|]. split; [reflexivity|exact Hhi].
        -- rewrite map_app. cbn [map h hid]. apply (Permutation_NoDup (Permutation_app_comm [nid t] (map hid l))). cbn [app]. constructor; [|exact Hid]. intros K. apply in_map_iff in K. destruct K as (g & Eg & Hg). pose proof (proj1 (Forall_forall _ _) Hnew g Hg) as Q. cbn in Q. lia.
        -- apply Forall_app. split; [|constructor; [cbn; lia|constructor]]. apply (Forall_impl _ (P := fun g => (hid g < nid t)%nat)); [cbn; lia|exact Hnew].
      * intros b Hb. right. exact Hb.
      * exact DD2.
      * intros b Hb. destruct (proj2 (Din b) (or_introl Hb)) as [<-|K]; [|exact K]. specialize (LoIn _ Hb). cbn in LoIn. lia.
      * lia.
      * intros x Hx. rewrite inh_app, inh_cons in Hx. cbn [h hs he] in Hx. destruct Hx as [Hx|[Hx|Hx]]; [pose proof (inh_bound _ _ _ x Cf Hx); lia|lia|destruct (inh_nil x Hx)].
      * intros _ x Hx. rewrite inh_app, inh_cons in Hx. cbn [h hs he] in Hx. destruct Hx as [Hx|[Hx|Hx]]; [pose proof (inh_bound _ _ _ x Cf Hx); lia|lia|destruct (inh_nil x Hx)].
      * intros x Hx. rewrite inh_app, inh_cons in Hx. cbn [h hs he] in Hx. destruct Hx as [Hx|[Hx|Hx]]; [left; exact Hx|right; lia|destruct (inh_nil x Hx)].
      * intros x Hx. apply inh_app. left. exact Hx.
      * intros x. rewrite rtx_app, rtx_cons. cbn [h hs hr]. split; [intros [K|[K|K]]; [exact K|lia|destruct (rtx_nil x K)]|auto].
      * intros x Hx Nx. rewrite inh_app, inh_cons in Nx. cbn [h hs he] in Nx. destruct (Z_lt_ge_dec x f0) as [Lx|Lx].
        -- left. unfold f0 in Lx. destruct l; cbn [base] in Lx; [lia|]. split; [exact Lx|]. split; [discriminate|tauto].
        -- right. exists (s, e). split; [left; reflexivity|]. unfold cov. cbn [fst snd]. lia.
      * intros _. cbn [w wn]. lia.
      * intros H1 H2. cbn [w wn wav]. cbn [length] in LD. split; [lia|]. split; [lia|]. split.
        -- intros b x [<-|Hb]; [right|left; exact Hb]. intros Hx. rewrite inh_app, inh_cons in Hx. cbn [h hs he] in Hx. unfold cov. cbn [fst snd]. destruct Hx as [Hx|[Hx|Hx]]; [pose proof (inh_bound _ _ _ x Cf Hx); lia|lia|destruct (inh_nil x Hx)].
        -- intros x Hx. destruct (Z_lt_ge_dec x s); [right; rewrite inh_app, inh_cons; cbn [h hs he]; right; left; lia|left; exists (s, e); split; [left; reflexivity|unfold cov; cbn [fst snd]; lia]].
    + change ((wire s, wire e) :: map wb rest) with (map wb ((s, e) :: rest)).
      rewrite (skip_wb f0 ((s, e) :: rest) au) by (try lia; apply Forall_forall; intros b Hb; specialize (Dw b Hb); lia).
      apply (Old _ (askip f0 ((s, e) :: rest)) eq_refl eq_refl).
      intros H1 H2. exfalso. unfold can_alloc in Ca. apply negb_false_iff, orb_true_iff in Ca. destruct Ca as [Ca|Ca]; [rewrite Z.geb_leb in Ca; apply Z.leb_le in Ca; lia|apply Z.leb_le in Ca; lia].
  - change ((wire s, wire e) :: map wb rest) with (map wb ((s, e) :: rest)).
    assert (Es : askip f0 ((s, e) :: rest) = (s, e) :: rest) by (cbn [askip fst]; destruct (Z.ltb_spec f0 s); [lia|reflexivity]).
    apply (Old _ ((s, e) :: rest)); [symmetry; exact Es|reflexivity|auto].
Qed.
