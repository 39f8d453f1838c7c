(* Invariants of the SYN cache, for every interleaving of calls. *)
From Verif Require Import Base TcpSeqModel TcpOptModel SynModel SynSpec.
Ltac Zify.zify_post_hook ::= idtac.

Lemma bucket_range : forall i, 0 <= bucket i < 1024.
Proof.
  intro i. unfold bucket, HASHSIZE. change (1024 - 1) with (Z.ones 10).
  rewrite Z.land_ones by lia. apply Z.mod_pos_bound. reflexivity.
Qed.

Lemma take_some : forall p l x r, take p l = Some (x, r) ->
  exists l1 l2, l = l1 ++ x :: l2 /\ r = l1 ++ l2 /\ p x = true /\ Forall (fun y => p y = false) l1.
Proof.
  induction l as [|a l IH]; simpl; intros x r E; [discriminate|].
  destruct (p a) eqn:Pa.
  - inversion E; subst. exists [], r. repeat split; auto.
  - destruct (take p l) as [[y r']|] eqn:T; [|discriminate]. inversion E; subst.
    destruct (IH _ _ eq_refl) as (l1 & l2 & -> & -> & Px & F).
    exists (a :: l1), l2. repeat split; auto.
Qed.
Lemma take_none : forall p l, take p l = None -> Forall (fun y => p y = false) l.
Proof.
  induction l as [|a l IH]; simpl; intro E; [constructor|].
  destruct (p a) eqn:Pa; [discriminate|]. destruct (take p l) as [[y r']|] eqn:T; [discriminate|]. auto.
Qed.
Lemma take_split : forall p l1 x l2, Forall (fun y => p y = false) l1 -> p x = true -> take p (l1 ++ x :: l2) = Some (x, l1 ++ l2).
Proof.
  induction l1 as [|a l1 IH]; simpl; intros x l2 F Px; [rewrite Px; reflexivity|].
  inversion F; subst. rewrite H1. rewrite IH by auto. reflexivity.
Qed.
Lemma take_all_false : forall p l, Forall (fun y => p y = false) l -> take p l = None.
Proof. induction l; simpl; intro F; [auto|]. inversion F; subst. rewrite H1, IHl by auto. reflexivity. Qed.
Lemma modify_split : forall p f l1 x l2, Forall (fun y => p y = false) l1 -> p x = true -> modify p f (l1 ++ x :: l2) = l1 ++ f x :: l2.
Proof.
  induction l1 as [|a l1 IH]; simpl; intros x l2 F Px; [rewrite Px; reflexivity|].
  inversion F; subst. rewrite H1. rewrite IH by auto. reflexivity.
Qed.

(* weights of the table *)
Definition lsum (m : sc -> Z) (l : list sc) : Z := fold_right (fun x a => m x + a) 0 l.
Definition W (m : sc -> Z) (f : Z -> head) : Z := fold_right (fun n a => lsum m (h_l (f (Z.of_nat n))) + a) 0 (seq 0 1024).

Lemma lsum_app : forall m a b, lsum m (a ++ b) = lsum m a + lsum m b.
Proof. induction a; intros; simpl; [lia|]. rewrite IHa. lia. Qed.

Lemma W_upd_gen : forall m f b h ns, NoDup ns ->
  fold_right (fun n a => lsum m (h_l (upd f b h (Z.of_nat n))) + a) 0 ns
  = fold_right (fun n a => lsum m (h_l (f (Z.of_nat n))) + a) 0 ns
    + (if existsb (fun n => Z.of_nat n =? b) ns then lsum m (h_l h) - lsum m (h_l (f b)) else 0).
Proof.
  induction ns as [|n ns IH]; intro ND; simpl; [lia|]. inversion ND; subst.
  rewrite IH by auto. unfold upd at 1. destruct (Z.eqb_spec (Z.of_nat n) b).
  - subst b. simpl. replace (existsb (fun n0 => Z.of_nat n0 =? Z.of_nat n) ns) with false; [lia|].
    symmetry. apply not_true_is_false. intro E. apply existsb_exists in E as (y & Hy & Ey).
    apply Z.eqb_eq in Ey. apply Nat2Z.inj in Ey. subst. contradiction.
  - simpl. lia.
Qed.
Lemma W_upd : forall m f b h, 0 <= b < 1024 -> W m (upd f b h) = W m f + lsum m (h_l h) - lsum m (h_l (f b)).
Proof.
  intros m f b h Hb. unfold W. rewrite W_upd_gen by apply seq_NoDup.
  replace (existsb (fun n => Z.of_nat n =? b) (seq 0 1024)) with true; [lia|].
  symmetry. apply existsb_exists. exists (Z.to_nat b). split; [apply in_seq; lia|apply Z.eqb_eq; lia].
Qed.

Lemma count_app : forall A p (a b : list A), count p (a ++ b) = count p a + count p b.
Proof. intros. unfold count. rewrite filter_app, app_length. lia. Qed.
Lemma count_cons : forall A p (x : A) l, count p (x :: l) = (if p x then 1 else 0) + count p l.
Proof. intros. unfold count. simpl. destruct (p x); simpl length; lia. Qed.
Lemma count_lsum : forall p (l : list sc), count p l = lsum (fun x => if p x then 1 else 0) l.
Proof. induction l; [reflexivity|]. rewrite count_cons, IHl. reflexivity. Qed.
Lemma count_nonneg : forall A p (l : list A), 0 <= count p l.
Proof. intros. unfold count. lia. Qed.
Lemma table_W : forall p s, count p (table s) = W (fun x => if p x then 1 else 0) (s_b s).
Proof.
  intros. unfold table, W. induction (seq 0 1024); simpl; [reflexivity|].
  rewrite count_app, IHl, count_lsum. reflexivity.
Qed.
Lemma length_W : forall s, Z.of_nat (length (table s)) = W (fun _ => 1) (s_b s).
Proof.
  intros. transitivity (count (fun _ => true) (table s)).
  - unfold count. f_equal. induction (table s); simpl; auto.
  - apply table_W.
Qed.
Lemma lsum_one : forall l, lsum (fun _ => 1) l = Z.of_nat (length l).
Proof. induction l; [reflexivity|]. simpl length. cbn [lsum fold_right] in *. unfold lsum in IHl. lia. Qed.

(* entries *)
Definition sc_ok (x : sc) : Prop :=
  inc_ok (sc_inc x) /\ w32 (sc_irs x) /\ w32 (sc_iss x) /\ 0 <= sc_wnd x <= 65535 /\ 0 <= sc_mss x < 65536
  /\ 0 <= sc_s x < 16 /\ 0 <= sc_r x < 16 /\ w32 (sc_ts x).
Definition row_ok (b : Z) (h : head) : Prop :=
  h_len h = Z.of_nat (length (h_l h)) /\ (length (h_l h) <= 30)%nat
  /\ Forall (fun x => (sc_ok x /\ sc_rxmits x = 1) /\ bucket (sc_inc x) = b) (h_l h).
Definition pend_ok (q : Z * (Z * bool * sc)) : Prop :=
  match q with (_, (b, _, x)) => (sc_ok x /\ sc_rxmits x = 0) /\ bucket (sc_inc x) = b end.
Definition Inv (s : st) : Prop :=
  (forall b, row_ok b (s_b s b)) /\ Forall pend_ok (s_pend s)
  /\ s_cnt s = u32 (W (fun _ => 1) (s_b s)) /\ s_live s = W (fun _ => 1) (s_b s) + in_hand s.

Lemma inv_init : Inv init.
Proof.
  split; [|split; [constructor|split; [|vm_compute; reflexivity]]].
  - intro b. repeat split; simpl; auto; lia.
  - vm_compute. reflexivity.
Qed.

Lemma u32_small : forall x, 0 <= x < 4294967296 -> u32 x = x.
Proof. intros. unfold u32. apply Z.mod_small. lia. Qed.
Lemma u32_range : forall x, w32 (u32 x).
Proof. intros. unfold w32, u32. apply Z.mod_pos_bound. lia. Qed.
Lemma u32_pred : forall x, u32 (u32 x - 1) = u32 (x - 1).
Proof. intros. unfold u32. rewrite Zminus_mod_idemp_l. reflexivity. Qed.
Lemma u32_succ : forall x, u32 (u32 x + 1) = u32 (x + 1).
Proof. intros. unfold u32. rewrite Zplus_mod_idemp_l. reflexivity. Qed.

Lemma row_ok_len : forall b h, row_ok b h -> h_len h = Z.of_nat (length (h_l h)).
Proof. intros b h (L & _). exact L. Qed.

(* replacing the entries of one row *)
Lemma inv_upd_keep : forall s b h', Inv s -> 0 <= b < 1024 -> row_ok b h' ->
  length (h_l h') = length (h_l (s_b s b)) ->
  Inv (mkSt (upd (s_b s) b h') (s_cnt s) (s_live s) (s_pend s)).
Proof.
  intros s b h' (R & Pd & C & L) Hb Rh Hl. unfold Inv; simpl.
  assert (EW : W (fun _ => 1) (upd (s_b s) b h') = W (fun _ => 1) (s_b s)).
  { rewrite W_upd by auto. rewrite !lsum_one, Hl. lia. }
  rewrite EW. split; [|split; [auto|split; [auto|exact L]]].
  intro b'. specialize (R b'). unfold upd. destruct (Z.eqb_spec b' b); [subst; auto|auto].
Qed.

Lemma inv_drop : forall s b l1 x l2, Inv s -> 0 <= b < 1024 -> h_l (s_b s b) = l1 ++ x :: l2 -> Inv (drop_row s b (l1 ++ l2)).
Proof.
  intros s b l1 x l2 (R & Pd & C & L) Hb E. unfold Inv, drop_row; simpl.
  assert (EW : W (fun _ => 1) (upd (s_b s) b (set_row (s_b s b) (l1 ++ l2) (u32 (h_len (s_b s b) - 1)))) = W (fun _ => 1) (s_b s) - 1).
  { rewrite W_upd by auto. rewrite !lsum_one, E. simpl. rewrite !app_length. simpl. lia. }
  rewrite !EW. pose proof (R b) as (RL & RN & RF). rewrite E in RL, RN, RF. rewrite app_length in RL, RN. simpl in RL, RN.
  split; [|split; [auto|split]].
  - intro b'. unfold upd. destruct (Z.eqb_spec b' b); [subst b'|apply R].
    unfold row_ok; simpl. rewrite app_length. split; [|split; [lia|]].
    + rewrite RL. rewrite u32_small by lia. lia.
    + apply Forall_app in RF as (F1 & F2). inversion F2; subst. apply Forall_app; auto.
  - rewrite C. apply u32_pred.
  - unfold in_hand in *. simpl. lia.
Qed.

Lemma removelast_split : forall (l : list sc), l <> [] -> exists l1 x, l = l1 ++ [x] /\ removelast l = l1.
Proof.
  intros l Hl. destruct (exists_last Hl) as (l1 & x & ->). exists l1, x. split; auto. apply removelast_last.
Qed.
Lemma inv_drop_last : forall s b, Inv s -> 0 <= b < 1024 -> h_l (s_b s b) <> [] -> Inv (drop_row s b (removelast (h_l (s_b s b)))).
Proof.
  intros s b I Hb Hne. destruct (removelast_split _ Hne) as (l1 & x & E & ER). rewrite ER.
  pose proof (inv_drop s b l1 x [] I Hb) as D. rewrite app_nil_r in D. auto.
Qed.

Lemma timeout_ok : forall x, sc_ok x -> sc_ok (timeout x).
Proof. intros x Hx. exact Hx. Qed.
Lemma timeout_inc : forall x, sc_inc (timeout x) = sc_inc x.
Proof. reflexivity. Qed.

(* insert: the entry moves from the caller to the table *)
Definition room (s : st) (b : Z) : st :=
  if h_len (s_b s b) >=? LIMIT then drop_row s b (removelast (h_l (s_b s b))) else s.
Lemma insert_room : forall s x b, Inv s -> 0 <= b < 1024 ->
  insert x b s = Ret (mkSt (upd (s_b (room s b)) b (set_row (s_b (room s b) b) (timeout x :: h_l (s_b (room s b) b)) (u32 (h_len (s_b (room s b) b) + 1))))
                           (u32 (s_cnt (room s b) + 1)) (s_live (room s b)) (s_pend (room s b))).
Proof.
  intros s x b (R & _) Hb. unfold insert, room. destruct (h_len (s_b s b) >=? LIMIT) eqn:E.
  - pose proof (row_ok_len _ _ (R b)) as L. destruct (h_l (s_b s b)) eqn:El; [|reflexivity].
    simpl in L. rewrite L in E. discriminate.
  - reflexivity.
Qed.
Lemma room_inv : forall s b, Inv s -> 0 <= b < 1024 -> Inv (room s b).
Proof.
  intros s b I Hb. unfold room. destruct (h_len (s_b s b) >=? LIMIT) eqn:E; [|auto].
  apply inv_drop_last; auto. destruct I as (R & _). pose proof (row_ok_len _ _ (R b)) as L.
  intro El. rewrite El in L. simpl in L. rewrite L in E. discriminate.
Qed.
Lemma drop_row_same : forall s b l, s_b (drop_row s b l) b = set_row (s_b s b) l (u32 (h_len (s_b s b) - 1)).
Proof. intros. unfold drop_row, upd; simpl. rewrite Z.eqb_refl. reflexivity. Qed.
Lemma room_len : forall s b, Inv s -> 0 <= b < 1024 -> (length (h_l (s_b (room s b) b)) <= 29)%nat.
Proof.
  intros s b (R & _) Hb. pose proof (R b) as (L & N & _). unfold room, LIMIT. destruct (Z.geb_spec (h_len (s_b s b)) 30).
  - rewrite drop_row_same. simpl. destruct (h_l (s_b s b)) eqn:El; [simpl; lia|].
    destruct (removelast_split (s0 :: l)) as (l1 & y & E & ER); [discriminate|]. rewrite ER.
    assert (HL : length (s0 :: l) = length (l1 ++ [y])) by (rewrite E; auto). rewrite app_length in HL. cbn [length] in *. lia.
  - lia.
Qed.
Definition add_pend (s : st) (k : Z) (b : Z) (onst : bool) (x : sc) : st :=
  mkSt (s_b s) (s_cnt s) (s_live s) ((k, (b, onst, x)) :: s_pend s).

(* s is what remains once the caller holds x, which is counted in s_live *)
Lemma inv_insert : forall s x b, Inv (mkSt (s_b s) (s_cnt s) (s_live s - 1) (s_pend s)) -> 0 <= b < 1024 -> sc_ok x -> sc_rxmits x = 0 -> bucket (sc_inc x) = b ->
  exists s', insert x b s = Ret s' /\ Inv s'.
Proof.
  intros s x b I Hb Hx Hr Bx. set (s0 := mkSt (s_b s) (s_cnt s) (s_live s - 1) (s_pend s)) in *.
  pose proof (room_inv s0 b I Hb) as IR. pose proof (room_len s0 b I Hb) as LR.
  assert (EI : insert x b s = obind (insert x b s0) (fun q => Ret (mkSt (s_b q) (s_cnt q) (s_live q + 1) (s_pend q)))).
  { unfold insert, s0; simpl. destruct (h_len (s_b s b) >=? LIMIT); simpl.
    - destruct (h_l (s_b s b)); simpl; [reflexivity|]. unfold drop_row; simpl. do 2 f_equal; lia.
    - do 2 f_equal; lia. }
  rewrite EI, (insert_room s0 x b I Hb). simpl. eexists; split; [reflexivity|].
  destruct IR as (R & Pd & C & L). set (q := room s0 b) in *.
  unfold Inv; simpl.
  assert (EW : W (fun _ => 1) (upd (s_b q) b (set_row (s_b q b) (timeout x :: h_l (s_b q b)) (u32 (h_len (s_b q b) + 1)))) = W (fun _ => 1) (s_b q) + 1).
  { rewrite W_upd by auto. rewrite !lsum_one. simpl length. lia. }
  rewrite !EW. pose proof (R b) as (RL & RN & RF).
  split; [|split; [auto|split]].
  - intro b'. unfold upd. destruct (Z.eqb_spec b' b); [subst b'|apply R].
    unfold row_ok; simpl. split; [|split; [lia|]].
    + rewrite RL. rewrite u32_small by lia. lia.
    + constructor; [split; [split; [apply timeout_ok; auto|cbn [timeout sc_rxmits]; rewrite Hr; reflexivity]|simpl; auto]|auto].
  - rewrite C. apply u32_succ.
  - unfold in_hand in *. simpl in *. lia.
Qed.

(* ranges of bit operations *)
Lemma w32_land : forall x, w32 x <-> Z.land x (Z.ones 32) = x.
Proof.
  intro x. rewrite Z.land_ones by lia. unfold w32. change (2 ^ 32) with 4294967296. split; intro E.
  - apply Z.mod_small. lia.
  - rewrite <- E. apply Z.mod_pos_bound. lia.
Qed.
Lemma w32_lor : forall a b, w32 a -> w32 b -> w32 (Z.lor a b).
Proof. intros a b A B. rewrite w32_land in *. rewrite Z.land_lor_distr_l, A, B. reflexivity. Qed.
Lemma w32_lxor : forall a b, w32 a -> w32 b -> w32 (Z.lxor a b).
Proof.
  intros a b A B. rewrite w32_land in *. rewrite <- A, <- B at 2. apply Z.bits_inj'. intros n Hn.
  rewrite !Z.land_spec, !Z.lxor_spec, !Z.land_spec. destruct (Z.testbit a n), (Z.testbit b n), (Z.testbit (Z.ones 32) n); reflexivity.
Qed.
Lemma mss_index_range : forall n p, 0 <= mss_index n p <= Z.of_nat n.
Proof.
  induction n as [|n IH]; intro p; [simpl; lia|]. cbn [mss_index].
  destruct (nth (S n) msstab 0 <=? p); [lia|]. specialize (IH p). lia.
Qed.
Lemma w32_b2z : forall b, w32 (Z.b2z b).
Proof. destruct b; unfold w32; simpl; lia. Qed.
Lemma w32_shiftl : forall a n m, 0 <= n -> 0 <= a < m -> m * 2 ^ n <= 4294967296 -> w32 (Z.shiftl a n).
Proof.
  intros a n m Hn Ha Hm. rewrite Z.shiftl_mul_pow2 by auto. unfold w32. pose proof (Z.pow_pos_nonneg 2 n). nia.
Qed.
Lemma land7 : forall x, 0 <= Z.land x 7 < 8.
Proof. intro x. change 7 with (Z.ones 3). rewrite Z.land_ones by lia. apply Z.mod_pos_bound. reflexivity. Qed.

Lemma wscale_range : forall n w m, 0 <= w -> w <= wscale n w m <= w + Z.of_nat n.
Proof.
  induction n as [|n IH]; intros w m Hw; [simpl; lia|]. cbn [wscale].
  destruct (Z.shiftl MAXWIN w <? m); [|lia]. specialize (IH (w + 1) m). lia.
Qed.
Lemma fill_ok : forall c e i g, env_ok e -> inc_ok i -> seg_ok g -> sc_ok (fill c e i g).
Proof.
  intros c e i g (Et & Em) Hi (Gs & Ga & Om & Ow & Ot). unfold sc_ok, fill; cbn [sc_inc sc_irs sc_iss sc_wnd sc_mss sc_s sc_r sc_ts].
  split; [auto|split; [auto|]]. split; [unfold w32; lia|]. split; [unfold MAXWIN; lia|].
  split; [destruct (o_mss (g_to g)); [auto|lia]|].
  split. { destruct (c_1323 c), (o_ws (g_to g)); first [lia | apply Z.mod_pos_bound; lia]. }
  split. { destruct (if c_1323 c then _ else _); [|lia]. apply Z.mod_pos_bound. lia. }
  destruct (if c_1323 c then _ else _); [|unfold w32; lia]. unfold ts_ticks. apply u32_range.
Qed.

Lemma generate_sc_ok : forall H c e h x, sc_ok x -> sc_ok (snd (generate H c e h x)).
Proof.
  intros H c e h x (I & R & Si & Wn & M & S1 & R1 & T). unfold generate; cbn [snd fst].
  set (h' := if h_reseed h <? _ then _ else _).
  set (sec := if h_odd h' then _ else _).
  unfold sc_ok; cbn [sc_inc sc_irs sc_iss sc_wnd sc_mss sc_s sc_r sc_ts].
  split; [auto|]. split; [auto|]. split; [|split; [lia|split; [lia|split; [lia|split; [lia|]]]]].
  - apply w32_lor; [|apply u32_range]. apply w32_lor; [apply w32_lor; [apply w32_b2z|]|].
    + apply w32_shiftl with (m := 8); try lia. apply land7.
    + apply w32_shiftl with (m := 8); try lia. pose proof (mss_index_range 7 (Z.max (Z.min (sc_mss x) (e_mssopt e)) (c_minmss c))). lia.
  - destruct (f_tst x); [|apply T]. apply w32_lxor; [|apply u32_range]. apply w32_lor; [|apply u32_range].
    apply w32_lor; [apply w32_lor; [apply w32_lor; [apply w32_b2z|]|]|].
    + destruct (f_sack x); (apply w32_shiftl with (m := 2); simpl; lia).
    + apply w32_shiftl with (m := 16); lia.
    + apply w32_shiftl with (m := 16); lia.
Qed.
Lemma generate_inc : forall H c e h x, sc_inc (snd (generate H c e h x)) = sc_inc x.
Proof. reflexivity. Qed.
Lemma generate_irs : forall H c e h x, sc_irs (snd (generate H c e h x)) = sc_irs x.
Proof. reflexivity. Qed.
Lemma generate_row : forall H c e h x, h_l (fst (generate H c e h x)) = h_l h /\ h_len (fst (generate H c e h x)) = h_len h.
Proof. intros. unfold generate; cbn [fst]. destruct (h_reseed h <? _); split; reflexivity. Qed.

Lemma dup_ok : forall g x, sc_ok x -> sc_ok (dup g x).
Proof. intros g x Hx. unfold dup. destruct (o_ts (g_to g)) as [[v r]|]; [destruct (f_tst x)|]; exact Hx. Qed.
Lemma dup_key : forall g x, sc_inc (dup g x) = sc_inc x /\ sc_iss (dup g x) = sc_iss x /\ sc_irs (dup g x) = sc_irs x.
Proof. intros g x. unfold dup. destruct (o_ts (g_to g)) as [[v r]|]; [destruct (f_tst x)|]; auto. Qed.

Lemma pend_take_some : forall k l y r, pend_take k l = Some (y, r) -> exists l1 l2, l = l1 ++ (k, y) :: l2 /\ r = l1 ++ l2.
Proof.
  induction l as [|[k' x] l IH]; simpl; intros y r E; [discriminate|].
  destruct (Z.eqb_spec k' k).
  - inversion E; subst. exists [], r. auto.
  - destruct (pend_take k l) as [[z r']|] eqn:T; [|discriminate]. inversion E; subst.
    destruct (IH _ _ eq_refl) as (l1 & l2 & -> & ->). exists ((k', x) :: l1), l2. auto.
Qed.

(* every call *)
Lemma inv_modify : forall s b p f, Inv s -> 0 <= b < 1024 ->
  (forall x, sc_ok x -> sc_ok (f x)) -> (forall x, sc_inc (f x) = sc_inc x) -> (forall x, sc_rxmits x = 1 -> sc_rxmits (f x) = 1) ->
  Inv (mkSt (upd (s_b s) b (set_row (s_b s b) (modify p f (h_l (s_b s b))) (h_len (s_b s b)))) (s_cnt s) (s_live s) (s_pend s)).
Proof.
  intros s b p f I Hb Hf Hi Hr.
  assert (LM : forall l, length (modify p f l) = length l).
  { induction l as [|a l IH]; simpl; [auto|]. destruct (p a); simpl; auto. }
  apply inv_upd_keep; auto.
  - destruct I as (R & _). destruct (R b) as (L & N & F). unfold row_ok; simpl. rewrite LM. repeat split; auto.
    revert F. generalize (h_l (s_b s b)). induction l as [|a l IH]; simpl; intro F; [auto|]. inversion F as [|? ? H1 H2]; subst. destruct H1 as ((A1 & A2) & A3).
    destruct (p a); constructor; auto. rewrite Hi. auto.
  - simpl. apply LM.
Qed.
Lemma modify_const : forall (p : sc -> bool) (f : sc -> sc) l x r, take p l = Some (x, r) -> modify p (fun _ => f x) l = modify p f l.
Proof.
  intros p f l x r E. apply take_some in E as (l1 & l2 & -> & _ & Px & F). rewrite !modify_split; auto.
Qed.

Definition resend (e : env) (g : sseg) (x : sc) : sc := if e_out e then timeout (reset_rxmits (dup g x)) else dup g x.
Lemma resend_ok : forall e g x, sc_ok x -> sc_ok (resend e g x).
Proof. intros e g x Hx. unfold resend. apply (dup_ok g) in Hx. destruct (e_out e); exact Hx. Qed.
Lemma resend_key : forall e g x, sc_inc (resend e g x) = sc_inc x /\ sc_iss (resend e g x) = sc_iss x /\ sc_irs (resend e g x) = sc_irs x.
Proof. intros e g x. unfold resend. destruct (e_out e); apply dup_key. Qed.

Lemma resend_rx : forall e g x, sc_rxmits x = 1 -> sc_rxmits (resend e g x) = 1.
Proof.
  intros e g x Hx. unfold resend. destruct (e_out e); [reflexivity|]. unfold dup. destruct (o_ts (g_to g)) as [[v r]|]; [destruct (f_tst x)|]; exact Hx.
Qed.
Lemma inv_hold : forall f n l p (k : Z) (o : bool) x, Inv (mkSt f n l p) -> sc_ok x -> sc_rxmits x = 0 ->
  Inv (mkSt f n (l + (if o then 0 else 1)) ((k, (bucket (sc_inc x), o, x)) :: p)).
Proof.
  intros f n l p k o x (R & Pd & C & L) Hx Hr. unfold Inv, in_hand in *. cbn [s_b s_cnt s_live s_pend] in *.
  split; [exact R|]. split; [constructor; [split; auto|auto]|]. split; [exact C|].
  rewrite count_cons. cbn [fst snd]. destruct o; cbn [negb]; lia.
Qed.
Lemma inv_syn_begin : forall H c e k i g s, Inv s -> env_ok e -> inc_ok i -> seg_ok g -> Inv (fst (syn_begin H c e k i g s)).
Proof.
  intros H c e k i g s I He Hi Hg. unfold syn_begin. pose proof (bucket_range i) as Hb.
  destruct (take (matches i) (h_l (s_b s (bucket i)))) as [[x r]|] eqn:T.
  - cbn [fst]. fold (resend e g x). rewrite (modify_const _ (resend e g) _ _ _ T).
    apply inv_modify; auto; intros; [apply resend_ok; auto|apply resend_key|apply resend_rx; auto].
  - set (s1 := if e_a1 e then s else _).
    assert (I1 : Inv s1).
    { unfold s1. destruct (e_a1 e); [auto|]. destruct (h_l (s_b s (bucket i))) eqn:El; [auto|]. rewrite <- El.
      apply inv_drop_last; auto. rewrite El. discriminate. }
    set (got := e_a1 e || e_a2 e).
    destruct got eqn:Eg; cbn [negb andb].
    + set (hx := if c_cook c then _ else _).
      assert (HX : row_ok (bucket i) (fst hx) /\ h_l (fst hx) = h_l (s_b s1 (bucket i)) /\ (sc_ok (snd hx) /\ sc_rxmits (snd hx) = 0) /\ sc_inc (snd hx) = i).
      { unfold hx. destruct (c_cook c).
        - destruct (generate_row H c e (s_b s1 (bucket i)) (fill c e i g)) as (E1 & E2). simpl s_b.
          split; [|split; [auto|split; [split; [apply generate_sc_ok; apply fill_ok; auto|reflexivity]|reflexivity]]].
          destruct I1 as (R & _). destruct (R (bucket i)) as (L & N & F). unfold row_ok. rewrite E1, E2. auto.
        - simpl. destruct I1 as (R & _). split; [apply R|split; [auto|split; [split; [apply fill_ok; auto|reflexivity]|reflexivity]]]. }
      destruct HX as (HX & HL & (HS & HR) & HI).
      assert (I2 : Inv (mkSt (upd (s_b s1) (bucket i) (fst hx)) (s_cnt s1) (s_live s1) (s_pend s1))).
      { apply inv_upd_keep; auto. rewrite HL. reflexivity. }
      apply (inv_hold _ _ _ _ k false (snd hx)) in I2; [|auto|auto]. rewrite HI in I2. exact I2.
    + destruct (c_cook c) eqn:Ec; cbn [negb andb]; [|exact I1].
      cbn [s_b s_cnt s_live s_pend fst].
      destruct (generate_row H c e (s_b s1 (bucket i)) (fill c e i g)) as (E1 & E2).
      assert (I2 : Inv (mkSt (upd (s_b s1) (bucket i) (fst (generate H c e (s_b s1 (bucket i)) (fill c e i g)))) (s_cnt s1) (s_live s1) (s_pend s1))).
      { apply inv_upd_keep; auto; [|rewrite E1; reflexivity]. destruct I1 as (R & _). destruct (R (bucket i)) as (L & N & F).
        unfold row_ok. rewrite E1, E2. auto. }
      apply (inv_hold _ _ _ _ k true (snd (generate H c e (s_b s1 (bucket i)) (fill c e i g)))) in I2; [|apply generate_sc_ok, fill_ok; auto|reflexivity].
      rewrite Z.add_0_r in I2. exact I2.
Qed.

Lemma in_hand_mid : forall s l1 k b o x l2, s_pend s = l1 ++ (k, (b, o, x)) :: l2 ->
  in_hand s = in_hand (mkSt (s_b s) (s_cnt s) (s_live s) (l1 ++ l2)) + (if o then 0 else 1).
Proof.
  intros s l1 k b o x l2 E. unfold in_hand. rewrite E. cbn [s_pend]. rewrite !count_app, count_cons. cbn [fst snd]. destruct o; cbn [negb]; lia.
Qed.
Lemma inv_syn_end : forall c e k s, Inv s -> exists s' v, syn_end c e k s = Ret (s', v) /\ Inv s'.
Proof.
  intros c e k s I. unfold syn_end. destruct (pend_take k (s_pend s)) as [[[[b o] x] r]|] eqn:T; [|eauto].
  apply pend_take_some in T as (l1 & l2 & E & ->).
  pose proof (in_hand_mid s l1 k b o x l2 E) as EH.
  destruct I as (R & Pd & C & L). rewrite E in Pd. apply Forall_app in Pd as (P1 & P2). inversion P2 as [|? ? HP P3]; subst. destruct HP as ((Hx & Hr) & Bx). subst b.
  assert (PP : Forall pend_ok (l1 ++ l2)) by (apply Forall_app; auto).
  assert (IF : Inv (mkSt (s_b s) (s_cnt s) (if o then s_live s else s_live s - 1) (l1 ++ l2))).
  { unfold Inv. split; [exact R|]. split; [exact PP|]. split; [exact C|]. unfold in_hand in *. cbn [s_b s_live s_pend] in *. destruct o; lia. }
  cbn [s_b s_cnt s_live s_pend].
  destruct (e_out e); cbn [negb]; [|eauto].
  destruct (o || c_cook c && c_only c) eqn:O; [eauto|]. apply orb_false_iff in O as (-> & _).
  destruct (inv_insert (mkSt (s_b s) (s_cnt s) (s_live s) (l1 ++ l2)) x (bucket (sc_inc x)) IF (bucket_range _) Hx Hr eq_refl) as (s' & -> & I').
  simpl. eauto.
Qed.
Lemma inv_drop_take : forall s i x r, Inv s -> take (matches i) (h_l (s_b s (bucket i))) = Some (x, r) -> Inv (drop_row s (bucket i) r).
Proof.
  intros s i x r I T. apply take_some in T as (l1 & l2 & E & -> & _). eapply inv_drop; eauto using bucket_range.
Qed.
Lemma inv_step : forall H c o s, Inv s -> op_ok o -> exists s' v, step H c o s = Ret (s', v) /\ Inv s'.
Proof.
  intros H c o s I Ho. destruct o as [k e i g|k e i g|k e|i q]; simpl in Ho |- *.
  - destruct Ho as (He & Hi & Hg). unfold listen_input.
    destruct (g_fack g && negb (g_frst g) && negb (g_fsyn g)).
    { unfold expand. destruct (take (matches i) (h_l (s_b s (bucket i)))) as [[x r]|] eqn:T.
      - do 2 eexists; split; [reflexivity|]. eapply inv_drop_take; eauto.
      - destruct (negb (c_cook c)); [eauto|]. destruct (cookie_lookup H e (s_b s (bucket i)) i g); eauto. }
    destruct (g_frst g).
    { unfold chkrst. destruct (g_fack g || g_fsyn g || g_ffin g); [eauto|].
      destruct (take (matches i) (h_l (s_b s (bucket i)))) as [[x r]|] eqn:T; [|eauto].
      destruct (_ && _); [|eauto]. do 2 eexists; split; [reflexivity|]. eapply inv_drop_take; eauto. }
    destruct (negb (g_fsyn g)); [eauto|].
    destruct (g_fack g).
    { unfold badack. destruct (take (matches i) (h_l (s_b s (bucket i)))) as [[x r]|] eqn:T; [|eauto].
      do 2 eexists; split; [reflexivity|]. eapply inv_drop_take; eauto. }
    destruct (negb (syn_sane i g)); [eauto|].
    unfold syn. pose proof (inv_syn_begin H c e k i g s I He Hi Hg) as I1.
    destruct (snd (syn_begin H c e k i g s)); [eauto|]. apply inv_syn_end. auto.
  - destruct Ho as (He & Hi & Hg). destruct (plain_syn g && syn_sane i g); [|eauto].
    do 2 eexists; split; [reflexivity|]. apply inv_syn_begin; auto.
  - apply inv_syn_end; auto.
  - unfold unreach. destruct (take (matches i) (h_l (s_b s (bucket i)))) as [[x r]|] eqn:T; [|eauto].
    destruct (negb (q =? sc_iss x)); [eauto|].
    destruct (negb (f_unreach x) || _).
    + do 2 eexists; split; [reflexivity|]. apply inv_modify; auto using bucket_range.
    + do 2 eexists; split; [reflexivity|]. eapply inv_drop_take; eauto.
Qed.
Lemma inv_run : forall H c l s, Inv s -> Forall op_ok l -> exists s' evs, run H c l s = Ret (s', evs) /\ Inv s'.
Proof.
  induction l as [|o l IH]; intros s I F; [simpl; eauto|]. inversion F; subst.
  destruct (inv_step H c o s I H2) as (s1 & v & E & I1). simpl. rewrite E. simpl.
  destruct (IH s1 I1 H3) as (s2 & evs & E2 & I2). rewrite E2. simpl. eauto.
Qed.
Lemma reach_inv : forall H c s, reach H c s -> Inv s.
Proof.
  intros H c s (l & evs & F & E). destruct (inv_run H c l init inv_init F) as (s' & evs' & E' & I). rewrite E in E'. inversion E'; subst. auto.
Qed.
