(* Start-up establishes the invariant; every legal call returns, answers as the
   specification allows, and keeps the invariant. *)
From Verif Require Import Base IpsecModel IpsecSpec IpsecList IpsecSp IpsecLk IpsecSa IpsecInv IpsecInv2.
Ltac Zify.zify_post_hook ::= idtac.

(* start-up *)
Fixpoint down (n : nat) : list nat := match n with O => [] | S m => m :: down m end.
Lemma down_chain nx : (forall i, nx i = prevlink i) -> forall n, chain nx (prevlink n) (down n).
Proof. intros E. induction n as [|n IH]; cbn [down chain prevlink]; [reflexivity|]. split; [reflexivity|]. rewrite E. exact IH. Qed.
Lemma down_in n i : In i (down n) <-> (i < n)%nat.
Proof. induction n as [|n IH]; cbn [down In]; [lia|]. rewrite IH. lia. Qed.
Lemma down_nodup n : NoDup (down n).
Proof. induction n as [|n IH]; cbn [down]; constructor; [|exact IH]. rewrite down_in. lia. Qed.

Lemma inv_init nsp nsa : Inv nsp nsa (db_init nsp nsa) view0.
Proof.
  assert (R : forall i, rcv view0 i = 0) by reflexivity.
  constructor.
  - exists (down nsp). constructor.
    + reflexivity.
    + apply down_chain. reflexivity.
    + constructor.
    + apply down_nodup.
    + intros i. rewrite down_in. unfold usedp. cbn [names pols view0 map In pcnt]. split; [intros W; split; [exact W|]|tauto]. intros [[]|X]. lia.
    + intros i [[]|W]; cbn in W; lia.
    + intros i [[]|W]; cbn in W; lia.
    + intros i [[]|W]; cbn in W; lia.
    + intros i [[]|W]; cbn in W; lia.
    + intros i. cbn. lia.
  - intros dir. unfold LkInv, lk, lkl, names, db_init. destruct (dir =? DIR_IN); cbn; reflexivity.
  - intros h b [].
  - exists (down nsa). constructor.
    + reflexivity.
    + apply down_chain. reflexivity.
    + constructor.
    + apply down_nodup.
    + intros i. rewrite down_in, R. split; [intros W; split; [exact W|lia]|tauto].
    + intros i W; rewrite R in W; lia.
    + intros i [].
    + intros i W; rewrite R in W; lia.
    + intros i W; rewrite R in W; lia.
    + intros i W; rewrite R in W; lia.
    + intros i W; rewrite R in W; lia.
    + intros i W; rewrite R in W; lia.
    + intros i. rewrite R. lia.
  - reflexivity.
  - reflexivity.
  - intros h [[]|W]; cbn in W; lia.
  - intros i W. cbn in W. congruence.
  - intros h b [].
  - intros i W. rewrite R in W. lia.
  - intros i. cbn. lia.
Qed.

(* addresses *)
Lemma swap32_range x : 0 <= swap32 x < 4294967296.
Proof.
  unfold swap32. pose proof (Z.mod_pos_bound x 256). pose proof (Z.mod_pos_bound (x / 256) 256). pose proof (Z.mod_pos_bound (x / 65536) 256).
  pose proof (Z.mod_pos_bound (x / 16777216) 256). lia.
Qed.
Lemma digits a b c e : 0 <= a < 256 -> 0 <= b < 256 -> 0 <= c < 256 -> 0 <= e < 256 ->
  let y := a * 16777216 + b * 65536 + c * 256 + e in
  y mod 256 = e /\ y / 256 mod 256 = c /\ y / 65536 mod 256 = b /\ y / 16777216 mod 256 = a.
Proof.
  intros Ha Hb Hc He y. unfold y.
  assert (D1 : (a * 16777216 + b * 65536 + c * 256 + e) / 256 = a * 65536 + b * 256 + c) by (symmetry; apply Z.div_unique with e; lia).
  assert (D2 : (a * 16777216 + b * 65536 + c * 256 + e) / 65536 = a * 256 + b) by (symmetry; apply Z.div_unique with (c * 256 + e); lia).
  assert (D3 : (a * 16777216 + b * 65536 + c * 256 + e) / 16777216 = a) by (symmetry; apply Z.div_unique with (b * 65536 + c * 256 + e); lia).
  rewrite D1, D2, D3. repeat split; symmetry.
  - apply Z.mod_unique with (a * 65536 + b * 256 + c); lia.
  - apply Z.mod_unique with (a * 256 + b); lia.
  - apply Z.mod_unique with a; lia.
  - apply Z.mod_unique with 0; lia.
Qed.
Lemma swap32_inv x : u32v x -> swap32 (swap32 x) = x.
Proof.
  intros H. unfold u32v in H.
  assert (Q : exists a b c e, 0 <= a < 256 /\ 0 <= b < 256 /\ 0 <= c < 256 /\ 0 <= e < 256 /\ x = a * 16777216 + b * 65536 + c * 256 + e).
  { exists (x / 16777216), (x / 65536 mod 256), (x / 256 mod 256), (x mod 256).
    pose proof (Z.div_mod x 256). pose proof (Z.div_mod (x / 256) 256). pose proof (Z.div_mod (x / 65536) 256).
    pose proof (Z.mod_pos_bound x 256). pose proof (Z.mod_pos_bound (x / 256) 256). pose proof (Z.mod_pos_bound (x / 65536) 256).
    assert (E1 : x / 65536 = x / 256 / 256) by (rewrite Z.div_div by lia; reflexivity).
    assert (E2 : x / 16777216 = x / 65536 / 256) by (rewrite Z.div_div by lia; reflexivity).
    assert (0 <= x / 16777216 < 256) by (split; [apply Z.div_pos; lia|apply Z.div_lt_upper_bound; lia]).
    rewrite E2 in *. rewrite E1 in *. lia. }
  destruct Q as (a & b & c & e & Ha & Hb & Hc & He & ->).
  destruct (digits a b c e Ha Hb Hc He) as (D1 & D2 & D3 & D4). cbv zeta in *.
  assert (S : swap32 (a * 16777216 + b * 65536 + c * 256 + e) = e * 16777216 + c * 65536 + b * 256 + a).
  { unfold swap32. rewrite D1, D2, D3, D4. reflexivity. }
  rewrite S. destruct (digits e c b a He Hc Hb Ha) as (F1 & F2 & F3 & F4). cbv zeta in *. unfold swap32. rewrite F1, F2, F3, F4. reflexivity.
Qed.
Lemma par_back p : goodsel (p_sel p) -> par_ntohl (par_ntohl p) = p.
Proof.
  intros (G1 & G2 & G3 & G4 & _). destruct p as [pr ac sa dr [ty sf sl df dl p1 p2 p3 p4 po] vr id].
  unfold par_ntohl, sel_ntohl. cbn in *. rewrite !swap32_inv by assumption. reflexivity.
Qed.

(* matching *)
Lemma in_range_good f l x : ~ any_range f l -> (in_range f l x <-> swap32 f <= x <= swap32 l).
Proof. intros N. unfold in_range. change (addr_value f) with (swap32 f). change (addr_value l) with (swap32 l). tauto. Qed.
Lemma sel_match_ok s src dst po : goodsel s -> (sel_match (sel_ntohl s) (mkV src dst po) = true <-> sel_accepts s src dst po).
Proof.
  intros (_ & _ & _ & _ & A1 & A2 & T). unfold sel_match, sel_accepts. cbn [sel_ntohl s_type s_sf s_sl s_df s_dl s_proto v_src v_dst v_proto].
  rewrite (in_range_good _ _ _ A1), (in_range_good _ _ _ A2), T. change (SEL_IPV4 =? SEL_IPV4) with true. cbn [andb].
  rewrite !andb_true_iff, !negb_true_iff, !orb_false_iff, andb_false_iff, !negb_false_iff.
  destruct (Z.ltb_spec src (swap32 (s_sf s))), (Z.gtb_spec src (swap32 (s_sl s))), (Z.ltb_spec dst (swap32 (s_df s))), (Z.gtb_spec dst (swap32 (s_dl s))),
    (Z.eqb_spec (s_proto s) 0), (Z.eqb_spec po (s_proto s)); split; intros; intuition (try lia; try congruence).
Qed.
Lemma sel_match_pkt s l3 : goodsel s -> pkt_ok l3 -> (sel_match (sel_ntohl s) (sel_values l3) = true <-> sel_accepts_pkt s l3).
Proof.
  intros G [L _]. unfold sel_values. destruct (Nat.ltb_spec (length l3) 20); [exfalso; lia|]. apply sel_match_ok. exact G.
Qed.

Lemma find_filter {A} (f g : A -> bool) l : find f (filter g l) = find (fun x => g x && f x) l.
Proof.
  induction l as [|x r IH]; cbn [filter find]; [reflexivity|]. destruct (g x) eqn:E; cbn [find andb]; [destruct (f x); [reflexivity|exact IH]|exact IH].
Qed.
Lemma side_dir pp dir h : side pp dir h = true <-> (p_dir (pp h) =? DIR_IN) = (dir =? DIR_IN).
Proof. unfold side. apply Bool.eqb_true_iff. Qed.

(* the policy the walk finds is the one that decides *)
Lemma walk_decides nsp nsa d a dir vrf l3 fuel : Inv nsp nsa d a -> pkt_ok l3 -> (nsp < fuel)%nat ->
  exists r, sp_walk fuel (sph d) vrf (sel_values l3) (lk d dir) = Ret (option_map fst r) /\ decides a (dir =? DIR_IN) vrf l3 r /\
    (forall h b, r = Some (h, b) -> In (h, b) (pols a)).
Proof.
  intros H L F. destruct H as [[lf X1] X2 X3 X4 X5 X6 X7 X8 X9 X10 X11].
  pose proof (base_length _ _ _ _ _ _ X1) as Ln.
  set (f := fun h => side (ppar a) dir h && ((p_vrf (ppar a h) =? vrf) && sel_match (sel_ntohl (p_sel (ppar a h))) (sel_values l3))).
  assert (Hf : forall h, In h (names a) -> (f h = true <-> applies a (dir =? DIR_IN) vrf l3 h)).
  { intros h Hh. unfold f, applies. rewrite !andb_true_iff, side_dir, Z.eqb_eq, sel_match_pkt; [reflexivity|apply X7; left; exact Hh|exact L]. }
  exists (match find f (srt (prio (ppar a)) (names a)) with None => None | Some h => match find (fun hb => Nat.eqb (fst hb) h) (pols a) with Some hb => Some hb | None => Some (h, None) end end).
  rewrite (sp_walk_ok (sph d) vrf (sel_values l3) (lkl (ppar a) dir (names a)) fuel (lk d dir) (X2 dir)) by (pose proof (lkl_length (ppar a) dir (names a)); lia).
  assert (Ef : find (fun i => (p_vrf (n_par (sph d i)) =? vrf) && sel_match (p_sel (n_par (sph d i))) (sel_values l3)) (lkl (ppar a) dir (names a)) = find f (srt (prio (ppar a)) (names a))).
  { unfold lkl. rewrite <- filter_srt, find_filter. apply find_ext_in. intros h Hh. apply srt_in in Hh.
    rewrite (b_par _ _ _ _ _ _ X1 h (or_introl Hh)). reflexivity. }
  rewrite Ef. clear Ef. destruct (find f (srt (prio (ppar a)) (names a))) as [h|] eqn:E.
  - destruct (find_srt _ _ _ _ E) as (m1 & m2 & Em & Fh & M1 & M2).
    unfold names in Em. destruct (map_eq_app _ _ _ _ Em) as (l1 & l2' & El & E1 & E2).
    destruct l2' as [|[h' b] l2]; [discriminate E2|]. cbn [map fst] in E2. injection E2 as E3 E2. subst h'.
    pose proof (b_nd _ _ _ _ _ _ X1) as ND. unfold names in ND. rewrite Em in ND. destruct (nodup_split _ _ _ ND) as (N1 & N2 & _).
    assert (Ff : find (fun hb => Nat.eqb (fst hb) h) (pols a) = Some (h, b)).
    { rewrite El. clear - N1 E1. subst m1. induction l1 as [|[x c] r IH]; cbn [app find fst]; [rewrite Nat.eqb_refl; reflexivity|].
      destruct (Nat.eqb_spec x h) as [->|]; [exfalso; apply N1; left; reflexivity|]. apply IH. intros W. apply N1. right. exact W. }
    rewrite Ff. cbn [option_map fst]. split; [reflexivity|]. split.
    + exists l1, l2. split; [exact El|].
      assert (In1 : forall h' b', In (h', b') l1 -> In h' m1 /\ In h' (names a)).
      { intros h' b' W. assert (V : In h' m1) by (rewrite <- E1; apply (in_map fst) in W; exact W). split; [exact V|]. unfold names. rewrite Em. apply in_app_iff. left. exact V. }
      assert (In2 : forall h' b', In (h', b') l2 -> In h' m2 /\ In h' (names a)).
      { intros h' b' W. assert (V : In h' m2) by (rewrite <- E2; apply (in_map fst) in W; exact W). split; [exact V|]. unfold names. rewrite Em. apply in_app_iff. right. right. exact V. }
      assert (Inh : In h (names a)) by (unfold names; rewrite Em; apply in_app_iff; right; left; reflexivity).
      split; [apply Hf; assumption|]. split.
      * intros h' b' W Ap. destruct (In1 h' b' W) as [V1 V2]. apply (M1 h' V1). apply Hf; assumption.
      * intros h' b' W Ap. destruct (In2 h' b' W) as [V1 V2]. apply (M2 h' V1). apply Hf; assumption.
    + intros h' b' W. injection W as <- <-. rewrite El. apply in_app_iff. right. left. reflexivity.
  - cbn [option_map]. split; [reflexivity|]. split; [|discriminate]. intros h b W Ap. apply pol_names in W.
    rewrite find_srt_none in E. specialize (E h W). apply Hf in Ap; [|exact W]. congruence.
Qed.
Lemma decides_fun nsp nsa d a di vrf l3 r r' : Inv nsp nsa d a -> decides a di vrf l3 r -> decides a di vrf l3 r' -> r = r'.
Proof.
  intros H D D'. destruct (i_sp _ _ _ _ H) as [lf B]. pose proof (b_nd _ _ _ _ _ _ B) as ND. unfold names in ND.
  destruct r as [[h b]|], r' as [[h' b']|].
  - destruct D as (n & o & E & Ap & M1 & M2), D' as (n' & o' & E' & Ap' & M1' & M2').
    destruct (Nat.eq_dec h h') as [->|Nh].
    + f_equal. f_equal. assert (U : forall l x y, NoDup (map fst l) -> In (h', x) l -> In (h', y) l -> x = y :> option nat).
      { induction l as [|[u v] rr IH]; intros x y N W0 V0; [destruct W0|]; destruct W0 as [W|W], V0 as [V|V]; cbn [map fst] in N; inversion N; subst.
        - congruence.
        - injection W as -> ->. exfalso. apply (in_map fst) in V. contradiction.
        - injection V as -> ->. exfalso. apply (in_map fst) in W. contradiction.
        - apply IH; assumption. }
      apply (U (pols a)); [exact ND|rewrite E; apply in_app_iff; right; left; reflexivity|rewrite E'; apply in_app_iff; right; left; reflexivity].
    + exfalso.
      assert (P1 : In (h', b') n \/ In (h', b') o).
      { assert (W : In (h', b') (pols a)) by (rewrite E'; apply in_app_iff; right; left; reflexivity). rewrite E in W. apply in_app_iff in W.
        destruct W as [W|[W|W]]; [auto|injection W as -> ->; congruence|auto]. }
      assert (P2 : In (h, b) n' \/ In (h, b) o').
      { assert (W : In (h, b) (pols a)) by (rewrite E; apply in_app_iff; right; left; reflexivity). rewrite E' in W. apply in_app_iff in W.
        destruct W as [W|[W|W]]; [auto|injection W as -> ->; congruence|auto]. }
      destruct P1 as [P1|P1], P2 as [P2|P2].
      * pose proof (M1 _ _ P1 Ap'). pose proof (M1' _ _ P2 Ap). lia.
      * pose proof (M1 _ _ P1 Ap'). pose proof (M2' _ _ P2 Ap). lia.
      * pose proof (M2 _ _ P1 Ap'). pose proof (M1' _ _ P2 Ap). lia.
      * (* each is older than the other *)
        destruct (in_split _ _ P1) as (u & v & Eu). assert (Eq : n ++ (h, b) :: o = n' ++ (h', b') :: o') by congruence.
        rewrite E in ND. rewrite Eu in *. clear - Eq ND P2 Nh.
        rewrite app_comm_cons, app_assoc in Eq, ND.
        assert (S : n ++ (h, b) :: u = n' /\ v = o').
        { revert n' Eq. generalize (n ++ (h, b) :: u) ND. intros m. clear. induction m as [|x m IH]; intros N n' Eq; destruct n' as [|y n']; cbn [app] in *.
          - injection Eq as Eq. auto.
          - injection Eq as <- Eq. exfalso. cbn [map fst] in N. inversion N as [|? ? N1 N2]; subst. apply N1. rewrite map_app. apply in_app_iff. right. left. reflexivity.
          - injection Eq as -> Eq. exfalso. cbn [map fst] in N. inversion N as [|? ? N1 N2]; subst. apply N1. rewrite map_app. apply in_app_iff. right. left. reflexivity.
          - injection Eq as -> Eq. cbn [map] in N. inversion N; subst. destruct (IH H2 n' Eq) as [<- <-]. auto. }
        destruct S as [_ ->]. rewrite map_app in ND. cbn [map fst] in ND. destruct (nodup_split _ _ _ ND) as (_ & _ & ND2). rewrite map_app in ND2. cbn [map fst] in ND2.
        rewrite <- app_assoc in ND2. cbn [app] in ND2. destruct (nodup_split _ _ _ ND2) as (_ & Q & _). apply Q. apply in_app_iff. right. apply (in_map fst) in P2. exact P2.
  - destruct D as (n & o & E & Ap & _). exfalso. apply (D' h b); [rewrite E; apply in_app_iff; right; left; reflexivity|exact Ap].
  - destruct D' as (n & o & E & Ap & _). exfalso. apply (D h' b'); [rewrite E; apply in_app_iff; right; left; reflexivity|exact Ap].
  - reflexivity.
Qed.
