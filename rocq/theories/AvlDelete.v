(* avl_delete removes one key equal to the given one and keeps the tree balanced. *)
From Verif Require Import Base AvlModel AvlSpec AvlRep AvlIns AvlRot AvlFun AvlRebal AvlInsert AvlClimb.
Ltac Zify.zify_post_hook ::= idtac.

Lemma repc_par0 h sent ch c : repc h sent ch c -> par sent c <> 0%nat.
Proof. destruct c as [|[]]; cbn [repc par faddr]; tauto. Qed.
Lemma side_read h sent c T : holds h sent (plug c T) -> uniq sent (plug c T) -> root T <> 0%nat ->
  (if Nat.eqb (root T) (n_left (h (par sent c))) then -1 else 1) = side_of c.
Proof.
  intros H U R. apply (holds_plug h sent c) in H. destruct H as (K & _).
  assert (UU : forall x, (cntc x c + one x sent + one x (root T) <= 1)%nat).
  { intros x. specialize (U x). rewrite cnt_plug in U. destruct T; [contradiction|]. cbn [cnt root] in *. lia. }
  destruct (link_del h sent c (root T) 0 K R UU) as (_ & _ & _ & E). rewrite Nat.eqb_sym, E. destruct c as [|[]]; reflexivity.
Qed.
Lemma parent_read h sent c T : holds h sent (plug c T) -> root T <> 0%nat -> n_parent (h (root T)) = par sent c.
Proof. intros H R. apply (holds_plug h sent c) in H. destruct H as (_ & K). destruct T; [contradiction|]. cbn [rep root] in *. destruct K as (_ & -> & _). reflexivity. Qed.

Lemma del_climb_unfold fuel h p side : del_climb (S fuel) h p side =
    (if Nat.eqb p 0 then UB else
    if Nat.eqb (n_parent (h p)) 0 then Ret h else
    obind (if n_bal (h p) =? 0 then
             Ret (set_bal h p (if side =? -1 then 1 else -1), p, false)
           else if n_bal (h p) =? side then Ret (set_bal h p 0, p, true)
           else rot_step h side p) (fun '(h, x, shorter) =>
    let p := n_parent (h x) in
    let side := if Nat.eqb x (n_left (h p)) then -1 else 1 in
    if shorter then del_climb fuel h p side else Ret h)).
Proof. reflexivity. Qed.

Lemma del_climb_ok sent : forall c fuel h T T0,
  holds h sent (plug c T) -> uniq sent (plug c T) -> balanced (plug c T0) -> balanced T -> height T0 = height T + 1 -> (length c < fuel)%nat ->
  exists h' T', del_climb fuel h (par sent c) (side_of c) = Ret h' /\ holds h' sent T' /\ balanced T' /\ moved (plug c T) T' /\
    outside h h' sent (plug c T).
Proof.
  induction c as [|f c IH]; intros fuel h T T0 H U B0 BT HT HF; (destruct fuel as [|fuel]; [cbn [length] in HF; lia|]); rewrite del_climb_unfold.
  - cbn [plug par] in *. destruct H as ((S0 & HS) & H). apply Nat.eqb_neq in S0. rewrite S0, HS. cbn [n_parent Nat.eqb]. apply Nat.eqb_neq in S0.
    exists h, T. split; [reflexivity|]. split; [split; [split; assumption|exact H]|]. split; [exact BT|]. split; [apply moved_refl|apply outside_refl].
  - cbn [length] in HF. cbn [plug] in *.
    assert (F0 : par sent (f :: c) <> 0%nat).
    { assert (H2 := H). apply (holds_plug h sent c) in H2. destruct H2 as (_ & K). destruct f; cbn [plug1 rep par faddr] in *; tauto. }
    assert (PC : par sent c <> 0%nat) by (assert (H2 := H); apply (holds_plug h sent c) in H2; destruct H2 as (K & _); exact (repc_par0 _ _ _ _ K)).
    assert (RF : root (plug1 f T) = faddr f) by (destruct f; reflexivity).
    assert (PF : n_parent (h (faddr f)) = par sent c) by (rewrite <- RF; apply parent_read; [exact H|rewrite RF; exact F0]).
    cbn [par] in F0 |- *. apply Nat.eqb_neq in F0. rewrite F0. apply Nat.eqb_neq in F0. rewrite PF.
    apply Nat.eqb_neq in PC. rewrite PC. apply Nat.eqb_neq in PC.
    assert (BF := balanced_sub _ _ B0).
    (* climbing on from a shorter subtree, stopping at an unchanged height *)
    assert (GO : forall h1 T1 (sh : bool), holds h1 sent (plug c T1) -> moved (plug1 f T) T1 -> balanced T1 -> root T1 <> 0%nat ->
       height (plug1 f T0) = height T1 + (if sh then 1 else 0) -> outside h h1 sent (plug c (plug1 f T)) ->
       exists h' T', (let p := n_parent (h1 (root T1)) in let side := if Nat.eqb (root T1) (n_left (h1 p)) then -1 else 1 in
           if sh then del_climb fuel h1 p side else Ret h1) = Ret h' /\ holds h' sent T' /\ balanced T' /\ moved (plug c (plug1 f T)) T' /\ outside h h' sent (plug c (plug1 f T))).
    { intros h1 T1 sh H1 M1 B1 R1 E1 O1. cbv zeta. rewrite (parent_read h1 sent c T1 H1 R1).
      assert (MP := moved_plug c _ _ M1).
      assert (U1 : uniq sent (plug c T1)) by (intros x; destruct MP as (_ & -> & _); apply U).
      rewrite (side_read h1 sent c T1 H1 U1 R1). destruct sh.
      - destruct (IH fuel h1 T1 (plug1 f T0) H1 U1 B0 B1 E1 ltac:(lia)) as (h' & T' & E & HH & BB & MM & OO).
        exists h', T'. split; [exact E|]. split; [exact HH|]. split; [exact BB|]. split; [eapply moved_trans; [exact MP|exact MM]|].
        intros x Hx Hs. rewrite OO; [apply O1; assumption| |exact Hs]. destruct MP as (_ & -> & _). exact Hx.
      - exists h1, (plug c T1). split; [reflexivity|]. split; [exact H1|]. split; [|split; [exact MP|exact O1]].
        eapply balanced_plug; [exact B0|exact B1|lia]. }
    destruct f as [a k rk b r|l a k rk b]; cbn [plug1 faddr side_of root] in *.
    + destruct (holds_node _ _ _ _ _ _ _ _ _ H) as (_ & HA). rewrite HA. cbn [n_bal]. cbn [balanced] in BF. destruct BF as (BF1 & BF2 & BF3 & BF4).
      destruct (b =? 0) eqn:E0; [apply Z.eqb_eq in E0|apply Z.eqb_neq in E0; destruct (b =? -1) eqn:E1; [apply Z.eqb_eq in E1|apply Z.eqb_neq in E1]].
      * change (-1 =? -1) with true. cbn [obind]. cbv iota. apply (GO (set_bal h a 1) (N T a k rk 1 r) false).
        -- unfold set_bal. eapply holds_upd; [exact H|exact U|]. rewrite HA. reflexivity.
        -- apply moved_bal.
        -- cbn [balanced]. repeat split; try assumption; lia.
        -- exact F0.
        -- cbn [height]. lia.
        -- unfold set_bal. apply outside_upd, outside_refl.
      * cbn [obind]. apply (GO (set_bal h a 0) (N T a k rk 0 r) true).
        -- unfold set_bal. eapply holds_upd; [exact H|exact U|]. rewrite HA. reflexivity.
        -- apply moved_bal.
        -- cbn [balanced]. repeat split; try assumption; lia.
        -- exact F0.
        -- cbn [height]. lia.
        -- unfold set_bal. apply outside_upd, outside_refl.
      * assert (Eb : b = 1) by lia. rewrite Eb in *. clear Eb.
        destruct r as [|rl ra rkk rrk rb rr]; [cbn [height] in BF1; pose proof (height_nonneg T); lia|].
        destruct (rot_step_L h sent c T rl ra rkk rrk rb rr a k rk H U PC BF4 BT ltac:(lia)) as (h1 & q & sh & T1 & ER & H1 & R1 & Q0 & M1 & B1 & HH1 & O1).
        rewrite ER. cbn [obind]. rewrite <- R1. apply (GO h1 T1 sh); auto; [rewrite R1; exact Q0|].
        set (X := N rl ra rkk rrk rb rr) in *. change (height (N T0 a k rk 1 X)) with (1 + Z.max (height T0) (height X)).
        destruct sh; lia.
    + destruct (holds_node _ _ _ _ _ _ _ _ _ H) as (_ & HA). rewrite HA. cbn [n_bal]. cbn [balanced] in BF. destruct BF as (BF1 & BF2 & BF3 & BF4).
      destruct (b =? 0) eqn:E0; [apply Z.eqb_eq in E0|apply Z.eqb_neq in E0; destruct (b =? 1) eqn:E1; [apply Z.eqb_eq in E1|apply Z.eqb_neq in E1]].
      * change (1 =? -1) with false. cbn [obind]. cbv iota. apply (GO (set_bal h a (-1)) (N l a k rk (-1) T) false).
        -- unfold set_bal. eapply holds_upd; [exact H|exact U|]. rewrite HA. reflexivity.
        -- apply moved_bal.
        -- cbn [balanced]. repeat split; try assumption; lia.
        -- exact F0.
        -- cbn [height]. lia.
        -- unfold set_bal. apply outside_upd, outside_refl.
      * cbn [obind]. apply (GO (set_bal h a 0) (N l a k rk 0 T) true).
        -- unfold set_bal. eapply holds_upd; [exact H|exact U|]. rewrite HA. reflexivity.
        -- apply moved_bal.
        -- cbn [balanced]. repeat split; try assumption; lia.
        -- exact F0.
        -- cbn [height]. lia.
        -- unfold set_bal. apply outside_upd, outside_refl.
      * assert (Eb : b = -1) by lia. rewrite Eb in *. clear Eb.
        destruct l as [|rl ra rkk rrk rb rr]; [cbn [height] in BF1; pose proof (height_nonneg T); lia|].
        destruct (rot_step_R h sent c T rl ra rkk rrk rb rr a k rk H U PC BF3 BT ltac:(lia)) as (h1 & q & sh & T1 & ER & H1 & R1 & Q0 & M1 & B1 & HH1 & O1).
        rewrite ER. cbn [obind]. rewrite <- R1. apply (GO h1 T1 sh); auto; [rewrite R1; exact Q0|].
        set (X := N rl ra rkk rrk rb rr) in *. change (height (N X a k rk (-1) T0)) with (1 + Z.max (height X) (height T0)).
        destruct sh; lia.
Qed.

(* what the search does to the ranks on the way *)
Definition drop (f : frame) : frame :=
  match f with FL a k rk b r => FL a k ((rk - 1) mod R30) b r | FR l a k rk b => FR l a k rk b end.
Notation dropc := (map drop).
Lemma par_drop sent c : par sent (dropc c) = par sent c.
Proof. destruct c as [|[]]; reflexivity. Qed.
Lemma side_drop c : side_of (dropc c) = side_of c.
Proof. destruct c as [|[]]; reflexivity. Qed.
Lemma cntc_drop x c : cntc x (dropc c) = cntc x c.
Proof. induction c as [|[] c IH]; cbn [map drop cntc fsib faddr]; congruence. Qed.
Lemma cnt_plug_drop x c t : cnt x (plug (dropc c) t) = cnt x (plug c t).
Proof. rewrite !cnt_plug, cntc_drop. reflexivity. Qed.
Lemma keysc_drop c : keysL (dropc c) = keysL c /\ keysR (dropc c) = keysR c.
Proof. induction c as [|[] c (I1 & I2)]; cbn [map drop keysL keysR]; rewrite ?I1, ?I2; auto. Qed.
Lemma keys_drop c t : keys (plug (dropc c) t) = keys (plug c t).
Proof. rewrite !keys_plug. destruct (keysc_drop c) as (-> & ->). reflexivity. Qed.
Lemma sizec_drop c : sizec (dropc c) = sizec c.
Proof. induction c as [|[] c IH]; cbn [map drop sizec fsib]; congruence. Qed.
Lemma balanced_drop c : forall t, balanced (plug (dropc c) t) <-> balanced (plug c t).
Proof.
  assert (G : forall c t t', height t = height t' -> (balanced t <-> balanced t') -> (balanced (plug (dropc c) t) <-> balanced (plug c t'))).
  { clear c. induction c as [|[a k rk b r|l a k rk b] c IH]; intros t t' E B; cbn [map drop plug plug1]; [exact B| |];
      apply IH; cbn [height balanced]; rewrite E; tauto. }
  intros t. apply G; tauto.
Qed.
Lemma drop_ranked c : forall n, 0 <= n -> n + 1 + sizec c < R30 -> rankedc (n + 1) c -> rankedc n (dropc c).
Proof.
  induction c as [|[a k rk b r|l a k rk b] c IH]; intros n N0 NB R; cbn [map drop rankedc] in *; [exact I| |]; cbn [sizec fsib] in NB;
    pose proof (sizec_nonneg c).
  - pose proof (size_nonneg r). destruct R as (R1 & R2 & R3). split; [rewrite R1; rewrite Z.mod_small; lia|]. split; [exact R2|].
    apply IH; [lia|lia|]. replace (n + 1 + size r + 1) with (n + 1 + 1 + size r) by lia. exact R3.
  - pose proof (size_nonneg l). destruct R as (R1 & R2 & R3). split; [exact R1|]. split; [exact R2|].
    apply IH; [lia|lia|]. replace (size l + 1 + n + 1) with (size l + 1 + (n + 1)) by lia. exact R3.
Qed.

Section DEL.
Variable cmp : Z -> Z -> Z.

Definition seeks (k : Z) (f : frame) : Prop := match f with FL _ key _ _ _ => cmp k key < 0 | FR _ _ key _ _ => cmp k key > 0 end.

Lemma del_walk_ok sent k : forall t fuel h c,
  holds h sent (plug (dropc c) t) -> uniq sent (plug c t) -> t <> L -> Forall (seeks k) c -> (Z.to_nat (height t) <= fuel)%nat ->
  exists h' d cf t', del_walk cmp fuel h k (root t) = Ret (h', d) /\ plug cf t' = plug c t /\ holds h' sent (plug (dropc cf) t') /\
    outside h h' sent (plug c t) /\ Forall (seeks k) cf /\
    match d with
    | DFound x => exists l kx rk b r, t' = N l x kx rk b r /\ cmp k kx = 0
    | DMissL x => t' = L /\ exists a key rk b r cc, cf = FL a key rk b r :: cc /\ x = a
    | DMissR x => t' = L /\ exists l a key rk b cc, cf = FR l a key rk b :: cc /\ x = a
    end.
Proof.
  induction t as [|l IHl a key rk b r IHr]; intros fuel h c H U NL TW HF; [contradiction|].
  clear NL. cbn [root] in *. pose proof (height_nonneg l) as HNL. pose proof (height_nonneg r) as HNR.
  destruct fuel as [|fuel]; [cbn [height] in HF; lia|]. cbn [height] in HF.
  destruct (holds_node _ _ _ _ _ _ _ _ _ H) as (A0 & HA). rewrite par_drop in HA.
  cbn [del_walk]. apply Nat.eqb_neq in A0. rewrite A0. rewrite HA. cbn [n_key].
  destruct (cmp k key <? 0) eqn:CK; [apply Z.ltb_lt in CK|apply Z.ltb_ge in CK].
  - set (h1 := set_rank h a (n_rank (mkN key (root l) (root r) (par sent c) rk b) - 1)).
    assert (U1 : uniq sent (plug (dropc c) (N l a key rk b r))) by (intros x; rewrite cnt_plug_drop; apply U).
    assert (H1 : holds h1 sent (plug (dropc c) (N l a key ((rk - 1) mod R30) b r))).
    { unfold h1, set_rank. eapply holds_upd; [exact H|exact U1|]. rewrite HA, par_drop. reflexivity. }
    assert (O1 : outside h h1 sent (plug c (N l a key rk b r))).
    { unfold h1, set_rank. apply outside_upd, outside_refl. }
    assert (TWF : Forall (seeks k) (FL a key rk b r :: c)) by (constructor; [exact CK|exact TW]).
    destruct (holds_node _ _ _ _ _ _ _ _ _ H1) as (_ & HA1). rewrite HA1. cbn [n_left].
    destruct l as [|ll la lk lrk lb lr].
    + cbn [root Nat.eqb negb]. exists h1, (DMissL a), (FL a key rk b r :: c), L.
      split; [reflexivity|]. split; [reflexivity|]. split; [exact H1|]. split; [exact O1|]. split; [exact TWF|].
      split; [reflexivity|]. do 6 eexists. split; reflexivity.
    + set (tl := N ll la lk lrk lb lr) in *.
      destruct (holds_node h1 sent (dropc (FL a key rk b r :: c)) ll la lk lrk lb lr H1) as (LA0 & _).
      assert (LA1 : root tl <> 0%nat) by exact LA0. apply Nat.eqb_neq in LA1. rewrite LA1. cbn [negb].
      destruct (IHl fuel h1 (FL a key rk b r :: c) H1 U ltac:(discriminate) TWF ltac:(lia)) as (h' & d & cf & t' & E & EP & HH & OO & TT & DD).
      exists h', d, cf, t'. split; [exact E|]. split; [exact EP|]. split; [exact HH|]. split; [eapply outside_trans; [exact O1|exact OO]|]. split; [exact TT|exact DD].
  - destruct (cmp k key >? 0) eqn:CK2.
    + apply Z.gtb_lt in CK2.
      assert (TWF : Forall (seeks k) (FR l a key rk b :: c)) by (constructor; [cbn [seeks]; lia|exact TW]).
      cbn [n_right]. destruct r as [|ll la lk lrk lb lr].
      * cbn [root Nat.eqb negb]. exists h, (DMissR a), (FR l a key rk b :: c), L.
        split; [reflexivity|]. split; [reflexivity|]. split; [exact H|]. split; [apply outside_refl|]. split; [exact TWF|].
        split; [reflexivity|]. do 6 eexists. split; reflexivity.
      * set (tl := N ll la lk lrk lb lr) in *.
        destruct (holds_node h sent (dropc (FR l a key rk b :: c)) ll la lk lrk lb lr H) as (LA0 & _).
        assert (LA1 : root tl <> 0%nat) by exact LA0. apply Nat.eqb_neq in LA1. rewrite LA1. cbn [negb].
        destruct (IHr fuel h (FR l a key rk b :: c) H U ltac:(discriminate) TWF ltac:(lia)) as (h' & d & cf & t' & E & EP & HH & OO & TT & DD).
        exists h', d, cf, t'. split; [exact E|]. split; [exact EP|]. split; [exact HH|]. split; [exact OO|]. split; [exact TT|exact DD].
    + assert (C0 : cmp k key = 0) by (pose proof (Zgt_cases (cmp k key) 0); rewrite CK2 in *; lia).
      exists h, (DFound a), c, (N l a key rk b r). split; [reflexivity|]. split; [reflexivity|]. split; [exact H|]. split; [apply outside_refl|].
      split; [exact TW|]. do 5 eexists. split; [reflexivity|exact C0].
Qed.

(* climbing back after a miss: the ranks of the left moves are restored *)
Definition restore (f : frame) : frame :=
  match f with FL a k rk b r => FL a k (((rk - 1) mod R30 + 1) mod R30) b r | FR l a k rk b => FR l a k rk b end.

Lemma del_undo_ok sent top : forall c fuel h T,
  holds h sent (plug (dropc c) T) -> uniq sent (plug c T) -> root T <> 0%nat -> top = root (plug c T) -> (length c < fuel)%nat ->
  exists h', del_undo fuel h (root T) top = Ret h' /\ holds h' sent (plug (map restore c) T) /\ outside h h' sent (plug c T).
Proof.
  induction c as [|f c IH]; intros fuel h T H U R0 ET HF; (destruct fuel as [|fuel]; [cbn [length] in HF; lia|]); cbn [del_undo].
  - cbn [plug] in ET. subst top. rewrite Nat.eqb_refl. exists h. split; [reflexivity|]. split; [exact H|apply outside_refl].
  - cbn [length] in HF. 
    assert (NT : root T <> top).
    { intros E. rewrite ET in E. assert (UT := U (root T)).
      assert (D : cnt (root T) (plug (f :: c) T) = (cntc (root T) (f :: c) + cnt (root T) T)%nat) by apply cnt_plug.
      assert (A1 : (1 <= cnt (root T) T)%nat) by (destruct T; [contradiction|]; cbn [cnt root]; rewrite one_refl; lia).
      assert (A2 : exists t1 t2 aa kk rr bb, plug (f :: c) T = N t1 aa kk rr bb t2).
      { clear - R0. cbn [plug]. assert (X : exists t1 t2 aa kk rr bb, plug1 f T = N t1 aa kk rr bb t2) by (destruct f; cbn [plug1]; do 6 eexists; reflexivity).
        revert X. generalize (plug1 f T). induction c as [|g c IHc]; intros t X; [exact X|]. cbn [plug]. apply IHc. destruct g; cbn [plug1]; do 6 eexists; reflexivity. }
      assert (A3 : (1 <= cntc (root T) (f :: c))%nat).
      { rewrite E. clear. revert f T. induction c as [|g c IHc]; intros f T.
        - cbn [plug cntc]. destruct f; cbn [plug1 root fsib faddr]; rewrite one_refl; lia.
        - specialize (IHc g (plug1 f T)). change (plug (f :: g :: c) T) with (plug (g :: c) (plug1 f T)). cbn [cntc] in *. lia. }
      lia. }
    apply Nat.eqb_neq in NT. rewrite NT.
    assert (PR := parent_read h sent (dropc (f :: c)) T H R0). rewrite par_drop in PR. rewrite PR. cbn [par].
    assert (U1 : uniq sent (plug (dropc (f :: c)) T)) by (intros x; rewrite cnt_plug_drop; apply U).
    assert (SR := side_read h sent (dropc (f :: c)) T H U1 R0). rewrite par_drop, side_drop in SR. cbn [par] in SR.
    destruct f as [a k rk b r|l a k rk b]; cbn [faddr side_of map drop plug plug1] in *.
    + destruct (holds_node _ _ _ _ _ _ _ _ _ H) as (A0 & HA). apply Nat.eqb_neq in A0. rewrite A0. apply Nat.eqb_neq in A0.
      rewrite Nat.eqb_sym. destruct (Nat.eqb (root T) (n_left (h a))) eqn:EL; [|discriminate].
      assert (H1 : holds (set_rank h a (n_rank (h a) + 1)) sent (plug (dropc c) (N T a k (((rk - 1) mod R30 + 1) mod R30) b r))).
      { unfold set_rank. eapply holds_upd; [exact H|exact U1|]. rewrite HA. reflexivity. }
      destruct (IH fuel _ (N T a k (((rk - 1) mod R30 + 1) mod R30) b r) H1) as (h' & E & HH & OO).
      { intros x. specialize (U x). rewrite cnt_plug in U |- *. cbn [cnt] in *. lia. } { exact A0. }
      { rewrite ET. clear. destruct c as [|g c]; [reflexivity|]. cbn [plug].
        assert (G : forall c t t', root t = root t' -> root (plug c t) = root (plug c t')).
        { clear. induction c as [|g c IHc]; intros t t' E; [exact E|]. cbn [plug]. apply IHc. destruct g; reflexivity. }
        apply G. destruct g; reflexivity. }
      { lia. }
      exists h'. split; [exact E|]. split; [exact HH|]. intros x Hx Hs. rewrite OO; [| |exact Hs].
      * unfold set_rank. apply upd_ne. intros ->. rewrite cnt_plug in Hx. cbn [cnt] in Hx. rewrite one_refl in Hx. lia.
      * rewrite cnt_plug in Hx |- *. exact Hx.
    + destruct (holds_node _ _ _ _ _ _ _ _ _ H) as (A0 & HA). apply Nat.eqb_neq in A0. rewrite A0. apply Nat.eqb_neq in A0.
      rewrite Nat.eqb_sym. destruct (Nat.eqb (root T) (n_left (h a))) eqn:EL; [discriminate|].
      destruct (IH fuel h (N l a k rk b T) H U A0 ET ltac:(lia)) as (h' & E & HH & OO).
      exists h'. split; [exact E|]. split; [exact HH|exact OO].
Qed.

(* frames with other ranks: same keys, addresses and balance *)
Lemma restore_facts c : (forall x, cntc x (map restore c) = cntc x c) /\ keysL (map restore c) = keysL c /\ keysR (map restore c) = keysR c.
Proof. induction c as [|[] c (I1 & I2 & I3)]; cbn [map restore keysL keysR cntc fsib faddr]; rewrite ?I2, ?I3; repeat split; intros; rewrite ?I1; reflexivity. Qed.
Lemma balanced_restore c : forall t, balanced (plug (map restore c) t) <-> balanced (plug c t).
Proof.
  assert (G : forall c t t', height t = height t' -> (balanced t <-> balanced t') -> (balanced (plug (map restore c) t) <-> balanced (plug c t'))).
  { clear c. induction c as [|[a k rk b r|l a k rk b] c IH]; intros t t' E B; cbn [map restore plug plug1]; [exact B| |];
      apply IH; cbn [height balanced]; rewrite E; tauto. }
  intros t. apply G; tauto.
Qed.
Lemma restore_ranked c : forall n, 0 <= n -> n + sizec c < R30 -> rankedc n c -> map restore c = c.
Proof.
  induction c as [|[a k rk b r|l a k rk b] c IH]; intros n N0 NB R; cbn [map restore rankedc] in *; [reflexivity| |]; cbn [sizec fsib] in NB; pose proof (sizec_nonneg c).
  - pose proof (size_nonneg r). destruct R as (-> & _ & R). rewrite (IH (n + 1 + size r)); [|lia|lia|exact R].
    rewrite (Z.mod_small (n + 1 - 1)) by lia. rewrite Z.mod_small by lia. repeat f_equal; lia.
  - pose proof (size_nonneg l). destruct R as (-> & _ & R). rewrite (IH (size l + 1 + n)); [reflexivity|lia|lia|exact R].
Qed.

(* the node to remove has at most one child *)
Lemma finish_ok fuel h fr sent C l x k rk b r :
  holds h sent (plug (dropc C) (N l x k rk b r)) -> uniq sent (plug C (N l x k rk b r)) -> balanced (plug C (N l x k rk b r)) ->
  l = L \/ r = L -> (length C < fuel)%nat ->
  exists h' t',
    (forall A (F : heap -> list nat -> Z -> outcome A),
     let c := if negb (Nat.eqb (n_left (h x)) 0) then n_left (h x) else n_right (h x) in
     let h := set_parent_nn h c (n_parent (h x)) in
     let par := n_parent (h x) in
     let side := if Nat.eqb x (n_left (h par)) then -1 else 1 in
     let h := if Nat.eqb x (n_left (h par)) then set_left h par c else set_right h par c in
     let kx := n_key (h x) in
     let '(h, free) := node_free h fr x in
     obind (del_climb fuel h par side) (fun h => F h free kx) = F h' (x :: fr) k) /\
    holds h' sent t' /\ balanced t' /\ keys t' = keysL C ++ keys l ++ keys r ++ keysR C /\
    (forall y, (cnt y t' + one y x)%nat = cnt y (plug C (N l x k rk b r))) /\
    (ranked (plug C (N l x k rk b r)) -> size (plug C (N l x k rk b r)) < R30 -> ranked t') /\
    outside h h' sent (plug C (N l x k rk b r)).
Proof.
  intros H U B LR HF. destruct (holds_node _ _ _ _ _ _ _ _ _ H) as (X0 & HX). rewrite par_drop in HX.
  assert (UU : forall y, (cntc y C + one y sent + (cnt y l + one y x + cnt y r) <= 1)%nat).
  { intros y. specialize (U y). rewrite cnt_plug in U. cbn [cnt] in U. lia. }
  assert (UX := UU x). rewrite one_refl in UX.
  set (T := match l with L => r | _ => l end).
  assert (CT : (if negb (Nat.eqb (n_left (h x)) 0) then n_left (h x) else n_right (h x)) = root T).
  { rewrite HX. cbn [n_left n_right]. destruct l as [|ll la lk lrk lb lr]; [reflexivity|].
    apply (holds_plug h sent (dropc C)) in H. destruct H as (_ & HR). cbn [rep root] in *. destruct HR as (_ & _ & (A0 & _) & _).
    apply Nat.eqb_neq in A0. rewrite A0. reflexivity. }
  rewrite CT.
  assert (CNT : forall y, cnt y T = (cnt y l + cnt y r)%nat).
  { intros y. unfold T. destruct LR as [-> | ->]; [reflexivity|]. destruct l; cbn [cnt]; lia. }
  assert (KT : keys T = keys l ++ keys r) by (unfold T; destruct LR as [-> | ->]; [reflexivity|]; destruct l; [reflexivity|]; cbn [keys]; rewrite app_nil_r; reflexivity).
  assert (HT : height (N l x k rk b r) = height T + 1).
  { cbn [height]. unfold T. destruct LR as [-> | ->]; [cbn [height]; pose proof (height_nonneg r); lia|].
    destruct l as [|ll la lk lrk lb lr]; [cbn [height]; lia|]. pose proof (height_nonneg (N ll la lk lrk lb lr)). cbn [height] in *. lia. }
  assert (ST : size (N l x k rk b r) = size T + 1).
  { cbn [size]. unfold T. destruct LR as [-> | ->]; [cbn [size]; lia|]. destruct l; cbn [size]; lia. }
  assert (BN := balanced_sub _ _ B). assert (BT : balanced T) by (unfold T; cbn [balanced] in BN; destruct l; tauto).
  apply (holds_plug h sent (dropc C)) in H. destruct H as (K & HR). cbn [root] in K. rewrite par_drop in HR. cbn [rep] in HR. destruct HR as (_ & _ & RL & RR).
  rewrite HX. cbn [n_parent]. set (h1 := set_parent_nn h (root T) (par sent C)).
  assert (RT : rep h1 (par sent C) T).
  { unfold h1. apply (rep_pnn_self h x); [intros y; rewrite CNT; specialize (UU y); lia|]. unfold T. destruct l; assumption. }
  assert (K1 : repc h1 sent x (dropc C)).
  { unfold h1. apply repc_pnn_other; [|exact K]. intros y. rewrite cntc_drop, CNT. specialize (UU y). lia. }
  assert (HX1 : h1 x = mkN k (root l) (root r) (par sent C) rk b).
  { unfold h1. rewrite pnn_other; [exact HX|]. rewrite CNT. lia. }
  cbv zeta. rewrite HX1. cbn [n_parent].
  destruct (link_del_ok h1 sent (dropc C) x T K1 X0) as (LH & LO & LS).
  { rewrite par_drop. exact RT. } { intros y. rewrite cntc_drop. specialize (UU y). lia. } { intros y. rewrite cntc_drop, CNT. specialize (UU y). lia. }
  rewrite par_drop in LH, LO, LS. rewrite side_drop in LS.
  rewrite (Nat.eqb_sym x). set (h2 := if Nat.eqb (n_left (h1 (par sent C))) x then set_left h1 (par sent C) (root T) else set_right h1 (par sent C) (root T)) in *.
  assert (XP : x <> par sent C).
  { intros E. assert (A := par_cnt sent C (N l x k rk b r)). cbn [cnt] in A. rewrite <- E, one_refl in A. specialize (A ltac:(intros y; specialize (UU y); lia)). lia. }
  assert (HX2 : h2 x = mkN k (root l) (root r) (par sent C) rk b) by (rewrite LO by exact XP; exact HX1).
  rewrite HX2. cbn [n_key]. unfold node_free. set (h3 := set_right h2 x (hd 0%nat fr)).
  assert (U3 : uniq sent (plug (dropc C) T)).
  { intros y. rewrite cnt_plug, cntc_drop, CNT. specialize (UU y). lia. }
  assert (H3 : holds h3 sent (plug (dropc C) T)).
  { apply (holds_plug h2 sent (dropc C)) in LH. destruct LH as (K2 & R2). apply (holds_plug h3 sent (dropc C)). unfold h3, set_right.
    split; [apply repc_upd; [rewrite cntc_drop; lia|exact K2]|apply rep_upd; [rewrite CNT; lia|exact R2]]. }
  replace (if Nat.eqb (n_left (h1 (par sent C))) x then -1 else 1) with (side_of C)
    by (rewrite LS; destruct C as [|[]]; reflexivity).
  destruct (del_climb_ok sent (dropc C) fuel h3 T (N l x k rk b r) H3 U3) as (h' & t' & E & HH & BB & MM & OO).
  { apply balanced_drop. exact B. } { exact BT. } { exact HT. } { rewrite map_length. exact HF. }
  rewrite par_drop, side_drop in E. rewrite E. cbn [obind]. exists h', t'. split; [intros; reflexivity|]. split; [exact HH|]. split; [exact BB|].
  destruct MM as (M1 & M2 & M3 & M4).
  split; [rewrite M1, keys_drop, keys_plug, KT, <- app_assoc; reflexivity|].
  split; [intros y; rewrite M2, cnt_plug_drop, !cnt_plug, CNT; cbn [cnt]; lia|].
  split.
  - intros R S. rewrite size_plug, ST in S. pose proof (size_nonneg T). pose proof (sizec_nonneg C). apply M4.
    + apply ranked_plug in R. destruct R as (R1 & R2). rewrite ST in R2. apply ranked_plug. split; [unfold T; cbn [ranked] in R1; destruct l; tauto|].
      apply drop_ranked; [lia|lia|exact R2].
    + rewrite size_plug, sizec_drop. lia.
  - intros y Hy Hs. rewrite cnt_plug in Hy. cbn [cnt] in Hy. rewrite OO; [| |exact Hs].
    + unfold h3, set_right. rewrite upd_ne by (intros ->; rewrite one_refl in Hy; lia). rewrite LO.
      * unfold h1. apply pnn_other. rewrite CNT. lia.
      * intros ->. destruct C; cbn [par] in Hs; [congruence|]. cbn [cntc par] in Hy. rewrite one_refl in Hy. lia.
    + rewrite cnt_plug, cntc_drop, CNT. lia.
Qed.

Lemma rightmost_ok h : forall l fuel p, rep h p l -> l <> L -> (Z.to_nat (height l) <= fuel)%nat ->
  exists cy yl y ky ry by_, rightmost fuel h (root l) = Ret y /\ l = plug cy (N yl y ky ry by_ L) /\ dropc cy = cy /\ keysR cy = [] /\ (length cy < Z.to_nat (height l))%nat.
Proof.
  induction l as [|l IHl a k rk b r IHr]; intros fuel p R NL HF; [contradiction|].
  cbn [rep] in R. destruct R as (A0 & HA & RL & RR). pose proof (height_nonneg l). pose proof (height_nonneg r). cbn [height] in HF.
  destruct fuel as [|fuel]; [lia|]. cbn [rightmost root]. rewrite HA. cbn [n_right].
  destruct r as [|rl ra rk2 rrk rb rr].
  - cbn [root Nat.eqb]. exists [], l, a, k, rk, b. split; [reflexivity|]. split; [reflexivity|]. split; [reflexivity|]. split; [reflexivity|].
    cbn [length height]. lia.
  - set (r := N rl ra rk2 rrk rb rr) in *. assert (R0 : root r <> 0%nat) by (cbn [rep r] in RR; apply RR).
    apply Nat.eqb_neq in R0. rewrite R0. destruct (IHr fuel a RR ltac:(discriminate) ltac:(lia)) as (cy & yl & y & ky & ry & by_ & E & EP & ED & EK & EL).
    exists (cy ++ [FR l a k rk b]), yl, y, ky, ry, by_. split; [exact E|]. split; [rewrite plug_app, <- EP; reflexivity|].
    split; [rewrite map_app, ED; reflexivity|]. split.
    + clear - EK. induction cy as [|[] cy IH]; [reflexivity|discriminate|]. cbn [app keysR] in *. apply IH, EK.
    + rewrite app_length. cbn [length height]. lia.
Qed.

Lemma seeks_split (P : preorder cmp) k c : forall t, sorted cmp (keys (plug c t)) -> Forall (seeks k) c ->
  (forall x, In x (keysL c) -> cmp k x > 0) /\ (forall x, In x (keysR c) -> cmp k x < 0).
Proof.
  induction c as [|[a key rk b r|l a key rk b] c IH]; intros t S T.
  - split; contradiction.
  - inversion_clear T as [|? ? TF TC]. destruct (IH _ S TC) as (I1 & I2). cbn [keysL keysR]. split; [exact I1|].
    cbn [seeks] in TF. intros x Hx. destruct Hx as [<-|Hx]; [lia|]. apply in_app_or in Hx. destruct Hx as [Hx|Hx]; [|auto].
    assert (KX : cmp key x <= 0).
    { cbn [plug plug1] in S. rewrite keys_plug in S. apply sorted_app in S. destruct S as (_ & S & _).
      apply sorted_app in S. destruct S as (S & _ & _). cbn [keys] in S. apply sorted_app in S. destruct S as (_ & S & _).
      apply sorted_cons in S. destruct S as (_ & S). apply S, Hx. }
    destruct (Z_lt_ge_dec (cmp k x) 0) as [|GE]; [assumption|exfalso].
    apply (cmp_flip cmp P x k) in GE. pose proof (cmp_trans cmp P _ _ _ KX GE). apply (cmp_flip cmp P key k) in H. lia.
  - inversion_clear T as [|? ? TF TC]. destruct (IH _ S TC) as (I1 & I2). cbn [keysL keysR]. split; [|exact I2].
    cbn [seeks] in TF.
    intros x Hx. apply in_app_or in Hx. destruct Hx as [Hx|Hx]; [auto|]. apply in_app_or in Hx. destruct Hx as [Hx|[<-|[]]]; [|lia].
    apply (cmp_lt_trans cmp P k key x); [lia|]. cbn [plug plug1] in S. rewrite keys_plug in S. apply sorted_app in S. destruct S as (_ & S & _).
    apply sorted_app in S. destruct S as (S & _ & _). cbn [keys] in S. apply sorted_app in S. destruct S as (_ & _ & S).
    apply S; [exact Hx|left; reflexivity].
Qed.

Lemma keysL_app c1 c2 : keysL (c1 ++ c2) = keysL c2 ++ keysL c1.
Proof. induction c1 as [|[] c1 IH]; cbn [app keysL]; [rewrite app_nil_r; reflexivity|exact IH|rewrite IH, <- app_assoc; reflexivity]. Qed.
Lemma keysR_app c1 c2 : keysR (c1 ++ c2) = keysR c1 ++ keysR c2.
Proof. induction c1 as [|[] c1 IH]; cbn [app keysR]; [reflexivity| |exact IH]. rewrite IH, <- app_assoc. reflexivity. Qed.

Theorem avl_delete_ok (P : preorder cmp) fuel p ob k t :
  holds (p_heap p) (t_root ob) t -> uniq (t_root ob) t -> balanced t -> sorted cmp (keys t) -> (Z.to_nat (height t) + 1 < fuel)%nat ->
  exists p' ob' res t', avl_delete cmp fuel p ob k = Ret (p', ob', res) /\
    t_root ob' = t_root ob /\ holds (p_heap p') (t_root ob) t' /\ balanced t' /\ outside (p_heap p) (p_heap p') (t_root ob) t /\
    match res with
    | Some kx => cmp k kx = 0 /\ (exists l1 l2, keys t = l1 ++ kx :: l2 /\ keys t' = l1 ++ l2) /\
        (exists x, p_free p' = x :: p_free p /\ forall y, (cnt y t' + one y x)%nat = cnt y t) /\
        t_length ob' = t_length ob - 1 /\ (ranked t -> size t < R30 -> ranked t')
    | None => (forall x, In x (keys t) -> cmp k x <> 0) /\ keys t' = keys t /\ p_free p' = p_free p /\ (forall y, cnt y t' = cnt y t) /\ ob' = ob
    end.
Proof.
  intros H U B S HF. set (sent := t_root ob) in *. unfold avl_delete. fold sent.
  assert (HS := proj1 H). cbn [repc] in HS. destruct HS as (S0 & HS). rewrite HS. cbn [n_right].
  destruct t as [|tl ta tk trk tb tr0].
  - cbn [root Nat.eqb]. exists p, ob, None, L. split; [reflexivity|]. split; [reflexivity|]. split; [exact H|]. split; [exact I|]. split; [apply outside_refl|].
    split; [intros x []|]. repeat split.
  - set (t := N tl ta tk trk tb tr0) in *.
    assert (T0 : root t <> 0%nat) by (apply holds_plug with (c := []) in H; cbn [rep t] in H; apply H).
    replace (Nat.eqb (root t) 0) with false by (symmetry; apply Nat.eqb_neq; exact T0).
    destruct (del_walk_ok sent k t fuel (p_heap p) []) as (h1 & d & cf & t1 & E & EP & H1 & O1 & SK & D);
      [exact H|exact U|discriminate|constructor|lia|].
    cbn [plug] in EP, O1. rewrite E. cbn [obind]. clear E.
    destruct (seeks_split P k cf t1) as (SP1 & SP2); [rewrite EP; exact S|exact SK|].
    assert (HL : (length cf < fuel)%nat) by (pose proof (height_sub cf t1) as A; rewrite EP in A; pose proof (height_nonneg t1); lia).
    assert (U1 : uniq sent (plug (dropc cf) t1)) by (intros y; rewrite cnt_plug_drop, EP; apply U).
    assert (MISS : forall f cc, cf = f :: cc -> t1 = L ->
       exists p' ob' res t', obind (del_undo fuel (set_rank h1 (faddr f) (n_rank (h1 (faddr f)) + 1)) (faddr f) (root t)) (fun h => Ret (mkPool h (p_free p), ob, None)) = Ret (p', ob', res) /\
         t_root ob' = sent /\ holds (p_heap p') sent t' /\ balanced t' /\ outside (p_heap p) (p_heap p') sent t /\
         match res with
         | Some kx => cmp k kx = 0 /\ (exists l1 l2, keys t = l1 ++ kx :: l2 /\ keys t' = l1 ++ l2) /\
             (exists x, p_free p' = x :: p_free p /\ forall y, (cnt y t' + one y x)%nat = cnt y t) /\
             t_length ob' = t_length ob - 1 /\ (ranked t -> size t < R30 -> ranked t')
         | None => (forall x, In x (keys t) -> cmp k x <> 0) /\ keys t' = keys t /\ p_free p' = p_free p /\ (forall y, cnt y t' = cnt y t) /\ ob' = ob
         end).
    { intros f cc -> ->. cbn [map plug] in *.
      assert (exists rk', holds (set_rank h1 (faddr f) (n_rank (h1 (faddr f)) + 1)) sent
         (plug (dropc cc) (match f with FL a k _ b r => N L a k rk' b r | FR l a k _ b => N l a k rk' b L end))) as (rk' & H2).
      { destruct f as [a key rk b r|l a key rk b]; cbn [drop plug1 faddr] in *; destruct (holds_node _ _ _ _ _ _ _ _ _ H1) as (_ & HA);
          eexists; unfold set_rank; eapply holds_upd; [exact H1|exact U1|rewrite HA; reflexivity|exact H1|exact U1|rewrite HA; reflexivity]. }
      set (T := match f with FL a k _ b r => N L a k rk' b r | FR l a k _ b => N l a k rk' b L end) in *.
      assert (RT : root T = faddr f) by (destruct f; reflexivity).
      assert (CT : forall y, cnt y T = cnt y (plug1 f L)) by (intros y; destruct f; reflexivity).
      assert (HT : height T = height (plug1 f L) /\ keys T = keys (plug1 f L) /\ (balanced (plug1 f L) -> balanced T)) by (destruct f; (split; [reflexivity|split; [reflexivity|intros X; exact X]])).
      rewrite <- RT. destruct (del_undo_ok sent (root t) cc fuel _ T H2) as (h2 & E & HH & OO).
      { intros y. rewrite cnt_plug, CT, <- cnt_plug, EP. apply U. }
      { rewrite RT. assert (X := H1). apply (holds_plug h1 sent (dropc cc)) in X. destruct X as (_ & X). destruct f; cbn [drop plug1 rep faddr] in *; tauto. }
      { rewrite <- EP. clear - RT.
        assert (G : forall c t t', root t = root t' -> root (plug c t) = root (plug c t')).
        { clear. induction c as [|g c IHc]; intros t t' E; [exact E|]. cbn [plug]. apply IHc. destruct g; reflexivity. }
        apply G. rewrite RT. destruct f; reflexivity. }
      { cbn [length] in HL. lia. }
      rewrite RT in *. rewrite E. cbn [obind]. exists (mkPool h2 (p_free p)), ob, None, (plug (map restore cc) T).
      destruct (restore_facts cc) as (RF1 & RF2 & RF3).
      split; [reflexivity|]. split; [reflexivity|]. cbn [p_heap p_free]. split; [exact HH|]. split.
      { apply balanced_restore. destruct HT as (HT1 & _ & HT3). rewrite <- EP in B. eapply balanced_plug; [exact B|apply HT3, (balanced_sub _ _ B)|exact HT1]. }
      split.
      { intros y Hy Hs. rewrite OO; [| |exact Hs].
        - unfold set_rank. rewrite upd_ne; [apply O1; assumption|]. intros ->. rewrite <- EP, cnt_plug in Hy. destruct f; cbn [plug1 cnt faddr] in Hy; rewrite one_refl in Hy; lia.
        - rewrite cnt_plug, CT, <- cnt_plug, EP. exact Hy. }
      split.
      { intros y Hy. rewrite <- EP in Hy. change (In y (keys (plug (f :: cc) L))) in Hy. rewrite keys_plug in Hy. apply in_app_or in Hy.
        destruct Hy as [Hy|Hy]; [apply SP1 in Hy; lia|]. cbn [keys app] in Hy. apply SP2 in Hy. lia. }
      split; [rewrite keys_plug, RF2, RF3; destruct HT as (_ & -> & _); rewrite <- keys_plug, EP; reflexivity|].
      split; [reflexivity|]. split; [|reflexivity]. intros y. rewrite cnt_plug, RF1, CT, <- cnt_plug, EP. reflexivity. }
    destruct d as [x|x|x].
    2:{ destruct D as (D1 & a & key & rk & b & r & cc & D2 & ->). exact (MISS (FL a key rk b r) cc D2 D1). }
    2:{ destruct D as (D1 & l & a & key & rk & b & cc & D2 & ->). exact (MISS (FR l a key rk b) cc D2 D1). }
    clear MISS. destruct D as (l & kx & rk & b & r & -> & CK).
    assert (FIN : forall h2 C yl y ry by_ yr, holds h2 sent (plug (dropc C) (N yl y kx ry by_ yr)) -> outside h1 h2 sent t ->
       (forall z, cnt z (plug C (N yl y kx ry by_ yr)) = cnt z t) -> (balanced (plug C (N yl y kx ry by_ yr))) -> yl = L \/ yr = L -> (length C < fuel)%nat ->
       keysL C ++ keys yl ++ keys yr ++ keysR C = (keysL cf ++ keys l) ++ (keys r ++ keysR cf) -> 
       (ranked t -> size t < R30 -> ranked (plug C (N yl y kx ry by_ yr)) /\ size (plug C (N yl y kx ry by_ yr)) = size t) ->
       exists p' ob' res t',
        (let c := if negb (Nat.eqb (n_left (h2 y)) 0) then n_left (h2 y) else n_right (h2 y) in
         let h := set_parent_nn h2 c (n_parent (h2 y)) in
         let par := n_parent (h y) in
         let side := if Nat.eqb y (n_left (h par)) then -1 else 1 in
         let h := if Nat.eqb y (n_left (h par)) then set_left h par c else set_right h par c in
         let kx := n_key (h y) in
         let '(h, free) := node_free h (p_free p) y in
         obind (del_climb fuel h par side) (fun h =>
         Ret (mkPool h free, mkTree sent (t_height ob) (t_length ob - 1), Some kx))) = Ret (p', ob', res) /\
        t_root ob' = sent /\ holds (p_heap p') sent t' /\ balanced t' /\ outside (p_heap p) (p_heap p') sent t /\
        match res with
        | Some kx => cmp k kx = 0 /\ (exists l1 l2, keys t = l1 ++ kx :: l2 /\ keys t' = l1 ++ l2) /\
            (exists x, p_free p' = x :: p_free p /\ forall y, (cnt y t' + one y x)%nat = cnt y t) /\
            t_length ob' = t_length ob - 1 /\ (ranked t -> size t < R30 -> ranked t')
        | None => (forall x, In x (keys t) -> cmp k x <> 0) /\ keys t' = keys t /\ p_free p' = p_free p /\ (forall y, cnt y t' = cnt y t) /\ ob' = ob
        end).
    { intros h2 C yl y ry by_ yr H2 O2 CC BC LR LC KC RC.
      destruct (finish_ok fuel h2 (p_free p) sent C yl y kx ry by_ yr H2) as (h' & t' & E & HH & BB & KK & C2 & R2 & O3); [|exact BC|exact LR|exact LC|].
      { intros z. rewrite CC. apply U. }
      specialize (E _ (fun h free kx => Ret (mkPool h free, mkTree sent (t_height ob) (t_length ob - 1), Some kx))). 
      eexists _, _, _, t'. split; [exact E|]. cbn [t_root p_heap p_free t_length]. split; [reflexivity|]. split; [exact HH|]. split; [exact BB|].
      split.
      { intros z Hz Hs. rewrite O3; [rewrite O2 by assumption; apply O1; assumption| |exact Hs]. rewrite CC. exact Hz. }
      split; [exact CK|]. split.
      { exists (keysL cf ++ keys l), (keys r ++ keysR cf). split; [rewrite <- EP, keys_plug; cbn [keys]; rewrite <- !app_assoc; reflexivity|]. rewrite KK. exact KC. }
      split; [exists y; split; [reflexivity|]; intros z; rewrite C2; apply CC|]. split; [reflexivity|].
      intros R SS. destruct (RC R SS) as (RC1 & RC2). apply R2; [exact RC1|rewrite RC2; exact SS]. }
    destruct (holds_node _ _ _ _ _ _ _ _ _ H1) as (X0 & HX). rewrite HX. cbn [n_left n_right n_key].
    assert (HB : holds h1 sent (plug (dropc cf) (N l x kx rk b r))) by exact H1.
    apply (holds_plug h1 sent (dropc cf)) in HB. destruct HB as (K1 & HR). cbn [rep] in HR. destruct HR as (_ & _ & RL & RR).
    destruct (negb (Nat.eqb (root l) 0) && negb (Nat.eqb (root r) 0)) eqn:TWO.
    + apply andb_prop in TWO. destruct TWO as (TW1 & TW2). apply negb_true_iff, Nat.eqb_neq in TW1, TW2.
      destruct (rightmost_ok h1 l fuel x RL) as (cy & yl & y & ky & ry & by_ & ER & EL & ED & EK & LY).
      { intros ->. apply TW1. reflexivity. }
      { pose proof (height_sub cf (N l x kx rk b r)) as A. rewrite EP in A. cbn [height] in A. pose proof (height_nonneg l). lia. }
      rewrite ER. cbn [obind].
      set (C := cy ++ FL x ky rk b r :: cf).
      assert (DC : dropc C = cy ++ FL x ky ((rk - 1) mod R30) b r :: dropc cf) by (unfold C; rewrite map_app, ED; reflexivity).
      assert (LC : (length C < fuel)%nat).
      { unfold C. rewrite app_length. cbn [length]. pose proof (height_sub cf (N l x kx rk b r)) as A. rewrite EP in A. cbn [height] in A.
        pose proof (height_nonneg l). lia. }
      (* the swap *)
      assert (XY : x <> y).
      { intros EXY. specialize (U x). rewrite <- EP, cnt_plug in U. cbn [cnt] in U. rewrite EL, cnt_plug in U. cbn [cnt] in U. rewrite EXY, !one_refl in U. lia. }
      assert (HY1 : holds h1 sent (plug (cy ++ FL x kx rk b r :: dropc cf) (N yl y ky ry by_ L))).
      { rewrite plug_app. cbn [plug plug1]. rewrite <- EL. exact H1. }
      destruct (holds_node _ _ _ _ _ _ _ _ _ HY1) as (Y0 & HY).
      rewrite HY. cbn [n_key].
      set (h2 := set_key h1 x ky).
      assert (H2 : holds h2 sent (plug (dropc cf) (N l x ky rk b r))).
      { unfold h2, set_key. eapply holds_upd; [exact H1|exact U1|]. rewrite HX. reflexivity. }
      assert (HY2 : holds h2 sent (plug (cy ++ FL x ky rk b r :: dropc cf) (N yl y ky ry by_ L))).
      { rewrite plug_app. cbn [plug plug1]. rewrite <- EL. exact H2. }
      assert (UY : forall key rank kk, uniq sent (plug (cy ++ FL x key rank b r :: dropc cf) (N yl y kk ry by_ L))).
      { intros key rank kk z. specialize (U1 z). rewrite EL, !cnt_plug in *. cbn [cnt] in U1. rewrite cnt_plug in U1. cbn [cnt] in *.
        assert (CA : cntc z (cy ++ FL x key rank b r :: dropc cf) = (cntc z cy + (cnt z r + one z x + cntc z (dropc cf)))%nat).
        { clear. induction cy as [|f cy IH]; cbn [app cntc fsib faddr]; [lia|]. rewrite IH. lia. }
        rewrite CA. lia. }
      destruct (holds_node _ _ _ _ _ _ _ _ _ HY2) as (_ & HYY).
      set (h3 := set_key h2 y kx).
      assert (HY3 : holds h3 sent (plug (cy ++ FL x ky rk b r :: dropc cf) (N yl y kx ry by_ L))).
      { unfold h3, set_key. eapply holds_upd; [exact HY2|apply UY|]. rewrite HYY. reflexivity. }
      assert (HX3 : holds h3 sent (plug (dropc cf) (N (plug cy (N yl y kx ry by_ L)) x ky rk b r))).
      { rewrite plug_app in HY3. exact HY3. }
      destruct (holds_node _ _ _ _ _ _ _ _ _ HX3) as (_ & HXX). rewrite HXX. cbn [n_rank].
      set (h4 := set_rank h3 x (rk - 1)).
      assert (H4 : holds h4 sent (plug (dropc cf) (N (plug cy (N yl y kx ry by_ L)) x ky ((rk - 1) mod R30) b r))).
      { unfold h4, set_rank. eapply holds_upd; [exact HX3| |rewrite HXX; reflexivity]. intros z. specialize (UY ky rk kx z). rewrite plug_app in UY. exact UY. }
      apply (FIN h4 C yl y ry by_ L).
      * rewrite DC, plug_app. exact H4.
      * intros z Hz Hs. rewrite <- EP, cnt_plug in Hz. cbn [cnt] in Hz. rewrite EL, cnt_plug in Hz. cbn [cnt] in Hz.
        unfold h4, h3, h2, set_rank, set_key. rewrite !upd_ne; [reflexivity| | |]; intros ->; rewrite !one_refl in Hz; lia.
      * intros z. unfold C. rewrite plug_app. cbn [plug plug1]. rewrite <- EP, !cnt_plug. cbn [cnt]. rewrite EL, !cnt_plug. cbn [cnt]. lia.
      * unfold C. rewrite plug_app. cbn [plug plug1]. rewrite <- EP in B.
        assert (HE : height (plug cy (N yl y kx ry by_ L)) = height l /\ (balanced l -> balanced (plug cy (N yl y kx ry by_ L)))).
        { rewrite EL. assert (G : forall c u u', height u = height u' -> (balanced u -> balanced u') -> height (plug c u') = height (plug c u) /\ (balanced (plug c u) -> balanced (plug c u'))).
          { clear. induction c as [|[] c IH]; intros u u' E B; cbn [plug plug1]; [auto| |]; apply IH; cbn [height balanced]; rewrite ?E; tauto. }
          apply G; [reflexivity|intros X; exact X]. }
        destruct HE as (HE1 & HE2). assert (BN := balanced_sub _ _ B). cbn [balanced] in BN.
        eapply balanced_plug; [exact B| |cbn [height]; rewrite HE1; reflexivity]. cbn [balanced]. rewrite HE1. tauto.
      * right. reflexivity.
      * exact LC.
      * unfold C. rewrite keysL_app, keysR_app, EK. cbn [keysL keysR app keys]. rewrite EL, keys_plug, EK. cbn [keys].
        rewrite <- !app_assoc. cbn [app]. reflexivity.
      * intros R SS. rewrite <- EP in R. unfold C. split.
        -- apply ranked_plug in R. destruct R as (R1 & R2). cbn [ranked] in R1. destruct R1 as (R3 & R4 & R5).
           rewrite plug_app. cbn [plug plug1]. apply ranked_plug.
           assert (SE : size (plug cy (N yl y kx ry by_ L)) = size l) by (rewrite EL, !size_plug; reflexivity).
           cbn [size ranked]. rewrite SE. split; [|exact R2]. split; [exact R3|]. split; [|exact R5].
           rewrite EL in R4. apply ranked_plug in R4. apply ranked_plug. exact R4.
        -- rewrite plug_app. cbn [plug plug1]. rewrite <- EP, !size_plug. cbn [size]. rewrite EL, !size_plug. cbn [size]. lia.
    + cbn [obind]. apply (FIN h1 cf l x rk b r).
      * exact H1.
      * apply outside_refl.
      * intros z. rewrite EP. reflexivity.
      * rewrite EP. exact B.
      * apply andb_false_iff in TWO. destruct TWO as [TW|TW]; apply negb_false_iff, Nat.eqb_eq in TW; [left|right].
        -- destruct l; [reflexivity|]. cbn [rep root] in *. tauto.
        -- destruct r; [reflexivity|]. cbn [rep root] in *. tauto.
      * exact HL.
      * rewrite <- !app_assoc. reflexivity.
      * intros R SS. rewrite EP. split; [exact R|reflexivity].
Qed.
End DEL.
