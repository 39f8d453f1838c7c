(* Insertion. *)
From Verif Require Import Base AvlModel AvlSpec AvlRep.
Ltac Zify.zify_post_hook ::= idtac.

Definition uniq (sent : nat) (t : tr) : Prop := forall x, (one x sent + cnt x t <= 1)%nat.
(* h' is h outside the tree and its sentinel *)
Definition outside (h h' : heap) (sent : nat) (t : tr) : Prop := forall x, cnt x t = 0%nat -> x <> sent -> h' x = h x.

Definition R30 : Z := 1073741824.

Lemma holds_upd h sent c l a k rk b r k' rk' b' n :
  holds h sent (plug c (N l a k rk b r)) -> uniq sent (plug c (N l a k rk b r)) ->
  n = mkN k' (root l) (root r) (par sent c) rk' b' ->
  holds (upd h a n) sent (plug c (N l a k' rk' b' r)).
Proof.
  intros H U ->. apply (holds_plug h sent c) in H. destruct H as (HC & HR). apply (holds_plug _ sent c).
  assert (UA : forall x, (one x sent + cntc x c + cnt x l + one x a + cnt x r <= 1)%nat).
  { intros x. specialize (U x). rewrite cnt_plug in U. cbn [cnt] in U. lia. }
  assert (A := UA a). rewrite one_refl in A.
  split.
  - cbn [root] in *. apply (repc_frame h); [exact HC|]. intros x Hx. apply upd_ne. intros ->. lia.
  - cbn [rep] in *. destruct HR as (H0 & H1 & H2 & H3). split; [exact H0|]. split; [apply upd_eq|].
    split; (eapply rep_frame; [eassumption|]); intros x Hx; apply upd_ne; intros ->; lia.
Qed.
Lemma outside_upd h h' sent c l a k rk b r n :
  outside h h' sent (plug c (N l a k rk b r)) -> outside h (upd h' a n) sent (plug c (N l a k rk b r)).
Proof.
  intros O x Hx Hs. rewrite upd_ne; [apply O; assumption|]. intros ->. rewrite cnt_plug in Hx. cbn [cnt] in Hx. rewrite one_refl in Hx. lia.
Qed.
Lemma holds_node h sent c l a k rk b r : holds h sent (plug c (N l a k rk b r)) ->
  a <> 0%nat /\ h a = mkN k (root l) (root r) (par sent c) rk b.
Proof. intros H. apply (holds_plug h sent c) in H. destruct H as (_ & HR). cbn [rep] in HR. tauto. Qed.

Lemma uniq_plug_eq sent c t t' : (forall x, cnt x t' = cnt x t) -> uniq sent (plug c t) -> uniq sent (plug c t').
Proof. intros E U x. specialize (U x). rewrite cnt_plug in *. rewrite E. exact U. Qed.
Lemma outside_eq h h' sent t t' : (forall x, cnt x t' = cnt x t) -> outside h h' sent t -> outside h h' sent t'.
Proof. intros E O x Hx. apply O. rewrite <- E. exact Hx. Qed.
Lemma outside_trans h1 h2 h3 sent t : outside h1 h2 sent t -> outside h2 h3 sent t -> outside h1 h3 sent t.
Proof. intros A B x Hx Hs. rewrite B, A; auto. Qed.
Lemma outside_refl h sent t : outside h h sent t.
Proof. intros x _ _. reflexivity. Qed.

Lemma plug_app c1 c2 t : plug (c1 ++ c2) t = plug c2 (plug c1 t).
Proof. revert t. induction c1 as [|f c1 IH]; intros t; [reflexivity|]. cbn [app plug]. apply IH. Qed.
Lemma par_app sent c1 c2 : c1 <> [] -> par sent (c1 ++ c2) = par sent c1.
Proof. destruct c1; [contradiction|reflexivity]. Qed.

(* what the walk does to the ranks on the way *)
Definition bump (f : frame) : frame :=
  match f with FL a k rk b r => FL a k ((rk + 1) mod R30) b r | FR l a k rk b => FR l a k rk b end.
Notation bumpc := (map bump).
Lemma bump_same f : faddr (bump f) = faddr f /\ fbal (bump f) = fbal f /\ fdir (bump f) = fdir f /\ fkey (bump f) = fkey f /\ fsib (bump f) = fsib f.
Proof. destruct f; repeat split. Qed.
Lemma par_bump sent c : par sent (bumpc c) = par sent c.
Proof. destruct c as [|f c]; [reflexivity|]. cbn [map par]. apply bump_same. Qed.
Lemma cntc_bump x c : cntc x (bumpc c) = cntc x c.
Proof. induction c as [|f c IH]; [reflexivity|]. cbn [map cntc]. destruct (bump_same f) as (-> & _ & _ & _ & ->). rewrite IH. reflexivity. Qed.
Lemma cnt_plug_bump x c t : cnt x (plug (bumpc c) t) = cnt x (plug c t).
Proof. rewrite !cnt_plug, cntc_bump. reflexivity. Qed.

Section CMP.
Variable cmp : Z -> Z -> Z.

Definition towards (k : Z) (f : frame) : Prop := (cmp k (fkey f) <? 1) = (fdir f =? -1).
(* the frames between the hole and s: all balanced except s itself, which is
   balanced only at the root *)
Definition tbal (t : tr) : Z := match t with L => 0 | N _ _ _ _ b _ => b end.
(* s and t of the code for a hole with context cz ++ cs *)
Inductive marks (sent : nat) (s tp : nat) (rb : Z) (ra : nat) (cz cs : ctx) : Prop :=
| m_here : cz = [] -> s = ra -> tp = par sent cs -> (rb = 0 -> cs = []) -> marks sent s tp rb ra cz cs
| m_up cz0 fs : cz = cz0 ++ [fs] -> s = faddr fs -> tp = par sent cs -> (fbal fs = 0 -> cs = []) ->
    Forall (fun f => fbal f = 0) cz0 -> rb = 0 -> marks sent s tp rb ra cz cs.

Lemma marks_down sent s tp rb ra cz cs f ra' rb' :
  marks sent s tp rb ra cz cs -> faddr f = ra -> fbal f = rb -> rb' = 0 -> marks sent s tp rb' ra' (f :: cz) cs.
Proof.
  intros M EA EB E0. destruct M as [-> -> -> H0|cz0 fs -> -> -> H0 HF ->].
  - apply (m_up _ _ _ _ _ _ _ [] f); auto. rewrite EB. exact H0.
  - apply (m_up _ _ _ _ _ _ _ (f :: cz0) fs); auto.
Qed.

Lemma ins_walk_ok sent k : forall t fuel h c cz cs s tp,
  holds h sent (plug (bumpc c) t) -> uniq sent (plug c t) -> t <> L -> c = cz ++ cs ->
  marks sent s tp (tbal t) (root t) cz cs -> Forall (towards k) c -> (Z.to_nat (height t) <= fuel)%nat ->
  exists h' s' tp' cf cz0 fs cs',
    ins_walk cmp fuel h k tp s (root t) = Ret (h', tp', s', par sent cf, match cf with FL _ _ _ _ _ :: _ => true | _ => false end) /\
    plug cf L = plug c t /\ holds h' sent (plug (bumpc cf) L) /\ outside h h' sent (plug c t) /\
    cf = (cz0 ++ [fs]) ++ cs' /\ s' = faddr fs /\ tp' = par sent cs' /\ (fbal fs = 0 -> cs' = []) /\
    Forall (fun f => fbal f = 0) cz0 /\ Forall (towards k) cf.
Proof.
  induction t as [|l IHl a key rk b r IHr]; intros fuel h c cz cs s tp H U NL EC M TW HF; [contradiction|].
  clear NL. cbn [root tbal] in *.
  pose proof (height_nonneg l) as HNL. pose proof (height_nonneg r) as HNR.
  destruct fuel as [|fuel]; [cbn [height] in HF; lia|].
  destruct (holds_node _ _ _ _ _ _ _ _ _ H) as (A0 & HA). rewrite par_bump in HA.
  cbn [ins_walk]. apply Nat.eqb_neq in A0. rewrite A0. rewrite HA. cbn [n_key].
  destruct (cmp k key <? 1) eqn:CK.
  - set (h1 := set_rank h a (n_rank (mkN key (root l) (root r) (par sent c) rk b) + 1)).
    assert (U1 : uniq sent (plug (bumpc c) (N l a key rk b r))) by (intros x; rewrite cnt_plug_bump; apply U).
    assert (H1 : holds h1 sent (plug (bumpc c) (N l a key ((rk + 1) mod R30) b r))).
    { unfold h1, set_rank. eapply holds_upd; [exact H|exact U1|]. rewrite HA, par_bump. reflexivity. }
    assert (O1 : outside h h1 sent (plug c (N l a key rk b r))).
    { unfold h1, set_rank. apply outside_upd, outside_refl. }
    assert (TWF : Forall (towards k) (FL a key rk b r :: c)).
    { constructor; [unfold towards; cbn [fkey fdir]; rewrite CK; reflexivity|exact TW]. }
    destruct (holds_node _ _ _ _ _ _ _ _ _ H1) as (_ & HA1). rewrite par_bump in HA1.
    rewrite HA1. cbn [n_left].
    destruct l as [|ll la lk lrk lb lr].
    + cbn [root Nat.eqb]. destruct M as [EZ ES ET HZ|cz0 fs EZ ES ET HZ HB0 HB].
      * subst s tp. exists h1, a, (par sent cs), (FL a key rk b r :: c), [], (FL a key rk b r), cs.
        rewrite EZ in EC. cbn [app] in EC. subst c.
        repeat (split; [first [reflexivity|assumption|apply outside_refl|constructor; assumption|constructor]|]). exact TWF.
      * subst s tp. exists h1, (faddr fs), (par sent cs), (FL a key rk b r :: c), (FL a key rk b r :: cz0), fs, cs.
        rewrite EZ in EC. subst c.
        repeat (split; [first [reflexivity|assumption|apply outside_refl|constructor; assumption|constructor]|]). exact TWF.
    + cbn [root]. set (tl := N ll la lk lrk lb lr) in *.
      destruct (holds_node h1 sent (bumpc (FL a key rk b r :: c)) ll la lk lrk lb lr H1) as (LA0 & HLA).
      apply Nat.eqb_neq in LA0. rewrite LA0. rewrite HLA. cbn [n_bal].
      assert (HFU : (Z.to_nat (height tl) <= fuel)%nat) by (cbn [height] in HF; fold tl in HF; lia).
      destruct (lb =? 0) eqn:LB; cbn [negb].
      * apply Z.eqb_eq in LB.
        destruct (IHl fuel h1 (FL a key rk b r :: c) (FL a key rk b r :: cz) cs s tp H1 U ltac:(discriminate) ltac:(subst c; reflexivity)) as
          (h' & s' & tp' & cf & cz0 & fs & cs' & E & EP & HH & OO & E1 & E2 & E3 & E4 & E5 & E6).
        { apply (marks_down sent s tp b a); auto. }
        { exact TWF. } { exact HFU. }
        exists h', s', tp', cf, cz0, fs, cs'. split; [exact E|]. split; [exact EP|]. split; [exact HH|].
        split; [eapply outside_trans; [exact O1|exact OO]|]. repeat (split; [assumption|]). assumption.
      * destruct (IHl fuel h1 (FL a key rk b r :: c) [] (FL a key rk b r :: c) la a H1 U ltac:(discriminate) eq_refl) as
          (h' & s' & tp' & cf & cz0 & fs & cs' & E & EP & HH & OO & E1 & E2 & E3 & E4 & E5 & E6).
        { apply m_here; auto. cbn [tbal tl]. apply Z.eqb_neq in LB. intros; contradiction. }
        { exact TWF. } { exact HFU. }
        exists h', s', tp', cf, cz0, fs, cs'. split; [exact E|]. split; [exact EP|]. split; [exact HH|].
        split; [eapply outside_trans; [exact O1|exact OO]|]. repeat (split; [assumption|]). assumption.
  - assert (TWF : Forall (towards k) (FR l a key rk b :: c)).
    { constructor; [unfold towards; cbn [fkey fdir]; rewrite CK; reflexivity|exact TW]. }
    cbn [n_right].
    destruct r as [|rl ra2 rk2 rrk rb rr].
    + cbn [root Nat.eqb]. destruct M as [EZ ES ET HZ|cz0 fs EZ ES ET HZ HB0 HB].
      * subst s tp. exists h, a, (par sent cs), (FR l a key rk b :: c), [], (FR l a key rk b), cs.
        rewrite EZ in EC. cbn [app] in EC. subst c.
        repeat (split; [first [reflexivity|assumption|apply outside_refl|constructor; assumption|constructor]|]). exact TWF.
      * subst s tp. exists h, (faddr fs), (par sent cs), (FR l a key rk b :: c), (FR l a key rk b :: cz0), fs, cs.
        rewrite EZ in EC. subst c.
        repeat (split; [first [reflexivity|assumption|apply outside_refl|constructor; assumption|constructor]|]). exact TWF.
    + cbn [root]. set (tl := N rl ra2 rk2 rrk rb rr) in *.
      destruct (holds_node h sent (bumpc (FR l a key rk b :: c)) rl ra2 rk2 rrk rb rr H) as (LA0 & HLA).
      apply Nat.eqb_neq in LA0. rewrite LA0. rewrite HLA. cbn [n_bal].
      assert (HFU : (Z.to_nat (height tl) <= fuel)%nat) by (cbn [height] in HF; fold tl in HF; lia).
      destruct (rb =? 0) eqn:LB; cbn [negb].
      * apply Z.eqb_eq in LB.
        destruct (IHr fuel h (FR l a key rk b :: c) (FR l a key rk b :: cz) cs s tp H U ltac:(discriminate) ltac:(subst c; reflexivity)) as
          (h' & s' & tp' & cf & cz0 & fs & cs' & E & EP & HH & OO & E1 & E2 & E3 & E4 & E5 & E6).
        { apply (marks_down sent s tp b a); auto. }
        { exact TWF. } { exact HFU. }
        exists h', s', tp', cf, cz0, fs, cs'. split; [exact E|]. split; [exact EP|]. split; [exact HH|].
        split; [exact OO|]. repeat (split; [assumption|]). assumption.
      * destruct (IHr fuel h (FR l a key rk b :: c) [] (FR l a key rk b :: c) ra2 a H U ltac:(discriminate) eq_refl) as
          (h' & s' & tp' & cf & cz0 & fs & cs' & E & EP & HH & OO & E1 & E2 & E3 & E4 & E5 & E6).
        { apply m_here; auto. cbn [tbal tl]. apply Z.eqb_neq in LB. intros; contradiction. }
        { exact TWF. } { exact HFU. }
        exists h', s', tp', cf, cz0, fs, cs'. split; [exact E|]. split; [exact EP|]. split; [exact HH|].
        split; [exact OO|]. repeat (split; [assumption|]). assumption.
Qed.

(* the second walk sets the balances below s *)
Definition lean (f : frame) : frame :=
  match f with FL a k rk _ r => FL a k rk (-1) r | FR l a k rk _ => FR l a k rk 1 end.
Notation leanc := (map lean).
Lemma cntc_lean x c : cntc x (leanc c) = cntc x c.
Proof. induction c as [|f c IH]; [reflexivity|]. cbn [map cntc]. rewrite IH. destruct f; reflexivity. Qed.

Lemma ins_bal_ok sent k q kq rq bq lq rrq : forall cz0 fuel h c,
  let Q := N lq q kq rq bq rrq in
  holds h sent (plug c (plug cz0 Q)) -> uniq sent (plug c (plug cz0 Q)) -> Forall (towards k) cz0 -> (length cz0 < fuel)%nat ->
  exists h', ins_bal cmp fuel h k (root (plug cz0 Q)) q = Ret h' /\ holds h' sent (plug c (plug (leanc cz0) Q)) /\
    outside h h' sent (plug c (plug cz0 Q)).
Proof.
  induction cz0 as [|f cz0 IH] using rev_ind; intros fuel h c Q H U TW HF.
  - destruct fuel; [lia|]. cbn [plug root ins_bal Q]. rewrite Nat.eqb_refl. exists h. split; [reflexivity|]. split; [exact H|apply outside_refl].
  - rewrite app_length in HF. cbn [length] in HF. destruct fuel as [|fuel]; [lia|].
    rewrite map_app. cbn [map]. rewrite !plug_app in *. cbn [plug] in *.
    apply Forall_app in TW. destruct TW as (TW0 & TWf). inversion_clear TWf as [|? ? TF _].
    assert (NQ : faddr f <> q).
    { intros E. specialize (U q). rewrite cnt_plug in U. destruct f; cbn [plug1 cnt faddr] in *; rewrite cnt_plug in U; unfold Q in U; cbn [cnt] in U;
        subst a; rewrite !one_refl in U; lia. }
    cbn [ins_bal]. destruct f as [a key rk b r|l a key rk b]; cbn [plug1 root faddr] in *.
    + apply Nat.eqb_neq in NQ. rewrite NQ. destruct (holds_node _ _ _ _ _ _ _ _ _ H) as (A0 & HA).
      apply Nat.eqb_neq in A0. rewrite A0, HA. cbn [n_key]. unfold towards in TF. cbn [fkey fdir] in TF. rewrite TF. cbn [Z.eqb Pos.eqb].
      set (h1 := set_bal h a (-1)).
      assert (H1 : holds h1 sent (plug c (N (plug cz0 Q) a key rk (-1) r))).
      { unfold h1, set_bal. eapply holds_upd; [exact H|exact U|]. rewrite HA. reflexivity. }
      destruct (holds_node _ _ _ _ _ _ _ _ _ H1) as (_ & HA1). rewrite HA1. cbn [n_left].
      destruct (IH fuel h1 (FL a key rk (-1) r :: c) H1) as (h' & E & HH & OO); [|exact TW0|lia|].
      { exact (uniq_plug_eq sent c (N (plug cz0 Q) a key rk b r) (N (plug cz0 Q) a key rk (-1) r) (fun x => eq_refl) U). }
      exists h'. split; [exact E|]. split; [exact HH|]. intros x Hx Hs.
      rewrite OO; [|change (cnt x (plug c (N (plug cz0 Q) a key rk (-1) r)) = 0%nat); rewrite (cnt_plug x c) in *; exact Hx|exact Hs].
      unfold h1, set_bal. apply upd_ne. intros ->. rewrite cnt_plug in Hx. cbn [cnt] in Hx. rewrite one_refl in Hx. lia.
    + apply Nat.eqb_neq in NQ. rewrite NQ. destruct (holds_node _ _ _ _ _ _ _ _ _ H) as (A0 & HA).
      apply Nat.eqb_neq in A0. rewrite A0, HA. cbn [n_key]. unfold towards in TF. cbn [fkey fdir] in TF. rewrite TF. cbn [Z.eqb Pos.eqb].
      set (h1 := set_bal h a 1).
      assert (H1 : holds h1 sent (plug c (N l a key rk 1 (plug cz0 Q)))).
      { unfold h1, set_bal. eapply holds_upd; [exact H|exact U|]. rewrite HA. reflexivity. }
      destruct (holds_node _ _ _ _ _ _ _ _ _ H1) as (_ & HA1). rewrite HA1. cbn [n_right].
      destruct (IH fuel h1 (FR l a key rk 1 :: c) H1) as (h' & E & HH & OO); [|exact TW0|lia|].
      { exact (uniq_plug_eq sent c (N l a key rk b (plug cz0 Q)) (N l a key rk 1 (plug cz0 Q)) (fun x => eq_refl) U). }
      exists h'. split; [exact E|]. split; [exact HH|]. intros x Hx Hs.
      rewrite OO; [|change (cnt x (plug c (N l a key rk 1 (plug cz0 Q))) = 0%nat); rewrite (cnt_plug x c) in *; exact Hx|exact Hs].
      unfold h1, set_bal. apply upd_ne. intros ->. rewrite cnt_plug in Hx. cbn [cnt] in Hx. rewrite one_refl in Hx. lia.
Qed.
End CMP.
