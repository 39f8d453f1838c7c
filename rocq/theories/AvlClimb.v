(* Rebalancing after a deletion. *)
From Verif Require Import Base AvlModel AvlSpec AvlRep AvlIns AvlRot AvlFun AvlRebal.
Ltac Zify.zify_post_hook ::= idtac.

Definition side_of (c : ctx) : Z := match c with FL _ _ _ _ _ :: _ => -1 | _ => 1 end.

Lemma par_cnt sent c t : (forall x, cntc x c + one x sent + cnt x t <= 1)%nat -> cnt (par sent c) t = 0%nat.
Proof. intros U. specialize (U (par sent c)). destruct c; cbn [par cntc] in U; rewrite one_refl in U; cbn [par]; lia. Qed.

Lemma link_del_ok h sent c s T : repc h sent s c -> s <> 0%nat -> rep h (par sent c) T ->
  (forall x, cntc x c + one x sent + one x s <= 1)%nat -> (forall x, cntc x c + one x sent + cnt x T <= 1)%nat ->
  let h' := if Nat.eqb (n_left (h (par sent c))) s then set_left h (par sent c) (root T) else set_right h (par sent c) (root T) in
  holds h' sent (plug c T) /\ (forall x, x <> par sent c -> h' x = h x) /\
  Nat.eqb (n_left (h (par sent c))) s = (side_of c =? -1).
Proof.
  intros K S0 R U U2 h'. destruct (link_del h sent c s (root T) K S0 U) as (n & E & K1 & E2). subst h'. rewrite E.
  split; [|split].
  - apply (holds_plug _ sent c). split; [exact K1|]. apply rep_upd; [apply par_cnt, U2|exact R].
  - intros x Hx. apply upd_ne, Hx.
  - rewrite E2. destruct c as [|[]]; reflexivity.
Qed.

Definition rot_step (h : heap) (side : Z) (p : nat) : outcome (heap * nat * bool) :=
  let top := n_parent (h p) in
  let q := if side =? 1 then n_left (h p) else n_right (h p) in
  if Nat.eqb q 0 then UB else
  obind (if n_bal (h q) =? 0 then
           Ret (set_bal (set_bal (del_single h side p q) q side) p (- side), q, false)
         else if n_bal (h q) =? n_bal (h p) then
           Ret (set_bal (set_bal (del_single h side p q) q 0) p 0, q, true)
         else obind (del_double h side p q) (fun '(h, r) => Ret (h, r, true))) (fun '(h, q, sh) =>
  Ret (if Nat.eqb (n_left (h top)) p then set_left h top q else set_right h top q, q, sh)).

Lemma set2_bal h q p bq bp : p <> q ->
  let h' := set_bal (set_bal h q bq) p bp in
  h' q = w_bal (h q) bq /\ h' p = w_bal (h p) bp /\
  (forall par t, cnt q t = 0%nat -> cnt p t = 0%nat -> rep h par t -> rep h' par t) /\
  (forall sent ch c, (cntc q c + one q sent = 0)%nat -> (cntc p c + one p sent = 0)%nat -> repc h sent ch c -> repc h' sent ch c) /\
  (forall x, x <> p -> x <> q -> h' x = h x).
Proof.
  intros NE h'. unfold h', set_bal. split; [rewrite upd_ne by congruence; apply upd_eq|]. split; [rewrite upd_eq, upd_ne by congruence; reflexivity|].
  split; [intros; apply rep_upd; auto; apply rep_upd; auto|]. split; [intros; apply repc_upd; auto; apply repc_upd; auto|].
  intros x X1 X2. rewrite upd_ne by exact X1. apply upd_ne, X2.
Qed.

Lemma rot_step_L h sent c A B r kr rr br C s ks rs :
  let X := N B r kr rr br C in
  let T := N A s ks rs 1 X in
  holds h sent (plug c T) -> uniq sent (plug c T) -> par sent c <> 0%nat ->
  balanced X -> balanced A -> height X = height A + 2 ->
  exists h' q sh T', rot_step h (-1) s = Ret (h', q, sh) /\ holds h' sent (plug c T') /\ root T' = q /\ q <> 0%nat /\
    moved T T' /\ balanced T' /\ height T' = height X + (if sh : bool then 0 else 1) /\
    outside h h' sent (plug c T).
Proof.
  intros X T H U PC BX BC HX.
  assert (UU : forall x, (cntc x c + one x sent + (cnt x B + one x r + cnt x C) + one x s + cnt x A <= 1)%nat).
  { intros x. specialize (U x). rewrite cnt_plug in U. cbn [cnt X T] in U. lia. }
  apply (holds_plug h sent c) in H. destruct H as (K & HR). cbn [root T] in K. cbn [rep X T root] in HR.
  destruct HR as (S0 & HS & RA & (R0 & HRr & RB & RC)).
  assert (NSR : s <> r) by (intros E; specialize (UU r); rewrite E, !one_refl in UU; lia).
  unfold rot_step. rewrite HS. cbn [n_parent n_left n_right n_bal]. change (-1 =? 1) with false. cbv iota zeta.
  apply Nat.eqb_neq in R0. rewrite R0. apply Nat.eqb_neq in R0. rewrite HRr. cbn [n_bal].
  cbn [balanced X] in BX. destruct BX as (BX1 & BX2 & BB & BCC). cbn [height X] in HX.
  pose proof (height_nonneg A). pose proof (height_nonneg B). pose proof (height_nonneg C).
  set (V := fun x => (cnt x A + cnt x B + cnt x C + one x s + one x r)%nat).
  assert (OUT : forall g h', out h g V -> (forall x, x <> par sent c -> h' x = g x) -> outside h h' sent (plug c T)).
  { intros g h' O LL x Hx Hs. rewrite cnt_plug in Hx. cbn [cnt X T] in Hx.
    rewrite LL; [apply O; unfold V; lia|].
    intros ->. destruct c; cbn [par] in Hs; [congruence|]. cbn [cntc par] in Hx. rewrite one_refl in Hx. lia. }
  assert (SINGLE : forall bq bp sh, (bq = height C - (1 + Z.max (height A) (height B)) /\ -1 <= bq <= 1 /\ bp = height B - height A /\ -1 <= bp <= 1 /\ 
      1 + Z.max (1 + Z.max (height A) (height B)) (height C) = height X + (if sh : bool then 0 else 1)) ->
    exists h' q0 sh0 T', obind (Ret (set_bal (set_bal (del_single h (-1) s r) r bq) s bp, r, sh)) (fun '(h, q, sh) =>
       Ret (if Nat.eqb (n_left (h (par sent c))) s then set_left h (par sent c) q else set_right h (par sent c) q, q, sh)) = Ret (h', q0, sh0) /\
      holds h' sent (plug c T') /\ root T' = q0 /\ q0 <> 0%nat /\ moved T T' /\ balanced T' /\ height T' = height X + (if sh0 : bool then 0 else 1) /\ outside h h' sent (plug c T)).
  { intros bq bp sh (Q1 & Q2 & Q3 & Q4 & Q5).
    destruct (del_single_L h h sent c A B C s r ks rs 1 kr rr br (par sent c) V) as (F1 & F2 & F3 & F4 & F5 & F6 & F7);
      [intros x; specialize (UU x); lia|intros x; unfold V; lia|exact HS|exact HRr|exact RA|exact RB|exact RC|exact K|intros x _; reflexivity|].
    set (g := del_single h (-1) s r) in *.
    destruct (set2_bal g r s bq bp NSR) as (G1 & G2 & G3 & G4 & G5). set (g2 := set_bal (set_bal g r bq) s bp) in *.
    rewrite F2 in G1. rewrite F1 in G2. cbn [w_bal n_key n_left n_right n_parent n_rank] in G1, G2.
    set (T' := N (N A s ks rs bp B) r kr ((rr + rs) mod R30) bq C).
    assert (UR := UU r). rewrite one_refl in UR. assert (US := UU s). rewrite one_refl in US.
    assert (ROT : rep g2 (par sent c) T').
    { cbn [rep T' root]. unfold w_bal in G1, G2. cbn [n_key n_left n_right n_parent n_rank] in G1, G2.
      split; [exact R0|]. split; [exact G1|]. split; [|apply G3; [lia|lia|exact F5]].
      split; [exact S0|]. split; [exact G2|]. split; apply G3; try lia; assumption. }
    destruct (link_del_ok g2 sent c s T') as (LH & LO & _);
      [apply G4; [lia|lia|exact F6]|exact S0|exact ROT|intros x; specialize (UU x); lia|intros x; specialize (UU x); cbn [cnt T']; lia|].
    cbn [obind]. eexists _, r, sh, T'. split; [reflexivity|]. split; [exact LH|]. split; [reflexivity|]. split; [exact R0|].
    split; [apply moved_singleR|]. split; [cbn [balanced height T']; repeat split; try assumption; lia|]. split; [cbn [height T']; lia|].
    apply (OUT g2); [|exact LO]. intros x Hx. rewrite G5; [apply F7, Hx| |]; intros ->; unfold V in Hx; rewrite one_refl in Hx; lia. }
  destruct (br =? 0) eqn:B0; [apply Z.eqb_eq in B0|apply Z.eqb_neq in B0].
  - apply (SINGLE (-1) (- -1) false). cbn [height X]. lia.
  - destruct (br =? 1) eqn:B1; [apply Z.eqb_eq in B1|apply Z.eqb_neq in B1].
    + apply (SINGLE 0 0 true). cbn [height X]. lia.
    + clear SINGLE. destruct B as [|B2 p kp rp bp C2]; [cbn [height] in *; lia|]. cbn [rep root] in RB, HRr. destruct RB as (P0 & HP & RB2 & RC2).
      cbn [cnt] in UU. cbn [balanced height] in BB. destruct BB as (BB1 & BB2 & BB3 & BB4).
      destruct (del_double_L h h sent c A B2 C2 C s r p ks rs 1 kr rr br kp rp bp (par sent c) V) as (h' & E & F1 & F2 & F3 & F4 & F5 & F6 & F7 & F8 & F9);
        [intros x; specialize (UU x); lia|intros x; unfold V; cbn [cnt]; lia|exact P0|exact HS|exact HRr|exact HP|exact RA|exact RB2|exact RC2|exact RC|exact K|intros x _; reflexivity|].
      rewrite E. cbn [obind].
      set (T' := N (N A s ks rs (snd (dbal (-1) bp)) B2) p kp ((rp + rs) mod R30) 0 (N C2 r kr ((rr - rp) mod R30) (fst (dbal (-1) bp)) C)).
      assert (ROT : rep h' (par sent c) T').
      { cbn [rep T' root]. split; [exact P0|]. split; [exact F3|]. split; [|split; [exact R0|]; split; [exact F1|]; split; assumption].
        split; [exact S0|]. split; [exact F2|]. split; assumption. }
      destruct (link_del_ok h' sent c s T') as (LH & LO & _);
        [exact F8|exact S0|exact ROT|intros x; specialize (UU x); lia|intros x; specialize (UU x); cbn [cnt T']; lia|].
      eexists _, p, true, T'. split; [reflexivity|]. split; [exact LH|]. split; [reflexivity|]. split; [exact P0|].
      split; [apply moved_doubleR|].
      cbn [height] in HX, BX1. pose proof (height_nonneg B2). pose proof (height_nonneg C2).
      assert (DB : dbal (-1) bp = (if bp =? -1 then (1, 0) else if bp =? 1 then (0, -1) else (0, 0))) by reflexivity.
      split.
      { unfold T'. rewrite DB. clear - BX1 BX2 HX BC BCC BB1 BB2 BB3 BB4 B0 B1 H H1 H2 H3.
        destruct (bp =? -1) eqn:D1; [apply Z.eqb_eq in D1|apply Z.eqb_neq in D1; destruct (bp =? 1) eqn:D2; [apply Z.eqb_eq in D2|apply Z.eqb_neq in D2]];
        cbn [balanced height fst snd]; repeat split; try assumption; lia. }
      split; [cbn [height X T']; clear - BX1 BX2 HX BB1 BB2 B0 B1; lia|]. apply (OUT h'); [exact F9|exact LO].
Qed.

Lemma rot_step_R h sent c A B r kr rr br C s ks rs :
  let X := N B r kr rr br C in
  let T := N X s ks rs (-1) A in
  holds h sent (plug c T) -> uniq sent (plug c T) -> par sent c <> 0%nat ->
  balanced X -> balanced A -> height X = height A + 2 ->
  exists h' q sh T', rot_step h 1 s = Ret (h', q, sh) /\ holds h' sent (plug c T') /\ root T' = q /\ q <> 0%nat /\
    moved T T' /\ balanced T' /\ height T' = height X + (if sh : bool then 0 else 1) /\
    outside h h' sent (plug c T).
Proof.
  intros X T H U PC BX BC HX.
  assert (UU : forall x, (cntc x c + one x sent + (cnt x B + one x r + cnt x C) + one x s + cnt x A <= 1)%nat).
  { intros x. specialize (U x). rewrite cnt_plug in U. cbn [cnt X T] in U. lia. }
  apply (holds_plug h sent c) in H. destruct H as (K & HR). cbn [root T] in K. cbn [rep X T root] in HR.
  destruct HR as (S0 & HS & (R0 & HRr & RB & RC) & RA).
  assert (NSR : s <> r) by (intros E; specialize (UU r); rewrite E, !one_refl in UU; lia).
  unfold rot_step. rewrite HS. cbn [n_parent n_left n_right n_bal]. change (1 =? 1) with true. cbv iota zeta.
  apply Nat.eqb_neq in R0. rewrite R0. apply Nat.eqb_neq in R0. rewrite HRr. cbn [n_bal].
  cbn [balanced X] in BX. destruct BX as (BX1 & BX2 & BB & BCC). cbn [height X] in HX.
  pose proof (height_nonneg A). pose proof (height_nonneg B). pose proof (height_nonneg C).
  set (V := fun x => (cnt x A + cnt x B + cnt x C + one x s + one x r)%nat).
  assert (OUT : forall g h', out h g V -> (forall x, x <> par sent c -> h' x = g x) -> outside h h' sent (plug c T)).
  { intros g h' O LL x Hx Hs. rewrite cnt_plug in Hx. cbn [cnt X T] in Hx.
    rewrite LL; [apply O; unfold V; lia|].
    intros ->. destruct c; cbn [par] in Hs; [congruence|]. cbn [cntc par] in Hx. rewrite one_refl in Hx. lia. }
  assert (SINGLE : forall bq bp sh, (bq = (1 + Z.max (height C) (height A)) - height B /\ -1 <= bq <= 1 /\ bp = height A - height C /\ -1 <= bp <= 1 /\ 
      1 + Z.max (height B) (1 + Z.max (height C) (height A)) = height X + (if sh : bool then 0 else 1)) ->
    exists h' q0 sh0 T', obind (Ret (set_bal (set_bal (del_single h 1 s r) r bq) s bp, r, sh)) (fun '(h, q, sh) =>
       Ret (if Nat.eqb (n_left (h (par sent c))) s then set_left h (par sent c) q else set_right h (par sent c) q, q, sh)) = Ret (h', q0, sh0) /\
      holds h' sent (plug c T') /\ root T' = q0 /\ q0 <> 0%nat /\ moved T T' /\ balanced T' /\ height T' = height X + (if sh0 : bool then 0 else 1) /\ outside h h' sent (plug c T)).
  { intros bq bp sh (Q1 & Q2 & Q3 & Q4 & Q5).
    destruct (del_single_R h h sent c B C A s r ks rs (-1) kr rr br (par sent c) V) as (F1 & F2 & F3 & F4 & F5 & F6 & F7);
      [intros x; specialize (UU x); lia|intros x; unfold V; lia|exact HS|exact HRr|exact RB|exact RC|exact RA|exact K|intros x _; reflexivity|].
    set (g := del_single h 1 s r) in *.
    destruct (set2_bal g r s bq bp NSR) as (G1 & G2 & G3 & G4 & G5). set (g2 := set_bal (set_bal g r bq) s bp) in *.
    rewrite F2 in G1. rewrite F1 in G2. cbn [w_bal n_key n_left n_right n_parent n_rank] in G1, G2.
    set (T' := N B r kr rr bq (N C s ks ((rs - rr) mod R30) bp A)).
    assert (UR := UU r). rewrite one_refl in UR. assert (US := UU s). rewrite one_refl in US.
    assert (ROT : rep g2 (par sent c) T').
    { cbn [rep T' root]. unfold w_bal in G1, G2. cbn [n_key n_left n_right n_parent n_rank] in G1, G2.
      split; [exact R0|]. split; [exact G1|]. split; [apply G3; [lia|lia|exact F3]|].
      split; [exact S0|]. split; [exact G2|]. split; apply G3; try lia; assumption. }
    destruct (link_del_ok g2 sent c s T') as (LH & LO & _);
      [apply G4; [lia|lia|exact F6]|exact S0|exact ROT|intros x; specialize (UU x); lia|intros x; specialize (UU x); cbn [cnt T']; lia|].
    cbn [obind]. eexists _, r, sh, T'. split; [reflexivity|]. split; [exact LH|]. split; [reflexivity|]. split; [exact R0|].
    split; [apply moved_singleL|]. split; [cbn [balanced height T']; repeat split; try assumption; lia|]. split; [cbn [height T']; lia|].
    apply (OUT g2); [|exact LO]. intros x Hx. rewrite G5; [apply F7, Hx| |]; intros ->; unfold V in Hx; rewrite one_refl in Hx; lia. }
  change (Z.opp 1) with (-1).
  destruct (br =? 0) eqn:B0; [apply Z.eqb_eq in B0|apply Z.eqb_neq in B0].
  - apply (SINGLE 1 (-1) false). cbn [height X]. lia.
  - destruct (br =? -1) eqn:B1; [apply Z.eqb_eq in B1|apply Z.eqb_neq in B1].
    + apply (SINGLE 0 0 true). cbn [height X]. lia.
    + clear SINGLE. destruct C as [|B2 p kp rp bp C2]; [cbn [height] in *; lia|]. cbn [rep root] in RC, HRr. destruct RC as (P0 & HP & RB2 & RC2).
      cbn [cnt] in UU. cbn [balanced height] in BCC. destruct BCC as (BB1 & BB2 & BB3 & BB4).
      destruct (del_double_R h h sent c B B2 C2 A s r p ks rs (-1) kr rr br kp rp bp (par sent c) V) as (h' & E & F1 & F2 & F3 & F4 & F5 & F6 & F7 & F8 & F9);
        [intros x; specialize (UU x); lia|intros x; unfold V; cbn [cnt]; lia|exact P0|exact HS|exact HRr|exact HP|exact RB|exact RB2|exact RC2|exact RA|exact K|intros x _; reflexivity|].
      rewrite E. cbn [obind].
      set (T' := N (N B r kr rr (fst (dbal 1 bp)) B2) p kp ((rp + rr) mod R30) 0 (N C2 s ks ((rs - (rp + rr) mod R30) mod R30) (snd (dbal 1 bp)) A)).
      assert (ROT : rep h' (par sent c) T').
      { cbn [rep T' root]. split; [exact P0|]. split; [exact F3|]. split; [|split; [exact S0|]; split; [exact F2|]; split; assumption].
        split; [exact R0|]. split; [exact F1|]. split; assumption. }
      destruct (link_del_ok h' sent c s T') as (LH & LO & _);
        [exact F8|exact S0|exact ROT|intros x; specialize (UU x); lia|intros x; specialize (UU x); cbn [cnt T']; lia|].
      eexists _, p, true, T'. split; [reflexivity|]. split; [exact LH|]. split; [reflexivity|]. split; [exact P0|].
      split; [apply moved_doubleL|].
      cbn [height] in HX, BX1. pose proof (height_nonneg B2). pose proof (height_nonneg C2).
      assert (DB : dbal 1 bp = (if bp =? 1 then (-1, 0) else if bp =? -1 then (0, 1) else (0, 0))) by reflexivity.
      split.
      { unfold T'. rewrite DB. clear - BX1 BX2 HX BC BB BB1 BB2 BB3 BB4 B0 B1 H H0 H2 H3.
        destruct (bp =? 1) eqn:D1; [apply Z.eqb_eq in D1|apply Z.eqb_neq in D1; destruct (bp =? -1) eqn:D2; [apply Z.eqb_eq in D2|apply Z.eqb_neq in D2]];
        cbn [balanced height fst snd]; repeat split; try assumption; lia. }
      split; [cbn [height X T']; clear - BX1 BX2 HX BB1 BB2 B0 B1; lia|]. apply (OUT h'); [exact F9|exact LO].
Qed.
