(* Rebalancing after an insertion. *)
From Verif Require Import Base AvlModel AvlSpec AvlRep AvlIns AvlRot AvlFun.
Ltac Zify.zify_post_hook ::= idtac.

Lemma moved_plug c t t' : moved t t' -> moved (plug c t) (plug c t').
Proof.
  intros (M1 & M2 & M3 & M4). split; [rewrite !keys_plug, M1; reflexivity|]. split; [intros x; rewrite !cnt_plug, M2; reflexivity|].
  split; [rewrite !size_plug, M3; reflexivity|]. intros R S. apply ranked_plug in R. destruct R as (R1 & R2). apply ranked_plug.
  rewrite M3. split; [|exact R2]. apply M4; [exact R1|]. rewrite size_plug in S. pose proof (sizec_nonneg c). lia.
Qed.
Lemma moved_trans a b c : moved a b -> moved b c -> moved a c.
Proof.
  intros (M1 & M2 & M3 & M4) (N1 & N2 & N3 & N4). split; [congruence|]. split; [intros x; rewrite N2; apply M2|].
  split; [congruence|]. intros R S. apply N4; [apply M4; assumption|]. rewrite M3. exact S.
Qed.
Lemma moved_bal l a k rk b b' r : moved (N l a k rk b r) (N l a k rk b' r).
Proof. repeat split; auto; cbn [ranked] in *; tauto. Qed.

Lemma repc_upd' h a n sent ch c : (cntc a c + one a sent = 0)%nat -> repc h sent ch c -> repc (upd h a n) sent ch c.
Proof. apply repc_upd. Qed.

(* the hole of the context gets a child *)
Lemma fill_hole h sent c q : repc h sent 0 c -> q <> 0%nat -> (forall x, cntc x c + one x sent + one x q <= 1)%nat -> c <> [] ->
  exists n, (if match c with FL _ _ _ _ _ :: _ => true | _ => false end then set_left h (par sent c) q else set_right h (par sent c) q) = upd h (par sent c) n /\
    repc (upd h (par sent c) n) sent q c.
Proof.
  intros R Q0 U NE. destruct c as [|[a k rk b r|l a k rk b] c]; cbn [par faddr repc] in *; [contradiction| |].
  - destruct R as (R0 & R1 & R2 & R3). eexists. split; [reflexivity|]. rewrite R1.
    assert (UA := U a). cbn [cntc fsib faddr] in UA. rewrite one_refl in UA.
    split; [exact R0|]. split; [rewrite upd_eq; reflexivity|]. split; [apply rep_upd; [lia|exact R2]|apply repc_upd; [lia|exact R3]].
  - destruct R as (R0 & R1 & R2 & R3). eexists. split; [reflexivity|]. rewrite R1.
    assert (UA := U a). cbn [cntc fsib faddr] in UA. rewrite one_refl in UA.
    split; [exact R0|]. split; [rewrite upd_eq; reflexivity|]. split; [apply rep_upd; [lia|exact R2]|apply repc_upd; [lia|exact R3]].
Qed.

(* ins_link after the rotation *)
Lemma ins_link_ok h sent c s p k l r rk b pp : repc h sent s c -> s <> 0%nat -> p <> 0%nat ->
  (forall x, cntc x c + one x sent + one x s <= 1)%nat -> (forall x, cntc x c + one x sent + cnt x (N l p k rk b r) <= 1)%nat ->
  h p = mkN k (root l) (root r) pp rk b -> rep h p l -> rep h p r ->
  holds (ins_link h (par sent c) s p) sent (plug c (N l p k rk b r)) /\
  (forall x, x <> par sent c -> x <> p -> ins_link h (par sent c) s p x = h x).
Proof.
  intros K S0 P0 U U2 HP RL RR. unfold ins_link.
  destruct (link_ins h sent c s p K S0 U) as (n & -> & K1). set (h1 := upd h (par sent c) n) in *.
  assert (NP : p <> par sent c).
  { intros ->. specialize (U2 (par sent c)). cbn [cnt] in U2. rewrite one_refl in U2. destruct c; cbn [par cntc] in U2; rewrite one_refl in U2; lia. }
  assert (HP1 : h1 p = mkN k (root l) (root r) pp rk b) by (unfold h1; rewrite upd_ne by exact NP; exact HP).
  assert (CP : forall t, (forall x, cntc x c + one x sent + cnt x t <= 1)%nat -> cnt (par sent c) t = 0%nat).
  { intros t Ut. specialize (Ut (par sent c)). destruct c; cbn [par cntc] in Ut; rewrite one_refl in Ut; cbn [par]; lia. }
  assert (CL : cnt (par sent c) l = 0%nat) by (apply CP; intros x; specialize (U2 x); cbn [cnt] in U2; lia).
  assert (CR : cnt (par sent c) r = 0%nat) by (apply CP; intros x; specialize (U2 x); cbn [cnt] in U2; lia).
  assert (RL1 : rep h1 p l) by (apply rep_upd; assumption).
  assert (RR1 : rep h1 p r) by (apply rep_upd; assumption).
  assert (UP := U2 p). cbn [cnt] in UP. rewrite one_refl in UP.
  split.
  - apply (holds_plug _ sent c). split.
    + unfold set_parent. apply repc_upd; [lia|exact K1].
    + cbn [rep]. split; [exact P0|]. unfold set_parent. split; [rewrite upd_eq, HP1; reflexivity|].
      split; apply rep_upd; auto; lia.
  - intros x X1 X2. unfold set_parent. rewrite upd_ne by exact X2. apply upd_ne, X1.
Qed.

Definition setb (f : frame) (b : Z) : frame :=
  match f with FL a k rk _ r => FL a k rk b r | FR l a k rk _ => FR l a k rk b end.

(* rotations at an over-heavy s *)
Lemma rebalance_L q0 h sent c A r kr rr br B s ks rs C :
  let X := N A r kr rr br B in
  holds h sent (plug c (N X s ks rs (-1) C)) -> uniq sent (plug c (N X s ks rs (-1) C)) ->
  balanced X -> balanced C -> height X = height C + 2 -> br <> 0 ->
  exists h' p T', (if n_bal (h r) =? -1 then Ret (ins_single h (-1) s r, r) else if n_bal (h r) =? - -1 then ins_double h (-1) s r else Ret (h, q0)) = Ret (h', p) /\
    holds (ins_link h' (par sent c) s p) sent (plug c T') /\ moved (N X s ks rs (-1) C) T' /\ balanced T' /\ height T' = height X /\
    outside h (ins_link h' (par sent c) s p) sent (plug c (N X s ks rs (-1) C)) /\
    n_bal (h r) =? 0 = false.
Proof.
  intros X H U BX BC HX NB. 
  assert (UU : forall x, (cntc x c + one x sent + (cnt x A + one x r + cnt x B) + one x s + cnt x C <= 1)%nat).
  { intros x. specialize (U x). rewrite cnt_plug in U. cbn [cnt X] in U. lia. }
  apply (holds_plug h sent c) in H. destruct H as (K & HR). cbn [root] in K. cbn [rep X root] in HR.
  destruct HR as (S0 & HS & (R0 & HRr & RA & RB) & RC).
  rewrite HRr. cbn [n_bal]. cbn [balanced X] in BX. destruct BX as (BX1 & BX2 & BA & BB). cbn [height X] in HX.
  pose proof (height_nonneg A). pose proof (height_nonneg B). pose proof (height_nonneg C).
  set (V := fun x => (cnt x A + cnt x B + cnt x C + one x s + one x r)%nat).
  assert (OUT : forall h', out h h' V -> forall p T, (forall x, cnt x T = cnt x (N X s ks rs (-1) C)) -> (1 <= V p)%nat ->
     (forall x, x <> par sent c -> x <> p -> ins_link h' (par sent c) s p x = h' x) ->
     outside h (ins_link h' (par sent c) s p) sent (plug c (N X s ks rs (-1) C))).
  { intros h' O p T ET VP L x Hx Hs. rewrite cnt_plug in Hx. cbn [cnt X] in Hx.
    assert (VX : V x = 0%nat) by (unfold V; lia).
    rewrite L; [apply O, VX| |].
    - intros ->. destruct c; cbn [par] in Hs; [congruence|]. cbn [cntc par] in Hx. rewrite one_refl in Hx. lia.
    - intros ->. lia. }
  destruct (br =? -1) eqn:B1.
  - apply Z.eqb_eq in B1. 
    destruct (ins_single_L h h sent c A B C s r ks rs (-1) kr rr br (par sent c) V) as (F1 & F2 & F3 & F4 & F5 & F6 & F7);
      [intros x; specialize (UU x); lia|intros x; unfold V; lia|exact HS|exact HRr|exact RA|exact RB|exact RC|exact K|intros x _; reflexivity|].
    set (h' := ins_single h (-1) s r) in *.
    destruct (ins_link_ok h' sent c s r kr A (N B s ks ((rs - rr) mod R30) 0 C) rr 0 s) as (LH & LO);
      [exact F6|exact S0|exact R0|intros x; specialize (UU x); lia|intros x; specialize (UU x); cbn [cnt]; lia|exact F2|exact F3| |].
    { cbn [rep]. split; [exact S0|]. split; [exact F1|]. split; assumption. }
    exists h', r, (N A r kr rr 0 (N B s ks ((rs - rr) mod R30) 0 C)). split; [reflexivity|]. split; [exact LH|].
    split; [apply moved_singleL|]. split; [cbn [balanced height]; repeat split; try assumption; lia|].
    split; [cbn [height X]; lia|]. split; [|apply Z.eqb_neq; exact NB].
    eapply OUT; [exact F7|intros; reflexivity|unfold V; rewrite one_refl; lia|exact LO].
  - apply Z.eqb_neq in B1. replace (br =? - -1) with true by (symmetry; apply Z.eqb_eq; lia).
    destruct B as [|B2 p kp rp bp C2]; [cbn [height] in *; lia|]. cbn [rep root] in RB, HRr. destruct RB as (P0 & HP & RB2 & RC2).
    cbn [cnt] in UU. cbn [balanced height] in BB. destruct BB as (BB1 & BB2 & BB3 & BB4).
    destruct (ins_double_L h h sent c A B2 C2 C s r p ks rs (-1) kr rr br kp rp bp (par sent c) V) as (h' & E & F1 & F2 & F3 & F4 & F5 & F6 & F7 & F8 & F9);
      [intros x; specialize (UU x); lia|intros x; unfold V; cbn [cnt]; lia|exact P0|exact HS|exact HRr|exact HP|exact RA|exact RB2|exact RC2|exact RC|exact K|intros x _; reflexivity|].
    set (rp' := (rp + rr) mod R30) in *. set (rs' := (rs - rp') mod R30) in *.
    destruct (ins_link_ok h' sent c s p kp (N A r kr rr (snd (dbal (-1) bp)) B2) (N C2 s ks rs' (fst (dbal (-1) bp)) C) rp' 0 r) as (LH & LO);
      [exact F8|exact S0|exact P0|intros x; specialize (UU x); lia|intros x; specialize (UU x); cbn [cnt]; lia|exact F3| | |].
    { cbn [rep]. split; [exact R0|]. split; [exact F1|]. split; assumption. }
    { cbn [rep]. split; [exact S0|]. split; [exact F2|]. split; assumption. }
    exists h', p, (N (N A r kr rr (snd (dbal (-1) bp)) B2) p kp rp' 0 (N C2 s ks rs' (fst (dbal (-1) bp)) C)). split; [exact E|]. split; [exact LH|].
    split; [apply moved_doubleL|].
    cbn [height] in HX, BX1. pose proof (height_nonneg B2). pose proof (height_nonneg C2).
    assert (DB : dbal (-1) bp = (if bp =? -1 then (1, 0) else if bp =? 1 then (0, -1) else (0, 0))) by reflexivity.
    split.
    { rewrite DB. clear - BX1 BX2 HX BC BA BB1 BB2 BB3 BB4 NB B1. assert (E1 : height A = height C) by lia. assert (E2 : Z.max (height B2) (height C2) = height C) by lia. clear HX BX1 NB B1 BX2. destruct (bp =? -1) eqn:D1; [apply Z.eqb_eq in D1|apply Z.eqb_neq in D1; destruct (bp =? 1) eqn:D2; [apply Z.eqb_eq in D2|apply Z.eqb_neq in D2]];
        cbn [balanced height fst snd]; repeat split; try assumption; lia. }
    split; [cbn [height X]; clear - BX1 BX2 HX BB1 BB2 NB B1; lia|]. split; [|apply Z.eqb_neq; exact NB].
    eapply OUT; [exact F9|intros; reflexivity|unfold V; cbn [cnt]; rewrite one_refl; lia|exact LO].
Qed.
Lemma rebalance_R q0 h sent c A r kr rr br B s ks rs C :
  let X := N A r kr rr br B in
  holds h sent (plug c (N C s ks rs 1 X)) -> uniq sent (plug c (N C s ks rs 1 X)) ->
  balanced X -> balanced C -> height X = height C + 2 -> br <> 0 ->
  exists h' p T', (if n_bal (h r) =? 1 then Ret (ins_single h 1 s r, r) else if n_bal (h r) =? - 1 then ins_double h 1 s r else Ret (h, q0)) = Ret (h', p) /\
    holds (ins_link h' (par sent c) s p) sent (plug c T') /\ moved (N C s ks rs 1 X) T' /\ balanced T' /\ height T' = height X /\
    outside h (ins_link h' (par sent c) s p) sent (plug c (N C s ks rs 1 X)) /\
    n_bal (h r) =? 0 = false.
Proof.
  intros X H U BX BC HX NB. 
  assert (UU : forall x, (cntc x c + one x sent + (cnt x A + one x r + cnt x B) + one x s + cnt x C <= 1)%nat).
  { intros x. specialize (U x). rewrite cnt_plug in U. cbn [cnt X] in U. lia. }
  apply (holds_plug h sent c) in H. destruct H as (K & HR). cbn [root] in K. cbn [rep X root] in HR.
  destruct HR as (S0 & HS & RC & (R0 & HRr & RA & RB)).
  rewrite HRr. cbn [n_bal]. cbn [balanced X] in BX. destruct BX as (BX1 & BX2 & BA & BB). cbn [height X] in HX.
  pose proof (height_nonneg A). pose proof (height_nonneg B). pose proof (height_nonneg C).
  set (V := fun x => (cnt x A + cnt x B + cnt x C + one x s + one x r)%nat).
  assert (OUT : forall h', out h h' V -> forall p, (1 <= V p)%nat ->
     (forall x, x <> par sent c -> x <> p -> ins_link h' (par sent c) s p x = h' x) ->
     outside h (ins_link h' (par sent c) s p) sent (plug c (N C s ks rs 1 X))).
  { intros h' O p VP L x Hx Hs. rewrite cnt_plug in Hx. cbn [cnt X] in Hx.
    assert (VX : V x = 0%nat) by (unfold V; lia).
    rewrite L; [apply O, VX| |].
    - intros ->. destruct c; cbn [par] in Hs; [congruence|]. cbn [cntc par] in Hx. rewrite one_refl in Hx. lia.
    - intros ->. lia. }
  destruct (br =? 1) eqn:B1.
  - apply Z.eqb_eq in B1. 
    destruct (ins_single_R h h sent c C A B s r ks rs 1 kr rr br (par sent c) V) as (F1 & F2 & F3 & F4 & F5 & F6 & F7);
      [intros x; specialize (UU x); lia|intros x; unfold V; lia|exact HS|exact HRr|exact RC|exact RA|exact RB|exact K|intros x _; reflexivity|].
    set (h' := ins_single h 1 s r) in *.
    destruct (ins_link_ok h' sent c s r kr (N C s ks rs 0 A) B ((rr + rs) mod R30) 0 s) as (LH & LO);
      [exact F6|exact S0|exact R0|intros x; specialize (UU x); lia|intros x; specialize (UU x); cbn [cnt]; lia|exact F2| |exact F5|].
    { cbn [rep]. split; [exact S0|]. split; [exact F1|]. split; assumption. }
    exists h', r, (N (N C s ks rs 0 A) r kr ((rr + rs) mod R30) 0 B). split; [reflexivity|]. split; [exact LH|].
    split; [apply moved_singleR|]. split; [cbn [balanced height]; repeat split; try assumption; lia|].
    split; [cbn [height X]; lia|]. split; [|apply Z.eqb_neq; exact NB].
    eapply OUT; [exact F7|unfold V; rewrite one_refl; lia|exact LO].
  - apply Z.eqb_neq in B1. replace (br =? - 1) with true by (symmetry; apply Z.eqb_eq; lia).
    destruct A as [|B2 p kp rp bp C2]; [cbn [height] in *; lia|]. cbn [rep root] in RA, HRr. destruct RA as (P0 & HP & RB2 & RC2).
    cbn [cnt] in UU. cbn [balanced height] in BA. destruct BA as (BB1 & BB2 & BB3 & BB4).
    destruct (ins_double_R h h sent c C B2 C2 B s r p ks rs 1 kr rr br kp rp bp (par sent c) V) as (h' & E & F1 & F2 & F3 & F4 & F5 & F6 & F7 & F8 & F9);
      [intros x; specialize (UU x); lia|intros x; unfold V; cbn [cnt]; lia|exact P0|exact HS|exact HRr|exact HP|exact RC|exact RB2|exact RC2|exact RB|exact K|intros x _; reflexivity|].
    set (rp' := (rp + rs) mod R30) in *. set (rr' := (rr - rp) mod R30) in *.
    destruct (ins_link_ok h' sent c s p kp (N C s ks rs (fst (dbal 1 bp)) B2) (N C2 r kr rr' (snd (dbal 1 bp)) B) rp' 0 r) as (LH & LO);
      [exact F8|exact S0|exact P0|intros x; specialize (UU x); lia|intros x; specialize (UU x); cbn [cnt]; lia|exact F3| | |].
    { cbn [rep]. split; [exact S0|]. split; [exact F2|]. split; assumption. }
    { cbn [rep]. split; [exact R0|]. split; [exact F1|]. split; assumption. }
    exists h', p, (N (N C s ks rs (fst (dbal 1 bp)) B2) p kp rp' 0 (N C2 r kr rr' (snd (dbal 1 bp)) B)). split; [exact E|]. split; [exact LH|].
    split; [apply moved_doubleR|].
    cbn [height] in HX, BX1. pose proof (height_nonneg B2). pose proof (height_nonneg C2).
    assert (DB : dbal 1 bp = (if bp =? 1 then (-1, 0) else if bp =? -1 then (0, 1) else (0, 0))) by reflexivity.
    split.
    { rewrite DB. clear - BX1 BX2 HX BC BB BB1 BB2 BB3 BB4 NB B1. assert (E1 : height B = height C) by lia. assert (E2 : Z.max (height B2) (height C2) = height C) by lia. clear HX BX1 NB B1 BX2. destruct (bp =? 1) eqn:D1; [apply Z.eqb_eq in D1|apply Z.eqb_neq in D1; destruct (bp =? -1) eqn:D2; [apply Z.eqb_eq in D2|apply Z.eqb_neq in D2]];
        cbn [balanced height fst snd]; repeat split; try assumption; lia. }
    split; [cbn [height X]; clear - BX1 BX2 HX BB1 BB2 NB B1; lia|]. split; [|apply Z.eqb_neq; exact NB].
    eapply OUT; [exact F9|unfold V; cbn [cnt]; rewrite one_refl; lia|exact LO].
Qed.

