(* Facts about trees only: order, balance, ranks. *)
From Verif Require Import Base AvlModel AvlSpec AvlRep AvlIns.
Ltac Zify.zify_post_hook ::= idtac.

(* ---------- order ---------- *)
Section ORD.
Variable cmp : Z -> Z -> Z.
Hypothesis P : preorder cmp.

Lemma cmp_gt_le a b : cmp a b <= 0 <-> ~ cmp a b > 0.
Proof. lia. Qed.
Lemma cmp_flip a b : cmp a b <= 0 <-> cmp b a >= 0.
Proof. destruct P as (PA & _). specialize (PA b a). lia. Qed.
Lemma cmp_refl a : cmp a a = 0.
Proof. destruct P as (PA & _). specialize (PA a a). lia. Qed.
Lemma cmp_zero_flip a b : cmp a b = 0 -> cmp b a = 0.
Proof. intros H. destruct P as (PA & _). pose proof (PA a b). pose proof (PA b a). lia. Qed.
Lemma cmp_trans a b c : cmp a b <= 0 -> cmp b c <= 0 -> cmp a c <= 0.
Proof. apply P. Qed.
Lemma cmp_lt_trans a b c : cmp a b > 0 -> cmp c b <= 0 -> cmp a c > 0.
Proof. intros H1 H2. destruct (Z_le_gt_dec (cmp a c) 0) as [H|H]; [|exact H]. pose proof (cmp_trans _ _ _ H H2). lia. Qed.

Lemma sorted_app a b : sorted cmp (a ++ b) <-> sorted cmp a /\ sorted cmp b /\ (forall x y, In x a -> In y b -> cmp x y <= 0).
Proof.
  unfold sorted. induction a as [|x a IH]; cbn [app].
  - split; [intros H; split; [constructor|]; split; [exact H|contradiction]|tauto].
  - split.
    + intros H. inversion_clear H as [|? ? H1 H2]. apply IH in H1. destruct H1 as (A1 & A2 & A3). apply Forall_app in H2. destruct H2 as (F1 & F2).
      split; [constructor; assumption|]. split; [exact A2|]. intros y z [<-|Hy] Hz; [apply (proj1 (Forall_forall _ _) F2 z Hz)|auto].
    + intros (A1 & A2 & A3). inversion_clear A1 as [|? ? H1 H2]. constructor.
      * apply IH. split; [exact H1|]. split; [exact A2|]. intros y z Hy Hz. apply A3; [right; exact Hy|exact Hz].
      * apply Forall_app. split; [exact H2|]. apply Forall_forall. intros z Hz. apply A3; [left; reflexivity|exact Hz].
Qed.
Lemma sorted_cons x l : sorted cmp (x :: l) <-> sorted cmp l /\ (forall y, In y l -> cmp x y <= 0).
Proof.
  unfold sorted. split.
  - intros H. inversion_clear H as [|? ? H1 H2]. split; [exact H1|]. intros y Hy. exact (proj1 (Forall_forall _ _) H2 y Hy).
  - intros (H1 & H2). constructor; [exact H1|]. apply Forall_forall. exact H2.
Qed.

Lemma towards_split k c : forall t, sorted cmp (keys (plug c t)) -> Forall (towards cmp k) c ->
  (forall x, In x (keysL c) -> cmp k x > 0) /\ (forall x, In x (keysR c) -> cmp k x <= 0).
Proof.
  induction c as [|[a key rk b r|l a key rk b] c IH]; intros t S T.
  - split; contradiction.
  - inversion_clear T as [|? ? TF TC]. destruct (IH _ S TC) as (I1 & I2). cbn [keysL keysR]. split; [exact I1|].
    unfold towards in TF. cbn [fkey fdir] in TF. change (-1 =? -1) with true in TF. apply Z.ltb_lt in TF.
    intros x Hx. destruct Hx as [<-|Hx]; [lia|]. apply in_app_or in Hx. destruct Hx as [Hx|Hx]; [|auto].
    apply (cmp_trans k key x); [lia|]. cbn [plug plug1] in S. rewrite keys_plug in S. apply sorted_app in S. destruct S as (_ & S & _).
    apply sorted_app in S. destruct S as (S & _ & _). cbn [keys] in S. apply sorted_app in S. destruct S as (_ & S & _).
    apply sorted_cons in S. destruct S as (_ & S). apply S, Hx.
  - inversion_clear T as [|? ? TF TC]. destruct (IH _ S TC) as (I1 & I2). cbn [keysL keysR]. split; [|exact I2].
    unfold towards in TF. cbn [fkey fdir] in TF. change (1 =? -1) with false in TF. apply Z.ltb_ge in TF.
    intros x Hx. apply in_app_or in Hx. destruct Hx as [Hx|Hx]; [auto|]. apply in_app_or in Hx. destruct Hx as [Hx|[<-|[]]]; [|lia].
    apply (cmp_lt_trans k key x); [lia|]. cbn [plug plug1] in S. rewrite keys_plug in S. apply sorted_app in S. destruct S as (_ & S & _).
    apply sorted_app in S. destruct S as (S & _ & _). cbn [keys] in S. apply sorted_app in S. destruct S as (_ & _ & S).
    apply S; [exact Hx|left; reflexivity].
Qed.

Lemma ins_sorted_app k a b : (forall x, In x a -> cmp k x > 0) -> (forall x, In x b -> cmp k x <= 0) ->
  ins_sorted cmp k (a ++ b) = a ++ k :: b.
Proof.
  intros HA HB. induction a as [|x a IH]; cbn [app ins_sorted].
  - destruct b as [|y b]; [reflexivity|]. cbn [ins_sorted]. replace (cmp k y <=? 0) with true; [reflexivity|].
    symmetry. apply Z.leb_le. apply HB. left. reflexivity.
  - replace (cmp k x <=? 0) with false.
    2:{ symmetry. apply Z.leb_gt. specialize (HA x (or_introl eq_refl)). lia. }
    rewrite IH; [reflexivity|]. intros y Hy. apply HA. right. exact Hy.
Qed.
Lemma ins_sorted_in k l x : In x (ins_sorted cmp k l) <-> x = k \/ In x l.
Proof.
  induction l as [|y l IH]; cbn [ins_sorted].
  - cbn. intuition.
  - destruct (cmp k y <=? 0); cbn [In]; [intuition|]. rewrite IH. intuition.
Qed.
Lemma ins_sorted_sorted k l : sorted cmp l -> sorted cmp (ins_sorted cmp k l).
Proof.
  induction l as [|y l IH]; intros S; cbn [ins_sorted].
  - apply sorted_cons. split; [exact S|contradiction].
  - destruct (cmp k y <=? 0) eqn:C.
    + apply Z.leb_le in C. apply sorted_cons. split; [exact S|]. apply sorted_cons in S. destruct S as (_ & S).
      intros z [<-|Hz]; [exact C|]. apply (cmp_trans k y z); auto.
    + apply Z.leb_gt in C. apply sorted_cons in S. destruct S as (S1 & S2). apply sorted_cons. split; [apply IH, S1|].
      intros z Hz. apply ins_sorted_in in Hz. destruct Hz as [->|Hz]; [|auto]. apply cmp_flip. lia.
Qed.
Lemma ins_sorted_length k l : length (ins_sorted cmp k l) = S (length l).
Proof. induction l as [|y l IH]; cbn [ins_sorted]; [reflexivity|]. destruct (cmp k y <=? 0); cbn [length]; [reflexivity|]. rewrite IH. reflexivity. Qed.
End ORD.

Notation leanc := (map lean).
(* ---------- ranks ---------- *)
Fixpoint rankedc (n : Z) (c : ctx) : Prop :=
  match c with
  | [] => True
  | FL _ _ rk _ r :: c => rk = n + 1 /\ ranked r /\ rankedc (n + 1 + size r) c
  | FR l _ _ rk _ :: c => rk = size l + 1 /\ ranked l /\ rankedc (size l + 1 + n) c
  end.
Lemma ranked_plug c : forall t, ranked (plug c t) <-> ranked t /\ rankedc (size t) c.
Proof.
  induction c as [|[a k rk b r|l a k rk b] c IH]; intros t; cbn [plug plug1 rankedc]; [tauto| |];
    rewrite IH; cbn [ranked size]; tauto.
Qed.
Lemma sizec_nonneg c : 0 <= sizec c.
Proof. induction c as [|f c IH]; cbn [sizec]; [lia|]. pose proof (size_nonneg (fsib f)). lia. Qed.
Lemma bump_ranked c : forall n, 0 <= n -> n + sizec c + 1 < R30 -> rankedc n c -> rankedc (n + 1) (bumpc c).
Proof.
  induction c as [|[a k rk b r|l a k rk b] c IH]; intros n N0 NB R; cbn [map bump rankedc] in *; [exact I| |]; cbn [sizec fsib] in NB;
    pose proof (sizec_nonneg c).
  - pose proof (size_nonneg r). destruct R as (R1 & R2 & R3). split; [rewrite R1; apply Z.mod_small; lia|]. split; [exact R2|].
    replace (n + 1 + 1 + size r) with (n + 1 + size r + 1) by lia. apply IH; [lia|lia|exact R3].
  - pose proof (size_nonneg l). destruct R as (R1 & R2 & R3). split; [exact R1|]. split; [exact R2|].
    replace (size l + 1 + (n + 1)) with (size l + 1 + n + 1) by lia. apply IH; [lia|lia|exact R3].
Qed.
Lemma lean_ranked c : forall n, rankedc n (leanc c) <-> rankedc n c.
Proof. induction c as [|[a k rk b r|l a k rk b] c IH]; intros n; cbn [map lean rankedc]; [tauto| |]; rewrite IH; tauto. Qed.
Lemma sizec_bump c : sizec (bumpc c) = sizec c.
Proof. induction c as [|f c IH]; [reflexivity|]. cbn [map sizec]. destruct (bump_same f) as (_ & _ & _ & _ & ->). rewrite IH. reflexivity. Qed.
Lemma sizec_lean c : sizec (leanc c) = sizec c.
Proof. induction c as [|f c IH]; [reflexivity|]. cbn [map sizec]. rewrite IH. destruct f; reflexivity. Qed.
Lemma keys_bump c t : keys (plug (bumpc c) t) = keys (plug c t).
Proof. revert t. induction c as [|[a k rk b r|l a k rk b] c IH]; intros t; [reflexivity| |]; cbn [map bump plug plug1]; rewrite (keys_plug (bumpc c)), (keys_plug c);
  specialize (IH L); rewrite !keys_plug in IH; cbn [keys app] in *.
  all: assert (EL : keysL (bumpc c) = keysL c) by (clear; induction c as [|[? ? ? ? ?|? ? ? ? ?] c IH]; cbn [map bump keysL]; rewrite ?IH; reflexivity);
       assert (ER : keysR (bumpc c) = keysR c) by (clear; induction c as [|[? ? ? ? ?|? ? ? ? ?] c IH]; cbn [map bump keysR]; rewrite ?IH; reflexivity);
       rewrite EL, ER; reflexivity.
Qed.
Lemma keysL_same c : keysL (bumpc c) = keysL c /\ keysR (bumpc c) = keysR c /\ keysL (leanc c) = keysL c /\ keysR (leanc c) = keysR c.
Proof. induction c as [|[a k rk b r|l a k rk b] c (I1 & I2 & I3 & I4)]; cbn [map bump lean keysL keysR]; rewrite ?I1, ?I2, ?I3, ?I4; repeat split. Qed.
Lemma balanced_bump c : forall t, balanced (plug (bumpc c) t) <-> balanced (plug c t).
Proof.
  assert (G : forall c t t', height t = height t' -> (balanced t <-> balanced t') -> (balanced (plug (bumpc c) t) <-> balanced (plug c t'))).
  { clear c. induction c as [|[a k rk b r|l a k rk b] c IH]; intros t t' E B; cbn [map bump plug plug1]; [exact B| |];
      apply IH; cbn [height balanced]; rewrite E; tauto. }
  intros t. apply G; tauto.
Qed.

(* ---------- balance along the walk ---------- *)
Lemma lean_balanced c : forall t t', Forall (fun f => fbal f = 0) c -> balanced (plug c t) -> balanced t' -> height t' = height t + 1 ->
  balanced (plug (leanc (bumpc c)) t') /\ height (plug (leanc (bumpc c)) t') = height (plug c t) + 1.
Proof.
  induction c as [|[a k rk b r|l a k rk b] c IH]; intros t t' Z B B' H; cbn [map bump lean plug plug1] in *.
  - split; assumption.
  - inversion_clear Z as [|? ? Z1 Z2]. cbn [fbal] in Z1. pose proof (balanced_sub _ _ B) as BS. cbn [balanced] in BS.
    apply (IH (N t a k rk b r)); [exact Z2|exact B| |]; cbn [balanced height]; lia || (split; [lia|]; split; [lia|]; tauto).
  - inversion_clear Z as [|? ? Z1 Z2]. cbn [fbal] in Z1. pose proof (balanced_sub _ _ B) as BS. cbn [balanced] in BS.
    apply (IH (N l a k rk b t)); [exact Z2|exact B| |]; cbn [balanced height]; lia || (split; [lia|]; split; [lia|]; tauto).
Qed.

(* t' is t with nodes moved: same keys, same addresses, same size, ranks kept *)
Definition moved (t t' : tr) : Prop :=
  keys t' = keys t /\ (forall x, cnt x t' = cnt x t) /\ size t' = size t /\ (ranked t -> size t < R30 -> ranked t').
Lemma moved_refl t : moved t t.
Proof. repeat split; auto. Qed.

Ltac sizes := repeat match goal with |- context [size ?t] => lazymatch goal with H : 0 <= size t |- _ => fail | _ => pose proof (size_nonneg t) end end.
Ltac mv := repeat split; cbn [keys cnt size ranked plug1]; rewrite <- ?app_assoc; cbn [app]; rewrite <- ?app_assoc;
   try reflexivity; try (intros; lia).

Lemma moved_singleL A r kr rr br B s ks rs bs C b1 b2 :
  moved (N (N A r kr rr br B) s ks rs bs C) (N A r kr rr b1 (N B s ks ((rs - rr) mod R30) b2 C)).
Proof.
  split; [cbn [keys]; rewrite <- app_assoc; reflexivity|]. split; [intros; cbn [cnt]; lia|]. split; [cbn [size]; lia|].
  cbn [ranked size]. intros (R1 & (R2 & R3 & R4) & R5) S. pose proof (size_nonneg A). pose proof (size_nonneg B). pose proof (size_nonneg C).
  split; [exact R2|]. split; [exact R3|]. split; [rewrite Z.mod_small; lia|]. split; assumption.
Qed.
Lemma moved_singleR A s ks rs bs B r kr rr br C b1 b2 :
  moved (N A s ks rs bs (N B r kr rr br C)) (N (N A s ks rs b1 B) r kr ((rr + rs) mod R30) b2 C).
Proof.
  split; [cbn [keys]; rewrite <- app_assoc; reflexivity|]. split; [intros; cbn [cnt]; lia|]. split; [cbn [size]; lia|].
  cbn [ranked size]. intros (R1 & R2 & (R3 & R4 & R5)) S. pose proof (size_nonneg A). pose proof (size_nonneg B). pose proof (size_nonneg C).
  split; [rewrite Z.mod_small; lia|]. split; [split; [exact R1|split; assumption]|assumption].
Qed.
Lemma moved_doubleL A r kr rr br B p kp rp bp C s ks rs bs D b1 b2 b3 :
  moved (N (N A r kr rr br (N B p kp rp bp C)) s ks rs bs D)
        (N (N A r kr rr b1 B) p kp ((rp + rr) mod R30) b2 (N C s ks ((rs - (rp + rr) mod R30) mod R30) b3 D)).
Proof.
  split; [cbn [keys]; rewrite <- !app_assoc; cbn [app]; rewrite <- !app_assoc; reflexivity|]. split; [intros; cbn [cnt]; lia|]. split; [cbn [size]; lia|].
  cbn [ranked size]. intros (R1 & (R2 & R3 & (R4 & R5 & R6)) & R7) S.
  pose proof (size_nonneg A). pose proof (size_nonneg B). pose proof (size_nonneg C). pose proof (size_nonneg D).
  assert (E : (rp + rr) mod R30 = size A + 1 + size B + 1) by (rewrite Z.mod_small; lia). rewrite E.
  split; [lia|]. split; [split; [exact R2|split; assumption]|]. split; [rewrite Z.mod_small; lia|split; assumption].
Qed.
Lemma moved_doubleR A s ks rs bs B p kp rp bp C r kr rr br D b1 b2 b3 :
  moved (N A s ks rs bs (N (N B p kp rp bp C) r kr rr br D))
        (N (N A s ks rs b1 B) p kp ((rp + rs) mod R30) b2 (N C r kr ((rr - rp) mod R30) b3 D)).
Proof.
  split; [cbn [keys]; rewrite <- ?app_assoc; cbn [app]; rewrite <- ?app_assoc; reflexivity|]. split; [intros; cbn [cnt]; lia|]. split; [cbn [size]; lia|].
  cbn [ranked size]. intros (R1 & R2 & (R3 & (R4 & R5 & R6) & R7)) S.
  pose proof (size_nonneg A). pose proof (size_nonneg B). pose proof (size_nonneg C). pose proof (size_nonneg D).
  split; [rewrite Z.mod_small; lia|]. split; [split; [exact R1|split; assumption]|]. split; [rewrite Z.mod_small; lia|split; assumption].
Qed.
