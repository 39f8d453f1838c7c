(* C98: routes and configuration (lemmas). *)
From Verif Require Import Base IfcModel IfcSpec IfcProps.
Ltac Zify.zify_post_hook ::= idtac.

(* ---- prefixes ---- *)
Lemma netof_idem : forall a n, 0 <= n <= 32 -> netof (netof a n) n = netof a n.
Proof.
  intros a n H. unfold netof. assert (P : 0 < 2 ^ (32 - n)) by (apply Z.pow_pos_nonneg; lia).
  rewrite Z.div_mul by lia. reflexivity.
Qed.
Lemma netof_32 : forall a, netof a 32 = a.
Proof. intros a. unfold netof. change (2 ^ (32 - 32)) with 1. rewrite Z.div_1_r, Z.mul_1_r. reflexivity. Qed.
Lemma land_mask : forall a n, 0 <= a < 4294967296 -> 1 <= n <= 32 -> Z.land a (4294967296 - 2 ^ (32 - n)) = netof a n.
Proof.
  intros a n A N. unfold netof. rewrite <- Z.shiftr_div_pow2, <- Z.shiftl_mul_pow2 by lia.
  replace (4294967296 - 2 ^ (32 - n)) with (Z.shiftl (Z.ones n) (32 - n)).
  2: { rewrite Z.shiftl_mul_pow2 by lia. rewrite Z.ones_equiv. replace 4294967296 with (2 ^ n * 2 ^ (32 - n)) by (rewrite <- Z.pow_add_r by lia; replace (n + (32 - n)) with 32 by lia; reflexivity). lia. }
  apply Z.bits_inj'. intros i Hi. rewrite Z.land_spec.
  destruct (Z.ltb_spec i (32 - n)).
  - rewrite !Z.shiftl_spec_low by lia. apply andb_false_r.
  - rewrite !Z.shiftl_spec by lia. rewrite Z.shiftr_spec by lia. replace (i - (32 - n) + (32 - n)) with i by lia.
    destruct (Z.ltb_spec i 32).
    + rewrite Z.ones_spec_low by lia. apply andb_true_r.
    + rewrite Z.ones_spec_high by lia. rewrite andb_false_r. symmetry.
      destruct (Z.eq_dec a 0) as [->|]; [apply Z.bits_0|]. apply Z.bits_above_log2; [lia|].
      assert (Z.log2 a < 32) by (apply Z.log2_lt_pow2; [lia|change (2 ^ 32) with 4294967296; lia]). lia.
Qed.
Lemma land_all : forall a, 0 <= a < 4294967296 -> Z.land a 4294967295 = a.
Proof. intros a H. change 4294967295 with (Z.ones 32). rewrite Z.land_ones by lia. apply Z.mod_small. exact H. Qed.

(* ---- who has which route, as a relation ---- *)
Definition has (c : conf) (k : key) (v a n : Z) : Prop := exists l, look k (c_if c) = Some (v, l) /\ In (a, n) l.
Definition usr := list (Z * Z * Z * Z).
Inductive owner (H : key -> Z -> Z -> Z -> Prop) (U : usr) (v d l : Z) : nhop -> Prop :=
| ow_a k n : H k v d n -> l = 32 -> owner H U v d l (Local k)
| ow_n k a : H k v a l -> d = netof a l -> owner H U v d l (Net k)
| ow_u x : In (v, d, l, x) U -> owner H U v d l (User x).
Lemma owner_route : forall c v d l x, owner (has c) (c_rt c) v d l x <-> route_of c v d l x.
Proof.
  intros c v d l x. split; intros O; destruct O.
  - destruct H as (la & L & I). exact (ro_addr c v d l k la n L I H0).
  - destruct H as (la & L & I). exact (ro_net c v d l k la a L I H0).
  - apply ro_user. exact H.
  - apply ow_a with n; [exists la; auto|assumption].
  - apply ow_n with a; [exists la; auto|assumption].
  - apply ow_u. exact H.
Qed.

Definition bound (a n : Z) : Prop := 0 < a < 4294967296 /\ 1 <= n <= 31.
Definition clash (a1 n1 a2 n2 : Z) : Prop := a1 = a2 \/ (n1 = n2 /\ netof a1 n1 = netof a2 n2).
Definition uniq (H : key -> Z -> Z -> Z -> Prop) : Prop := forall k1 k2 v a1 n1 a2 n2,
  H k1 v a1 n1 -> H k2 v a2 n2 -> clash a1 n1 a2 n2 -> k1 = k2 /\ a1 = a2 /\ n1 = n2.
(* user routes are elsewhere *)
Definition apart (H : key -> Z -> Z -> Z -> Prop) (U : usr) : Prop := forall k v a n x,
  H k v a n -> ~ In (v, a, 32, x) U /\ ~ In (v, netof a n, n, x) U.
Definition tab_ok (t : table) (H : key -> Z -> Z -> Z -> Prop) (U : usr) : Prop := forall v d l x, t v d l = Some x <-> owner H U v d l x.

Lemma upd_eq : forall t v d l x, upd_rt t v d l x v d l = x.
Proof. intros. unfold upd_rt. rewrite !Z.eqb_refl. reflexivity. Qed.
Lemma upd_neq : forall t v d l x v' d' l', (v' = v /\ d' = d /\ l' = l -> False) -> upd_rt t v d l x v' d' l' = t v' d' l'.
Proof. intros. unfold upd_rt. destruct ((v' =? v) && (d' =? d) && (l' =? l)) eqn:E; [exfalso; apply H; lia|reflexivity]. Qed.
Lemma key3 : forall v d l v' d' l' : Z, (v' = v /\ d' = d /\ l' = l) \/ (v' = v /\ d' = d /\ l' = l -> False).
Proof. intros. destruct (Z.eq_dec v' v), (Z.eq_dec d' d), (Z.eq_dec l' l); tauto. Qed.

Lemma tab_add : forall t H H' U k v a n, tab_ok t H U -> bound a n ->
  (forall k2 v2 a2 n2, H' k2 v2 a2 n2 <-> H k2 v2 a2 n2 \/ (k2 = k /\ v2 = v /\ a2 = a /\ n2 = n)) ->
  (forall k2 a2 n2, H k2 v a2 n2 -> 1 <= n2 <= 31 /\ ~ clash a2 n2 a n) ->
  (forall x, ~ In (v, a, 32, x) U /\ ~ In (v, netof a n, n, x) U) ->
  tab_ok (upd_rt (upd_rt t v a 32 (Some (Local k))) v (netof a n) n (Some (Net k))) H' U.
Proof.
  intros t H H' U k v a n T [A N] E F G v' d l x.
  destruct (key3 v (netof a n) n v' d l) as [(-> & -> & ->)|K1].
  - rewrite upd_eq. split.
    + intros X. injection X as <-. apply ow_n with a; [apply E; right; auto|reflexivity].
    + intros O. destruct O as [k2 n2 O L|k2 a2 O D|y O].
      * lia.
      * apply E in O. destruct O as [O|(-> & _ & -> & _)]; [|reflexivity]. exfalso. apply (F _ _ _ O). right. auto.
      * exfalso. exact (proj2 (G y) O).
  - rewrite upd_neq by exact K1. destruct (key3 v a 32 v' d l) as [(-> & -> & ->)|K2].
    + rewrite upd_eq. split.
      * intros X. injection X as <-. apply ow_a with n; [apply E; right; auto|reflexivity].
      * intros O. destruct O as [k2 n2 O L|k2 a2 O D|y O].
        -- apply E in O. destruct O as [O|(-> & _)]; [|reflexivity]. exfalso. apply (F _ _ _ O). left. reflexivity.
        -- apply E in O. destruct O as [O|(_ & _ & _ & Q)]; [|lia]. destruct (F _ _ _ O). lia.
        -- exfalso. exact (proj1 (G y) O).
    + rewrite upd_neq by exact K2. rewrite (T v' d l x). split; intros O; destruct O as [k2 n2 O L|k2 a2 O D|y O].
      * apply ow_a with n2; [apply E; left; exact O|exact L].
      * apply ow_n with a2; [apply E; left; exact O|exact D].
      * apply ow_u. exact O.
      * apply E in O. destruct O as [O|(_ & -> & -> & _)]; [apply ow_a with n2; assumption|exfalso; apply K2; auto].
      * apply E in O. destruct O as [O|(_ & -> & -> & ->)]; [apply ow_n with a2; assumption|exfalso; apply K1; auto].
      * apply ow_u. exact O.
Qed.

Lemma tab_del : forall t t' H H' U k v a n, tab_ok t H U -> bound a n -> uniq H -> apart H U -> H k v a n ->
  (forall k2 v2 a2 n2, H k2 v2 a2 n2 -> 1 <= n2 <= 31) ->
  (forall k2 v2 a2 n2, H' k2 v2 a2 n2 <-> H k2 v2 a2 n2 /\ ~ (k2 = k /\ v2 = v /\ a2 = a /\ n2 = n)) ->
  (forall v' d l, t' v' d l = upd_rt (upd_rt t v a 32 None) v (netof a n) n None v' d l) ->
  tab_ok t' H' U.
Proof.
  intros t t' H H' U k v a n T [A N] Q P M B E W v' d l x. rewrite W.
  destruct (key3 v (netof a n) n v' d l) as [(-> & -> & ->)|K1].
  - rewrite upd_eq. split; [discriminate|]. intros O. exfalso. destruct O as [k2 n2 O L|k2 a2 O D|y O].
    + lia.
    + apply E in O. destruct O as [O X]. destruct (Q k2 k v a2 n a n O M) as (-> & -> & _); [right; auto|]. apply X. auto.
    + exact (proj2 (P k v a n y M) O).
  - rewrite upd_neq by exact K1. destruct (key3 v a 32 v' d l) as [(-> & -> & ->)|K2].
    + rewrite upd_eq. split; [discriminate|]. intros O. exfalso. destruct O as [k2 n2 O L|k2 a2 O D|y O].
      * apply E in O. destruct O as [O X]. destruct (Q k2 k v a n2 a n O M) as (-> & _ & ->); [left; reflexivity|]. apply X. auto.
      * apply E in O. destruct O as [O X]. apply B in O. lia.
      * exact (proj1 (P k v a n y M) O).
    + rewrite upd_neq by exact K2. rewrite (T v' d l x). split; intros O; destruct O as [k2 n2 O L|k2 a2 O D|y O].
      * apply ow_a with n2; [apply E; split; [exact O|]|exact L]. intros (-> & -> & -> & ->). apply K2. auto.
      * apply ow_n with a2; [apply E; split; [exact O|]|exact D]. intros (-> & -> & -> & ->). apply K1. auto.
      * apply ow_u. exact O.
      * apply E in O. apply ow_a with n2; [tauto|exact L].
      * apply E in O. apply ow_n with a2; [tauto|exact D].
      * apply ow_u. exact O.
Qed.
