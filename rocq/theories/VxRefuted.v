(* C104: where the MAC table does something else. *)
From Verif Require Import Base VxModel VxSpec VxProps.
Ltac Zify.zify_post_hook ::= idtac.
#[local] Opaque Z.to_nat.

Lemma get_loop_keys : forall f t t' i h m, m <> FREE -> (forall j, key (t' j) = key (t j)) -> (forall j, key (t j) = m -> t' j = t j) ->
  get_loop f t' i h m = get_loop f t i h m.
Proof.
  induction f as [|f IH]; intros t t' i h m M K A; cbn [get_loop]; [reflexivity|]. rewrite K. destruct (key (t i) =? m) eqn:Q.
  - apply Z.eqb_eq in Q. rewrite (A i Q). reflexivity.
  - destruct (_ =? FREE); [reflexivity|]. cbv zeta. destruct (_ =? h); [reflexivity|]. apply IH; assumption.
Qed.
Lemma fuel_SS : exists f, Z.to_nat N = S (S f).
Proof. assert (2 <= N) by (unfold N; lia). destruct (Z.to_nat N) as [|[|f]] eqn:E; [lia|lia|]. exists f. reflexivity. Qed.
Lemma next_ne : forall m, (home m + 1) mod N <> home m.
Proof.
  intros m E. pose proof (home_range m) as H. destruct (Z.eq_dec (home m + 1) N) as [J|J].
  - rewrite J, Z.mod_same in E by (unfold N; lia). unfold N in *. lia.
  - rewrite Z.mod_small in E by lia. lia.
Qed.

(* a MAC whose home is taken by another one, with the entry behind it free, is not
   learned at all: in every such state the call changes no answer *)
Theorem vxlan_collision_refuted : forall s m d, is_mac m -> live (tbl s (home m)) -> key (tbl s (home m)) <> m -> key (tbl s ((home m + 1) mod N)) = FREE ->
  get m (set m d s) = 0 /\ forall k, is_mac k -> get k (set m d s) = get k s.
Proof.
  intros s m d M [L1 L2] K F. destruct (mac_ne m M) as [M1 M2]. set (j := (home m + 1) mod N) in *.
  assert (S : tbl (set m d s) = store_tmo (store_addr (tbl s) j d) j ((tick s + AGE) mod W)).
  { unfold set, set_trace. cbn [tbl]. destruct fuel_SS as (f & ->). cbn [set_loop]. apply Z.eqb_neq in L1. apply Z.eqb_neq in L2. apply Z.eqb_neq in K. unfold cas. rewrite L1. rewrite L1, K. cbn [orb].
    rewrite L2. rewrite L2, K. cbn [orb]. cbv zeta. fold j. replace (j =? home m) with false by (symmetry; apply Z.eqb_neq; apply next_ne).
    rewrite F. replace (FREE =? key (tbl s (home m))) with false by (symmetry; rewrite Z.eqb_sym; exact L1). rewrite Z.eqb_refl. cbn [orb].
    destruct f; reflexivity. }
  assert (KS : forall i, key (tbl (set m d s) i) = key (tbl s i)).
  { intros i. rewrite S, stores0. destruct (i =? j) eqn:Q; [|reflexivity]. apply Z.eqb_eq in Q. subst i. reflexivity. }
  split.
  - unfold get, get_in. destruct fuel_SS as (f & ->). cbn [get_loop]. rewrite KS. replace (key (tbl s (home m)) =? m) with false by (symmetry; apply Z.eqb_neq; exact K).
    replace (key (tbl s (home m)) =? FREE) with false by (symmetry; apply Z.eqb_neq; exact L1). cbv zeta. fold j. replace (j =? home m) with false by (symmetry; apply Z.eqb_neq; apply next_ne).
    rewrite KS, F. replace (FREE =? m) with false by (symmetry; apply Z.eqb_neq; congruence). reflexivity.
  - intros k Hk. destruct (mac_ne k Hk) as [K1 K2]. unfold get, get_in. apply get_loop_keys; [exact K1|exact KS|].
    intros i Q. rewrite S, stores0. destruct (i =? j) eqn:J; [|reflexivity]. apply Z.eqb_eq in J. subst i. congruence.
Qed.
Print Assumptions vxlan_collision_refuted.

(* two MACs of one home: the second one learned is never found, whoever asks *)
Definition mac1 : Z := 170 * W + 1.        (* 01:00:00:00:aa:00 *)
Definition mac2 : Z := 170 * W + 2.
Theorem vxlan_second_refuted : forall a b, exists h, learns h /\ last_learned h mac2 0 None = Some (b, 0) /\ last_learned h mac1 0 None = Some (a, 0) /\
  get mac1 (run h init) = a /\ get mac2 (run h init) = 0.
Proof.
  intros a b. exists [Learn mac1 a; Learn mac2 b].
  assert (A : is_mac mac1) by (unfold is_mac, mac1, W; lia). assert (B : is_mac mac2) by (unfold is_mac, mac2, W; lia).
  split; [intros m d [X|[X|[]]]; assert (E : m = mac1 \/ m = mac2) by (first [left; congruence|right; congruence]); destruct E; subst m; assumption|]. split; [reflexivity|]. split; [reflexivity|].
  cbn [run fold_left step]. pose proof (set_home mac1 a init A (or_introl eq_refl)) as S. set (s := set mac1 a init) in *.
  assert (H2 : home mac2 = home mac1) by reflexivity. assert (N2 : (home mac2 + 1) mod N =? home mac1 = false) by reflexivity.
  destruct (vxlan_collision_refuted s mac2 b B) as [G1 G2].
  - rewrite H2, S, Z.eqb_refl. cbn [key]. split; apply (mac_ne mac1 A).
  - rewrite H2, S, Z.eqb_refl. cbn [key]. discriminate.
  - rewrite S, N2. reflexivity.
  - split; [|exact G1]. unfold run. cbn [fold_left step]. fold s. rewrite (G2 mac1 A). unfold get, get_in. destruct fuel_S as (f & ->). cbn [get_loop]. rewrite S, Z.eqb_refl. cbn [key addr]. rewrite Z.eqb_refl. reflexivity.
Qed.
Print Assumptions vxlan_second_refuted.

(* another thread may see the key of a MAC being learned with the address of the MAC
   whose entry it takes over *)
Theorem vxlan_race_refuted : forall s m d, is_mac m -> key (tbl s (home m)) = RECYCLED ->
  exists t, In t (set_trace m d s) /\ get_in t m = addr (tbl s (home m)).
Proof.
  intros s m d M R. destruct (mac_ne m M) as [M1 M2]. exists (put (tbl s) (home m) (mkSlot m (addr (tbl s (home m))) (tmo (tbl s (home m))))). split.
  - unfold set_trace. destruct fuel_S as (f & ->). cbn [set_loop]. unfold cas. rewrite R. change (RECYCLED =? FREE) with false. cbv iota.
    replace (RECYCLED =? m) with false by (symmetry; apply Z.eqb_neq; congruence). change (RECYCLED =? FREE) with false. cbn [orb]. rewrite R, Z.eqb_refl. rewrite Z.eqb_refl. cbn [orb]. right. left. reflexivity.
  - unfold get_in. destruct fuel_S as (f & ->). cbn [get_loop]. rewrite put_same. cbn [key addr]. rewrite Z.eqb_refl. reflexivity.
Qed.
Print Assumptions vxlan_race_refuted.

(* such entries exist: after one MAC was learned, and long enough *)
Definition quiet (n : nat) : list ev := repeat Tick n.
Lemma ticks_quiet : forall n, ticks (quiet n) = Z.of_nat n.
Proof. unfold quiet. induction n as [|n IH]; cbn [repeat ticks]; [reflexivity|]. rewrite IH. lia. Qed.
Lemma quiet_keeps : forall n s i k a, (key (tbl s i) = k \/ key (tbl s i) = RECYCLED) -> addr (tbl s i) = a ->
  (key (tbl (run (quiet n) s) i) = k \/ key (tbl (run (quiet n) s) i) = RECYCLED) /\ addr (tbl (run (quiet n) s) i) = a.
Proof.
  induction n as [|n IH]; intros s i k a K A; cbn [quiet repeat]; [split; assumption|]. change (run (Tick :: repeat Tick n) s) with (run (quiet n) (timeout s)).
  apply IH; unfold timeout; cbn [tbl]; destruct (_ && _); try assumption; unfold put; destruct (i =? next_check s) eqn:Q; cbn [key addr]; try assumption; [right; reflexivity|].
  apply Z.eqb_eq in Q. subst i. exact A.
Qed.
Lemma quiet_none : forall n m now acc, last_learned (quiet n) m now acc = acc.
Proof. unfold quiet. induction n as [|n IH]; intros; cbn [repeat last_learned]; [reflexivity|]. apply IH. Qed.
Lemma learns_quiet : forall m d n, is_mac m -> learns (Learn m d :: quiet n).
Proof. intros m d n M k e [X|X]; [assert (k = m) by congruence; subst; exact M|]. unfold quiet in X. apply repeat_spec in X. discriminate. Qed.
Lemma nc_quiet : forall m d n, no_collision (Learn m d :: quiet n).
Proof.
  intros m d n k x y z [X|X] [Y|Y] _; try (unfold quiet in *; apply repeat_spec in X; discriminate); try (unfold quiet in *; apply repeat_spec in Y; discriminate). congruence.
Qed.
Theorem vxlan_race_reachable : forall a b, a <> 0 -> a <> b -> exists h, learns h /\ learned h mac2 0 = [] /\
  exists t, In t (set_trace mac2 b (run h init)) /\ get_in t mac2 = a.
Proof.
  intros a b A0 AB. destruct (Z_of_nat_complete (2 * AGE + N + 1) ltac:(unfold AGE, N; lia)) as (n & En). exists (Learn mac1 a :: quiet n).
  assert (A : is_mac mac1) by (unfold is_mac, mac1, W; lia). assert (B : is_mac mac2) by (unfold is_mac, mac2, W; lia).
  pose proof (learns_quiet mac1 a n A) as L. assert (TQ : ticks (Learn mac1 a :: quiet n) = 2 * AGE + N + 1) by (cbn [ticks]; rewrite ticks_quiet; symmetry; exact En).
  split; [exact L|]. split.
  - cbn [learned]. change (mac1 =? mac2) with false. cbv iota. cbn [app]. generalize 0. unfold quiet. clear. induction n as [|n IH]; intros z; cbn [repeat learned]; [reflexivity|]. apply IH.
  - pose proof (vxlan_exact_partial _ mac1 L (nc_quiet mac1 a n) ltac:(rewrite TQ; unfold AGE, N, W; lia) A) as E. cbn [last_learned] in E. rewrite Z.eqb_refl, quiet_none, TQ in E. destruct E as (_ & E & _). specialize (E ltac:(lia)).
    change (run (Learn mac1 a :: quiet n) init) with (run (quiet n) (set mac1 a init)) in *. pose proof (set_home mac1 a init A (or_introl eq_refl)) as S.
    destruct (quiet_keeps n (set mac1 a init) (home mac1) mac1 a) as [Q1 Q2]; [left; rewrite S, Z.eqb_refl; reflexivity|rewrite S, Z.eqb_refl; reflexivity|].
    set (s := run (quiet n) (set mac1 a init)) in *. assert (H2 : home mac2 = home mac1) by reflexivity. assert (R : key (tbl s (home mac2)) = RECYCLED \/ a = 0).
    { rewrite H2. destruct Q1 as [Q1|Q1]; [|left; exact Q1]. right. rewrite <- E. unfold get, get_in. destruct fuel_S as (f & ->). cbn [get_loop]. rewrite Q1, Z.eqb_refl. symmetry. exact Q2. }
    destruct R as [R|R]; [|contradiction]. destruct (vxlan_race_refuted s mac2 b B R) as (t & I & G). exists t. split; [exact I|]. rewrite G, H2. exact Q2.
Qed.
Print Assumptions vxlan_race_reachable.

(* the address of a MAC heard once is kept for two hours, not one *)
Theorem vxlan_age_refuted : forall m a n, is_mac m -> Z.of_nat n = 2 * AGE -> get m (run (Learn m a :: quiet n) init) = a.
Proof.
  intros m a n M E. pose proof (learns_quiet m a n M) as L. assert (TQ : ticks (Learn m a :: quiet n) = 2 * AGE) by (cbn [ticks]; rewrite ticks_quiet; exact E).
  pose proof (vxlan_exact_partial _ m L (nc_quiet m a n) ltac:(rewrite TQ; unfold AGE, W; lia) M) as X. cbn [last_learned] in X. rewrite Z.eqb_refl, quiet_none, TQ in X. apply X. lia.
Qed.
Print Assumptions vxlan_age_refuted.

(* a history that meets the hypotheses of vxlan_exact_partial: three MACs, refreshed and moved *)
Definition mac3 : Z := 171 * W + 1.
Definition hist : list ev := [Learn mac1 10; Tick; Learn mac3 20; Tick; Tick; Learn mac1 30; Tick].
Example hist_ok : learns hist /\ no_collision hist /\ last_learned hist mac1 0 None = Some (30, 3) /\ last_learned hist mac3 0 None = Some (20, 1).
Proof.
  split; [intros m d X; unfold hist in X; repeat (destruct X as [X|X]; [first [discriminate|injection X as <- <-; unfold is_mac, mac1, mac3, W; lia]|]); destruct X|].
  split; [|split; reflexivity]. intros m d k e X Y H. unfold hist in X, Y.
  assert (A : m = mac1 \/ m = mac3) by (repeat (destruct X as [X|X]; [first [discriminate|injection X as <- <-; auto]|]); destruct X).
  assert (B : k = mac1 \/ k = mac3) by (repeat (destruct Y as [Y|Y]; [first [discriminate|injection Y as <- <-; auto]|]); destruct Y).
  destruct A as [-> | ->], B as [-> | ->]; try reflexivity; vm_compute in H; discriminate.
Qed.
Example hist_found : get mac1 (run hist init) = 30 /\ get mac3 (run hist init) = 20 /\ get mac2 (run hist init) = 0.
Proof. vm_compute. repeat split. Qed.
