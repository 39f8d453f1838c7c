(* Linked chains, and lists kept sorted by insertion. *)
From Verif Require Import Base IpsecModel IpsecSpec.
Ltac Zify.zify_post_hook ::= idtac.

Fixpoint chain (nx : nat -> option nat) (o : option nat) (l : list nat) : Prop :=
  match l with [] => o = None | i :: r => o = Some i /\ chain nx (nx i) r end.
Definition lastopt (prev : option nat) (l : list nat) : option nat := fold_left (fun _ j => Some j) l prev.

Lemma chain_hd nx o l : chain nx o l -> o = hd_error l.
Proof. destruct l; cbn; [auto|intros [H _]; exact H]. Qed.
Lemma chain_ext nx nx' l : forall o, (forall i, In i l -> nx' i = nx i) -> chain nx o l -> chain nx' o l.
Proof.
  induction l as [|i r IH]; intros o E H; [exact H|]. destruct H as [H1 H2]. split; [exact H1|].
  rewrite (E i (or_introl eq_refl)). apply IH; [|exact H2]. intros j Hj. apply E. right. exact Hj.
Qed.
Lemma chain_splice nx nx' j l2 l2' : forall l1 o,
  chain nx o (l1 ++ j :: l2) -> (forall i, In i l1 -> nx' i = nx i) -> chain nx' (nx' j) l2' ->
  chain nx' o (l1 ++ j :: l2').
Proof.
  induction l1 as [|i r IH]; intros o H E H2; cbn [app chain] in *.
  - destruct H as [H _]. split; [exact H|exact H2].
  - destruct H as [H1 H3]. split; [exact H1|]. rewrite (E i (or_introl eq_refl)).
    apply IH; [exact H3| |exact H2]. intros k Hk. apply E. right. exact Hk.
Qed.
Lemma chain_tail nx l2 : forall l1 j o, chain nx o (l1 ++ j :: l2) -> chain nx (nx j) l2.
Proof. induction l1 as [|i r IH]; intros j o H; destruct H as [_ H]; [exact H|apply (IH j (nx i)); exact H]. Qed.
Lemma chain_next nx l1 j l2 o : chain nx o (l1 ++ j :: l2) -> nx j = hd_error l2.
Proof. intros H. apply (chain_hd nx). apply (chain_tail nx l2 l1 j o H). Qed.

Lemma lastopt_app p l j : lastopt p (l ++ [j]) = Some j.
Proof. unfold lastopt. rewrite fold_left_app. reflexivity. Qed.

Lemma after_in_app i l2 : forall l1, ~ In i l1 -> after_in i (l1 ++ i :: l2) = hd_error l2.
Proof.
  induction l1 as [|x r IH]; intros N; cbn.
  - rewrite Nat.eqb_refl. reflexivity.
  - destruct (Nat.eqb_spec x i) as [->|_]; [exfalso; apply N; left; reflexivity|].
    apply IH. intros X. apply N. right. exact X.
Qed.

(* walks *)
Lemma sp_pred_ok nx i l2 : forall l1 fuel prev o, chain nx o (l1 ++ i :: l2) -> ~ In i l1 ->
  (length l1 < fuel)%nat -> sp_pred fuel nx i prev o = Ret (Some (lastopt prev l1)).
Proof.
  induction l1 as [|j r IH]; intros fuel prev o H N F; (destruct fuel as [|f]; [exfalso; lia|]); destruct H as [-> H]; cbn [sp_pred].
  - rewrite Nat.eqb_refl. reflexivity.
  - destruct (Nat.eqb_spec j i) as [->|_]; [exfalso; apply N; left; reflexivity|].
    cbn [lastopt fold_left]. apply (IH f (Some j) (nx j)); [exact H| |cbn in F; lia].
    intros X. apply N. right. exact X.
Qed.
Lemma lk_pred_ok h i l2 : forall l1 fuel prev o, chain (fun j => n_nl (h j)) o (l1 ++ i :: l2) -> ~ In i l1 ->
  (length l1 < fuel)%nat -> lk_pred fuel h i prev o = Ret (lastopt prev l1).
Proof.
  induction l1 as [|j r IH]; intros fuel prev o H N F; (destruct fuel as [|f]; [exfalso; lia|]); destruct H as [-> H]; cbn [lk_pred].
  - rewrite Nat.eqb_refl. reflexivity.
  - destruct (Nat.eqb_spec j i) as [->|_]; [exfalso; apply N; left; reflexivity|].
    cbn [lastopt fold_left]. apply (IH f (Some j) (n_nl (h j))); [exact H| |cbn in F; lia].
    intros X. apply N. right. exact X.
Qed.
Lemma sp_find_ok h id : forall l fuel o, chain (fun j => n_next (h j)) o l -> (length l < fuel)%nat ->
  sp_find fuel h id o = Ret (find (fun i => p_id (n_par (h i)) =? id) l).
Proof.
  induction l as [|i r IH]; intros fuel o H F; (destruct fuel as [|f]; [exfalso; cbn in F; lia|]); cbn [chain] in H; cbn [sp_find find].
  - rewrite H. reflexivity.
  - destruct H as [-> H]. destruct (p_id (n_par (h i)) =? id); [reflexivity|]. apply IH; [exact H|cbn in F; lia].
Qed.
Lemma sa_find_ok h p : forall l fuel o, chain (fun j => a_next (h j)) o l -> (length l < fuel)%nat ->
  sa_find fuel h p o = Ret (find (fun i => p (a_par (h i))) l).
Proof.
  induction l as [|i r IH]; intros fuel o H F; (destruct fuel as [|f]; [exfalso; cbn in F; lia|]); cbn [chain] in H; cbn [sa_find find].
  - rewrite H. reflexivity.
  - destruct H as [-> H]. destruct (p (a_par (h i))); [reflexivity|]. apply IH; [exact H|cbn in F; lia].
Qed.
Lemma sp_walk_ok h vrf v : forall l fuel o, chain (fun j => n_nl (h j)) o l -> (length l < fuel)%nat ->
  sp_walk fuel h vrf v o = Ret (find (fun i => (p_vrf (n_par (h i)) =? vrf) && sel_match (p_sel (n_par (h i))) v) l).
Proof.
  induction l as [|i r IH]; intros fuel o H F; (destruct fuel as [|f]; [exfalso; cbn in F; lia|]); cbn [chain] in H; cbn [sp_walk find].
  - rewrite H. reflexivity.
  - destruct H as [-> H]. destruct ((p_vrf (n_par (h i)) =? vrf) && sel_match (p_sel (n_par (h i))) v); [reflexivity|].
    apply IH; [exact H|cbn in F; lia].
Qed.

(* insertion: before the first with the same or a higher number *)
Fixpoint ins (pr : nat -> Z) (x : nat) (l : list nat) : list nat :=
  match l with [] => [x] | y :: r => if pr y >=? pr x then x :: y :: r else y :: ins pr x r end.
Definition srt (pr : nat -> Z) (l : list nat) : list nat := fold_right (ins pr) [] l.
Fixpoint sorted (pr : nat -> Z) (l : list nat) : Prop :=
  match l with [] => True | x :: r => Forall (fun y => pr x <= pr y) r /\ sorted pr r end.

Lemma ins_in pr x l y : In y (ins pr x l) <-> y = x \/ In y l.
Proof.
  induction l as [|z r IH]; cbn [ins]; [cbn; intuition congruence|].
  destruct (pr z >=? pr x); cbn [In]; [intuition congruence|]. rewrite IH. intuition congruence.
Qed.
Lemma ins_split pr x l : exists l1 l2, l = l1 ++ l2 /\ ins pr x l = l1 ++ x :: l2.
Proof.
  induction l as [|y r [l1 [l2 [E1 E2]]]]; cbn [ins]; [exists [], []; auto|].
  destruct (pr y >=? pr x); [exists [], (y :: r); auto|]. exists (y :: l1), l2. rewrite E2, E1. auto.
Qed.
Lemma srt_in pr l y : In y (srt pr l) <-> In y l.
Proof. induction l as [|x r IH]; cbn [srt fold_right]; [reflexivity|]. rewrite ins_in. cbn [In]. fold (srt pr r). rewrite IH. intuition congruence. Qed.
Lemma ins_sorted pr x l : sorted pr l -> sorted pr (ins pr x l).
Proof.
  induction l as [|y r IH]; cbn [ins sorted]; [auto|]. intros [A B].
  destruct (Z.geb_spec (pr y) (pr x)) as [C|C]; cbn [sorted].
  - split; [|auto]. constructor; [lia|]. eapply Forall_impl; [|exact A]. cbn. intros; lia.
  - split; [|auto]. apply Forall_forall. intros z Hz. apply ins_in in Hz. destruct Hz as [->|Hz]; [lia|].
    rewrite Forall_forall in A. auto.
Qed.
Lemma srt_sorted pr l : sorted pr (srt pr l).
Proof. induction l as [|x r IH]; cbn [srt fold_right]; [exact I|]. apply ins_sorted. exact IH. Qed.
Lemma ins_length pr x l : length (ins pr x l) = S (length l).
Proof. induction l as [|y r IH]; cbn [ins]; [reflexivity|]. destruct (pr y >=? pr x); cbn; [reflexivity|]. rewrite IH. reflexivity. Qed.
Lemma srt_length pr l : length (srt pr l) = length l.
Proof. induction l as [|x r IH]; cbn [srt fold_right]; [reflexivity|]. rewrite ins_length. cbn. f_equal. exact IH. Qed.
Lemma ins_nodup pr x l : NoDup l -> ~ In x l -> NoDup (ins pr x l).
Proof.
  induction l as [|y r IH]; cbn [ins]; intros N H; [constructor; auto|].
  destruct (pr y >=? pr x); [constructor; auto|]. inversion N; subst. constructor.
  - intros X. apply ins_in in X. destruct X as [->|X]; [apply H; left; reflexivity|auto].
  - apply IH; [assumption|]. intros X. apply H. right. exact X.
Qed.
Lemma srt_nodup pr l : NoDup l -> NoDup (srt pr l).
Proof.
  induction l as [|x r IH]; intros N; cbn [srt fold_right]; [constructor|]. inversion N; subst.
  apply ins_nodup; [auto|]. intros X. apply (srt_in pr r) in X. auto.
Qed.
Lemma ins_front pr x l : Forall (fun y => pr x <= pr y) l -> ins pr x l = x :: l.
Proof. destruct l as [|y r]; cbn [ins]; [auto|]. intros H. inversion H; subst. destruct (Z.geb_spec (pr y) (pr x)); [reflexivity|lia]. Qed.
Lemma Forall_filter {A} (P : A -> Prop) f l : Forall P l -> Forall P (filter f l).
Proof. rewrite !Forall_forall. intros H x Hx. apply filter_In in Hx. apply H. tauto. Qed.
Lemma filter_ins pr f x l : sorted pr l -> filter f (ins pr x l) = if f x then ins pr x (filter f l) else filter f l.
Proof.
  induction l as [|y r IH]; cbn [ins sorted]; intros S; [cbn; destruct (f x); reflexivity|]. destruct S as [A B].
  destruct (Z.geb_spec (pr y) (pr x)) as [C|C].
  - cbn [filter]. destruct (f x) eqn:Fx; [|reflexivity]. symmetry.
    change (if f y then y :: filter f r else filter f r) with (filter f (y :: r)). apply ins_front. apply Forall_filter.
    constructor; [lia|]. eapply Forall_impl; [|exact A]. cbn. intros; lia.
  - cbn [filter]. rewrite (IH B). destruct (f x), (f y); try reflexivity. cbn [ins].
    destruct (Z.geb_spec (pr y) (pr x)); [lia|reflexivity].
Qed.
Lemma filter_srt pr f l : filter f (srt pr l) = srt pr (filter f l).
Proof.
  induction l as [|x r IH]; cbn [srt fold_right]; [reflexivity|]. rewrite filter_ins by apply srt_sorted.
  fold (srt pr r). rewrite IH. cbn [filter]. destruct (f x); reflexivity.
Qed.
Lemma ins_ext pr pr' x l : (forall y, In y (x :: l) -> pr y = pr' y) -> ins pr x l = ins pr' x l.
Proof.
  induction l as [|y r IH]; intros E; cbn [ins]; [reflexivity|].
  rewrite (E x (or_introl eq_refl)), (E y (or_intror (or_introl eq_refl))). destruct (pr' y >=? pr' x); [reflexivity|].
  f_equal. apply IH. intros z [->|Hz]; apply E; [left; reflexivity|right; right; exact Hz].
Qed.
Lemma srt_ext pr pr' l : (forall y, In y l -> pr y = pr' y) -> srt pr l = srt pr' l.
Proof.
  induction l as [|x r IH]; intros E; cbn [srt fold_right]; [reflexivity|]. fold (srt pr r) (srt pr' r).
  rewrite <- IH by (intros y Hy; apply E; right; exact Hy). apply ins_ext. intros y [->|Hy]; apply E; [left; reflexivity|].
  right. apply (srt_in pr r). exact Hy.
Qed.
Lemma find_sorted_first pr f : forall l h, sorted pr l -> find f l = Some h -> forall y, In y l -> f y = true -> pr h <= pr y.
Proof.
  induction l as [|x r IH]; intros h S E y Hy Fy; cbn [find] in E; [discriminate|].
  destruct S as [A B]. rewrite Forall_forall in A. destruct (f x) eqn:Fx.
  - injection E as ->. destruct Hy as [->|Hy]; [lia|auto].
  - destruct Hy as [->|Hy]; [congruence|]. apply (IH h B E y Hy Fy).
Qed.
Lemma find_none_iff {A} (f : A -> bool) l : find f l = None <-> forall x, In x l -> f x = false.
Proof.
  split; [intros H x Hx; apply (find_none f l H x Hx)|].
  induction l as [|x r IH]; intros H; cbn [find]; [reflexivity|]. rewrite (H x (or_introl eq_refl)). apply IH.
  intros y Hy. apply H. right. exact Hy.
Qed.
Lemma find_ins pr f x l : sorted pr l -> find f (ins pr x l) =
  if f x then match find f l with Some h => if pr h >=? pr x then Some x else Some h | None => Some x end else find f l.
Proof.
  induction l as [|y r IH]; cbn [ins]; intros S; [cbn; destruct (f x); reflexivity|]. pose proof S as [A B].
  destruct (Z.geb_spec (pr y) (pr x)) as [C|C].
  - cbn [find]. destruct (f x) eqn:Fx; [|reflexivity].
    change (if f y then Some y else find f r) with (find f (y :: r)). destruct (find f (y :: r)) as [h|] eqn:E; [|reflexivity].
    assert (pr y <= pr h).
    { apply find_some in E. destruct E as [[->|E] _]; [lia|]. rewrite Forall_forall in A. auto. }
    destruct (Z.geb_spec (pr h) (pr x)); [reflexivity|lia].
  - cbn [find]. destruct (f y) eqn:Fy.
    + destruct (f x); [|reflexivity]. destruct (Z.geb_spec (pr y) (pr x)); [lia|reflexivity].
    + apply (IH B).
Qed.
(* the first match of the sorted list: least number, newest among equals *)
Lemma find_srt pr f : forall l h, find f (srt pr l) = Some h ->
  exists l1 l2, l = l1 ++ h :: l2 /\ f h = true /\ (forall x, In x l1 -> f x = true -> pr h < pr x) /\
                (forall x, In x l2 -> f x = true -> pr h <= pr x).
Proof.
  induction l as [|x r IH]; intros h E; cbn [srt fold_right] in E; [discriminate|]. fold (srt pr r) in E.
  rewrite find_ins in E by apply srt_sorted.
  assert (K : forall k, find f (srt pr r) = Some k -> (f x = true -> pr k < pr x) -> exists l1 l2, x :: r = l1 ++ k :: l2 /\ f k = true /\
     (forall x0, In x0 l1 -> f x0 = true -> pr k < pr x0) /\ (forall x0, In x0 l2 -> f x0 = true -> pr k <= pr x0)).
  { intros k Ek Hk. destruct (IH k Ek) as (l1 & l2 & E1 & E2 & E3 & E4). exists (x :: l1), l2. rewrite E1.
    split; [reflexivity|]. split; [exact E2|]. split; [|exact E4]. intros z [<-|Hz] Fz; auto. }
  destruct (f x) eqn:Fx.
  - assert (Q : (forall y, In y r -> f y = true -> pr x <= pr y) -> exists l1 l2, x :: r = l1 ++ x :: l2 /\ f x = true /\
       (forall x0, In x0 l1 -> f x0 = true -> pr x < pr x0) /\ (forall x0, In x0 l2 -> f x0 = true -> pr x <= pr x0)).
    { intros Hy. exists [], r. split; [reflexivity|]. split; [exact Fx|]. split; [intros ? []|exact Hy]. }
    destruct (find f (srt pr r)) as [k|] eqn:Ek.
    + destruct (Z.geb_spec (pr k) (pr x)) as [C|C]; injection E as <-.
      * apply Q. intros y Hy Fy. pose proof (find_sorted_first pr f _ k (srt_sorted pr r) Ek y (proj2 (srt_in pr r y) Hy) Fy). lia.
      * apply K; auto.
    + injection E as <-. apply Q. intros y Hy Fy. rewrite find_none_iff in Ek. rewrite Ek in Fy; [discriminate|]. apply srt_in. exact Hy.
  - apply K; [exact E|congruence].
Qed.
Lemma find_srt_none pr f l : find f (srt pr l) = None <-> forall x, In x l -> f x = false.
Proof. rewrite find_none_iff. split; intros H x Hx; apply H; apply (srt_in pr l); exact Hx. Qed.

(* where the new one goes *)
Lemma sp_place_ok h pr x : forall l fuel prev o, chain (fun j => n_nl (h j)) o l -> (length l < fuel)%nat ->
  (forall y, In y l -> p_prio (n_par (h y)) = pr y) ->
  exists l1 l2, l = l1 ++ l2 /\ ins pr x l = l1 ++ x :: l2 /\ sp_place fuel h (pr x) prev o = Ret (lastopt prev l1, hd_error l2).
Proof.
  induction l as [|i r IH]; intros fuel prev o H F E; (destruct fuel as [|f]; [exfalso; cbn in F; lia|]); cbn [chain] in H; cbn [sp_place ins].
  - rewrite H. exists [], []. auto.
  - destruct H as [-> H]. rewrite (E i (or_introl eq_refl)). destruct (pr i >=? pr x).
    + exists [], (i :: r). auto.
    + destruct (IH f (Some i) (n_nl (h i)) H) as (l1 & l2 & E1 & E2 & E3).
      * cbn in F. lia.
      * intros y Hy. apply E. right. exact Hy.
      * exists (i :: l1), l2. rewrite E1 at 1. rewrite E2, E3. auto.
Qed.
Lemma list_end {A} (l : list A) : l = [] \/ exists l' j, l = l' ++ [j].
Proof. destruct l as [|x r] using rev_ind; [auto|right; exists r, x; reflexivity]. Qed.
Lemma iupd_eq {A} (f : nat -> A) i x : iupd f i x i = x.
Proof. unfold iupd. rewrite Nat.eqb_refl. reflexivity. Qed.
Lemma iupd_ne {A} (f : nat -> A) i x j : j <> i -> iupd f i x j = f j.
Proof. unfold iupd. intros N. destruct (Nat.eqb_spec j i); congruence. Qed.
Lemma nodup_lt_length l n : NoDup l -> (forall i, In i l -> (i < n)%nat) -> (length l <= n)%nat.
Proof.
  intros N H. rewrite <- (seq_length n 0). apply NoDup_incl_length; [exact N|].
  intros i Hi. apply in_seq. specialize (H i Hi). lia.
Qed.
Lemma nodup_split {A} (i : A) l1 l2 : NoDup (l1 ++ i :: l2) -> ~ In i l1 /\ ~ In i l2 /\ NoDup (l1 ++ l2).
Proof.
  intros N. pose proof (NoDup_remove _ _ _ N) as [N1 N2]. split; [|split]; [| |exact N1]; intros X; apply N2; apply in_app_iff; tauto.
Qed.
Lemma filter_split_ne i (l1 l2 : list nat) : ~ In i l1 -> ~ In i l2 ->
  filter (fun h => negb (Nat.eqb i h)) (l1 ++ i :: l2) = l1 ++ l2.
Proof.
  intros N1 N2. assert (Q : forall l, ~ In i l -> filter (fun h => negb (Nat.eqb i h)) l = l).
  { induction l as [|x r IH]; intros N; cbn [filter]; [reflexivity|].
    destruct (Nat.eqb_spec i x) as [->|_]; [exfalso; apply N; left; reflexivity|]. cbn [negb]. f_equal. apply IH.
    intros X. apply N. right. exact X. }
  rewrite filter_app. cbn [filter]. rewrite Nat.eqb_refl. cbn [negb]. rewrite (Q l1 N1), (Q l2 N2). reflexivity.
Qed.
