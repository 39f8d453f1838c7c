From Verif Require Import Base SleepModel SleepSpec.
Ltac Zify.zify_post_hook ::= idtac.

Fixpoint chain (nx : nat -> option nat) (h : option nat) (l : list nat) : Prop :=
  match l with [] => h = None | x :: r => h = Some x /\ chain nx (nx x) r end.
Lemma up_same {A} (f : nat -> A) i x : up f i x i = x.
Proof. unfold up. rewrite Nat.eqb_refl. reflexivity. Qed.
Lemma up_other {A} (f : nat -> A) i x j : j <> i -> up f i x j = f j.
Proof. intros H. unfold up. apply Nat.eqb_neq in H. rewrite H. reflexivity. Qed.
Lemma chain_ext nx nx' l : forall h, (forall x, In x l -> nx x = nx' x) -> chain nx h l -> chain nx' h l.
Proof. induction l as [|x l IH]; intros h E C; [exact C|]. cbn [chain] in *. destruct C as (C1 & C2). split; [exact C1|]. rewrite <- (E x) by (left; reflexivity). apply IH; [intros y Hy; apply E; right; exact Hy|exact C2]. Qed.
Lemma chain_up nx i v l h : ~ In i l -> chain nx h l -> chain (up nx i v) h l.
Proof. intros H. apply chain_ext. intros x Hx. rewrite up_other; [reflexivity|]. intros ->. contradiction. Qed.

(* the model state st stands for s *)
Record R (st : sl) (s : sspec) : Prop := {
  r_list : chain (s_next st) (s_list st) (map fst (asleep s));
  r_free : chain (s_next st) (s_free st) (spare s);
  r_nodup : NoDup (map fst (asleep s) ++ map fst (woken s) ++ spare s);
  r_asleep : forall i c, In (i, c) (asleep s) -> s_chan st i = c /\ s_go st i = false /\ s_wbt st i = false;
  r_woken : forall i b, In (i, b) (woken s) -> s_go st i = true /\ s_wbt st i = b
}.
Definition nod (s : sspec) : list nat := map fst (asleep s) ++ map fst (woken s) ++ spare s.

(* one sleeper leaves the list: a1 are those before it *)
Definition last_of (l : list nat) : option nat := match rev l with [] => None | x :: _ => Some x end.
Lemma last_of_app l x : last_of (l ++ [x]) = Some x.
Proof. unfold last_of. rewrite rev_app_distr. reflexivity. Qed.
Lemma chain_app_inv nx l2 : forall l1 h, chain nx h (l1 ++ l2) -> chain nx (match last_of l1 with None => h | Some q => nx q end) l2.
Proof.
  induction l1 as [|x l1 IH] using rev_ind; intros h C; [exact C|]. rewrite last_of_app. rewrite <- app_assoc in C.
  assert (G : forall l h, chain nx h (l ++ x :: l2) -> chain nx (nx x) l2).
  { clear. induction l as [|y l IH]; intros h C; cbn [app chain] in C; [apply C|]. destruct C as (_ & C). apply (IH _ C). }
  exact (G l1 h C).
Qed.
Lemma chain_cut nx i a1 a2 : NoDup (a1 ++ i :: a2) -> forall h, chain nx h (a1 ++ i :: a2) ->
  match last_of a1 with None => chain nx (nx i) a2 | Some q => chain (up nx q (nx i)) h (a1 ++ a2) end.
Proof.
  intros ND h C. destruct (last_of a1) as [q|] eqn:E.
  - assert (exists b, a1 = b ++ [q]). { unfold last_of in E. destruct (rev a1) as [|x r] eqn:ER; [discriminate|]. inversion E; subst x. exists (rev r). rewrite <- (rev_involutive a1), ER. reflexivity. }
    destruct H as (b & ->). rewrite <- app_assoc in *. cbn [app] in *. revert h C. induction b as [|x b IH]; intros h C; cbn [app chain] in *.
    + destruct C as (C1 & C2 & C3). split; [exact C1|]. rewrite up_same. apply chain_up; [|exact C3]. inversion ND; subst. intros X. apply H1. right. exact X.
    + inversion ND as [|y z N1 N2]; subst. destruct C as (C1 & C2). split; [exact C1|]. rewrite up_other.
      * apply IH; [apply last_of_app|exact N2|exact C2].
      * intros ->. apply N1. apply in_or_app. right. left. reflexivity.
  - destruct a1 as [|x a1]; [cbn [app chain] in C; apply C|]. unfold last_of in E. cbn [rev] in E. destruct (rev a1); discriminate.
Qed.

(* the state after waking i, as a whole *)
Definition woke (st : sl) (prev : option nat) (i : nat) (tmo : bool) : sl :=
  mkSl (match prev with Some q => up (s_next st) q (s_next st i) | None => s_next st end) (s_chan st) (up (s_go st) i true)
       (if tmo then up (s_wbt st) i true else s_wbt st) (if tmo then up (s_tmo st) i false else s_tmo st)
       (match prev with Some _ => s_list st | None => s_next st i end) (s_free st).
Lemma nodup_l {A} (a b : list A) : NoDup (a ++ b) -> NoDup a.
Proof. induction a as [|x a IH]; intros H; [constructor|]. cbn [app] in H. inversion H; subst. constructor; [intros X; apply H2; apply in_or_app; left; exact X|apply IH; assumption]. Qed.
Lemma nodup_r {A} (a b : list A) : NoDup (a ++ b) -> NoDup b.
Proof. induction a as [|x a IH]; intros H; [exact H|]. cbn [app] in H. inversion H; subst. apply IH; assumption. Qed.
Lemma nodup_disj {A} (a b : list A) x : NoDup (a ++ b) -> In x a -> In x b -> False.
Proof. induction a as [|y a IH]; intros H I J; [contradiction|]. cbn [app] in H. inversion H; subst. destruct I as [->|I]; [apply H2, in_or_app; right; exact J|apply IH; assumption]. Qed.
Lemma last_in l q : last_of l = Some q -> In q l.
Proof. unfold last_of. destruct (rev l) as [|x r] eqn:E; [discriminate|]. intros H. inversion H; subst. apply in_rev. rewrite E. left. reflexivity. Qed.

Lemma woke_R st a1 i c a2 w sp tmo : R st (mkS (a1 ++ (i, c) :: a2) w sp) -> R (woke st (last_of (map fst a1)) i tmo) (mkS (a1 ++ a2) ((i, tmo) :: w) sp).
Proof.
  intros [L F N A W]. cbn [asleep woken spare] in *. rewrite map_app in L, N. cbn [map fst] in L, N.
  set (A1 := map fst a1) in *. set (A2 := map fst a2) in *.
  assert (N1 : NoDup (A1 ++ i :: A2)) by exact (nodup_l _ _ N).
  assert (NI : ~ In i (A1 ++ A2 ++ map fst w ++ sp)). { rewrite <- app_assoc in N. cbn [app] in N. apply NoDup_remove_2 in N. exact N. }
  assert (NM : NoDup (A1 ++ A2 ++ map fst w ++ sp)). { rewrite <- app_assoc in N. cbn [app] in N. apply NoDup_remove_1 in N. exact N. }
  assert (QN : forall q, last_of A1 = Some q -> ~ In q sp).
  { intros q Hq Hs. apply last_in in Hq. apply (nodup_disj _ _ q N); [apply in_or_app; left; exact Hq|apply in_or_app; right; exact Hs]. }
  assert (IA : forall j d, In (j, d) (a1 ++ a2) -> j <> i).
  { intros j d Hj ->. apply NI. apply (in_map fst) in Hj. cbn [fst] in Hj. rewrite map_app in Hj. rewrite app_assoc. apply in_or_app. left. exact Hj. }
  constructor; cbn [asleep woken spare]; unfold woke; cbn [s_next s_chan s_go s_wbt s_list s_free].
  - rewrite map_app. fold A1 A2. assert (X := chain_cut _ _ _ _ N1 _ L). destruct (last_of A1) as [q|] eqn:E; [exact X|].
    destruct A1 as [|x A1']; [exact X|]. unfold last_of in E. cbn [rev] in E. destruct (rev A1'); discriminate.
  - destruct (last_of A1) as [q|] eqn:E; [|exact F]. apply chain_up; [apply QN; reflexivity|exact F].
  - rewrite map_app. cbn [map fst]. fold A1 A2. apply NoDup_Add with (a := i) (l := (A1 ++ A2) ++ map fst w ++ sp); [apply Add_app|]. split; [rewrite <- app_assoc; exact NM|rewrite <- app_assoc; exact NI].
  - intros j d Hj. assert (JN := IA j d Hj). assert (Hj' : In (j, d) (a1 ++ (i, c) :: a2)) by (apply in_app_or in Hj; apply in_or_app; destruct Hj; [left|right; right]; assumption).
    destruct (A j d Hj') as (X1 & X2 & X3). rewrite up_other by exact JN. split; [exact X1|]. split; [exact X2|]. destruct tmo; [rewrite up_other by exact JN|]; exact X3.
  - intros j b [Hj|Hj].
    + inversion Hj; subst j b. rewrite up_same. split; [reflexivity|]. destruct tmo; [apply up_same|].
      apply (A i c). apply in_or_app. right. left. reflexivity.
    + assert (JN : j <> i). { intros ->. apply NI. rewrite app_assoc. apply in_or_app. right. apply in_or_app. left. apply (in_map fst) in Hj. exact Hj. }
      destruct (W j b Hj) as (X1 & X2). rewrite up_other by exact JN. split; [exact X1|]. destruct tmo; [rewrite up_other by exact JN|]; exact X2.
Qed.

Lemma wake_loop_all ch : forall a2 f st a1 w sp, R st (mkS (a1 ++ a2) w sp) -> (length a2 <= f)%nat ->
  exists st', wake_loop f st (last_of (map fst a1)) (hd_error (map fst a2)) ch false false = Ret st' /\
    R st' (mkS (a1 ++ filter (fun x => negb (on ch x)) a2) (rev (map (fun x => (fst x, false)) (filter (on ch) a2)) ++ w) sp).
Proof.
  induction a2 as [|[i c] a2 IH]; intros f st a1 w sp H HF.
  - exists st. split; [destruct f; reflexivity|exact H].
  - destruct f as [|f]; [cbn [length] in HF; lia|]. cbn [map fst hd_error wake_loop filter on snd].
    assert (CH : s_chan st i = c) by (apply (r_asleep _ _ H i c), in_or_app; right; left; reflexivity).
    assert (NX : s_next st i = hd_error (map fst a2)).
    { assert (L := r_list _ _ H). cbn [asleep] in L. replace (a1 ++ (i, c) :: a2) with ((a1 ++ [(i, c)]) ++ a2) in L by (rewrite <- app_assoc; reflexivity). rewrite map_app in L. apply chain_app_inv in L. rewrite map_app in L. cbn [map fst] in L. rewrite last_of_app in L.
      destruct a2 as [|[j d] a2]; cbn [map fst chain hd_error] in *; [exact L|apply L]. }
    rewrite CH. change (on ch (i, c)) with (ch =? c). destruct (ch =? c) eqn:E; cbn [negb].
    + assert (HW := woke_R st a1 i c a2 w sp false H). rewrite NX.
      destruct (IH f _ a1 ((i, false) :: w) sp HW ltac:(cbn [length] in HF; lia)) as (st' & E1 & H1). exists st'. split.
      * rewrite <- E1. unfold woke. rewrite NX. destruct (last_of (map fst a1)); reflexivity.
      * cbn [map fst rev]. rewrite <- app_assoc. exact H1.
    + rewrite NX. destruct (IH f st (a1 ++ [(i, c)]) w sp) as (st' & E1 & H1); [rewrite <- app_assoc; exact H|cbn [length] in HF; lia|].
      exists st'. rewrite map_app in E1. cbn [map fst] in E1. rewrite last_of_app in E1. split; [exact E1|]. rewrite <- app_assoc in H1. exact H1.
Qed.
Lemma wake_loop_one ch tmo : forall a2 f st a1 w sp, R st (mkS (a1 ++ a2) w sp) -> (length a2 <= f)%nat ->
  exists st', wake_loop f st (last_of (map fst a1)) (hd_error (map fst a2)) ch true tmo = Ret st' /\
    R st' (match take_first (on ch) a2 with Some (x, r) => mkS (a1 ++ r) ((fst x, tmo) :: w) sp | None => mkS (a1 ++ a2) w sp end).
Proof.
  induction a2 as [|[i c] a2 IH]; intros f st a1 w sp H HF.
  - exists st. split; [destruct f; reflexivity|exact H].
  - destruct f as [|f]; [cbn [length] in HF; lia|]. cbn [map fst hd_error wake_loop take_first].
    assert (CH : s_chan st i = c) by (apply (r_asleep _ _ H i c), in_or_app; right; left; reflexivity).
    assert (NX : s_next st i = hd_error (map fst a2)).
    { assert (L := r_list _ _ H). cbn [asleep] in L. replace (a1 ++ (i, c) :: a2) with ((a1 ++ [(i, c)]) ++ a2) in L by (rewrite <- app_assoc; reflexivity). rewrite map_app in L. apply chain_app_inv in L. rewrite map_app in L. cbn [map fst] in L. rewrite last_of_app in L.
      destruct a2 as [|[j d] a2]; cbn [map fst chain hd_error] in *; [exact L|apply L]. }
    rewrite CH. change (on ch (i, c)) with (ch =? c). destruct (ch =? c) eqn:E.
    + assert (HW := woke_R st a1 i c a2 w sp tmo H). eexists. split; [reflexivity|]. cbn [fst]. unfold woke in HW. destruct (last_of (map fst a1)); destruct tmo; exact HW.
    + rewrite NX. destruct (IH f st (a1 ++ [(i, c)]) w sp) as (st' & E1 & H1); [rewrite <- app_assoc; exact H|cbn [length] in HF; lia|].
      exists st'. rewrite map_app in E1. cbn [map fst] in E1. rewrite last_of_app in E1. split; [exact E1|]. rewrite <- !app_assoc in H1. cbn [app] in H1.
      destruct (take_first (on ch) a2) as [[x r]|]; [rewrite <- app_assoc in H1|]; exact H1.
Qed.
Lemma list_head st s : R st s -> s_list st = hd_error (map fst (asleep s)).
Proof. intros H. assert (L := r_list _ _ H). destruct (map fst (asleep s)); [exact L|apply L]. Qed.
(* same sleepers, in some order of the woken ones *)
Definition same (s s' : sspec) : Prop := asleep s = asleep s' /\ spare s = spare s' /\ (forall x, In x (woken s) <-> In x (woken s')) /\ NoDup (nod s').
Lemma R_woken st a w w' sp : R st (mkS a w sp) -> (forall x, In x w <-> In x w') -> length w = length w' -> R st (mkS a w' sp).
Proof.
  intros [L F N A W] I LE. cbn [asleep woken spare] in *. constructor; cbn [asleep woken spare]; try assumption.
  - apply (@NoDup_incl_NoDup _ (map fst a ++ map fst w ++ sp) _ N); [rewrite !app_length, !map_length; lia|].
    intros x Hx. apply in_app_or in Hx. apply in_or_app. destruct Hx as [Hx|Hx]; [left; exact Hx|right]. apply in_app_or in Hx. apply in_or_app. destruct Hx as [Hx|Hx]; [left|right; exact Hx].
    apply in_map_iff in Hx. destruct Hx as (y & E & Hy). apply in_map_iff. exists y. split; [exact E|apply I; exact Hy].
  - intros i b Hb. apply W, I, Hb.
Qed.
Lemma wake1_all st s ch n : R st s -> (length (asleep s) <= n)%nat -> exists st', wake1 n st ch false false = Ret st' /\ R st' (wake_all ch s).
Proof.
  intros H HN. unfold wake1. rewrite (list_head _ _ H). destruct s as [a w sp]. cbn [asleep] in *. destruct (wake_loop_all ch a n st [] w sp H HN) as (st' & E & H'). exists st'. split; [exact E|].
  unfold wake_all. cbn [asleep woken spare]. cbn [app] in H'. apply (R_woken _ _ _ _ _ H'); [|rewrite !app_length, rev_length; reflexivity].
  intros x. rewrite !in_app_iff, <- in_rev. reflexivity.
Qed.
Lemma wake1_one st s ch tmo n : R st s -> (length (asleep s) <= n)%nat -> exists st', wake1 n st ch true tmo = Ret st' /\ R st' (wake_one ch tmo s).
Proof.
  intros H HN. unfold wake1. rewrite (list_head _ _ H). destruct s as [a w sp]. cbn [asleep] in *. destruct (wake_loop_one ch tmo a n st [] w sp H HN) as (st' & E & H'). exists st'. split; [exact E|].
  unfold wake_one. cbn [asleep woken spare] in *. destruct (take_first (on ch) a) as [[x r]|]; exact H'.
Qed.
Lemma filter_len {A} (p : A -> bool) l : (length (filter p l) <= length l)%nat.
Proof. induction l as [|x l IH]; cbn [filter length]; [lia|]. destruct (p x); cbn [length]; lia. Qed.
Lemma selects_ok st s ch n : R st s -> (length (asleep s) <= n)%nat -> exists st', (if ch =? 0 then Ret st else wake1 n st 0 false false) = Ret st' /\ R st' (selects ch s) /\ (length (asleep (selects ch s)) <= n)%nat.
Proof.
  intros H HN. unfold selects. destruct (ch =? 0); [exists st; split; [reflexivity|split; assumption]|]. destruct (wake1_all st s 0 n H HN) as (st' & E & H'). exists st'. split; [exact E|]. split; [exact H'|].
  unfold wake_all. cbn [asleep]. pose proof (filter_len (fun x => negb (on 0 x)) (asleep s)). lia.
Qed.
Lemma wakeup_ok st s ch one n : R st s -> (length (asleep s) <= n)%nat -> exists st', wakeup n st ch one = Ret st' /\ R st' (if one then wake_one ch false (selects ch s) else wake_all ch (selects ch s)).
Proof.
  intros H HN. unfold wakeup. destruct (selects_ok st s ch n H HN) as (st1 & -> & H1 & L1). cbn [obind]. destruct one; [apply wake1_one|apply wake1_all]; assumption.
Qed.
Lemma sleep_begin_ok st s ch t : R st s -> exists st', sleep_begin st ch t = (st', match spare s with [] => None | i :: _ => Some i end) /\ R st' (fst (sstep s (SSleep ch t))).
Proof.
  intros [L F N A W]. destruct s as [a w sp]. cbn [asleep woken spare] in *. unfold sleep_begin. destruct sp as [|i sp]; cbn [chain] in F.
  - rewrite F. exists st. split; [reflexivity|]. cbn [sstep spare fst]. constructor; assumption.
  - destruct F as (F1 & F2). rewrite F1. eexists. split; [reflexivity|]. cbn [sstep spare fst asleep woken].
    assert (NI : ~ In i (map fst a ++ map fst w ++ sp)). { rewrite app_assoc in N. apply NoDup_remove_2 in N. rewrite <- app_assoc in N. exact N. }
    constructor; cbn [asleep woken spare s_next s_chan s_go s_wbt s_list s_free map fst].
    + split; [reflexivity|]. rewrite up_same. apply chain_up; [|exact L]. intros X. apply NI, in_or_app. left. exact X.
    + apply chain_up; [|exact F2]. intros X. apply NI, in_or_app. right. apply in_or_app. right. exact X.
    + cbn [app]. constructor; [exact NI|]. rewrite app_assoc in N. apply NoDup_remove_1 in N. rewrite <- app_assoc in N. exact N.
    + intros j c [E|Hj]; [inversion E; subst; rewrite !up_same; repeat split|].
      assert (j <> i). { intros ->. apply NI, in_or_app. left. apply (in_map fst) in Hj. exact Hj. } rewrite !up_other by assumption. apply A, Hj.
    + intros j b Hj. assert (j <> i). { intros ->. apply NI, in_or_app. right. apply in_or_app. left. apply (in_map fst) in Hj. exact Hj. } rewrite !up_other by assumption. apply W, Hj.
Qed.
Lemma take_first_split {A} (p : A -> bool) l x r : take_first p l = Some (x, r) -> p x = true /\ exists l1 l2, l = l1 ++ x :: l2 /\ r = l1 ++ l2 /\ Forall (fun y => p y = false) l1.
Proof.
  revert x r. induction l as [|y l IH]; intros x r H; cbn [take_first] in H; [discriminate|]. destruct (p y) eqn:E.
  - inversion H; subst. split; [exact E|]. exists [], r. repeat split. constructor.
  - destruct (take_first p l) as [[z r']|] eqn:T; [|discriminate]. inversion H; subst. destruct (IH _ _ eq_refl) as (P & l1 & l2 & -> & -> & FA). split; [exact P|]. exists (y :: l1), l2. repeat split. constructor; assumption.
Qed.
Lemma take_first_none {A} (p : A -> bool) l : take_first p l = None -> forall x, In x l -> p x = false.
Proof. induction l as [|y l IH]; intros H x Hx; [contradiction|]. cbn [take_first] in H. destruct (p y) eqn:E; [discriminate|]. destruct (take_first p l) as [[z r]|]; [discriminate|]. destruct Hx as [->|Hx]; [exact E|apply IH; [reflexivity|exact Hx]]. Qed.
Lemma sleep_end_ok st s i : R st s -> In i (map fst (woken s)) -> exists st' b, sleep_end st i = (st', b) /\ sstep s (SReturn i) = (fst (sstep s (SReturn i)), SRet b) /\ R st' (fst (sstep s (SReturn i))).
Proof.
  intros H Hi. destruct (take_first (fun x => Nat.eqb (fst x) i) (woken s)) as [[x r]|] eqn:T.
  2:{ exfalso. apply in_map_iff in Hi. destruct Hi as (y & E & Hy). assert (X := take_first_none _ _ T y Hy). cbv beta in X. rewrite E, Nat.eqb_refl in X. discriminate. }
  destruct (take_first_split _ _ _ _ T) as (P & l1 & l2 & EW & ER & _). apply Nat.eqb_eq in P. destruct x as [i' b]. cbn [fst] in P. subst i'.
  destruct H as [L F N A W]. unfold sleep_end. assert (WB : s_wbt st i = b) by (apply (W i b); rewrite EW; apply in_or_app; right; left; reflexivity).
  eexists _, b. rewrite WB. split; [reflexivity|]. cbn [sstep]. rewrite T. cbn [fst snd]. split; [reflexivity|].
  rewrite EW, map_app in N. cbn [map fst] in N.
  assert (NI : ~ In i (map fst (asleep s) ++ (map fst l1 ++ map fst l2) ++ spare s)). { rewrite <- app_assoc in N. cbn [app] in N. rewrite app_assoc in N. apply NoDup_remove_2 in N. rewrite <- app_assoc in N. rewrite <- app_assoc. exact N. }
  assert (NM : NoDup (map fst (asleep s) ++ (map fst l1 ++ map fst l2) ++ spare s)). { rewrite <- app_assoc in N. cbn [app] in N. rewrite app_assoc in N. apply NoDup_remove_1 in N. rewrite <- app_assoc in N. rewrite <- app_assoc. exact N. }
  constructor; cbn [asleep woken spare s_next s_chan s_go s_wbt s_list s_free]; rewrite ?ER.
  - apply chain_up; [|exact L]. intros X. apply NI, in_or_app. left. exact X.
  - cbn [chain]. split; [reflexivity|]. rewrite up_same. apply chain_up; [|exact F]. intros X. apply NI, in_or_app. right. apply in_or_app. right. exact X.
  - rewrite map_app. apply NoDup_Add with (a := i) (l := map fst (asleep s) ++ (map fst l1 ++ map fst l2) ++ spare s); [|split; [exact NM|exact NI]].
    rewrite !app_assoc. apply Add_app.
  - exact A.
  - intros j c Hj. apply W. rewrite EW. apply in_app_or in Hj. apply in_or_app. destruct Hj; [left|right; right]; assumption.
Qed.
Lemma seq_chain_free n : forall k m, (k + m = n)%nat -> (0 < m)%nat -> chain (s_next (sl_init n)) (Some k) (seq k m).
Proof.
  intros k m. revert k. induction m as [|m IH]; intros k E H; [lia|]. cbn [seq chain]. split; [reflexivity|]. cbn [s_next sl_init]. destruct (Nat.eqb_spec k (n - 1)) as [->|NE].
  - replace m with 0%nat by lia. reflexivity.
  - destruct m as [|m]; [lia|]. apply IH; lia.
Qed.
Lemma R_init n : R (sl_init n) (s0 n).
Proof.
  constructor; cbn [s0 asleep woken spare map app]; try contradiction; try reflexivity.
  - destruct n as [|n]; [reflexivity|]. apply (seq_chain_free (S n) 0 (S n)); lia.
  - apply seq_NoDup.
Qed.
Lemma wake_all_len ch s : length (nod (wake_all ch s)) = length (nod s).
Proof.
  unfold nod, wake_all. cbn [asleep woken spare]. rewrite !app_length, !map_length, !app_length, !map_length.
  assert (X : (length (filter (fun x => negb (on ch x)) (asleep s)) + length (filter (on ch) (asleep s)) = length (asleep s))%nat).
  { induction (asleep s) as [|x l IH]; [reflexivity|]. cbn [filter]. destruct (on ch x); cbn [negb length]; lia. }
  lia.
Qed.
Lemma wake_one_len ch t s : length (nod (wake_one ch t s)) = length (nod s).
Proof.
  unfold wake_one. destruct (take_first (on ch) (asleep s)) as [[x r]|] eqn:T; [|reflexivity]. destruct (take_first_split _ _ _ _ T) as (_ & l1 & l2 & E & -> & _).
  unfold nod. cbn [asleep woken spare]. rewrite E, !app_length, !map_length, !app_length. cbn [length map]. lia.
Qed.
Lemma selects_len ch s : length (nod (selects ch s)) = length (nod s).
Proof. unfold selects. destruct (ch =? 0); [reflexivity|apply wake_all_len]. Qed.
Lemma sstep_len s op : length (nod (fst (sstep s op))) = length (nod s).
Proof.
  destruct op as [ch t|i|ch|ch|ch]; cbn [sstep fst].
  - destruct (spare s) as [|i r] eqn:E; [reflexivity|]. unfold nod. cbn [fst asleep woken spare map]. rewrite E, !app_length. cbn [length]. lia.
  - destruct (take_first _ (woken s)) as [[x r]|] eqn:T; [|reflexivity]. destruct (take_first_split _ _ _ _ T) as (_ & l1 & l2 & E & -> & _). unfold nod. cbn [fst asleep woken spare]. rewrite E, !app_length, !map_length, !app_length. cbn [length]. lia.
  - rewrite wake_all_len. apply selects_len.
  - rewrite wake_one_len. apply selects_len.
  - apply wake_one_len.
Qed.
Lemma asleep_len s : (length (asleep s) <= length (nod s))%nat.
Proof. unfold nod. rewrite app_length, map_length. lia. Qed.
Lemma srun1_ok n st s op : R st s -> length (nod s) = n -> (match op with SReturn i => In i (map fst (woken s)) | _ => True end) ->
  exists st', srun1 n st op = Ret (st', snd (sstep s op)) /\ R st' (fst (sstep s op)).
Proof.
  intros H LN LG. assert (LA := asleep_len s). rewrite LN in LA. destruct op as [ch t|i|ch|ch|ch]; cbn [srun1].
  - destruct (sleep_begin_ok st s ch t H) as (st' & E & H'). rewrite E. exists st'. split; [|exact H']. cbn [sstep]. destruct (spare s); reflexivity.
  - destruct (sleep_end_ok st s i H LG) as (st' & b & E & E2 & H'). rewrite E. exists st'. split; [rewrite E2; reflexivity|exact H'].
  - destruct (wakeup_ok st s ch false n H LA) as (st' & E & H'). rewrite E. exists st'. split; [reflexivity|exact H'].
  - destruct (wakeup_ok st s ch true n H LA) as (st' & E & H'). rewrite E. exists st'. split; [reflexivity|exact H'].
  - unfold timer_fires. destruct (wake1_one st s ch true n H LA) as (st' & E & H'). rewrite E. exists st'. split; [reflexivity|exact H'].
Qed.
