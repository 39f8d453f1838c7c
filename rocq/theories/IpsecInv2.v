(* Destroying associations, and the association flush. *)
From Verif Require Import Base IpsecModel IpsecSpec IpsecList IpsecSp IpsecLk IpsecSa IpsecInv.
Ltac Zify.zify_post_hook ::= idtac.

Definition v_sa (a : view) l qd qc := mkView (pols a) (ppar a) (pcnt a) l (qpar a) qd qc (qsel a) (qselp a) (pending a).
Definition keep (a : view) (sync : Z -> bool) (pick : nat -> bool) (o1 : bool) (h : nat) : bool :=
  negb (pick h && negb (qdis a h) && o1 && sync (q_dir (qpar a h))).
Lemma kill_sa_eq a sync pick o1 :
  kill_sa a sync pick o1 = v_sa a (filter (keep a sync pick o1) (assocs a)) (fun h => qdis a h || (pick h && isin h (assocs a))) (qcnt a).
Proof. reflexivity. Qed.

Lemma sa_fin_inv nsp nsa d a l1 i l2 fuel : Inv nsp nsa d a -> assocs a = l1 ++ i :: l2 -> qdis a i = true -> small a ->
  Z.of_nat nsp <= 1073741824 -> (nsa < fuel)%nat ->
  exists d', sa_destroy_finish fuel d i true = Ret (d', true) /\ Inv nsp nsa d' (v_assocs a (l1 ++ l2)) /\
    (0 < qcnt a i -> a_next (sah d' i) = a_next (sah d i)).
Proof.
  intros H E Qd Sm Np F. pose proof (rc_small _ _ _ _ H Sm Np) as Rs. pose proof (i_sa _ _ _ _ H) as [sf B]. rewrite E in B.
  pose proof (c_nd _ _ _ _ _ _ _ _ _ B) as ND. destruct (nodup_split _ _ _ ND) as (N1 & N2 & ND').
  destruct (sa_fin_ok nsa d _ _ _ _ _ sf l1 i l2 fuel B) as (d' & sf' & Q & B' & P & NX).
  { specialize (Rs i). lia. }
  { exact F. }
  exists d'. split; [exact Q|].
  assert (Isl : forall k, isin k (l1 ++ l2) = isin k (l1 ++ i :: l2) && negb (Nat.eqb k i)).
  { intros k. destruct (Nat.eqb_spec k i) as [->|Nk].
    - rewrite andb_false_r. apply isin_not. rewrite in_app_iff. tauto.
    - rewrite andb_true_r. apply eq_true_iff_eq. rewrite !isin_in, !in_app_iff. cbn [In]. intuition congruence. }
  assert (Rc : forall k, rcv (v_assocs a (l1 ++ l2)) k = set (rcv a) i (rcv a i - 1) k).
  { intros k. unfold set, rcv. cbn [v_assocs qcnt assocs pols]. rewrite E, Isl. destruct (Nat.eqb_spec k i) as [->|].
    - rewrite (proj2 (isin_in i (l1 ++ i :: l2))); [cbn [negb andb b2z]; lia|]. apply in_app_iff. right. left. reflexivity.
    - rewrite andb_true_r. reflexivity. }
  split.
  - refine (inv_sa nsp nsa d d' a (l1 ++ l2) (qdis a) (qcnt a) (qsel a) (qselp a) sf' H P _ _ (i_qpos _ _ _ _ H) (i_goodq _ _ _ _ H)).
    + apply (sa_ext nsa d' _ (qpar a) (qdis a) (fun i => isSome (qsel a i)) (qselp a) (set (rcv a) i (rcv a i - 1))); [exact Rc| |exact B'].
      intros; auto.
    + intros k Hk W. destruct (Nat.eq_dec k i) as [->|Nk]; [exact Qd|]. apply (i_gone _ _ _ _ H).
      * change (0 < rcv (v_assocs a (l1 ++ l2)) k) in Hk. rewrite Rc, set_ne in Hk by exact Nk. exact Hk.
      * rewrite E. rewrite in_app_iff in *. cbn [In]. intuition congruence.
  - intros Hq. apply NX. unfold rcv. rewrite E, (proj2 (isin_in i (l1 ++ i :: l2))) by (apply in_app_iff; right; left; reflexivity).
    pose proof (nb_nonneg (pols a) i). cbn [b2z]. lia.
Qed.

Lemma filter_keep_one (f : nat -> bool) i l1 l2 : (forall x, x <> i -> f x = true) -> ~ In i l1 -> ~ In i l2 ->
  filter f (l1 ++ i :: l2) = l1 ++ (if f i then [i] else []) ++ l2.
Proof.
  intros Hf N1 N2. assert (Q : forall l, ~ In i l -> filter f l = l).
  { induction l as [|x r IH]; intros N; cbn [filter]; [reflexivity|]. rewrite (Hf x) by (intros ->; apply N; left; reflexivity).
    f_equal. apply IH. intros X. apply N. right. exact X. }
  rewrite filter_app. cbn [filter]. rewrite (Q l1 N1), (Q l2 N2). destruct (f i); reflexivity.
Qed.

Lemma forallb_ext_in {A} (f g : A -> bool) l : (forall x, In x l -> f x = g x) -> forallb f l = forallb g l.
Proof.
  induction l as [|x r IH]; intros E; cbn [forallb]; [reflexivity|]. rewrite (E x (or_introl eq_refl)). f_equal.
  apply IH. intros y Hy. apply E. right. exact Hy.
Qed.

(* marking disabled *)
Lemma sa_dis_inv nsp nsa d a i : Inv nsp nsa d a -> 0 < rcv a i ->
  Inv nsp nsa (w_sa d i (g_dis (sah d i) true)) (v_qdis a (set (qdis a) i true)).
Proof.
  intros H P. pose proof (i_sa _ _ _ _ H) as [sf B]. pose proof (c_sel _ _ _ _ _ _ _ _ _ B i P) as [S1 S2].
  refine (inv_sa nsp nsa d _ a (assocs a) (set (qdis a) i true) (qcnt a) (qsel a) (qselp a) sf H _ _ _ (i_qpos _ _ _ _ H) (i_goodq _ _ _ _ H)).
  - spok.
  - apply (sa_ext nsa _ (assocs a) (qpar a) (set (qdis a) i true) (fun i => isSome (qsel a i)) (qselp a) (rcv a)); [reflexivity|intros; auto|].
    apply (sa_write nsa d (assocs a) (qpar a) (qdis a) _ (qselp a) (rcv a) sf i _ _ _ _ _ B P P).
    + intros j Nj. rewrite set_ne by exact Nj. auto.
    + apply (c_par _ _ _ _ _ _ _ _ _ B i P).
    + rewrite set_eq. reflexivity.
    + reflexivity.
    + exact S1.
    + exact S2.
    + apply (c_ref _ _ _ _ _ _ _ _ _ B i P).
    + reflexivity.
  - intros k Hk W. unfold set. destruct (Nat.eqb k i); [reflexivity|]. apply (i_gone _ _ _ _ H); assumption.
Qed.

Lemma sa_destroy_ok nsp nsa d a i fuel sync o1 : Inv nsp nsa d a -> 0 < qcnt a i -> pending a = false -> small a ->
  Z.of_nat nsp <= 1073741824 -> (nsa < fuel)%nat ->
  exists d', sa_destroy fuel d i (sync (q_dir (a_par (sah d i)))) o1 true = Ret (d', sa_destroy_rc a o1 i) /\
    Inv nsp nsa d' (kill_sa a sync (Nat.eqb i) o1) /\ a_next (sah d' i) = a_next (sah d i).
Proof.
  intros H Hq Pe Sm Np F. pose proof (i_sa _ _ _ _ H) as [sf B].
  assert (P : 0 < rcv a i) by (unfold rcv; pose proof (nb_nonneg (pols a) i); unfold b2z; destruct (isin i (assocs a)); lia).
  unfold sa_destroy, sa_disable. rewrite (c_dis _ _ _ _ _ _ _ _ _ B i P), (c_par _ _ _ _ _ _ _ _ _ B i P). unfold sa_destroy_rc.
  destruct (qdis a i) eqn:Qd.
  { cbn [negb andb]. exists d. split; [reflexivity|]. split; [|reflexivity]. rewrite kill_sa_eq. refine (inv_veq nsp nsa d a _ _ H).
    constructor; cbn [v_sa pols ppar pcnt assocs qpar qdis qcnt qsel qselp pending]; try reflexivity.
    - symmetry. assert (Q : forall x, In x (assocs a) -> keep a sync (Nat.eqb i) o1 x = true).
      { intros x _. unfold keep. destruct (Nat.eqb_spec i x) as [<-|]; [rewrite Qd|]; reflexivity. }
      clear - Q. induction (assocs a) as [|x r IH]; cbn [filter]; [reflexivity|]. rewrite (Q x (or_introl eq_refl)). f_equal. apply IH.
      intros y Hy. apply Q. right. exact Hy.
    - intros k. destruct (Nat.eqb_spec i k) as [<-|]; [rewrite Qd; reflexivity|]. cbn [andb]. rewrite orb_false_r. reflexivity. }
  assert (Ia : In i (assocs a)).
  { destruct (isin i (assocs a)) eqn:W; [apply isin_in; exact W|]. apply isin_not in W. rewrite (i_gone _ _ _ _ H i P W) in Qd. discriminate. }
  set (d1 := w_sa d i (g_dis (sah d i) true)).
  assert (H1 : Inv nsp nsa d1 (v_qdis a (set (qdis a) i true))) by (apply sa_dis_inv; assumption).
  assert (A1 : a_par (sah d1 i) = qpar a i).
  { unfold d1. cbn [w_sa sah]. rewrite iupd_eq. cbn [a_par g_dis]. apply (c_par _ _ _ _ _ _ _ _ _ B i P). }
  assert (NX1 : a_next (sah d1 i) = a_next (sah d i)) by (unfold d1; cbn [w_sa sah]; rewrite iupd_eq; reflexivity).
  assert (Vd : forall k, set (qdis a) i true k = qdis a k || (Nat.eqb i k && isin k (assocs a))).
  { intros k. unfold set. rewrite Nat.eqb_sym. destruct (Nat.eqb_spec i k) as [<-|]; cbn [andb]; [rewrite (proj2 (isin_in i _) Ia), orb_true_r; reflexivity|].
    rewrite orb_false_r. reflexivity. }
  (* everything up to the removal *)
  assert (Stay : (o1 && sync (q_dir (qpar a i))) = false -> Inv nsp nsa d1 (kill_sa a sync (Nat.eqb i) o1)).
  { intros G. rewrite kill_sa_eq. refine (inv_veq nsp nsa d1 _ _ _ H1).
    constructor; cbn [v_sa v_qdis pols ppar pcnt assocs qpar qdis qcnt qsel qselp pending]; try reflexivity; [|exact Vd].
    assert (Q : forall x, In x (assocs a) -> keep a sync (Nat.eqb i) o1 x = true).
    { intros x _. unfold keep. destruct (Nat.eqb_spec i x) as [<-|]; [|reflexivity]. rewrite Qd. cbn [negb andb]. rewrite G. reflexivity. }
    clear - Q. induction (assocs a) as [|x r IH]; cbn [filter]; [reflexivity|]. rewrite (Q x (or_introl eq_refl)). f_equal. apply IH.
    intros y Hy. apply Q. right. exact Hy. }
  assert (Fin : o1 = true -> sync (q_dir (qpar a i)) = true -> exists d', sa_destroy_finish fuel d1 i true = Ret (d', true) /\
     Inv nsp nsa d' (kill_sa a sync (Nat.eqb i) o1) /\ a_next (sah d' i) = a_next (sah d i)).
  { intros G1 G2. destruct (in_split _ _ Ia) as (l1 & l2 & E).
    destruct (sa_fin_inv nsp nsa d1 (v_qdis a (set (qdis a) i true)) l1 i l2 fuel H1 E) as (d' & Q & I' & NX).
    { cbn [v_qdis qdis]. apply set_eq. }
    { exact Sm. }
    { exact Np. }
    { exact F. }
    exists d'. split; [exact Q|]. split; [|rewrite NX by exact Hq; exact NX1]. rewrite kill_sa_eq. refine (inv_veq nsp nsa d' _ _ _ I').
    constructor; cbn [v_sa v_qdis v_assocs pols ppar pcnt assocs qpar qdis qcnt qsel qselp pending]; try reflexivity; [|exact Vd].
    pose proof (c_nd _ _ _ _ _ _ _ _ _ B) as ND. rewrite E in ND. destruct (nodup_split _ _ _ ND) as (N1 & N2 & _).
    rewrite E, filter_keep_one; [|intros x Nx; unfold keep; destruct (Nat.eqb_spec i x); [congruence|reflexivity]|exact N1|exact N2].
    unfold keep. rewrite Nat.eqb_refl, Qd, G1, G2. reflexivity. }
  assert (Rh : rheld d1 = false) by (change (rheld d1) with (rheld d); rewrite (i_held _ _ _ _ H); exact Pe).
  fold d1. rewrite A1. unfold sa_disable_finish. destruct (q_dir (qpar a i) =? DIR_IN) eqn:Dr.
  - destruct o1; cbn [negb andb] in *; [|exists d1; auto]. rewrite Rh, A1, Dr. cbn [negb].
    destruct (sync (q_dir (qpar a i))) eqn:Sy; [destruct (Fin eq_refl eq_refl) as (d' & Q & X); exists d'; auto|exists d1; auto].
  - rewrite Rh, A1, Dr. destruct o1; cbn [negb andb] in *; [|exists d1; auto].
    destruct (sync (q_dir (qpar a i))) eqn:Sy; [destruct (Fin eq_refl eq_refl) as (d' & Q & X); exists d'; auto|exists d1; auto].
Qed.

Lemma sa_flush_loop_ok nsp nsa fuel check vrf sync o1 qc0 : Z.of_nat nsp <= 1073741824 -> (nsa < fuel)%nat ->
  forall rest pre a d f ret, Inv nsp nsa d a -> assocs a = pre ++ rest -> pending a = false -> (length rest < f)%nat ->
  (forall j, qcnt a j = qc0 j + heldb (hd_error rest) j) -> (forall j, 0 <= qc0 j < LIMIT) -> (forall j, pcnt a j < LIMIT) ->
  let pick h := in_vrf check vrf (q_vrf (qpar a h)) in
  exists d', sa_flush_loop fuel f d check vrf sync o1 true (hd_error rest) ret =
      Ret (d', ret && forallb (fun i => negb (pick i) || sa_destroy_rc a o1 i) rest) /\
    Inv nsp nsa d' (v_sa a (pre ++ filter (keep a sync pick o1) rest) (fun h => qdis a h || (pick h && isin h rest)) qc0).
Proof.
  intros Np F. induction rest as [|i rest IH]; intros pre a d f ret H E Pe Lf Pc Lm Lq pick; (destruct f as [|f]; [exfalso; cbn [length] in Lf; lia|]); cbn [hd_error sa_flush_loop] in *.
  - exists d. cbn [forallb]. rewrite andb_true_r. split; [reflexivity|]. refine (inv_veq nsp nsa d a _ _ H).
    constructor; cbn [v_sa pols ppar pcnt assocs qpar qdis qcnt qsel qselp pending filter]; try reflexivity; [exact E| |].
    + intros j. cbn [isin existsb]. rewrite andb_false_r, orb_false_r. reflexivity.
    + intros j. rewrite Pc. unfold heldb, b2z. lia.
  - assert (Pi : 0 < qcnt a i) by (rewrite Pc; unfold heldb; rewrite Nat.eqb_refl; cbn [b2z]; specialize (Lm i); lia).
    assert (Sm : small a).
    { intros h. rewrite Pc. pose proof (heldb_le (Some i) h). specialize (Lm h). specialize (Lq h). lia. }
    pose proof (i_sa _ _ _ _ H) as [sf B].
    assert (P : 0 < rcv a i) by (unfold rcv; pose proof (nb_nonneg (pols a) i); unfold b2z; destruct (isin i (assocs a)); lia).
    assert (NX : a_next (sah d i) = hd_error rest).
    { pose proof (c_chain _ _ _ _ _ _ _ _ _ B) as C. rewrite E in C. apply (chain_next _ _ _ _ _ C). }
    pose proof (c_nd _ _ _ _ _ _ _ _ _ B) as ND. rewrite E in ND. destruct (nodup_split _ _ _ ND) as (N1 & N2 & _).
    rewrite (c_par _ _ _ _ _ _ _ _ _ B i P).
    change (negb check || (q_vrf (qpar a i) =? vrf)) with (pick i).
    set (pick1 := fun h => pick i && Nat.eqb i h).
    assert (Ek : forall h, keep a sync pick1 o1 h = if Nat.eqb i h then keep a sync pick o1 i else true).
    { intros h. unfold keep, pick1. destruct (Nat.eqb_spec i h) as [<-|]; [rewrite andb_true_r|rewrite andb_false_r]; reflexivity. }
    set (ki := if keep a sync pick o1 i then [i] else []).
    set (a1 := v_sa a ((pre ++ ki) ++ rest) (fun h => qdis a h || (pick i && Nat.eqb i h)) (qcnt a)).
    assert (S1 : exists d1, (if pick i then sa_destroy fuel d i (sync (q_dir (qpar a i))) o1 true else Ret (d, true)) =
         Ret (d1, negb (pick i) || sa_destroy_rc a o1 i) /\
       Inv nsp nsa d1 a1 /\ a_next (sah d1 i) = hd_error rest).
    { destruct (pick i) eqn:Pk.
      - destruct (sa_destroy_ok nsp nsa d a i fuel sync o1 H Pi Pe Sm Np F) as (d1 & Q1 & H1 & X1).
        rewrite (c_par _ _ _ _ _ _ _ _ _ B i P) in Q1.
        exists d1. split; [exact Q1|]. split; [|congruence]. rewrite kill_sa_eq in H1. refine (inv_veq nsp nsa d1 _ _ _ H1).
        constructor; cbn [a1 v_sa pols ppar pcnt assocs qpar qdis qcnt qsel qselp pending]; try reflexivity.
        + rewrite E, filter_keep_one; [|intros x Nx; unfold keep; destruct (Nat.eqb_spec i x); [congruence|reflexivity]|exact N1|exact N2].
          unfold ki. unfold keep. rewrite Nat.eqb_refl, Pk. rewrite <- app_assoc. reflexivity.
        + intros k. cbn [andb]. destruct (Nat.eqb_spec i k) as [<-|]; [|reflexivity]. rewrite (proj2 (isin_in i (assocs a))); [reflexivity|].
          rewrite E. apply in_app_iff. right. left. reflexivity.
      - exists d. split; [reflexivity|]. split; [|exact NX]. refine (inv_veq nsp nsa d a _ _ H).
        constructor; cbn [a1 v_sa pols ppar pcnt assocs qpar qdis qcnt qsel qselp pending]; try reflexivity.
        + unfold ki. unfold keep. rewrite Pk. cbn [andb negb]. rewrite <- app_assoc. exact E.
        + intros k. cbn [andb]. rewrite orb_false_r. reflexivity. }
    destruct S1 as (d1 & Q1 & H1 & X1). rewrite Q1. cbn [obind].
    assert (EN1 : forall j, In j rest -> In j (assocs a1)).
    { intros j Hj. cbn [a1 v_sa assocs]. apply in_app_iff. right. exact Hj. }
    pose proof (i_sa _ _ _ _ H1) as [sf1 B1].
    assert (Sm1 : small a1) by exact Sm.
    pose proof (rc_small _ _ _ _ H1 Sm1 Np) as Rs1.
    assert (P1 : 0 < rcv a1 i /\ (rcv a1 i = 1 -> ~ In i (assocs a1))).
    { unfold rcv. pose proof (nb_nonneg (pols a1) i). change (qcnt a1 i) with (qcnt a i). destruct (isin i (assocs a1)) eqn:W; unfold b2z.
      - split; [lia|intros; exfalso; lia].
      - split; [lia|]. intros _. apply isin_not in W. exact W. }
    destruct P1 as [P1 P1'].
    destruct (sa_next_ok nsa d1 (assocs a1) _ _ _ _ (rcv a1) sf1 i B1 P1 P1') as (sf2 & rc2 & B2 & R2 & C2).
    { intros j. specialize (Rs1 j). lia. }
    { rewrite X1. intros j Hj. apply EN1. destruct rest as [|x r]; [discriminate|]. injection Hj as ->. left. reflexivity. }
    rewrite (surjective_pairing (sa_next d1 i)). change (snd (sa_next d1 i)) with (a_next (sah d1 i)). rewrite X1.
    rewrite X1 in C2. set (qc2 := fun j => qc0 j + heldb (hd_error rest) j).
    assert (Hq2 : forall j, 0 <= qc2 j) by (intros j; unfold qc2; pose proof (heldb_le (hd_error rest) j); specialize (Lm j); lia).
    assert (C3 : forall j, rc2 j = rcv (v_sa a1 (assocs a1) (qdis a1) qc2) j).
    { intros j. rewrite C2. unfold rcv. cbn [v_sa qcnt assocs pols]. change (qcnt a1 j) with (qcnt a j). rewrite Pc. unfold qc2, heldb. lia. }
    assert (H2 : Inv nsp nsa (fst (sa_next d1 i)) (v_sa a1 (assocs a1) (qdis a1) qc2)).
    { refine (inv_sa nsp nsa d1 _ a1 (assocs a1) (qdis a1) qc2 (qsel a1) (qselp a1) sf2 H1 R2 _ _ Hq2 (i_goodq _ _ _ _ H1)).
      - apply (sa_ext nsa _ (assocs a1) (qpar a1) (qdis a1) (fun i => isSome (qsel a1 i)) (qselp a1) rc2); [intros j; symmetry; apply C3|intros; auto|exact B2].
      - intros k Hk W. apply (i_gone _ _ _ _ H1); [|exact W].
        change (0 < rcv (v_sa a1 (assocs a1) (qdis a1) qc2) k) in Hk. rewrite <- C3, C2 in Hk. unfold b2z in Hk.
        destruct (hd_error rest) as [x|] eqn:Hr; [destruct (Nat.eqb_spec k x) as [EK|EK]|].
        + exfalso. apply W, EN1. destruct rest; [discriminate|]. injection Hr as ->. left. symmetry. exact EK.
        + destruct (Nat.eqb k i); lia.
        + destruct (Nat.eqb k i); lia. }
    set (a2 := v_sa a1 (assocs a1) (qdis a1) qc2) in *.
    destruct (IH (pre ++ ki) a2 (fst (sa_next d1 i)) f (ret && (negb (pick i) || sa_destroy_rc a o1 i)) H2) as (d' & Q & I').
    { reflexivity. }
    { exact Pe. }
    { cbn [length] in Lf. lia. }
    { reflexivity. }
    { exact Lm. }
    { exact Lq. }
    exists d'. cbn [forallb].
    assert (Dq : forall h, In h rest -> qdis a2 h = qdis a h).
    { intros h Hh. cbn [a2 a1 v_sa qdis]. destruct (Nat.eqb_spec i h) as [->|]; [contradiction|]. rewrite andb_false_r, orb_false_r. reflexivity. }
    split.
    + rewrite Q. do 2 f_equal. rewrite <- andb_assoc. do 2 f_equal. apply forallb_ext_in. intros x Hx. unfold sa_destroy_rc. rewrite (Dq x Hx). reflexivity.
    + refine (inv_veq nsp nsa d' _ _ _ I'). constructor; cbn [v_sa pols ppar pcnt assocs qpar qdis qcnt qsel qselp pending]; try reflexivity.
      * rewrite <- app_assoc. f_equal. cbn [filter]. unfold ki.
        replace (filter (keep a2 sync (fun h : nat => in_vrf check vrf (q_vrf (qpar a2 h))) o1) rest) with (filter (keep a sync pick o1) rest).
        -- destruct (keep a sync pick o1 i); reflexivity.
        -- apply filter_ext_in. intros x Hx. unfold keep. rewrite (Dq x Hx). reflexivity.
      * intros k. cbn [a2 a1 v_sa qdis qpar]. rewrite isin_cons. change (in_vrf check vrf (q_vrf (qpar a k))) with (pick k). rewrite (Nat.eqb_sym k i).
        destruct (Nat.eqb_spec i k) as [<-|]; cbn [orb].
        -- rewrite !andb_true_r. destruct (qdis a i), (pick i), (isin i rest); reflexivity.
        -- rewrite andb_false_r, orb_false_r. reflexivity.
Qed.
