From Verif Require Import Base PcbModel PcbSpec.
Ltac Zify.zify_post_hook ::= idtac.

(* ---- searching lists ---- *)
Definition there (d : db) (l : list nat) : Prop := forall i, In i l -> pcbs d i <> None.
Lemma there_cons d i l : there d (i :: l) -> (exists p, pcbs d i = Some p /\ get d i = Ret p) /\ there d l.
Proof.
  intros H. split; [|intros j Hj; apply H; right; exact Hj]. specialize (H i (or_introl eq_refl)). unfold get. destruct (pcbs d i) as [p|]; [exists p; auto|contradiction].
Qed.
Lemma find_unconn_ok d l la lp : there d l -> exists r, find_unconn d l la lp = Ret r /\
  match r with
  | Some i => In i l /\ exists p, pcbs d i = Some p /\ faddr p = 0 /\ laddr p = la /\ lport p = lp
  | None => forall i p, In i l -> pcbs d i = Some p -> ~ (faddr p = 0 /\ laddr p = la /\ lport p = lp)
  end.
Proof.
  induction l as [|i l IH]; intros H; [exists None; split; [reflexivity|intros i p []]|]. apply there_cons in H. destruct H as [(p & Ep & Eg) H]. cbn [find_unconn]. rewrite Eg. cbn [obind].
  destruct ((faddr p =? 0) && (laddr p =? la) && (lport p =? lp)) eqn:E.
  - apply andb_true_iff in E. destruct E as [E E3]. apply andb_true_iff in E. destruct E as [E1 E2]. apply Z.eqb_eq in E1, E2, E3. exists (Some i). split; [reflexivity|]. split; [left; reflexivity|]. exists p. auto.
  - destruct (IH H) as (r & Er & K). exists r. split; [exact Er|]. destruct r as [j|].
    + destruct K as [K1 K2]. split; [right; exact K1|exact K2].
    + intros j q [->|Hj] Eq; [|apply (K j q Hj Eq)]. rewrite Ep in Eq. injection Eq as <-. intros (A & B & C). rewrite A, B, C, !Z.eqb_refl in E. discriminate.
Qed.
Lemma find_exact_ok d l fa fp la lp : there d l -> exists r, find_exact d l fa fp la lp = Ret r /\
  match r with
  | Some i => In i l /\ exists p, pcbs d i = Some p /\ faddr p = fa /\ fport p = fp /\ laddr p = la /\ lport p = lp
  | None => forall i p, In i l -> pcbs d i = Some p -> ~ (faddr p = fa /\ fport p = fp /\ laddr p = la /\ lport p = lp)
  end.
Proof.
  induction l as [|i l IH]; intros H; [exists None; split; [reflexivity|intros i p []]|]. apply there_cons in H. destruct H as [(p & Ep & Eg) H]. cbn [find_exact]. rewrite Eg. cbn [obind].
  destruct ((faddr p =? fa) && (laddr p =? la) && (fport p =? fp) && (lport p =? lp)) eqn:E.
  - apply andb_true_iff in E. destruct E as [E E4]. apply andb_true_iff in E. destruct E as [E E3]. apply andb_true_iff in E. destruct E as [E1 E2]. apply Z.eqb_eq in E1, E2, E3, E4.
    exists (Some i). split; [reflexivity|]. split; [left; reflexivity|]. exists p. auto.
  - destruct (IH H) as (r & Er & K). exists r. split; [exact Er|]. destruct r as [j|].
    + destruct K as [K1 K2]. split; [right; exact K1|exact K2].
    + intros j q [->|Hj] Eq; [|apply (K j q Hj Eq)]. rewrite Ep in Eq. injection Eq as <-. intros (A & B & C & D). rewrite A, B, C, D, !Z.eqb_refl in E. discriminate.
Qed.
Lemma best_fit_ok d l la m mw : there d l -> (m = None -> mw = 3) -> exists r, best_fit d l la m mw = Ret r /\
  match r with
  | Some i => m = Some i \/ (In i l /\ exists p, pcbs d i = Some p /\ overlap (laddr p) la) 
  | None => m = None /\ forall i p, In i l -> pcbs d i = Some p -> ~ overlap (laddr p) la
  end.
Proof.
  revert m mw. induction l as [|i l IH]; intros m mw H Hm; [exists m; split; [reflexivity|]; destruct m; [left; reflexivity|split; [reflexivity|intros i p []]]|].
  apply there_cons in H. destruct H as [(p & Ep & Eg) H]. cbn [best_fit]. rewrite Eg. cbn [obind].
  set (w := if negb (faddr p =? 0) then 1 else 0). assert (Hw : 0 <= w <= 1) by (unfold w; destruct (negb _); lia).
  match goal with |- context [match ?x with Some _ => _ | None => _ end] => set (wc := x) end.
  assert (Wc : match wc with None => ~ overlap (laddr p) la | Some v => overlap (laddr p) la /\ 0 <= v <= 2 end).
  { unfold wc, overlap. destruct (Z.eqb_spec (laddr p) 0) as [A|A]; cbn [negb].
    - destruct (la =? 0); cbn [negb]; split; try lia; auto.
    - destruct (Z.eqb_spec la 0) as [B|B]; [split; [auto|lia]|]. destruct (Z.eqb_spec (laddr p) la) as [C|C]; cbn [negb]; [split; [auto|lia]|]. intros [?|[?|?]]; contradiction. }
  clearbody wc. destruct wc as [v|].
  - destruct Wc as [Ov Rv]. destruct (Z.ltb_spec v mw) as [L|L].
    + destruct (v =? 0).
      * exists (Some i). split; [reflexivity|]. right. split; [left; reflexivity|]. exists p. auto.
      * destruct (IH (Some i) v H ltac:(discriminate)) as (r & Er & K). exists r. split; [exact Er|]. destruct r as [j|]; [|destruct K; discriminate].
        destruct K as [K|[K1 K2]]; [injection K as ->; right; split; [left; reflexivity|exists p; auto]|right; split; [right; exact K1|exact K2]].
    + destruct m as [m|]; [|specialize (Hm eq_refl); lia].
      destruct (IH (Some m) mw H Hm) as (r & Er & K). exists r. split; [exact Er|]. destruct r as [j|]; [|destruct K; discriminate].
      destruct K as [K|[K1 K2]]; [left; exact K|right; split; [right; exact K1|exact K2]].
  - destruct (IH m mw H Hm) as (r & Er & K). exists r. split; [exact Er|]. destruct r as [j|].
    + destruct K as [K|[K1 K2]]; [left; exact K|right; split; [right; exact K1|exact K2]].
    + destruct K as [K1 K2]. split; [exact K1|]. intros j q [->|Hj] Eq; [|apply (K2 j q Hj Eq)]. rewrite Ep in Eq. injection Eq as <-. exact Wc.
Qed.
Definition uncon (d : db) (i : nat) (la lp : Z) : Prop := exists p, pcbs d i = Some p /\ faddr p = 0 /\ laddr p = la /\ lport p = lp.
Lemma find_wild_ok d l la lp w x : there d l -> (forall i, x = Some i -> uncon d i la lp) -> (forall i, w = Some i -> uncon d i 0 lp) ->
  exists r, find_wild d l la lp w x = Ret r /\
  match r with
  | Some i => (uncon d i la lp /\ (x = Some i \/ In i l)) \/
              (x = None /\ (forall j, In j l -> ~ uncon d j la lp) /\ uncon d i 0 lp /\ (w = Some i \/ In i l))
  | None => x = None /\ w = None /\ forall j, In j l -> ~ uncon d j la lp /\ ~ uncon d j 0 lp
  end.
Proof.
  revert w x. induction l as [|i l IH]; intros w x H Hx Hw.
  - exists (match x with Some i => Some i | None => w end). split; [reflexivity|]. destruct x as [i|]; [left; split; [apply Hx; reflexivity|left; reflexivity]|].
    destruct w as [i|]; [right; split; [reflexivity|split; [intros j []|split; [apply Hw; reflexivity|left; reflexivity]]]|split; [reflexivity|split; [reflexivity|intros j []]]].
  - apply there_cons in H. destruct H as [(p & Ep & Eg) H]. cbn [find_wild]. rewrite Eg. cbn [obind].
    assert (Nu : forall a, (faddr p <> 0 \/ lport p <> lp \/ laddr p <> a) -> ~ uncon d i a lp) by (intros a K (q & Eq & A & B & C); rewrite Ep in Eq; injection Eq as <-; destruct K as [K|[K|K]]; contradiction).
    destruct (Z.eqb_spec (faddr p) 0) as [A|A]; cbn [negb orb].
    2: { destruct (IH w x H Hx Hw) as (r & Er & K). exists r. split; [exact Er|]. destruct r as [j|].
         - destruct K as [[K1 K2]|(K1 & K2 & K3 & K4)]; [left; split; [exact K1|destruct K2; [left|right; right]; assumption]|].
           right. split; [exact K1|]. split; [intros k [<-|Hk]; [apply Nu; auto|apply K2; exact Hk]|]. split; [exact K3|destruct K4; [left|right; right]; assumption].
         - destruct K as (K1 & K2 & K3). split; [exact K1|]. split; [exact K2|]. intros k [<-|Hk]; [split; apply Nu; auto|apply K3; exact Hk]. }
    destruct (Z.eqb_spec (lport p) lp) as [B|B]; cbn [negb orb].
    2: { destruct (IH w x H Hx Hw) as (r & Er & K). exists r. split; [exact Er|]. destruct r as [j|].
         - destruct K as [[K1 K2]|(K1 & K2 & K3 & K4)]; [left; split; [exact K1|destruct K2; [left|right; right]; assumption]|].
           right. split; [exact K1|]. split; [intros k [<-|Hk]; [apply Nu; auto|apply K2; exact Hk]|]. split; [exact K3|destruct K4; [left|right; right]; assumption].
         - destruct K as (K1 & K2 & K3). split; [exact K1|]. split; [exact K2|]. intros k [<-|Hk]; [split; apply Nu; auto|apply K3; exact Hk]. }
    destruct x as [e|].
    + destruct (IH w (Some e) H Hx Hw) as (r & Er & K). exists r. split; [exact Er|]. destruct r as [j|]; [|destruct K; discriminate].
      destruct K as [[K1 K2]|(K1 & _)]; [left; split; [exact K1|destruct K2; [left|right; right]; assumption]|discriminate].
    + destruct (Z.eqb_spec (laddr p) la) as [C|C].
      * assert (U : uncon d i la lp) by (exists p; auto).
        destruct (IH w (Some i) H ltac:(intros k Ek; injection Ek as <-; exact U) Hw) as (r & Er & K). exists r. split; [exact Er|]. destruct r as [j|]; [|destruct K; discriminate].
        destruct K as [[K1 K2]|(K1 & _)]; [left; split; [exact K1|]; right; destruct K2 as [K2|K2]; [left; injection K2 as ->; reflexivity|right; exact K2]|discriminate].
      * destruct (Z.eqb_spec (laddr p) 0) as [D|D].
        -- assert (U : uncon d i 0 lp) by (exists p; auto).
           destruct (IH (Some i) None H Hx ltac:(intros k Ek; injection Ek as <-; exact U)) as (r & Er & K). exists r. split; [exact Er|]. destruct r as [j|]; [|destruct K as (_ & K & _); discriminate].
           destruct K as [[K1 K2]|(K1 & K2 & K3 & K4)]; [left; split; [exact K1|destruct K2; [discriminate|right; right; assumption]]|].
           right. split; [reflexivity|]. split; [intros k [<-|Hk]; [apply Nu; auto|apply K2; exact Hk]|]. split; [exact K3|]. right. destruct K4 as [K4|K4]; [left; injection K4 as ->; reflexivity|right; exact K4].
        -- destruct (IH w None H Hx Hw) as (r & Er & K). exists r. split; [exact Er|]. destruct r as [j|].
           ++ destruct K as [[K1 K2]|(K1 & K2 & K3 & K4)]; [left; split; [exact K1|destruct K2; [left|right; right]; assumption]|].
              right. split; [reflexivity|]. split; [intros k [<-|Hk]; [apply Nu; auto|apply K2; exact Hk]|]. split; [exact K3|destruct K4; [left|right; right]; assumption].
           ++ destruct K as (K1 & K2 & K3). split; [exact K1|]. split; [exact K2|]. intros k [<-|Hk]; [split; apply Nu; auto|apply K3; exact Hk].
Qed.

(* ---- invariant ---- *)
Definition pcb_ok (p : pcb) : Prop :=
  (hashed p = false -> dropped p = true \/ (lport p = 0 /\ laddr p = 0 /\ faddr p = 0)) /\
  (faddr p = 0 -> fport p = 0) /\ (hashed p = true -> lport p <> 0) /\ (dropped p = true -> hashed p = false) /\ reuse2 p = false.
Record Inv (c : conf) (d : db) : Prop := {
  v_hash : forall b i, In i (hash d b) <-> exists p, holds d i p /\ b = pcbhash c (faddr p) (lport p) (fport p);
  v_hash1 : forall b, NoDup (hash d b);
  v_phd : forall b l m, In (l, m) (ports d b) -> b = porthash c l /\ m <> [] /\ NoDup m /\ forall i, In i m -> exists p, holds d i p /\ lport p = l;
  v_phd1 : forall b, NoDup (map fst (ports d b));
  v_port : forall i p, holds d i p -> exists m, In (lport p, m) (ports d (porthash c (lport p))) /\ In i m;
  v_ok : forall i p, pcbs d i = Some p -> pcb_ok p }.

Lemma inv0 c : Inv c db0.
Proof.
  constructor; cbn; try (intros; contradiction).
  - intros b i. split; [contradiction|intros (p & (E & _) & _); discriminate].
  - intros _. constructor.
  - intros _. constructor.
  - intros i p (E & _). discriminate.
  - discriminate.
Qed.

Lemma hash_there c d b : Inv c d -> there d (hash d b).
Proof. intros I i Hi. apply (v_hash c d I) in Hi. destruct Hi as (p & (E & _) & _). congruence. Qed.
Lemma find_phd_in l lp : match find_phd l lp with Some m => In (lp, m) l | None => forall m, ~ In (lp, m) l end.
Proof.
  induction l as [|[q m] l IH]; cbn; [intros m []|]. destruct (Z.eqb_spec q lp) as [->|N]; [left; reflexivity|].
  destruct (find_phd l lp) as [m'|]; [right; exact IH|]. intros m' [E|E]; [injection E as -> _; contradiction|exact (IH m' E)].
Qed.
Lemma phd_there c d b l m : Inv c d -> In (l, m) (ports d b) -> there d m.
Proof. intros I H i Hi. destruct (v_phd c d I b l m H) as (_ & _ & _ & K). destruct (K i Hi) as (p & (E & _) & _). congruence. Qed.
Lemma phd_unique c d b l m m' : Inv c d -> In (l, m) (ports d b) -> In (l, m') (ports d b) -> m = m'.
Proof.
  intros I. pose proof (v_phd1 c d I b) as N. induction (ports d b) as [|[q x] t IH]; [intros []|]. cbn in N. inversion N as [|? ? N1 N2]; subst.
  intros [E|E] [E'|E']; [congruence| | |apply IH; assumption].
  - injection E as -> ->. destruct N1. apply (in_map fst) in E'. exact E'.
  - injection E' as -> ->. destruct N1. apply (in_map fst) in E. exact E.
Qed.

(* ---- the lookups ---- *)
Lemma lookup_local_wild c d la lp : Inv c d -> exists r, lookup_local c d la lp true = Ret r /\
  match r with
  | Some i => exists p, holds d i p /\ lport p = lp /\ overlap (laddr p) la
  | None => ~ taken d la lp
  end.
Proof.
  intros I. unfold lookup_local. cbn [negb]. pose proof (find_phd_in (ports d (porthash c lp)) lp) as F. destruct (find_phd (ports d (porthash c lp)) lp) as [m|].
  - destruct (best_fit_ok d m la None 3 (phd_there c d _ lp m I F) ltac:(reflexivity)) as (r & Er & K). exists r. split; [exact Er|]. destruct (v_phd c d I _ lp m F) as (_ & _ & _ & M). destruct r as [i|].
    + destruct K as [K|[K1 (p & K2 & K3)]]; [discriminate|]. destruct (M i K1) as (q & Hq & Lq). exists p. destruct Hq as [Eq Hh]. rewrite K2 in Eq. injection Eq as <-. split; [split; assumption|]. auto.
    + intros (i & p & H1 & H2 & H3). destruct K as [_ K]. destruct (v_port c d I i p H1) as (m' & I1 & I2). rewrite H2 in I1. rewrite (phd_unique c d _ lp m' m I I1 F) in I2. apply (K i p I2 (proj1 H1) H3).
  - exists None. split; [reflexivity|]. intros (i & p & H1 & H2 & H3). destruct (v_port c d I i p H1) as (m' & I1 & I2). rewrite H2 in I1. apply (F m' I1).
Qed.
Lemma lookup_local_exact c d la lp : Inv c d -> exists r, lookup_local c d la lp false = Ret r /\
  match r with Some i => bound_to d i la lp | None => forall i, ~ bound_to d i la lp end.
Proof.
  intros I. unfold lookup_local. cbn [negb]. destruct (find_unconn_ok d (hash d (pcbhash c 0 lp 0)) la lp (hash_there c d _ I)) as (r & Er & K). exists r. split; [exact Er|]. destruct r as [i|].
  - destruct K as [K1 (p & K2 & K3)]. apply (v_hash c d I) in K1. destruct K1 as (q & Hq & _). destruct Hq as [Eq Hh]. rewrite K2 in Eq. injection Eq as <-. exists p. split; [split; assumption|exact K3].
  - intros i (p & Hp & K1 & K2 & K3). refine (K i p _ (proj1 Hp) (conj K1 (conj K2 K3))). apply (v_hash c d I). exists p. split; [exact Hp|]. destruct (v_ok c d I i p (proj1 Hp)) as (_ & F & _). rewrite K1, K3, (F K1). reflexivity.
Qed.
Lemma lookup_hash_exact c d fa fp la lp : Inv c d -> exists r, lookup_hash c d fa fp la lp false = Ret r /\
  match r with Some i => connected_as d i fa fp la lp | None => forall i, ~ connected_as d i fa fp la lp end.
Proof.
  intros I. unfold lookup_hash. destruct (find_exact_ok d (hash d (pcbhash c fa lp fp)) fa fp la lp (hash_there c d _ I)) as (r & Er & K). rewrite Er. cbn [obind]. destruct r as [i|].
  - exists (Some i). split; [reflexivity|]. destruct K as [K1 (p & K2 & K3)]. apply (v_hash c d I) in K1. destruct K1 as (q & Hq & _). destruct Hq as [Eq Hh]. rewrite K2 in Eq. injection Eq as <-. exists p. split; [split; assumption|exact K3].
  - exists None. split; [reflexivity|]. intros i (p & Hp & K1 & K2 & K3 & K4). refine (K i p _ (proj1 Hp) (conj K1 (conj K2 (conj K3 K4)))). apply (v_hash c d I). exists p. split; [exact Hp|]. rewrite K1, K2, K4. reflexivity.
Qed.
Lemma lookup_receiver c d fa fp la lp : Inv c d -> exists r, lookup_hash c d fa fp la lp true = Ret r /\ receiver d fa fp la lp r.
Proof.
  intros I. destruct (lookup_hash_exact c d fa fp la lp I) as (r0 & Er & K0). unfold lookup_hash in *.
  destruct (find_exact d (hash d (pcbhash c fa lp fp)) fa fp la lp) as [r| |]; cbn [obind] in *; try discriminate. destruct r as [i|].
  - exists (Some i). split; [reflexivity|]. injection Er as <-. left. exact K0.
  - injection Er as <-.
    assert (Ub : forall i a, In i (hash d (pcbhash c 0 lp 0)) -> uncon d i a lp -> bound_to d i a lp).
    { intros i a Hi (p & K2 & K3). apply (v_hash c d I) in Hi. destruct Hi as (q & [Eq Hh] & _). rewrite K2 in Eq. injection Eq as <-. exists p. split; [split; assumption|exact K3]. }
    assert (Bu : forall i a, bound_to d i a lp -> In i (hash d (pcbhash c 0 lp 0)) /\ uncon d i a lp).
    { intros i a (p & Hp & K1 & K2 & K3). split; [|exists p; split; [apply Hp|auto]]. apply (v_hash c d I). exists p. split; [exact Hp|]. destruct (v_ok c d I i p (proj1 Hp)) as (_ & F & _). rewrite K1, K3, (F K1). reflexivity. }
    destruct (find_wild_ok d (hash d (pcbhash c 0 lp 0)) la lp None None (hash_there c d _ I) ltac:(discriminate) ltac:(discriminate)) as (r & Er & K). exists r. split; [exact Er|].
    unfold receiver. destruct r as [i|].
    + right. destruct K as [[K1 [K2|K2]]|(_ & K2 & K3 & [K4|K4])]; try discriminate.
      * left. split; [exact K0|]. apply Ub; assumption.
      * right. split; [exact K0|]. split; [|apply Ub; assumption]. intros j Hj. apply Bu in Hj. apply (K2 j); tauto.
    + destruct K as (_ & _ & K). intros j. split; [apply K0|]. split; intros Hj; apply Bu in Hj; destruct Hj as [H1 H2]; destruct (K j H1); contradiction.
Qed.
