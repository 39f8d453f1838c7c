(* The insertion and removal loops of the MTRIE keep the invariant. *)
From Verif Require Import Base RadixSpec MtrieModel MtrieNum MtrieInv.

(* no division reasoning is needed from lia here *)
Ltac Zify.zify_post_hook ::= idtac.

Lemma hi_ok low : low = 0 \/ low = 16 -> lowok (hi low) /\ hi low <> 0 /\ 0 <= hi low <= 24.
Proof. intros [->| ->]; vm_compute; intuition congruence. Qed.

Definition samelink (s s' : st) : Prop := rules s' = rules s /\ cap s' = cap s.
Definition refT (s : st) (i : nat) : Z := e_ref (tb s (TS i) 0).

Lemma split_mod_eq low q q' : q / 2 ^ wd low = q' / 2 ^ wd low -> q mod 2 ^ wd low = q' mod 2 ^ wd low ->
  0 < 2 ^ wd low -> q = q'.
Proof.
  intros H1 H2 H3. rewrite (Z.div_mod q (2 ^ wd low)), (Z.div_mod q' (2 ^ wd low)) by lia.
  rewrite H1, H2. reflexivity.
Qed.

Lemma zero_free N i x : e_mlen (init_tb N (TS i) x) = 0 /\ e_data (init_tb N (TS i) x) = 0 /\ e_ref (init_tb N (TS i) x) = 0.
Proof. cbn. destruct (_ && _); cbn; tauto. Qed.

Lemma tab_text T T' v low b t : text T T' -> tab T v low b = Some t -> tab T' v low b = Some t.
Proof.
  intros Hx. unfold tab. destruct (low =? 0); [tauto|].
  destruct (T v low b) eqn:E; [|discriminate]. rewrite (Hx _ _ _ _ E). tauto.
Qed.

Lemma mlen_fix N k (L : leafp) T s t v low q m :
  SI N k T s -> LI L T s -> lowok low -> 0 <= q < 2 ^ hi low -> tab T v low (q / 2 ^ wd low) = Some t ->
  m > hi low -> (forall dt, L v low q 0 dt -> L v low q m dt) ->
  let s' := if e_mlen (tb s t (q mod 2 ^ wd low)) =? 0
            then set_tb s (updm (tb s) t (q mod 2 ^ wd low) (set_mlen (tb s t (q mod 2 ^ wd low)) m)) else s in
  SI N k T s' /\ LI L T s' /\ samelink s s' /\ (forall i, refT s' i = refT s i).
Proof.
  intros HS HL Hlo Hq Ht Hm HLs s'. unfold s'.
  destruct (Z.eqb_spec (e_mlen (tb s t (q mod 2 ^ wd low))) 0) as [Hz|Hz];
    [|split; [assumption|split; [assumption|split; [split; reflexivity|reflexivity]]]].
  set (x := q mod 2 ^ wd low) in *.
  pose proof (hi_cases low Hlo) as Hc.
  split; [|split; [|split; [split; reflexivity|]]].
  - apply SI_tb; [assumption| |].
    + intros v' low' q' t' _ _ _. destruct (updm_case (tb s) t x (set_mlen (tb s t x) m) t' (q' mod 2 ^ wd low'))
        as [(-> & _)|(-> & -> & ->)]; [tauto|]. cbn [set_mlen e_next e_mlen]. split; [reflexivity|]. intros. exfalso. lia.
    + intros i y Hi. apply updm_other. left. intros <-. eapply tab_lt in Ht; [|eassumption]. lia.
  - intros v' low' q' t' Hlo' Hq' Ht'. cbn [set_tb tb]. specialize (HL v' low' q' t' Hlo' Hq' Ht').
    destruct (updm_case (tb s) t x (set_mlen (tb s t x) m) t' (q' mod 2 ^ wd low'))
        as [(-> & _)|(-> & -> & Hxx)]; [assumption|]. cbn [set_mlen e_data e_mlen].
    destruct (tab_inj _ _ _ _ _ _ _ _ _ _ _ HS (parent_range _ _ Hlo' Hq') (parent_range _ _ Hlo Hq) Ht' Ht) as (-> & -> & Hb).
    assert (E : q' = q) by (apply (split_mod_eq low); auto; apply pow_pos; lia).
    subst q'. fold x in HL. rewrite Hz in HL. auto.
  - intros i. unfold refT. cbn [set_tb tb].
    destruct (updm_case (tb s) t x (set_mlen (tb s t x) m) (TS i) 0) as [(-> & _)|(-> & <- & <-)]; reflexivity.
Qed.

Lemma alloc_ok N k (L : leafp) T s t v low q :
  SI N k T s -> LI L T s -> low = 0 \/ low = 16 -> 0 <= q < 2 ^ hi low -> tab T v low (q / 2 ^ wd low) = Some t ->
  T v (hi low) q = None ->
  (forall q', 0 <= q' < 2 ^ hi (hi low) -> q' / 2 ^ wd (hi low) = q -> L v (hi low) q' 0 0) ->
  (forall dt m, L v low q 0 dt -> m > hi low -> L v low q m dt) ->
  match NODEALLOC s with
  | (None, s') => s' = s /\ k = N
  | (Some j, s') =>
    forall m, m > hi low -> 
    let s2 := set_tb s' (updm (tb s') t (q mod 2 ^ wd low) (set_next (tb s' t (q mod 2 ^ wd low)) (Some j))) in
    let s3 := if e_mlen (tb s2 t (q mod 2 ^ wd low)) =? 0
            then set_tb s2 (updm (tb s2) t (q mod 2 ^ wd low) (set_mlen (tb s2 t (q mod 2 ^ wd low)) m)) else s2 in
    j = k /\ (k < N)%nat /\ SI N (S k) (Tset T v (hi low) q k) s3 /\ LI L (Tset T v (hi low) q k) s3 /\
    samelink s s3 /\ (forall i, refT s3 i = refT s i) /\ refT s k = 0
  end.
Proof.
  intros HS HL Hlo Hq Ht HTn Hzero Hst. unfold NODEALLOC.
  assert (Hlo3 : lowok low) by (unfold lowok; tauto).
  destruct (hi_ok low Hlo) as (Hlh & Hhn & Hhr).
  rewrite (si_ff _ _ _ _ HS).
  destruct (Nat.ltb_spec k N) as [Hk|Hk]; [|pose proof (si_k _ _ _ _ HS); split; [reflexivity|lia]].
  cbv zeta. intros m Hm.
  set (x := q mod 2 ^ wd low). cbn [set_tb tb ffirst flast nalloc MtrieModel.rules cap].
  assert (Htk : t <> TS k) by (intros ->; eapply tab_lt in Ht; [|eassumption]; lia).
  set (m0 := updm (tb s) (TS k) 0 (mkEnt (e_data (tb s (TS k) 0)) (e_mlen (tb s (TS k) 0)) false 0 None)).
  assert (Ht0 : forall t' y, t' <> TS k -> m0 t' y = tb s t' y) by (intros; apply updm_other; auto).
  assert (Hk0 : forall y, e_mlen (m0 (TS k) y) = 0 /\ e_data (m0 (TS k) y) = 0 /\ e_ref (m0 (TS k) y) = 0 /\ e_next (m0 (TS k) y) = None).
  { intros y. unfold m0. destruct (updm_case (tb s) (TS k) 0 (mkEnt (e_data (tb s (TS k) 0)) (e_mlen (tb s (TS k) 0)) false 0 None) (TS k) y)
      as [(-> & [Hx|Hx])|(-> & _ & _)]; [congruence| |].
    - rewrite (si_free _ _ _ _ HS) by lia. cbn. destruct (Z.eqb_spec y 0); [congruence|]. cbn. tauto.
    - cbn [e_mlen e_data e_ref e_next]. rewrite (si_free _ _ _ _ HS) by lia.
      pose proof (zero_free N k 0). tauto. }
  set (m1 := updm m0 t x (set_next (m0 t x) (Some k))).
  set (m2 := if e_mlen (m1 t x) =? 0 then updm m1 t x (set_mlen (m1 t x) m) else m1).
  assert (Hne : e_next (m2 t x) = Some k /\ e_data (m2 t x) = e_data (tb s t x) /\ e_ref (m2 t x) = e_ref (tb s t x) /\
     e_mlen (m2 t x) = if e_mlen (tb s t x) =? 0 then m else e_mlen (tb s t x)).
  { assert (H1 : m1 t x = set_next (tb s t x) (Some k)).
    { unfold m1. rewrite updm_same, Ht0 by assumption. reflexivity. }
    unfold m2. rewrite H1. cbn [set_next e_mlen].
    destruct (e_mlen (tb s t x) =? 0) eqn:Ez.
    - rewrite updm_same. cbn [set_mlen e_next e_data e_ref e_mlen]. tauto.
    - rewrite H1. cbn [set_next e_next e_data e_ref e_mlen]. tauto. }
  assert (Hm2 : forall t' y, t' <> t \/ y <> x -> m2 t' y = m0 t' y).
  { intros t' y Hd. unfold m2. destruct (e_mlen (m1 t x) =? 0); unfold m1; rewrite !updm_other by assumption; reflexivity. }
  match goal with |- _ /\ _ /\ SI _ _ _ ?s3 /\ _ =>
    assert (Hs3 : tb s3 = m2 /\ ffirst s3 = e_next (tb s (TS k) 0) /\
      flast s3 = match e_next (tb s (TS k) 0) with None => None | Some _ => flast s end /\ samelink s s3);
    [|set (s3' := s3) in *; clearbody s3'] end.
  { unfold m2. fold m0. fold m1. destruct (e_mlen (m1 t x) =? 0); repeat split; reflexivity. }
  clearbody m2. clear m1.
  destruct Hs3 as (Hs3 & Hff & Hfl & Hsl).
  destruct Hne as (Hnx & Hnd & Hnr & Hnm).
  assert (Hq0 := parent_range low q Hlo3 Hq).
  assert (Hinit : e_next (tb s (TS k) 0) = if (S k <? N)%nat then Some (S k) else None).
  { rewrite (si_free _ _ _ _ HS) by lia. cbn [init_tb]. rewrite Z.eqb_refl. cbn [andb].
    destruct (S k <? N)%nat; reflexivity. }
  (* tables reached through the extended map *)
  assert (Htab : forall v' low' b' t', 0 <= b' < 2 ^ low' -> tab (Tset T v (hi low) q k) v' low' b' = Some t' ->
     (t' = TS k /\ v' = v /\ low' = hi low /\ b' = q) \/ (t' <> TS k /\ tab T v' low' b' = Some t')).
  { intros v' low' b' t' Hb'. unfold tab. destruct (low' =? 0); [intros [= <-]; right; split; congruence|].
    destruct (Tset_case T v (hi low) q k v' low' b') as [(-> & -> & -> & ->)|(_ & ->)].
    - cbn. intros [= <-]. left. tauto.
    - destruct (T v' low' b') eqn:E; [|discriminate]. cbn. intros [= <-]. right. split; [|reflexivity].
      eapply si_dom in E; [|eassumption]. intros [= ->]. lia. }
  assert (Hent : forall v' low' q' t', lowok low' -> 0 <= q' < 2 ^ hi low' -> t' <> TS k ->
     tab T v' low' (q' / 2 ^ wd low') = Some t' ->
     (v' = v /\ low' = low /\ q' = q /\ t' = t /\ q' mod 2 ^ wd low' = x) \/
     ((v' <> v \/ low' <> low \/ q' <> q) /\ m2 t' (q' mod 2 ^ wd low') = tb s t' (q' mod 2 ^ wd low'))).
  { intros v' low' q' t' Hl' Hq' Hnk Ht'.
    destruct (Nat.eq_dec v' v) as [->|]; [destruct (Z.eq_dec low' low) as [->|]; [destruct (Z.eq_dec q' q) as [->|]|]|].
    { left. rewrite Ht in Ht'. intuition congruence. }
    all: right; (split; [tauto|]); rewrite Hm2; [apply Ht0; assumption|].
    all: destruct (tid_eqb_spec t' t) as [->|]; [|tauto]; right; intros Hxx;
      destruct (tab_inj _ _ _ _ _ _ _ _ _ _ _ HS (parent_range _ _ Hl' Hq') Hq0 Ht' Ht) as (? & ? & Hb); subst; try congruence.
    pose proof (split_mod_eq low q' q Hb Hxx (wd_pos low Hlo3)). congruence. }
  split; [reflexivity|]. split; [exact Hk|]. split; [|split; [|split; [assumption|split]]].
  - constructor; rewrite ?Hs3.
    + intros v' low' q' t' Hl' Hq' Ht'.
      assert (Hl3' : lowok low') by (unfold lowok; tauto).
      destruct (Htab _ _ _ _ (parent_range _ _ Hl3' Hq') Ht') as [(-> & -> & -> & Hb)|(Hnk & Ht2)].
      * rewrite Hm2 by (left; congruence). destruct (Hk0 (q' mod 2 ^ wd (hi low))) as (_ & _ & _ & ->).
        destruct (Tset_case T v (hi low) q k v (hi (hi low)) q') as [(_ & E & _)|(_ & ->)].
        { exfalso. unfold hi in E. destruct Hlo; subst; discriminate. }
        destruct (T v (hi (hi low)) q') eqn:E; [|reflexivity]. exfalso.
        assert (low = 0) by (destruct Hlo; [assumption|subst; destruct Hl'; discriminate]). subst low.
        change (hi 0) with 16 in *. change (hi 16) with 24 in *. change (2 ^ wd 16) with 256 in Hb.
        apply (si_orph _ _ _ _ HS v q'); congruence.
      * destruct (Hent v' low' q' t' Hl3' Hq' Hnk Ht2) as [(-> & -> & -> & -> & ->)|(Hd & ->)].
        -- rewrite Hnx. destruct (Tset_case T v (hi low) q k v (hi low) q) as [(_ & _ & _ & ->)|(E & _)]; [reflexivity|].
           exfalso. intuition congruence.
        -- rewrite (si_next _ _ _ _ HS v' low' q' t') by assumption.
           destruct (Tset_case T v (hi low) q k v' (hi low') q') as [(-> & E & -> & _)|(_ & ->)]; [|reflexivity].
           exfalso. assert (low' = low) by (destruct Hlo, Hl'; subst; cbn in E; congruence). intuition congruence.
    + intros v' low' q' t' Hl' Hq' Ht' HT'.
      assert (Hl3' : lowok low') by (unfold lowok; tauto).
      destruct (Htab _ _ _ _ (parent_range _ _ Hl3' Hq') Ht') as [(-> & -> & -> & Hb)|(Hnk & Ht2)].
      * exfalso. apply HT'.
        destruct (Tset_case T v (hi low) q k v (hi (hi low)) q') as [(_ & E & _)|(_ & ->)].
        { exfalso. unfold hi in E. destruct Hlo; subst; discriminate. }
        destruct (T v (hi (hi low)) q') eqn:E; [|reflexivity]. exfalso.
        assert (low = 0) by (destruct Hlo; [assumption|subst; destruct Hl'; discriminate]). subst low.
        change (hi 0) with 16 in *. change (hi 16) with 24 in *. change (2 ^ wd 16) with 256 in Hb.
        apply (si_orph _ _ _ _ HS v q'); congruence.
      * destruct (Hent v' low' q' t' Hl3' Hq' Hnk Ht2) as [(-> & -> & -> & -> & ->)|(Hd & ->)].
        -- rewrite Hnm. destruct (Z.eqb_spec (e_mlen (tb s t x)) 0); [|assumption].
           pose proof (hi_pos low Hlo3) as Hp. clear - Hp Hm. lia.
        -- apply (si_nz _ _ _ _ HS v' low' q' t'); try assumption.
           destruct (Tset_case T v (hi low) q k v' (hi low') q') as [(-> & E & -> & _)|(_ & E)]; [|congruence].
           exfalso. assert (low' = low) by (destruct Hlo, Hl'; subst; cbn in E; congruence). intuition congruence.
    + intros v1 l1 b1 v2 l2 b2 i.
      destruct (Tset_case T v (hi low) q k v1 l1 b1) as [(-> & -> & -> & ->)|(_ & ->)];
      destruct (Tset_case T v (hi low) q k v2 l2 b2) as [(-> & -> & -> & ->)|(_ & ->)]; intros E1 E2; auto.
      * injection E1 as <-. eapply si_dom in E2; [|eassumption]. lia.
      * injection E2 as <-. eapply si_dom in E1; [|eassumption]. lia.
      * eapply si_inj; eassumption.
    + intros v1 l1 b1 i. destruct (Tset_case T v (hi low) q k v1 l1 b1) as [(-> & -> & -> & ->)|(_ & ->)]; intros E.
      * injection E as <-. split; [lia|]. split; [|assumption]. destruct Hlo; subst low; [left|right]; reflexivity.
      * eapply si_dom in E; [|eassumption]. split; [lia|tauto].
    + intros v1 b1. destruct (Tset_case T v (hi low) q k v1 16 (b1 / 256)) as [(_ & _ & _ & ->)|(_ & ->)]; [congruence|].
      destruct (Tset_case T v (hi low) q k v1 24 b1) as [(-> & E & -> & _)|(_ & ->)]; [|apply (si_orph _ _ _ _ HS)].
      intros _. assert (low = 16) by (destruct Hlo; [subst; discriminate|assumption]). subst low.
      change (2 ^ wd 16) with 256 in Ht. unfold tab in Ht. change (16 =? 0) with false in Ht. destruct (T v 16 (q / 256)); discriminate.
    + lia.
    + rewrite Hff. exact Hinit.
    + rewrite Hfl, Hinit, (si_fl _ _ _ _ HS).
      destruct (Nat.ltb_spec k N); [|lia]. destruct (S k <? N)%nat; reflexivity.
    + intros i y Hi. assert (Hik : TS i <> TS k) by (intros [= ->]; lia).
      rewrite Hm2 by (left; intros <-; eapply tab_lt in Ht; [|eassumption]; lia).
      rewrite Ht0 by assumption. apply (si_free _ _ _ _ HS). lia.
  - intros v' low' q' t' Hl' Hq' Ht'. rewrite Hs3.
    destruct (Htab _ _ _ _ (parent_range _ _ Hl' Hq') Ht') as [(-> & -> & -> & Hb)|(Hnk & Ht2)].
    + rewrite Hm2 by (left; congruence).
      destruct (Hk0 (q' mod 2 ^ wd (hi low))) as (-> & -> & _). apply Hzero; assumption.
    + pose proof (HL v' low' q' t' Hl' Hq' Ht2) as HLx.
      destruct (Hent v' low' q' t' Hl' Hq' Hnk Ht2) as [(-> & -> & -> & -> & E)|(Hd & ->)]; [|assumption].
      rewrite E. rewrite E in HLx. rewrite Hnm, Hnd.
      destruct (Z.eqb_spec (e_mlen (tb s t x)) 0) as [Hz|]; [|assumption]. rewrite Hz in HLx. apply Hst; assumption.
  - intros i. unfold refT. rewrite Hs3.
    destruct (tid_eqb_spec (TS i) t) as [<-|Hit]; [destruct (Z.eq_dec 0 x) as [<-|Hx0]|].
    + assumption.
    + rewrite Hm2 by tauto. rewrite Ht0 by assumption. reflexivity.
    + rewrite Hm2 by tauto. destruct (tid_eqb_spec (TS i) (TS k)) as [[= ->]|].
      * destruct (Hk0 0) as (_ & _ & -> & _). rewrite (si_free _ _ _ _ HS) by lia. symmetry. apply zero_free.
      * rewrite Ht0 by assumption. reflexivity.
  - unfold refT. rewrite (si_free _ _ _ _ HS) by lia. apply zero_free.
Qed.

Definition slots (low : Z) : nat := if low =? 0 then 2%nat else if low =? 16 then 1%nat else 0%nat.

Definition onpath (v : nat) (a low m : Z) (v' : nat) (l' b : Z) : Prop := v' = v /\ low <= l' < m /\ b = pfx a l'.

Definition ins_post (N k : nat) (L L' : leafp) (T : tmap) (v : nat) (a m low : Z) (s s' : st) (ok : bool) : Prop :=
  exists k' T', SI N k' T' s' /\ text T T' /\ (k <= k' <= k + slots low)%nat /\ samelink s s' /\
  (forall v' l' b i, T' v' l' b = Some i -> T v' l' b = None -> (k <= i)%nat /\ refT s i = 0) /\
  (ok = false -> LI L T' s' /\ k' = N /\ (k' < k + slots low)%nat) /\
  (ok = true -> LI L' T' s' /\ (forall l', l' = 16 \/ l' = 24 -> low < l' < m -> T' v l' (pfx a l') <> None) /\
     (forall v' l' b i, T' v' l' b = Some i ->
        (onpath v a low m v' l' b -> refT s' i = u16 (refT s i + 1)) /\
        (~ onpath v a low m v' l' b -> refT s' i = refT s i))) /\
  ((forall l', l' = 16 \/ l' = 24 -> low < l' < m -> T v l' (pfx a l') <> None) -> ok = true /\ k' = k /\ T' = T).

Lemma inc_ref s t i : refT (inc_use_reference s t) i = if tid_eqb (TS i) t then u16 (refT s i + 1) else refT s i.
Proof.
  unfold refT, inc_use_reference. cbn [set_tb tb]. unfold updm. rewrite Z.eqb_refl, andb_true_r.
  destruct (tid_eqb_spec (TS i) t) as [<-|]; reflexivity.
Qed.

Lemma fill_ref s t ix n m h d i : refT (set_tb s (fill (tb s) t ix n m h d)) i = refT s i.
Proof. unfold refT. cbn [set_tb tb]. rewrite fill_spec. destruct (_ && _); reflexivity. Qed.

Lemma tab_TS_iff N k T s v low b i v' l' b' : SI N k T s -> lowok low -> 0 <= b < 2 ^ low -> 
  T v' l' b' = Some i -> forall t, tab T v low b = Some t -> (TS i = t <-> v' = v /\ l' = low /\ b' = b).
Proof.
  intros HS Hl Hb HT t Ht.
  pose proof (si_dom _ _ _ _ HS _ _ _ _ HT) as (_ & Hl' & Hb').
  assert (E : tab T v' l' b' = Some (TS i)).
  { unfold tab. destruct (Z.eqb_spec l' 0) as [->|]; [intuition discriminate|]. rewrite HT. reflexivity. }
  split.
  - intros <-. eapply tab_inj; eassumption.
  - intros (-> & -> & ->). congruence.
Qed.

Section ins.
Variables (N : nat) (L L' : leafp) (v : nat) (P m d : Z).
Hypothesis Hm : 1 <= m <= 32.
Hypothesis HP : 0 <= P < 2 ^ m.
Let a := P * 2 ^ (32 - m).
Hypothesis Hst : forall v low q dt m, lowok low -> L v low q 0 dt -> m > hi low -> L v low q m dt.
Hypothesis Hin : forall low q ml dt, lowok low -> low < m <= hi low -> 
  0 <= q < 2 ^ hi low -> q / 2 ^ (hi low - m) = P -> L v low q ml dt -> 
     if (ml <=? m) || (ml >? hi low) then L' v low q m d else L' v low q ml dt.
Hypothesis Hout : forall low v' low' q ml dt, lowok low -> low < m <= hi low ->
  lowok low' -> 0 <= q < 2 ^ hi low' -> v' <> v \/ low' <> low \/ q / 2 ^ (hi low - m) <> P ->
     L v' low' q ml dt -> L' v' low' q ml dt.

Lemma a_range : 0 <= a < 2 ^ 32.
Proof using Hm HP. apply pm_range; assumption. Qed.

Definition ins_ok (low : Z) (lv : list (Z * Z)) : Prop := forall k T s t,
  low < m -> SI N k T s -> LI L T s -> tab T v low (pfx a low) = Some t ->
  (forall l' q', l' = 16 \/ l' = 24 -> 0 <= q' < 2 ^ hi l' -> T v l' (q' / 2 ^ wd l') = None -> L v l' q' 0 0) ->
  let '(s', ok) := insert_levels lv s t a m d in ins_post N k L L' T v a m low s s' ok.

Lemma ins_leaf low k T s t :
  low < m <= hi low -> lowok low -> SI N k T s -> LI L T s -> tab T v low (pfx a low) = Some t ->
  ins_post N k L L' T v a m low s
    (let s := inc_use_reference s t in set_tb s (fill (tb s) t (ip_range_begin a m low (hi low))
         (Z.to_nat (ip_range_end a m low (hi low) - ip_range_begin a m low (hi low))) m (hi low) d)) true.
Proof.
  intros Hlm Hlo HS HL Ht. cbv zeta.
  assert (HS1 := SI_inc _ _ _ _ _ _ _ _ HS Ht). assert (HL1 := LI_inc _ _ _ t HL).
  pose proof (hi_cases low Hlo) as Hc.
  assert (Hpt : pfx a low = P / 2 ^ (m - low)) by (apply pfx_trunc; lia).
  assert (Hbr : 0 <= pfx a low < 2 ^ low) by (apply pfx_range; [lia|apply a_range]).
  set (s1 := inc_use_reference s t) in *.
  exists k, T. split; [|split; [apply text_refl|split; [lia|split; [split; reflexivity|split; [congruence|split; [discriminate|split; [|tauto]]]]]]].
  - eapply SI_fill; try eassumption. lia.
  - intros _. split; [|split].
    + rewrite Hpt in Ht. apply (LI_fill N k L L' T s1 t v low m P d); try assumption.
      * intros q ml dt. apply Hin; assumption.
      * intros v' low' q ml dt. apply Hout; assumption.
    + intros l' Hl' Hr. lia.
    + intros v' l' b i HT. rewrite fill_ref. unfold s1. rewrite inc_ref.
      pose proof (tab_TS_iff _ _ _ _ _ _ _ _ _ _ _ HS Hlo Hbr HT t Ht) as Hiff.
      destruct (tid_eqb_spec (TS i) t) as [E|E].
      * apply Hiff in E. destruct E as (-> & -> & ->). split; [reflexivity|]. intros Hn. exfalso. apply Hn.
        repeat split; lia.
      * split; [|reflexivity]. intros (-> & Hr & ->). exfalso. apply E. apply Hiff.
        assert (l' = low); [|subst; tauto].
        destruct (si_dom _ _ _ _ HS _ _ _ _ HT) as (_ & Hd & _). lia.
Qed.

Lemma hi_bound low : lowok low -> low < m -> low = 24 -> m <= hi low.
Proof. intros _ _ ->. cbn. lia. Qed.

Lemma ins_step low lv : lowok low -> (low = 24 \/ ins_ok (hi low) lv) -> ins_ok low ((low, hi low) :: lv).
Proof.
  intros Hlo IH k T s t Hlm HS HL Ht Hz. rewrite insert_levels_cons. cbv zeta.
  pose proof (hi_cases low Hlo) as Hc.
  destruct (Z.leb_spec m (hi low)) as [Hmh|Hmh].
  { apply ins_leaf; try assumption. lia. }
  destruct IH as [->|IH]; [cbn in Hmh; lia|].
  assert (Hlo2 : low = 0 \/ low = 16) by (destruct Hc as [Hc|[Hc|Hc]]; lia).
  destruct (hi_ok low Hlo2) as (Hlh & Hhn & Hhr).
  assert (Hlt : low < hi low) by (clear - Hc; lia).
  assert (Hh2 : hi low = 16 \/ hi low = 24) by (clear - Hc Hmh Hm; lia).
  clear Hc.
  assert (Hlz : 0 <= low) by (clear - Hlo2; lia).
  assert (HS1 := SI_inc _ _ _ _ _ _ _ _ HS Ht). assert (HL1 := LI_inc _ _ _ t HL).
  assert (Hbr : 0 <= pfx a low < 2 ^ low) by (apply pfx_range; [lia|apply a_range]).
  set (s1 := inc_use_reference s t) in *.
  assert (Hr1 : forall v' l' b i, T v' l' b = Some i -> 
     (v' = v /\ l' = low /\ b = pfx a low -> refT s1 i = u16 (refT s i + 1)) /\
     (~ (v' = v /\ l' = low /\ b = pfx a low) -> refT s1 i = refT s i)).
  { intros v' l' b i HT. unfold s1. rewrite inc_ref.
    pose proof (tab_TS_iff _ _ _ _ _ _ _ _ _ _ _ HS Hlo Hbr HT t Ht) as Hiff.
    destruct (tid_eqb_spec (TS i) t) as [E|E]; tauto. }
  assert (Hr1f : forall i, (k <= i)%nat -> refT s1 i = refT s i).
  { intros i Hi. unfold s1. rewrite inc_ref. destruct (tid_eqb_spec (TS i) t) as [<-|]; [|reflexivity].
    eapply tab_lt in Ht; [|eassumption]. lia. }
  assert (Hsl1 : samelink s s1) by (split; reflexivity).
  clearbody s1.
  set (q := pfx a (hi low)).
  assert (Hq : 0 <= q < 2 ^ hi low) by (apply pfx_range; [lia|apply a_range]).
  assert (Hqd : q / 2 ^ wd low = pfx a low) by (apply pfx_split; assumption).
  assert (Hfn : find_node a low (hi low) = q mod 2 ^ wd low) by (apply find_node_eq; [assumption|apply a_range]).
  rewrite Hfn. unfold descend.
  rewrite <- Hqd in Ht.
  assert (Hnext := si_next _ _ _ _ HS1 v low q t Hlo2 Hq Ht).
  rewrite Hnext.
  assert (Hslot : (slots low = S (slots (hi low)))) by (destruct Hlo2; subst; reflexivity).
  (* facts about composing with the deeper levels *)
  assert (Hcomp : forall k2 T2 s2 j, SI N k2 T2 s2 -> LI L T2 s2 -> T2 v (hi low) q = Some j -> text T T2 ->
     (k <= k2 <= S k)%nat -> samelink s1 s2 -> (forall i, refT s2 i = refT s1 i) ->
     (forall v' l' b i, T2 v' l' b = Some i -> T v' l' b = None -> (k <= i)%nat /\ refT s i = 0 /\ v' = v /\ l' = hi low /\ b = q) ->
     (T v (hi low) q <> None -> k2 = k /\ T2 = T) ->
     let '(s', ok) := insert_levels lv s2 (TS j) a m d in ins_post N k L L' T v a m low s s' ok).
  { intros k2 T2 s2 j HS2 HL2 HTj Hx Hk2 Hsl Href Hnew Hsame.
    assert (Htj : tab T2 v (hi low) (pfx a (hi low)) = Some (TS j)).
    { unfold tab. destruct (Z.eqb_spec (hi low) 0); [lia|]. fold q. rewrite HTj. reflexivity. }
    specialize (IH k2 T2 s2 (TS j) Hmh HS2 HL2 Htj).
    assert (Hz2 : forall l' q', l' = 16 \/ l' = 24 -> 0 <= q' < 2 ^ hi l' -> T2 v l' (q' / 2 ^ wd l') = None -> L v l' q' 0 0).
    { intros l' q' Hl' Hq' HT. apply Hz; try assumption.
      destruct (T v l' (q' / 2 ^ wd l')) eqn:E; [|reflexivity]. apply Hx in E. congruence. }
    specialize (IH Hz2). destruct (insert_levels lv s2 (TS j) a m d) as (s', ok).
    destruct IH as (k' & T' & HS' & Hx' & Hk' & Hsl' & Hnew' & Hf & Ht' & Hall).
    exists k', T'. split; [assumption|]. split; [eapply text_trans; eassumption|].
    split; [rewrite Hslot; clear - Hk2 Hk'; lia|]. split; [destruct Hsl, Hsl', Hsl1; split; congruence|].
    split; [|split; [|split]].
    - intros v' l' b i HT' HTn. destruct (T2 v' l' b) as [i2|] eqn:E2.
      + rewrite (Hx' _ _ _ _ E2) in HT'. injection HT' as ->. destruct (Hnew v' l' b i E2 HTn) as (? & ? & _). tauto.
      + destruct (Hnew' v' l' b i HT' E2) as (Hki & H0). rewrite Href in H0.
        assert (Hki2 : (k <= i)%nat) by (clear - Hki Hk2; lia).
        rewrite Hr1f in H0 by assumption. tauto.
    - intros E. destruct (Hf E) as (? & ? & Hlts). split; [assumption|]. split; [assumption|]. rewrite Hslot. clear - Hlts Hk2. lia.
    - intros E. destruct (Ht' E) as (HL' & Hp & Hr). split; [assumption|]. split.
      + intros l' Hl' Hrng. destruct (Z.eq_dec l' (hi low)) as [->|Hne].
        * fold q. rewrite (Hx' _ _ _ _ HTj). discriminate.
        * apply Hp; [assumption|]. clear - Hl' Hrng Hne Hlo2. destruct Hlo2; subst low; cbn in *; lia.
      + intros v' l' b i HT'. destruct (Hr v' l' b i HT') as (Hra & Hrb). rewrite Href in Hra, Hrb.
        destruct (si_dom _ _ _ _ HS' _ _ _ _ HT') as (_ & Hl' & _).
        assert (Hpe : onpath v a low m v' l' b <-> (v' = v /\ l' = low /\ b = pfx a low) \/ onpath v a (hi low) m v' l' b).
        { unfold onpath. split.
          - intros (-> & Hrng & ->). destruct (Z.eq_dec l' low) as [->|Hne]; [left; tauto|right].
            split; [reflexivity|]. split; [|reflexivity]. clear - Hl' Hrng Hne Hlo2 Hh2 Hlt.
            destruct Hlo2; subst low; cbn in *; lia.
          - intros [(-> & -> & ->)|(-> & Hrng & ->)]; (split; [reflexivity|split; [|reflexivity]]);
            [clear - Hlm|clear - Hrng Hlt]; lia. }
        assert (Hex : ~ ((v' = v /\ l' = low /\ b = pfx a low) /\ onpath v a (hi low) m v' l' b)).
        { unfold onpath. intros ((_ & -> & _) & _ & Hrng & _). clear - Hrng Hlt. lia. }
        assert (Hs1 : (v' = v /\ l' = low /\ b = pfx a low -> refT s1 i = u16 (refT s i + 1)) /\
                      (~ (v' = v /\ l' = low /\ b = pfx a low) -> refT s1 i = refT s i)).
        { destruct (T v' l' b) as [i1|] eqn:E1.
          - assert (i1 = i).
            { pose proof (Hx _ _ _ _ E1) as E2. apply Hx' in E2. congruence. }
            subst i1. apply Hr1 with (1 := E1).
          - assert (Hki : (k <= i)%nat).
            { destruct (T2 v' l' b) as [i2|] eqn:E2.
              - pose proof (Hx' _ _ _ _ E2) as E3. rewrite E3 in HT'. injection HT' as ->.
                apply (Hnew _ _ _ _ E2 E1).
              - destruct (Hnew' _ _ _ _ HT' E2) as (Hki & _). clear - Hki Hk2. lia. }
            split; [|intros _; apply Hr1f; assumption].
            intros (-> & -> & ->). exfalso. rewrite Hqd in Ht.
            unfold tab in Ht. destruct (Z.eqb_spec low 0) as [->|]; [clear - Hl'; lia|].
            rewrite E1 in Ht. discriminate. }
        destruct Hs1 as (Hs1a & Hs1b).
        split; intros Hc.
        * apply Hpe in Hc. destruct Hc as [Hc|Hc].
          -- rewrite Hrb by tauto. auto.
          -- rewrite Hra by tauto. rewrite Hs1b by tauto. reflexivity.
        * rewrite Hrb by tauto. apply Hs1b. tauto.
    - intros Hpath. assert (HTn : T v (hi low) q <> None).
      { apply Hpath; [assumption|]. clear - Hlt Hmh. lia. }
      destruct (Hsame HTn) as (-> & ->).
      apply Hall. intros l' Hl' Hr. apply Hpath; [assumption|]. clear - Hr Hlt. lia. }
  destruct (T v (hi low) q) as [j|] eqn:HTq.
  - assert (Hml : e_mlen (tb s1 t (q mod 2 ^ wd low)) <> 0).
    { apply (si_nz _ _ _ _ HS1 v low q t); try assumption. congruence. }
    destruct (Z.eqb_spec (e_mlen (tb s1 t (q mod 2 ^ wd low))) 0) as [|_]; [congruence|].
    apply (Hcomp k T s1 j); auto using text_refl; try (split; reflexivity); congruence.
  - pose proof (alloc_ok N k L T s1 t v low q HS1 HL1 Hlo2 Hq Ht HTq) as HA.
    assert (Hz1 : forall q', 0 <= q' < 2 ^ hi (hi low) -> q' / 2 ^ wd (hi low) = q -> L v (hi low) q' 0 0).
    { intros q' Hq' E. apply Hz; [assumption|assumption|]. rewrite E. assumption. }
    specialize (HA Hz1 (fun dt m => Hst v low q dt m Hlo)).
    destruct (NODEALLOC s1) as [[j|] s2].
    + destruct (HA m (Z.lt_gt _ _ Hmh)) as (-> & Hkn & HS3 & HL3 & Hsl3 & Hr3 & Hr0). cbv zeta in *.
      match goal with |- let '(_, _) := insert_levels _ ?x _ _ _ _ in _ => set (s3 := x) in * end.
      apply (Hcomp (S k) (Tset T v (hi low) q k) s3 k HS3 HL3); try assumption.
      * destruct (Tset_case T v (hi low) q k v (hi low) q) as [(_ & _ & _ & E)|(E & _)]; [assumption|intuition congruence].
      * intros v' l' b' i E. destruct (Tset_case T v (hi low) q k v' l' b') as [(-> & -> & -> & E')|(_ & E')]; congruence.
      * clear; lia.
      * intros v' l' b' i. destruct (Tset_case T v (hi low) q k v' l' b') as [(-> & -> & -> & E')|(_ & E')]; [|congruence].
        rewrite E'. intros [= <-] _. rewrite Hr1f in Hr0 by apply le_n. split; [apply le_n|]. tauto.
      * congruence.
    + destruct HA as (-> & ->). exists N, T.
      split; [assumption|]. split; [apply text_refl|]. split; [clear; lia|]. split; [assumption|].
      split; [congruence|]. split; [intros _; split; [assumption|split; [reflexivity|rewrite Hslot; clear; lia]]|]. split; [discriminate|].
      intros Hpath. exfalso. apply (Hpath (hi low)); [assumption| |assumption]. clear - Hlt Hmh. lia.
Qed.
End ins.
