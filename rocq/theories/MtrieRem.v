(* The removal loop of the MTRIE, when no table becomes unused. *)
From Verif Require Import Base RadixSpec MtrieModel MtrieNum MtrieInv MtrieLoop.
Ltac Zify.zify_post_hook ::= idtac.

Definition lvl (m : Z) : Z := if m <=? 16 then 0 else if m <=? 24 then 16 else 24.
Lemma lvl_ok m : 1 <= m <= 32 -> lowok (lvl m) /\ lvl m < m <= hi (lvl m).
Proof.
  intros H. unfold lvl, lowok. destruct (Z.leb_spec m 16); [cbn; lia|]. destruct (Z.leb_spec m 24); cbn; lia.
Qed.
Lemma lvl_unique m low : lowok low -> low < m <= hi low -> low = lvl m.
Proof.
  intros Hl Hm. unfold lvl. destruct Hl as [->|[->| ->]]; cbn in Hm; 
  destruct (Z.leb_spec m 16); destruct (Z.leb_spec m 24); lia.
Qed.

(* a change of one reference count *)
Lemma SI_ref N k T s t r v low b : SI N k T s -> tab T v low b = Some t -> SI N k T (set_tb s (updm (tb s) t 0 (set_ref (tb s t 0) r))).
Proof.
  intros HS Ht. apply SI_tb; [assumption| |].
  - intros v' low' q' t' _ _ _. destruct (updm_case (tb s) t 0 (set_ref (tb s t 0) r) t' (q' mod 2 ^ wd low'))
      as [(-> & _)|(-> & -> & ->)]; cbn [set_ref e_next e_mlen]; tauto.
  - intros i x Hi. apply updm_other. left. intros <-.
    eapply tab_lt in Ht; [|eassumption]. lia.
Qed.
Lemma LI_ref L T s t r : LI L T s -> LI L T (set_tb s (updm (tb s) t 0 (set_ref (tb s t 0) r))).
Proof.
  intros HL v low q t' Hl Hq Ht. specialize (HL v low q t' Hl Hq Ht).
  unfold set_tb. cbn [tb].
  destruct (updm_case (tb s) t 0 (set_ref (tb s t 0) r) t' (q mod 2 ^ wd low))
      as [(-> & _)|(-> & -> & Hx)]; cbn [set_ref e_data e_mlen]; rewrite ?Hx in *; assumption.
Qed.

Lemma dec_eq s t : (forall j, t = TS j -> 2 <= refT s j < 65536) ->
  dec_use_reference s t = set_tb s (updm (tb s) t 0 (set_ref (tb s t 0) (u16 (e_ref (tb s t 0) - 1)))).
Proof.
  intros H. unfold dec_use_reference. destruct t as [v|j].
  - destruct (_ =? 0); reflexivity.
  - specialize (H j eq_refl). unfold refT in H.
    assert (E : u16 (e_ref (tb s (TS j) 0) - 1) = e_ref (tb s (TS j) 0) - 1).
    { unfold u16. apply Z.mod_small. lia. }
    destruct (Z.eqb_spec (u16 (e_ref (tb s (TS j) 0) - 1)) 0); [lia|reflexivity].
Qed.

Lemma clear_ref s fl t ix n m h d i : (forall j l, t = TS j -> fl = Some l -> j <> l) ->
  refT (set_tb s (clear (tb s) fl t ix n m h d)) i = refT s i.
Proof. intros H. unfold refT. cbn [set_tb tb]. rewrite clear_spec by assumption. destruct (_ && _); reflexivity. Qed.

Lemma not_last N k T s t v low b : SI N k T s -> tab T v low b = Some t ->
  forall j l, t = TS j -> flast s = Some l -> j <> l.
Proof.
  intros HS Ht j l -> Hf ->. eapply tab_lt in Ht; [|eassumption].
  rewrite (si_fl _ _ _ _ HS) in Hf. destruct (Nat.ltb_spec k N); [|discriminate]. injection Hf as <-. lia.
Qed.

Lemma SI_clear N k T s t v low b ix n m d : SI N k T s -> tab T v low b = Some t -> 1 <= m -> lowok low ->
  SI N k T (set_tb s (clear (tb s) (flast s) t ix n m (hi low) d)).
Proof.
  intros HS Ht Hm Hlo. assert (Hnl := not_last _ _ _ _ _ _ _ _ HS Ht).
  pose proof (hi_pos low Hlo).
  apply SI_tb; [assumption| |].
  - intros v' low' q' t' _ _ _. rewrite clear_spec by assumption.
    destruct (_ && _); cbn [set_mlen e_next e_mlen]; [split; [reflexivity|]|tauto].
    destruct (e_next _); [intros; lia|tauto].
  - intros i x Hi. rewrite clear_spec by assumption. destruct (tid_eqb_spec (TS i) t) as [<-|]; [|reflexivity].
    eapply tab_lt in Ht; [|eassumption]. lia.
Qed.

Lemma LI_clear N k (L L' : leafp) T s t v low m P d :
  SI N k T s -> LI L T s -> lowok low -> low < m <= hi low -> 0 <= P < 2 ^ m ->
  tab T v low (P / 2 ^ (m - low)) = Some t ->
  (forall q ml dt, 0 <= q < 2 ^ hi low -> q / 2 ^ (hi low - m) = P -> L v low q ml dt -> 
     if (ml =? m) && (dt =? d) then L' v low q 0 dt /\ L' v low q (hi low + 1) dt else L' v low q ml dt) ->
  (forall v' low' q ml dt, lowok low' -> 0 <= q < 2 ^ hi low' -> v' <> v \/ low' <> low \/ q / 2 ^ (hi low - m) <> P ->
     L v' low' q ml dt -> L' v' low' q ml dt) ->
  LI L' T (set_tb s (clear (tb s) (flast s) t (ip_range_begin (P * 2 ^ (32 - m)) m low (hi low))
     (Z.to_nat (ip_range_end (P * 2 ^ (32 - m)) m low (hi low) - ip_range_begin (P * 2 ^ (32 - m)) m low (hi low)))
     m (hi low) d)).
Proof.
  intros HS HL Hlo Hm HP Ht Hin Hout.
  assert (Hnl := not_last _ _ _ _ _ _ _ _ HS Ht).
  rewrite end_eq, begin_eq by assumption.
  set (B := P mod 2 ^ (m - low) * 2 ^ (hi low - m)).
  replace (B + 2 ^ (hi low - m) - B) with (2 ^ (hi low - m)) by lia.
  pose proof (hi_cases low Hlo) as Hc.
  assert (HW : 0 < 2 ^ (hi low - m)) by (apply pow_pos; lia).
  intros v' low' q t' Hlo' Hq Ht'. cbn [set_tb tb]. rewrite clear_spec by assumption. rewrite Z2Nat.id by lia.
  specialize (HL v' low' q t' Hlo' Hq Ht').
  assert (Hqd := parent_range low' q Hlo' Hq).
  assert (Hbr : 0 <= P / 2 ^ (m - low) < 2 ^ low).
  { apply parent_range'; [clear - Hc Hm; lia|assumption]. }
  destruct (tid_eqb_spec t' t) as [->|Hne]; cbn [andb].
  - destruct (tab_inj _ _ _ _ _ _ _ _ _ _ _ HS Hqd Hbr Ht' Ht) as (-> & -> & Hb).
    pose proof (range_cover low m P q Hlo Hm ltac:(lia) ltac:(lia) Hb) as Hr. cbv zeta in Hr. fold B in Hr.
    destruct (Z.leb_spec B (q mod 2 ^ wd low)); cbn [andb];
    [destruct (Z.ltb_spec (q mod 2 ^ wd low) (B + 2 ^ (hi low - m))); cbn [andb]|].
    + specialize (Hin q _ _ Hq (proj1 Hr ltac:(split; assumption)) HL).
      destruct (_ && _); cbn [set_mlen e_mlen e_data]; [|exact Hin]. destruct (e_next _); tauto.
    + apply Hout; auto. right; right. intros E. apply Hr in E. lia.
    + apply Hout; auto. right; right. intros E. apply Hr in E. lia.
  - apply Hout; auto.
    destruct (Nat.eq_dec v' v) as [->|]; [|tauto]. destruct (Z.eq_dec low' low) as [->|]; [|tauto].
    right; right. intros E. apply Hne.
    assert (Hb : q / 2 ^ wd low = P / 2 ^ (m - low)).
    { rewrite <- E. rewrite div_div_pow by (clear - Hm Hc; lia). f_equal. f_equal. unfold wd. lia. }
    rewrite Hb in Ht'. congruence.
Qed.

Section rem.
Variables (N k : nat) (T : tmap) (L L' : leafp) (v : nat) (P m d : Z).
Hypothesis Hm : 1 <= m <= 32.
Hypothesis HP : 0 <= P < 2 ^ m.
Let a := P * 2 ^ (32 - m).
Hypothesis Hin : forall low q ml dt, lowok low -> low < m <= hi low -> 
  0 <= q < 2 ^ hi low -> q / 2 ^ (hi low - m) = P -> L v low q ml dt -> 
     if (ml =? m) && (dt =? d) then L' v low q 0 dt /\ L' v low q (hi low + 1) dt else L' v low q ml dt.
Hypothesis Hout : forall low v' low' q ml dt, lowok low -> low < m <= hi low ->
  lowok low' -> 0 <= q < 2 ^ hi low' -> v' <> v \/ low' <> low \/ q / 2 ^ (hi low - m) <> P ->
     L v' low' q ml dt -> L' v' low' q ml dt.

Definition rem_post (low : Z) (s : st) (r : outcome (st * rm_res)) : Prop :=
  exists s', r = Ret (s', RmBreak (find_prefix_match (rules s) v a (Z.to_nat (m - 1)) (lvl m))) /\
  SI N k T s' /\ LI L' T s' /\ samelink s s' /\
  (forall v' l' b i, T v' l' b = Some i ->
        (onpath v a low m v' l' b -> refT s' i = refT s i - 1) /\
        (~ onpath v a low m v' l' b -> refT s' i = refT s i)).

Definition rem_ok (low : Z) (lv : list (Z * Z)) : Prop := forall s t,
  low < m -> SI N k T s -> LI L T s -> tab T v low (pfx a low) = Some t ->
  (forall l', l' = 16 \/ l' = 24 -> low <= l' < m -> exists j, T v l' (pfx a l') = Some j /\ 2 <= refT s j < 65536) ->
  rem_post low s (remove_levels lv s t v a m d).

Lemma a_range' : 0 <= a < 2 ^ 32.
Proof. apply pm_range; assumption. Qed.

Lemma rem_step low lv : lowok low -> (low = 24 \/ rem_ok (hi low) lv) -> rem_ok low ((low, hi low) :: lv).
Proof.
  intros Hlo IH s t Hlm HS HL Ht Hpath. cbn [remove_levels].
  pose proof (hi_cases low Hlo) as Hc.
  assert (Hlz : 0 <= low <= 32) by (clear - Hc; lia).
  assert (Hlt : low < hi low) by (clear - Hc; lia).
  assert (Hbr : 0 <= pfx a low < 2 ^ low) by (apply pfx_range; [assumption|apply a_range']).
  assert (Hdec : forall j, t = TS j -> 2 <= refT s j < 65536).
  { intros j ->. unfold tab in Ht. destruct (Z.eqb_spec low 0); [discriminate|].
    destruct (Hpath low) as (j' & HT & Hr); [clear - Hc n; lia|clear - Hlm; lia|].
    rewrite HT in Ht. cbn in Ht. injection Ht as ->. exact Hr. }
  assert (Hu : forall j, t = TS j -> u16 (e_ref (tb s t 0) - 1) = refT s j - 1).
  { intros j ->. specialize (Hdec j eq_refl). unfold u16, refT in *. apply Z.mod_small. lia. }
  rewrite (dec_eq s t Hdec).
  set (r := u16 (e_ref (tb s t 0) - 1)) in *.
  set (s1 := set_tb s (updm (tb s) t 0 (set_ref (tb s t 0) r))).
  assert (HS1 : SI N k T s1) by (eapply SI_ref; eassumption).
  assert (HL1 : LI L T s1) by (apply LI_ref; assumption).
  assert (Hr1 : forall v' l' b i, T v' l' b = Some i -> 
     (v' = v /\ l' = low /\ b = pfx a low -> refT s1 i = refT s i - 1) /\
     (~ (v' = v /\ l' = low /\ b = pfx a low) -> refT s1 i = refT s i)).
  { intros v' l' b i HT. 
    pose proof (tab_TS_iff _ _ _ _ _ _ _ _ _ _ _ HS Hlo Hbr HT t Ht) as Hiff.
    unfold refT at 1 3. unfold s1. cbn [set_tb tb]. unfold updm. rewrite Z.eqb_refl, andb_true_r.
    destruct (tid_eqb_spec (TS i) t) as [E|E].
    - split; [|tauto]. intros _. cbn [set_ref e_ref]. apply Hu. congruence.
    - split; [tauto|reflexivity]. }
  assert (Hru : rules s1 = rules s) by reflexivity.
  assert (Hsl1 : samelink s s1) by (split; reflexivity).
  assert (Hfl1 : flast s1 = flast s) by reflexivity.
  clearbody s1. clear r Hu.
  destruct (Z.leb_spec m (hi low)) as [Hmh|Hmh].
  - assert (Hlv : low = lvl m) by (apply lvl_unique; [assumption|split; assumption]).
    unfold rem_post.
    match goal with |- exists s', Ret (?x, _) = _ /\ _ => set (s2 := x) end.
    assert (Hpt : pfx a low = P / 2 ^ (m - low)) by (apply pfx_trunc; [clear - Hlz Hlm; lia|apply Hm]).
    exists s2. split; [|split; [|split; [|split]]].
    + rewrite <- Hlv, <- Hru. reflexivity.
    + eapply SI_clear; try eassumption. apply Hm.
    + rewrite Hpt in Ht. unfold s2. unfold a. apply (LI_clear N k L L' T s1 t v low m P d); try assumption; try (split; assumption).
      * intros q ml dt. apply Hin; [assumption|split; assumption].
      * intros v' low' q ml dt. apply Hout; [assumption|split; assumption].
    + exact Hsl1.
    + intros v' l' b i HT. unfold s2. rewrite clear_ref by (eapply not_last; eassumption).
      destruct (Hr1 v' l' b i HT) as (Ha & Hb).
      destruct (si_dom _ _ _ _ HS _ _ _ _ HT) as (_ & Hd & _).
      unfold onpath. split.
      * intros (-> & Hr & ->). apply Ha. assert (l' = low); [|subst; tauto].
        clear - Hd Hr Hc Hmh. lia.
      * intros Hn. apply Hb. intros (-> & -> & ->). apply Hn. repeat split; clear - Hlm; lia.
  - destruct IH as [->|IH]; [cbn in Hmh; clear - Hmh Hm; lia|].
    assert (Hlo2 : low = 0 \/ low = 16) by (clear - Hc Hmh Hm; lia).
    assert (Hh2 : hi low = 16 \/ hi low = 24) by (clear - Hc Hmh Hm; lia).
    destruct (hi_ok low Hlo2) as (Hlh & Hhn & Hhr). clear Hc.
    set (q := pfx a (hi low)).
    assert (Hq : 0 <= q < 2 ^ hi low) by (apply pfx_range; [clear - Hhr; lia|apply a_range']).
    assert (Hqd : q / 2 ^ wd low = pfx a low) by (apply pfx_split; assumption).
    assert (Hfn : find_node a low (hi low) = q mod 2 ^ wd low) by (apply find_node_eq; [assumption|apply a_range']).
    rewrite Hfn. rewrite <- Hqd in Ht.
    destruct (Hpath (hi low)) as (j & HTj & Hrj); [assumption|clear - Hlt Hmh; lia|]. fold q in HTj.
    assert (Hnext := si_next _ _ _ _ HS1 v low q t Hlo2 Hq Ht).
    rewrite Hnext, HTj.
    assert (Hml : e_mlen (tb s1 t (q mod 2 ^ wd low)) <> 0).
    { apply (si_nz _ _ _ _ HS1 v low q t); try assumption. congruence. }
    destruct (Z.eqb_spec (e_mlen (tb s1 t (q mod 2 ^ wd low))) 0) as [|_]; [congruence|].
    assert (Hrj1 : refT s1 j = refT s j).
    { apply (Hr1 _ _ _ _ HTj). intros (_ & E & _). clear - E Hlt. lia. }
    assert (Hif : (e_ref (tb s1 (TS j) 0) =? 1) = false).
    { change (e_ref (tb s1 (TS j) 0)) with (refT s1 j). rewrite Hrj1. clear - Hrj. lia. }
    rewrite Hif. cbn [andb].
    assert (Htj : tab T v (hi low) (pfx a (hi low)) = Some (TS j)).
    { unfold tab. destruct (Z.eqb_spec (hi low) 0); [contradiction|]. fold q. rewrite HTj. reflexivity. }
    destruct (IH s1 (TS j) Hmh HS1 HL1 Htj) as (s' & E & HS' & HL' & Hsl' & Hr').
    { intros l' Hl' Hr. destruct (Hpath l' Hl') as (j' & HT' & Hrj'); [clear - Hr Hlt; lia|].
      exists j'. split; [assumption|]. rewrite (proj2 (Hr1 _ _ _ _ HT')); [assumption|].
      intros (_ & El & _). clear - El Hr Hlt. lia. }
    exists s'. rewrite E. split; [rewrite Hru; reflexivity|]. split; [assumption|]. split; [assumption|].
    split; [destruct Hsl', Hsl1; split; congruence|].
    intros v' l' b i HT. destruct (Hr' v' l' b i HT) as (Hra & Hrb). destruct (Hr1 v' l' b i HT) as (Hs1a & Hs1b).
    destruct (si_dom _ _ _ _ HS _ _ _ _ HT) as (_ & Hd & _).
    assert (Hpe : onpath v a low m v' l' b <-> (v' = v /\ l' = low /\ b = pfx a low) \/ onpath v a (hi low) m v' l' b).
    { unfold onpath. split.
          - intros (-> & Hrng & ->). destruct (Z.eq_dec l' low) as [->|Hne]; [left; tauto|right].
            split; [reflexivity|]. split; [|reflexivity]. clear - Hd Hrng Hne Hlo2 Hh2 Hlt.
            destruct Hlo2; subst low; cbn in *; lia.
          - intros [(-> & -> & ->)|(-> & Hrng & ->)]; (split; [reflexivity|split; [|reflexivity]]);
            [clear - Hlm|clear - Hrng Hlt]; lia. }
    assert (Hex : ~ ((v' = v /\ l' = low /\ b = pfx a low) /\ onpath v a (hi low) m v' l' b)).
    { unfold onpath. intros ((_ & -> & _) & _ & Hrng & _). clear - Hrng Hlt. lia. }
    clear - Hpe Hex Hra Hrb Hs1a Hs1b.
    split; intros Hc.
    * apply Hpe in Hc. destruct Hc as [Hc|Hc].
      -- rewrite Hrb by tauto. auto.
      -- rewrite Hra by tauto. rewrite Hs1b by tauto. reflexivity.
    * rewrite Hrb by tauto. apply Hs1b. tauto.
Qed.

Lemma rem_all : rem_ok 0 levels.
Proof.
  apply (rem_step 0); [unfold lowok; tauto|right].
  apply (rem_step 16); [unfold lowok; tauto|right].
  apply (rem_step 24); [unfold lowok; tauto|left; reflexivity].
Qed.
End rem.

Lemma ins_all (N : nat) (L L' : leafp) (v : nat) (P m d : Z) : 1 <= m <= 32 -> 0 <= P < 2 ^ m ->
  (forall v low q dt m, lowok low -> L v low q 0 dt -> m > hi low -> L v low q m dt) ->
  (forall low q ml dt, lowok low -> low < m <= hi low -> 
  0 <= q < 2 ^ hi low -> q / 2 ^ (hi low - m) = P -> L v low q ml dt -> 
     if (ml <=? m) || (ml >? hi low) then L' v low q m d else L' v low q ml dt) ->
  (forall low v' low' q ml dt, lowok low -> low < m <= hi low ->
  lowok low' -> 0 <= q < 2 ^ hi low' -> v' <> v \/ low' <> low \/ q / 2 ^ (hi low - m) <> P ->
     L v' low' q ml dt -> L' v' low' q ml dt) -> 
  ins_ok N L L' v P m d 0 levels.
Proof.
  intros Hm HP Hst Hin Hout.
  assert (Hs : forall low lv, lowok low -> low = 24 \/ ins_ok N L L' v P m d (hi low) lv -> ins_ok N L L' v P m d low ((low, hi low) :: lv)).
  { intros low lv. apply ins_step; assumption. }
  apply (Hs 0); [unfold lowok; tauto|right].
  apply (Hs 16); [unfold lowok; tauto|right].
  apply (Hs 24); [unfold lowok; tauto|left; reflexivity].
Qed.
