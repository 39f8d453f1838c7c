(* Deletions on the MTRIE, for histories that never empty a block. *)
From Verif Require Import Base RadixSpec MtrieSpec MtrieModel MtrieNum MtrieInv MtrieLoop MtrieRem MtrieProof.
Ltac Zify.zify_post_hook ::= idtac.

(* ---- the rule table ---- *)
Definition keyb (v : nat) (a m : Z) (r : rule) : bool :=
  Nat.eqb (r_vrf r) v && (r_addr r =? to_network_prefix a m) && (r_mlen r =? m).
Lemma rule_search_find rs v a m : rule_search rs v a m = find (keyb v a m) rs.
Proof. reflexivity. Qed.
Lemma keyb_spec v a m r : keyb v a m r = true <-> r_vrf r = v /\ r_addr r = to_network_prefix a m /\ r_mlen r = m.
Proof. unfold keyb. rewrite !andb_true_iff, Nat.eqb_eq, !Z.eqb_eq. tauto. Qed.

Lemma tnp_inj a b m : 0 <= a < 2 ^ 32 -> 0 <= b < 2 ^ 32 -> 1 <= m <= 32 ->
  to_network_prefix a m = to_network_prefix b m <-> pfx a m = pfx b m.
Proof.
  intros Ha Hb Hm. rewrite !to_network_prefix_eq by assumption. unfold pfx.
  pose proof (pow_pos (32 - m) ltac:(lia)). split; [|intros ->; reflexivity].
  intros E. apply Z.mul_reg_r in E; lia.
Qed.

Definition RL (nts : ntab) (rs : list rule) : Prop := forall v a m, 0 <= a < 2 ^ 32 -> 1 <= m <= 32 ->
  option_map r_data (rule_search rs v a m) = nts v m (pfx a m).

Lemma find_map_key {A} (f : A -> bool) (g : A -> A) l : (forall x, f (g x) = f x) -> find f (map g l) = option_map g (find f l).
Proof.
  intros H. induction l as [|x l IH]; cbn; [reflexivity|]. rewrite H. destruct (f x); [reflexivity|assumption].
Qed.
Lemma find_filter_other {A} (f g : A -> bool) l : (forall x, f x = true -> g x = true) -> find f (filter g l) = find f l.
Proof.
  intros H. induction l as [|x l IH]; cbn; [reflexivity|].
  destruct (g x) eqn:G; cbn; destruct (f x) eqn:F; auto. rewrite (H x F) in G. discriminate.
Qed.
Lemma find_ext {A} (f g : A -> bool) l : (forall x, f x = g x) -> find f l = find g l.
Proof. intros H. induction l as [|x l IH]; cbn; [reflexivity|]. rewrite H, IH. reflexivity. Qed.
Lemma filter_len {A} (f : A -> bool) l : (length (filter f l) <= length l)%nat.
Proof. induction l as [|x l IH]; cbn; [lia|]. destruct (f x); cbn; lia. Qed.
Lemma find_filter_neg {A} (f : A -> bool) l : find f (filter (fun x => negb (f x)) l) = None.
Proof.
  induction l as [|x l IH]; cbn; [reflexivity|]. destruct (f x) eqn:F; cbn; [assumption|]. rewrite F. assumption.
Qed.

Lemma keyb_diff v a m v' a' m' r : 0 <= a < 2 ^ 32 -> 0 <= a' < 2 ^ 32 -> 1 <= m <= 32 -> 1 <= m' <= 32 ->
  keyb v a m r = true -> keyb v' a' m' r = true -> v' = v /\ m' = m /\ pfx a' m' = pfx a m.
Proof.
  intros Ha Ha' Hm Hm' K1 K2. apply keyb_spec in K1, K2. destruct K1 as (<- & E1 & <-), K2 as (<- & E2 & <-).
  split; [reflexivity|]. split; [reflexivity|]. apply tnp_inj; congruence.
Qed.
Lemma keyb_same v a a' m r : 0 <= a < 2 ^ 32 -> 0 <= a' < 2 ^ 32 -> 1 <= m <= 32 -> pfx a' m = pfx a m -> keyb v a' m r = keyb v a m r.
Proof. intros Ha Ha' Hm E. unfold keyb. rewrite (proj2 (tnp_inj a' a m Ha' Ha Hm) E). reflexivity. Qed.

Lemma RL_add nts s v a m d : RL nts (rules s) -> 0 <= a < 2 ^ 32 -> 1 <= m <= 32 -> (length (rules s) < cap s)%nat ->
  RL (upd nts v m (pfx a m) (Some d)) (rules (rule_add s v a m d)) /\
  (length (rules (rule_add s v a m d)) <= S (length (rules s)))%nat /\ cap (rule_add s v a m d) = cap s.
Proof.
  intros HR Ha Hm Hcap. unfold rule_add.
  destruct (rule_search (rules s) v a m) as [r|] eqn:Er.
  - cbn [rules set_rules cap]. split; [|split; [rewrite map_length; lia|reflexivity]].
    intros v' a' m' Ha' Hm'. rewrite rule_search_find.
    set (g := fun r => _).
    assert (Hg : forall x, keyb v' a' m' (g x) = keyb v' a' m' x) by (intros x; unfold g; destruct (_ && _); reflexivity).
    rewrite find_map_key by assumption. rewrite <- rule_search_find.
    specialize (HR v' a' m' Ha' Hm').
    destruct (upd_case nts v m (pfx a m) (Some d) v' m' (pfx a' m')) as [(-> & -> & Ep & ->)|(Hne & ->)].
    + assert (E : rule_search (rules s) v a' m = Some r).
      { rewrite <- Er. rewrite !rule_search_find. apply find_ext. intros x. apply keyb_same; assumption. }
      rewrite E. cbn [option_map]. rewrite rule_search_find in Er. apply find_some in Er. destruct Er as (_ & Er).
      unfold g. fold (keyb v a m r). rewrite Er. reflexivity.
    + rewrite <- HR. destruct (rule_search (rules s) v' a' m') as [r'|] eqn:E'; [|reflexivity].
      cbn [option_map]. rewrite rule_search_find in E'. apply find_some in E'. destruct E' as (_ & E').
      unfold g. fold (keyb v a m r'). destruct (keyb v a m r') eqn:Kr; [|reflexivity].
      destruct (keyb_diff v a m v' a' m' r' Ha Ha' Hm Hm' Kr E') as (? & ? & ?). exfalso. tauto.
  - destruct (Nat.ltb_spec (length (rules s)) (cap s)); [|lia].
    cbn [rules set_rules cap]. split; [|split; [cbn; lia|reflexivity]].
    intros v' a' m' Ha' Hm'. rewrite rule_search_find. cbn [find].
    set (nr := mkRule v (to_network_prefix a m) m d).
    assert (Kn : keyb v a m nr = true) by (apply keyb_spec; cbn; tauto).
    specialize (HR v' a' m' Ha' Hm').
    destruct (upd_case nts v m (pfx a m) (Some d) v' m' (pfx a' m')) as [(-> & -> & Ep & ->)|(Hne & ->)].
    + rewrite (keyb_same v a a' m nr Ha Ha' Hm Ep), Kn. reflexivity.
    + destruct (keyb v' a' m' nr) eqn:K'; [|exact HR].
      destruct (keyb_diff v a m v' a' m' nr Ha Ha' Hm Hm' Kn K') as (? & ? & ?). exfalso. tauto.
Qed.

Lemma RL_remove nts s v a m : RL nts (rules s) -> 0 <= a < 2 ^ 32 -> 1 <= m <= 32 ->
  RL (upd nts v m (pfx a m) None) (rules (rule_remove s v a m)) /\
  (length (rules (rule_remove s v a m)) <= length (rules s))%nat /\ cap (rule_remove s v a m) = cap s.
Proof.
  intros HR Ha Hm. unfold rule_remove. cbn [rules set_rules cap].
  split; [|split; [apply filter_len|reflexivity]].
  intros v' a' m' Ha' Hm'. rewrite rule_search_find. specialize (HR v' a' m' Ha' Hm').
  destruct (upd_case nts v m (pfx a m) None v' m' (pfx a' m')) as [(-> & -> & Ep & ->)|(Hne & ->)].
  - rewrite (find_ext (keyb v a' m) (keyb v a m)) by (intros x; apply keyb_same; assumption).
    fold (keyb v a m). rewrite (find_filter_neg (keyb v a m)). reflexivity.
  - rewrite find_filter_other; [exact HR|]. intros x Kx.
    fold (keyb v a m x). destruct (keyb v a m x) eqn:K; [|reflexivity].
    destruct (keyb_diff v a m v' a' m' x Ha Ha' Hm Hm' K Kx) as (? & ? & ?). exfalso. tauto.
Qed.

Lemma find_prefix_spec nts rs v a mask low : RL nts rs -> 0 <= a < 2 ^ 32 -> (mask <= 32)%nat -> 0 <= low ->
  match find_prefix_match rs v a mask low with
  | Some r => low < r_mlen r <= Z.of_nat mask /\ r_vrf r = v /\ r_addr r = to_network_prefix a (r_mlen r) /\
      nts v (r_mlen r) (pfx a (r_mlen r)) = Some (r_data r) /\
      forall m', r_mlen r < m' <= Z.of_nat mask -> nts v m' (pfx a m') = None
  | None => forall m', low < m' <= Z.of_nat mask -> nts v m' (pfx a m') = None
  end.
Proof.
  intros HR Ha. induction mask as [|k IH]; intros Hk Hl; cbn [find_prefix_match].
  - intros m' Hm'. lia.
  - destruct (Z.gtb_spec (Z.of_nat (S k)) low) as [Hgt|Hle]; [|intros m' Hm'; lia].
    specialize (HR v a (Z.of_nat (S k)) Ha ltac:(lia)).
    destruct (rule_search rs v a (Z.of_nat (S k))) as [r|] eqn:E.
    + rewrite rule_search_find in E. apply find_some in E. destruct E as (_ & E). apply keyb_spec in E.
      destruct E as (E1 & E2 & E3). rewrite E3. cbn in HR.
      split; [lia|]. split; [assumption|]. split; [assumption|]. split; [symmetry; assumption|]. intros; lia.
    + cbn [option_map] in HR. specialize (IH ltac:(lia) Hl).
      destruct (find_prefix_match rs v a k low) as [r|].
      * destruct IH as (H1 & H2 & H3 & H4 & H5). split; [lia|]. split; [assumption|]. split; [assumption|]. split; [assumption|].
        intros m' Hm'. destruct (Z.eq_dec m' (Z.of_nat (S k))) as [->|]; [congruence|]. apply H5. lia.
      * intros m' Hm'. destruct (Z.eq_dec m' (Z.of_nat (S k))) as [->|]; [congruence|]. apply IH. lia.
Qed.

(* ---- reference counts ---- *)
Definition under (nts : ntab) (v : nat) (l b : Z) (mp : Z * Z) : Prop :=
  nts v (fst mp) (snd mp) <> None /\ l < fst mp /\ snd mp / 2 ^ (fst mp - l) = b.
Definition RI (nts : ntab) (T : tmap) (s : st) (n : Z) : Prop := forall v l b i, T v l b = Some i ->
  0 <= refT s i <= n /\
  forall K, NoDup K -> (forall mp, In mp K -> under nts v l b mp) -> Z.of_nat (length K) <= refT s i.

Lemma NoDup_remove1 {A} (dec : forall x y : A, {x = y} + {x <> y}) (x : A) K : NoDup K ->
  exists K', NoDup K' /\ ~ In x K' /\ (forall y, In y K' -> In y K) /\ (length K <= S (length K'))%nat.
Proof.
  intros H. induction H as [|y K Hy H IH].
  - exists []. repeat split; auto using NoDup_nil.
  - destruct (dec y x) as [->|Hne].
    + exists K. split; [assumption|]. split; [assumption|]. split; [intros; right; assumption|]. cbn. lia.
    + destruct IH as (K' & H1 & H2 & H3 & H4). exists (y :: K').
      split; [constructor; [intros Hc; apply Hy, H3, Hc|assumption]|].
      split; [intros [->|Hc]; tauto|]. split; [intros z [->|Hz]; [left; reflexivity|right; auto]|]. cbn. lia.
Qed.

Lemma pair_dec (x y : Z * Z) : {x = y} + {x <> y}.
Proof. decide equality; apply Z.eq_dec. Qed.

Lemma onpath_dec v a low m v1 l1 b1 : onpath v a low m v1 l1 b1 \/ ~ onpath v a low m v1 l1 b1.
Proof.
  unfold onpath. destruct (Nat.eq_dec v1 v); [|tauto]. destruct (Z_lt_dec l1 m); [|tauto].
  destruct (Z_le_dec low l1); [|tauto]. destruct (Z.eq_dec b1 (pfx a l1)); tauto.
Qed.
Lemma RI_insert N k nts T s v a m d s' n : SI N k T s -> CI nts T -> RI nts T s n -> n < 65535 -> 0 <= n -> 1 <= m <= 32 -> 0 <= a < 2 ^ 32 ->
  let P := pfx a m in
  ins_post N k (leaf nts) (leaf (upd nts v m P (Some d))) T v (P * 2 ^ (32 - m)) m 0 s s' true ->
  exists k' T', Core N k' (upd nts v m P (Some d)) T' s' /\ (k <= k' <= k + 2)%nat /\ samelink s s' /\
  RI (upd nts v m P (Some d)) T' s' (n + 1).
Proof.
  intros HS HC HRI Hn Hn0 Hm Ha P Hp.
  destruct Hp as (k' & T' & HS' & Hx & Hk & Hsl & Hnew & _ & Ht & _).
  destruct (Ht eq_refl) as (HL' & Hpth & Hr). clear Ht.
  exists k', T'. pose proof (CI_text _ _ _ HC Hx) as HC'.
  assert (Hpe : forall l', 0 <= l' <= m -> pfx (P * 2 ^ (32 - m)) l' = P / 2 ^ (m - l')) by (intros; apply pfx_trunc; lia).
  split; [|split; [assumption|split; [assumption|]]].
  - split; [assumption|]. split; [assumption|].
    intros v1 m1 p1 d1. destruct (upd_case nts v m P (Some d) v1 m1 p1) as [(-> & -> & -> & _)|(_ & ->)]; [|apply HC'].
    intros _. split; [assumption|]. split; [apply pfx_range; [lia|assumption]|].
    intros l' Hl' Hlt. rewrite <- Hpe by lia. apply Hpth; [assumption|lia].
  - intros v1 l1 b1 i HT. destruct (Hr _ _ _ _ HT) as (Hra & Hrb).
    destruct (si_dom _ _ _ _ HS' _ _ _ _ HT) as (_ & Hl1 & _).
    assert (Hold : 0 <= refT s i <= n /\ forall K, NoDup K -> (forall mp, In mp K -> under nts v1 l1 b1 mp) -> Z.of_nat (length K) <= refT s i).
    { destruct (T v1 l1 b1) as [i'|] eqn:E.
      - assert (i' = i) by (apply Hx in E; congruence). subst i'. apply (HRI _ _ _ _ E).
      - destruct (Hnew _ _ _ _ HT E) as (_ & ->). split; [lia|]. intros K _ HK.
        destruct K as [|(m1, p1) K]; [cbn; lia|]. exfalso.
        destruct (HK (m1, p1) (or_introl eq_refl)) as (H1 & H2 & H3). cbn [fst snd] in *.
        destruct (nts v1 m1 p1) as [d1|] eqn:E1; [|congruence].
        destruct (HC _ _ _ _ E1) as (_ & _ & H4). apply (H4 l1 Hl1 H2). congruence. }
    destruct Hold as (Hrg & Hcnt).
    assert (Hdec : onpath v (P * 2 ^ (32 - m)) 0 m v1 l1 b1 \/ ~ onpath v (P * 2 ^ (32 - m)) 0 m v1 l1 b1) by apply onpath_dec.
    destruct Hdec as [Hon|Hoff].
    + rewrite (Hra Hon). assert (Eu : u16 (refT s i + 1) = refT s i + 1) by (unfold u16; apply Z.mod_small; lia).
      rewrite Eu. split; [lia|]. intros K HK HKu.
      destruct (NoDup_remove1 pair_dec (m, P) K HK) as (K' & HK' & Hni & Hsub & Hlen).
      assert (Hc' : Z.of_nat (length K') <= refT s i).
      { apply Hcnt; [assumption|]. intros (m1, p1) Hin. destruct (HKu _ (Hsub _ Hin)) as (H1 & H2 & H3). cbn [fst snd] in *.
        split; [|split; assumption]. cbn [fst snd].
        destruct (upd_case nts v m P (Some d) v1 m1 p1) as [(-> & -> & -> & _)|(_ & E)]; [contradiction|congruence]. }
      lia.
    + rewrite (Hrb Hoff). split; [lia|]. intros K HK HKu. apply Hcnt; [assumption|].
      intros (m1, p1) Hin. destruct (HKu _ Hin) as (H1 & H2 & H3). cbn [fst snd] in *.
      split; [|split; assumption]. cbn [fst snd].
      destruct (upd_case nts v m P (Some d) v1 m1 p1) as [(-> & -> & -> & _)|(_ & E)]; [|congruence].
      exfalso. apply Hoff. split; [reflexivity|]. split; [lia|]. rewrite Hpe by lia. congruence.
Qed.

(* ---- deletion ---- *)
(* leaves after the clearing loop: correct for the remaining routes, or emptied *)
Definition mid (nts' : ntab) (v : nat) (m P : Z) : leafp := fun v' low q ml dt =>
  leaf nts' v' low q ml dt \/
  (v' = v /\ low = lvl m /\ q / 2 ^ (hi low - m) = P /\ (ml = 0 \/ ml > hi low) /\
   forall m', m <= m' <= hi low -> nts' v m' (q / 2 ^ (hi low - m')) = None).

Lemma mid_clear nts v m P d low q ml dt : 1 <= m <= 32 -> lowok low -> low < m <= hi low -> nts v m P = Some d ->
  q / 2 ^ (hi low - m) = P -> leaf nts v low q ml dt ->
  let nts' := upd nts v m P None in
  if (ml =? m) && (dt =? d) then mid nts' v m P v low q 0 dt /\ mid nts' v m P v low q (hi low + 1) dt
  else mid nts' v m P v low q ml dt.
Proof.
  intros Hm1 Hlo Hm Hd HP HL nts'.
  assert (Hlz : 0 <= low) by (destruct Hlo as [->|[->| ->]]; lia).
  assert (Hlv : low = lvl m) by (apply lvl_unique; assumption).
  assert (Hne : forall m', m' <> m -> nts' v m' (q / 2 ^ (hi low - m')) = nts v m' (q / 2 ^ (hi low - m'))).
  { intros m' Hn. unfold nts'. destruct (upd_case nts v m P None v m' (q / 2 ^ (hi low - m'))) as [(_ & E & _)|(_ & ->)]; [congruence|reflexivity]. }
  assert (Hself : nts' v m (q / 2 ^ (hi low - m)) = None).
  { unfold nts'. destruct (upd_case nts v m P None v m (q / 2 ^ (hi low - m))) as [(_ & _ & _ & ->)|(E & _)]; [reflexivity|]. intuition congruence. }
  destruct HL as [(H1 & H2 & H3)|(H & _)]; [|exfalso; specialize (H m Hm); congruence].
  destruct (Z.eqb_spec ml m) as [->|Hml].
  - rewrite HP, Hd in H2. injection H2 as <-. rewrite Z.eqb_refl. cbn [andb].
    assert (Hn : forall m', m <= m' <= hi low -> nts' v m' (q / 2 ^ (hi low - m')) = None).
    { intros m' Hm'. destruct (Z.eq_dec m' m) as [->|]; [assumption|]. rewrite Hne by assumption. apply H3. lia. }
    split; right; repeat split; auto. right. lia.
  - cbn [andb]. left. left.
    assert (Hgt : m < ml).
    { destruct (Z.le_gt_cases ml m); [|lia]. exfalso. specialize (H3 m ltac:(lia)). congruence. }
    split; [assumption|]. rewrite Hne by lia. split; [assumption|]. intros m' Hm'. rewrite Hne by lia. auto.
Qed.

Lemma mid_done nts' v m P : 1 <= m <= 32 ->
  (forall m', lvl m < m' < m -> nts' v m' (P / 2 ^ (m - m')) = None) ->
  forall v' low q ml dt, mid nts' v m P v' low q ml dt -> leaf nts' v' low q ml dt.
Proof.
  intros Hm Hn v' low q ml dt [H|(-> & -> & HP & Hml & Hz)]; [assumption|].
  pose proof (lvl_ok m Hm) as (Hlo & Hr).
  right. split; [|assumption]. intros m' Hm'. destruct (Z.le_gt_cases m m'); [apply Hz; lia|].
  specialize (Hn m' ltac:(lia)). rewrite <- HP in Hn. rewrite div_div_pow in Hn by lia.
  replace (hi (lvl m) - m + (m - m')) with (hi (lvl m) - m') in Hn by lia. assumption.
Qed.

Lemma mid_refill nts' v m P mi di : 1 <= m <= 32 -> lvl m < mi < m -> nts' v mi (P / 2 ^ (m - mi)) = Some di ->
  (forall m', mi < m' < m -> nts' v m' (P / 2 ^ (m - m')) = None) ->
  (forall low q ml dt, lowok low -> low < mi <= hi low -> q / 2 ^ (hi low - mi) = P / 2 ^ (m - mi) ->
     mid nts' v m P v low q ml dt ->
     if (ml <=? mi) || (ml >? hi low) then leaf nts' v low q mi di else leaf nts' v low q ml dt) /\
  (forall low v' low' q ml dt, lowok low -> low < mi <= hi low -> lowok low' ->
     v' <> v \/ low' <> low \/ q / 2 ^ (hi low - mi) <> P / 2 ^ (m - mi) ->
     mid nts' v m P v' low' q ml dt -> leaf nts' v' low' q ml dt).
Proof.
  intros Hm Hmi Hdi Hn. pose proof (lvl_ok m Hm) as (Hlom & Hrm).
  assert (Hlz : 0 <= lvl m) by (destruct Hlom as [->|[->| ->]]; lia).
  assert (Hlvi : lvl mi = lvl m).
  { symmetry. apply lvl_unique; [assumption|lia]. }
  split.
  - intros low q ml dt Hlo Hr Hq HM.
    assert (Hlow : low = lvl m) by (rewrite <- Hlvi; apply lvl_unique; assumption). subst low.
    destruct HM as [HL|(_ & _ & HP & Hml & Hz)].
    + destruct HL as [(H1 & H2 & H3)|(H & _)].
      * destruct (Z.le_gt_cases ml mi) as [Hle|Hgt].
        -- assert (ml = mi).
           { destruct (Z.eq_dec ml mi); [assumption|]. specialize (H3 mi ltac:(lia)). rewrite Hq in H3. congruence. }
           subst ml. destruct (Z.leb_spec mi mi); [|lia]. cbn [orb].
           rewrite Hq, Hdi in H2. injection H2 as <-. left. split; [assumption|]. rewrite Hq. tauto.
        -- destruct (Z.leb_spec ml mi); [lia|]. destruct (Z.gtb_spec ml (hi (lvl m))); [lia|]. cbn [orb]. left. tauto.
      * exfalso. specialize (H mi Hr). rewrite Hq in H. congruence.
    + assert (Hlf : leaf nts' v (lvl m) q mi di).
      { left. split; [assumption|]. rewrite Hq. split; [assumption|]. intros m' Hm'.
        destruct (Z.le_gt_cases m m'); [apply Hz; lia|].
        specialize (Hn m' ltac:(lia)). rewrite <- HP in Hn. rewrite div_div_pow in Hn by (clear - Hrm H; lia).
        replace (hi (lvl m) - m + (m - m')) with (hi (lvl m) - m') in Hn by (clear; lia). assumption. }
      assert (Hif : (ml <=? mi) || (ml >? hi (lvl m)) = true).
      { destruct Hml as [->|Hg]; [destruct (Z.leb_spec 0 mi); [reflexivity|lia]|].
        destruct (Z.gtb_spec ml (hi (lvl m))); [apply orb_true_r|lia]. }
      rewrite Hif. assumption.
  - intros low v' low' q ml dt Hlo Hr Hlo' Hd [H|(-> & -> & HP & _ & _)]; [assumption|]. exfalso.
    assert (Hlow : low = lvl m) by (rewrite <- Hlvi; apply lvl_unique; assumption). subst low.
    destruct Hd as [Hd|[Hd|Hd]]; try congruence. apply Hd. rewrite <- HP. rewrite div_div_pow by lia.
    f_equal. f_equal. lia.
Qed.

Lemma leaf_mid_out nts v m P low v' low' q ml dt : lowok low -> low < m <= hi low -> lowok low' ->
  v' <> v \/ low' <> low \/ q / 2 ^ (hi low - m) <> P ->
  leaf nts v' low' q ml dt -> mid (upd nts v m P None) v m P v' low' q ml dt.
Proof. intros. left. eapply leaf_out; [| |assumption|eassumption|assumption]; assumption. Qed.

Lemma remove_core N k nts T s v a n d cnt :
  let m := Z.of_nat n in let P := pfx a m in
  Core N k nts T s -> RL nts (rules s) -> RI nts T s cnt -> cnt < 65535 ->
  0 <= a < 2 ^ 32 -> (1 <= n <= 32)%nat -> nts v m P = Some d ->
  (forall l', l' = 16 \/ l' = 24 -> l' < m -> exists mp, mp <> (m, P) /\ under nts v l' (pfx a l') mp) ->
  exists s', ofp_rtl_remove false s v a m = Ret (s', Some d) /\ Core N k (upd nts v m P None) T s' /\
  samelink s s' /\ RI (upd nts v m P None) T s' cnt.
Proof.
  intros m P HCo HRL HRI Hcnt Ha Hn HnP Hsafe. pose proof HCo as (HS & HL & HC).
  assert (Hm : 1 <= m <= 32) by (unfold m; lia).
  assert (HP : 0 <= P < 2 ^ m) by (apply pfx_range; [lia|assumption]).
  set (nts' := upd nts v m P None).
  set (a0 := P * 2 ^ (32 - m)).
  assert (Ha0 : 0 <= a0 < 2 ^ 32) by (apply pm_range; assumption).
  assert (Hpfx : forall l', 0 <= l' <= m -> pfx a0 l' = pfx a l').
  { intros l' Hl'. unfold a0. rewrite pfx_trunc by lia. unfold P. apply pfx_pfx; lia. }
  assert (HPm : forall m', 0 <= m' <= m -> P / 2 ^ (m - m') = pfx a m') by (intros; apply pfx_pfx; lia).
  (* path tables and reference counts *)
  assert (Hpath : forall l', l' = 16 \/ l' = 24 -> 0 <= l' < m -> exists j, T v l' (pfx a0 l') = Some j /\ 2 <= refT s j < 65536).
  { intros l' Hl' Hlt. rewrite Hpfx by lia.
    destruct (HC _ _ _ _ HnP) as (_ & _ & HT). specialize (HT l' Hl' ltac:(lia)).
    rewrite HPm in HT by lia.
    destruct (T v l' (pfx a l')) as [j|] eqn:Ej; [|congruence]. exists j. split; [reflexivity|].
    destruct (HRI _ _ _ _ Ej) as (Hb & Hc). split; [|lia].
    destruct (Hsafe l' Hl' ltac:(lia)) as (mp & Hne & Hu).
    specialize (Hc [(m, P); mp]). change (Z.of_nat (length [(m, P); mp])) with 2 in Hc. apply Hc.
    - constructor; [|constructor; [intros []|constructor]]. intros [E|[]]. congruence.
    - intros mp' [<-|[<-|[]]]; [|assumption]. split; [cbn; congruence|]. cbn [fst snd]. split; [lia|]. apply HPm. lia. }
  (* RI after the removal of the route, for any state whose counts are at least one less on the path *)
  assert (HRI' : forall s2, (forall v' l' b i, T v' l' b = Some i -> refT s i - 1 <= refT s2 i <= refT s i /\
       (~ onpath v a0 0 m v' l' b -> refT s2 i = refT s i)) -> RI nts' T s2 cnt).
  { intros s2 Hs2 v1 l1 b1 i HT. destruct (Hs2 _ _ _ _ HT) as (Hrange & Hoff). destruct (HRI _ _ _ _ HT) as (Hb & Hc).
    destruct (si_dom _ _ _ _ HS _ _ _ _ HT) as (_ & Hl1 & _).
    assert (Hdec : onpath v a0 0 m v1 l1 b1 \/ ~ onpath v a0 0 m v1 l1 b1) by apply onpath_dec.
    assert (Hweak : forall mp, under nts' v1 l1 b1 mp -> under nts v1 l1 b1 mp).
    { intros (m1, p1) (H1 & H2 & H3). cbn [fst snd] in *. split; [|split; assumption]. cbn [fst snd].
      unfold nts' in H1. destruct (upd_case nts v m P None v1 m1 p1) as [(_ & _ & _ & E)|(_ & E)]; congruence. }
    destruct Hdec as [Hon|Hno].
    - destruct Hon as (-> & Hl1m & ->).
      assert (Hself : under nts v l1 (pfx a0 l1) (m, P)).
      { split; [cbn; congruence|]. cbn [fst snd]. split; [lia|]. rewrite HPm, Hpfx by lia. reflexivity. }
      split.
      + specialize (Hc [(m, P)]). cbn [length] in Hc.
        assert (1 <= refT s i); [|lia]. apply Hc; [constructor; [intros []|constructor]|].
        intros mp [<-|[]]. assumption.
      + intros K HK HKu. assert (Z.of_nat (length ((m, P) :: K)) <= refT s i); [|cbn [length] in *; lia].
        apply Hc.
        * constructor; [|assumption]. intros Hin. destruct (HKu _ Hin) as (H1 & _). cbn [fst snd] in H1.
          apply H1. unfold nts'. destruct (upd_case nts v m P None v m P) as [(_ & _ & _ & E)|(E & _)]; [assumption|intuition congruence].
        * intros mp [<-|Hin]; auto.
    - rewrite (Hoff Hno). split; [lia|]. intros K HK HKu. apply Hc; auto. }
  unfold ofp_rtl_remove.
  pose proof (HRL v a m Ha Hm) as Hrs. fold P in Hrs. rewrite HnP in Hrs.
  destruct (rule_search (rules s) v a m) as [r|] eqn:Er; [|discriminate]. cbn in Hrs. injection Hrs as Hrd.
  rewrite Hrd. clear r Er Hrd.
  destruct (Z.ltb_spec m 0); [lia|]. destruct (Z.gtb_spec m 32); [lia|]. destruct (Z.eqb_spec m 0); [lia|]. cbn [orb andb].
  rewrite to_network_prefix_eq by assumption. fold (pfx a m). fold P. fold a0.
  assert (Hrem : rem_ok N k T (leaf nts) (mid nts' v m P) v P m d 0 levels).
  { apply rem_all; try assumption.
    - intros low q ml dt Hlo Hr _ Hq HLf. apply (mid_clear nts v m P d low q ml dt); assumption.
    - intros low v' low' q ml dt Hlo Hr Hlo' _ Hd HLf. eapply leaf_mid_out; [| |assumption|eassumption|assumption]; assumption. }
  destruct (Hrem s (TR v)) as (s1 & E1 & HS1 & HL1 & Hsl1 & Hr1).
  { lia. } { assumption. } { assumption. } { reflexivity. } { exact Hpath. }
  fold a0 in E1, Hr1. rewrite E1. cbn [obind].
  pose proof (lvl_ok m Hm) as (Hlom & Hrm).
  assert (Hlz : 0 <= lvl m) by (destruct Hlom as [->|[->| ->]]; lia).
  pose proof (find_prefix_spec nts (rules s) v a0 (Z.to_nat (m - 1)) (lvl m) HRL Ha0 ltac:(lia) Hlz) as Hfp.
  rewrite Z2Nat.id in Hfp by lia.
  assert (Hnts' : forall m', m' <> m -> forall p, nts' v m' p = nts v m' p).
  { intros m' Hm' p. unfold nts'. destruct (upd_case nts v m P None v m' p) as [(_ & E & _)|(_ & E)]; congruence. }
  assert (HC' : CI nts' T).
  { intros v1 m1 p1 d1 E. apply (HC v1 m1 p1 d1). unfold nts' in E.
    destruct (upd_case nts v m P None v1 m1 p1) as [(_ & _ & _ & E')|(_ & E')]; congruence. }
  assert (Hs1r : forall v' l' b i, T v' l' b = Some i -> refT s i - 1 <= refT s1 i <= refT s i /\
       (~ onpath v a0 0 m v' l' b -> refT s1 i = refT s i) /\ (onpath v a0 0 m v' l' b -> refT s1 i = refT s i - 1)).
  { intros v' l' b i HT. destruct (Hr1 _ _ _ _ HT) as (Hra & Hrb).
    assert (Hdec : onpath v a0 0 m v' l' b \/ ~ onpath v a0 0 m v' l' b) by apply onpath_dec.
    destruct Hdec as [Ho|Ho]; [rewrite (Hra Ho)|rewrite (Hrb Ho)]; split; try lia; tauto. }
  destruct (find_prefix_match (rules s) v a0 (Z.to_nat (m - 1)) (lvl m)) as [ir|].
  - destruct Hfp as (Hmi & Hvi & Hai & Hdi & Hmax).
    set (mi := r_mlen ir) in *. set (di := r_data ir) in *.
    assert (Hmi1 : 1 <= mi <= 32) by lia.
    set (Pi := pfx a0 mi) in *.
    assert (HPi : 0 <= Pi < 2 ^ mi) by (apply pfx_range; [lia|assumption]).
    assert (EPi : P / 2 ^ (m - mi) = Pi) by (rewrite HPm by lia; unfold Pi; rewrite Hpfx by lia; reflexivity).
    assert (Hdi' : nts' v mi (P / 2 ^ (m - mi)) = Some di) by (rewrite Hnts' by lia; rewrite EPi; assumption).
    assert (Hmax' : forall m', mi < m' < m -> nts' v m' (P / 2 ^ (m - m')) = None).
    { intros m' Hm'. rewrite Hnts' by lia. rewrite HPm by lia. rewrite <- Hpfx by lia. apply Hmax. lia. }
    destruct (mid_refill nts' v m P mi di Hm ltac:(lia) Hdi' Hmax') as (Hin & Hout).
    rewrite EPi in Hin, Hout.
    unfold ofp_rtl_insert. rewrite Hai.
    destruct (Z.ltb_spec mi 0); [lia|]. destruct (Z.gtb_spec mi 32); [lia|]. destruct (Z.eqb_spec mi 0); [lia|]. cbn [orb andb].
    assert (Eadr : to_network_prefix (to_network_prefix a0 mi) mi = Pi * 2 ^ (32 - mi)).
    { rewrite (to_network_prefix_eq a0) by assumption. fold (pfx a0 mi). fold Pi.
      rewrite to_network_prefix_eq by (try apply pm_range; assumption).
      rewrite Z.div_mul; [reflexivity|]. pose proof (pow_pos (32 - mi)). lia. }
    rewrite Eadr.
    assert (Hins : ins_ok N (mid nts' v m P) (leaf nts') v Pi mi di 0 levels).
    { apply ins_all; try assumption.
      - intros v1 low q dt m1 Hlo [Hlf|(-> & Hb & Hc & _ & He)] Hg.
        + left. apply leaf_stable; assumption.
        + right. repeat split; try assumption. right. assumption.
      - intros low q ml dt Hlo Hr _ Hq HM. apply Hin; assumption.
      - intros low v1 low1 q ml dt Hlo Hr Hlo' _ Hd HM. eapply Hout; [exact Hlo|exact Hr|assumption|eassumption|assumption]. }
    specialize (Hins k T s1 (TR v) ltac:(lia) HS1 HL1 eq_refl).
    assert (Hz : forall l' q', l' = 16 \/ l' = 24 -> 0 <= q' < 2 ^ hi l' -> T v l' (q' / 2 ^ wd l') = None -> mid nts' v m P v l' q' 0 0).
    { intros l' q' Hl' Hq' HT. left. eapply leaf_zero; eassumption. }
    specialize (Hins Hz). destruct (insert_levels levels s1 (TR v) (Pi * 2 ^ (32 - mi)) mi di) as (s2, ok).
    destruct Hins as (k2 & T2 & HS2 & Hx2 & _ & Hsl2 & _ & _ & Ht2 & Hall2).
    assert (Hpi : forall l', 0 <= l' <= mi -> pfx (Pi * 2 ^ (32 - mi)) l' = pfx a0 l').
    { intros l' Hl'. rewrite pfx_trunc by lia. unfold Pi. apply pfx_pfx; lia. }
    destruct Hall2 as (-> & -> & ->).
    { intros l' Hl' Hlt. rewrite Hpi by (clear - Hlt; lia). destruct (Hpath l' Hl' ltac:(clear - Hlt Hmi; lia)) as (j & Hj & _). congruence. }
    destruct (Ht2 eq_refl) as (HL2 & _ & Hr2).
    exists s2. cbn [obind]. split; [reflexivity|].
    split; [split; [assumption|split; assumption]|].
    split; [destruct Hsl1, Hsl2; split; congruence|].
    apply HRI'. intros v' l' b i HT. destruct (Hr2 _ _ _ _ HT) as (Hra & Hrb).
    destruct (Hs1r _ _ _ _ HT) as (Hg & Hno & Hyes).
    assert (Himp : onpath v (Pi * 2 ^ (32 - mi)) 0 mi v' l' b -> onpath v a0 0 m v' l' b).
    { intros (-> & Hl & ->). split; [reflexivity|]. split; [clear - Hl Hmi; lia|]. apply Hpi. clear - Hl. lia. }
    assert (Hdec : onpath v (Pi * 2 ^ (32 - mi)) 0 mi v' l' b \/ ~ onpath v (Pi * 2 ^ (32 - mi)) 0 mi v' l' b) by apply onpath_dec.
    destruct Hdec as [Ho|Ho].
    + rewrite (Hra Ho). rewrite (Hyes (Himp Ho)).
      destruct (HRI _ _ _ _ HT) as (Hb & Hc).
      assert (Eu : u16 (refT s i - 1 + 1) = refT s i) by (unfold u16; rewrite Z.mod_small; clear - Hb Hcnt Hg; lia).
      rewrite Eu. split; [lia|reflexivity].
    + rewrite (Hrb Ho). split; [assumption|]. exact Hno.
  - exists s1. split; [reflexivity|]. split; [split; [assumption|split; [|assumption]]|].
    + intros v1 low q t Hlo Hq Ht. apply (mid_done nts' v m P Hm); [|apply HL1; assumption].
      intros m' Hm'. rewrite Hnts' by lia. rewrite HPm by lia. rewrite <- Hpfx by lia. apply Hfp. lia.
    + split; [assumption|]. apply HRI'. intros v' l' b i HT. destruct (Hs1r _ _ _ _ HT) as (Hg & Hno & _). tauto.
Qed.

(* ---- histories ---- *)
Definition Full (N k : nat) (nts : ntab) (T : tmap) (s : st) (n : Z) (R : nat) : Prop :=
  Core N k nts T s /\ RL nts (rules s) /\ RI nts T s n /\ Z.of_nat (length (rules s)) <= n /\ cap s = R /\ Z.of_nat k <= 2 * n.

Lemma RI_ext nts T s s' n n' : RI nts T s n -> (forall i, refT s' i = refT s i) -> n <= n' -> RI nts T s' n'.
Proof.
  intros H Hr Hn v l b i HT. destruct (H _ _ _ _ HT) as (H1 & H2). rewrite Hr. split; [lia|assumption].
Qed.

Lemma del_run N R os : forall k nts T s ts n, Full N k nts T s n R -> Rel nts ts -> Forall op4_ok os -> 0 <= n ->
  n + Z.of_nat (length os) < 65536 -> 2 * (n + Z.of_nat (length os)) <= Z.of_nat N -> n + Z.of_nat (length os) <= Z.of_nat R ->
  blocks_survive ts os ->
  exists s' rs nts' T' k', run false s os = Ret (s', rs) /\ rsteps u32_bits false ts os rs (fold_left apply_op os ts) /\
  Core N k' nts' T' s' /\ Rel nts' (fold_left apply_op os ts) /\ ~ In NoMemory rs.
Proof.
  induction os as [|o os IH]; intros k nts T s ts n HF HR Hok Hn0 H1 H2 H3 Hbs.
  - exists s, [], nts, T, k. destruct HF as (HCo & _). split; [reflexivity|]. split; [constructor|]. auto.
  - inversion Hok as [|? ? Ho Hok']; subst. cbn [length] in *. destruct Hbs as (Hb & Hbs).
    assert (Hgoal : exists s1 r nts1 T1 k1, exec false s o = Ret (s1, r) /\ Full N k1 nts1 T1 s1 (n + 1) R /\
       Rel nts1 (apply_op ts o) /\ r <> NoMemory /\ rstep u32_bits false ts o r (apply_op ts o)).
    { destruct HF as (HCo & HRL & HRI & Hlen & Hcap & Hk).
      destruct o as [v a m d|v a m]; destruct Ho as (Ha & Hm).
      - cbn [exec]. destruct (insert_core N k nts T s v a m d HCo Ha Hm) as (s1 & ok & E & Hp). cbv zeta in E, Hp.
        assert (ok = true).
        { destruct ok; [reflexivity|]. destruct Hp as (k' & T' & _ & _ & _ & _ & _ & Hf & _).
          destruct (Hf eq_refl) as (_ & -> & Hlt). cbn in Hlt. lia. }
        subst ok. destruct HCo as (HS & HL & HC).
        destruct (RI_insert N k nts T s v a (Z.of_nat m) d s1 n HS HC HRI ltac:(lia) Hn0 ltac:(lia) Ha Hp)
          as (k' & T' & HCo' & Hk' & (Hru & Hca) & HRI').
        rewrite E. cbn [obind].
        destruct (RL_add nts s1 v a (Z.of_nat m) d) as (HRL' & Hlen' & Hcap'); [rewrite Hru; assumption|assumption|lia|rewrite Hru, Hca; lia|].
        destruct (rule_add_tb s1 v a (Z.of_nat m) d) as (E1 & E2 & E3).
        eexists _, Added, (upd nts v (Z.of_nat m) (pfx a (Z.of_nat m)) (Some d)), T', k'. split; [reflexivity|].
        split; [|split; [apply Rel_upd; assumption|split; [discriminate|]]].
        + split; [eapply Core_rules; [exact HCo'|eassumption..]|]. split; [assumption|].
          split; [eapply RI_ext; [exact HRI'| |lia]; intros i; unfold refT; rewrite E1; reflexivity|].
          rewrite Hru in Hlen'. split; [lia|]. split; [congruence|]. lia.
        + apply rs_add. discriminate.
      - cbn [exec]. set (P := pfx a (Z.of_nat m)).
        assert (Hts : ts v (firstn m (u32_bits a)) = nts v (Z.of_nat m) P) by (symmetry; apply rel_eq; assumption).
        destruct (nts v (Z.of_nat m) P) as [d|] eqn:HnP.
        + assert (Hsafe : forall l', l' = 16 \/ l' = 24 -> l' < Z.of_nat m -> exists mp, mp <> (Z.of_nat m, P) /\ under nts v l' (pfx a l') mp).
          { intros l' Hl' Hlt.
            destruct (Hb ltac:(congruence) (Z.to_nat l')) as (p' & Hne & Hin & Hlp & Hfp).
            - lia.
            - rewrite firstn_u32_length by lia. lia.
            - destruct (rel_dom _ _ HR v p' Hin) as (a' & m' & Ha' & Hm' & ->).
              rewrite firstn_u32_length in Hlp by lia.
              rewrite !firstn_firstn in Hfp. rewrite !Nat.min_l in Hfp by lia.
              apply firstn_u32_eq in Hfp; [|lia|assumption|assumption].
              rewrite Z2Nat.id in Hfp by lia.
              exists (Z.of_nat m', pfx a' (Z.of_nat m')). split.
              + intros [= En Ep]. apply Nat2Z.inj in En. subst m'. apply Hne. apply firstn_u32_eq; try assumption; lia.
              + split; [cbn [fst snd]; rewrite (rel_eq _ _ HR) by assumption; assumption|].
                cbn [fst snd]. split; [lia|]. rewrite pfx_pfx by lia. assumption. }
          destruct (remove_core N k nts T s v a m d n HCo HRL HRI ltac:(lia) Ha Hm HnP Hsafe) as (s1 & E & HCo' & (Hru & Hca) & HRI').
          cbv zeta in E. rewrite E. cbn [obind].
          destruct (RL_remove nts s1 v a (Z.of_nat m)) as (HRL' & Hlen' & Hcap'); [rewrite Hru; assumption|assumption|lia|].
          eexists _, (Deleted d), (upd nts v (Z.of_nat m) P None), T, k. split; [reflexivity|].
          cbn [apply_op]. rewrite Hts.
          split; [|split; [apply Rel_upd; assumption|split; [discriminate|]]].
          * split; [eapply Core_rules; [exact HCo'|reflexivity..]|]. split; [assumption|].
            split; [eapply RI_ext; [exact HRI'| |lia]; reflexivity|].
            rewrite Hru in Hlen'. split; [lia|]. split; [congruence|]. lia.
          * apply rs_del. assumption.
        + unfold ofp_rtl_remove. pose proof (HRL v a (Z.of_nat m) Ha ltac:(lia)) as Hrs. fold P in Hrs. rewrite HnP in Hrs.
          destruct (rule_search (rules s) v a (Z.of_nat m)) as [r|]; [discriminate|]. cbn [obind].
          destruct (RL_remove nts s v a (Z.of_nat m)) as (HRL' & Hlen' & Hcap'); [assumption|assumption|lia|].
          assert (Hsame : forall v' m' P', upd nts v (Z.of_nat m) P None v' m' P' = nts v' m' P').
          { intros v' m' P'. destruct (upd_case nts v (Z.of_nat m) P None v' m' P') as [(-> & -> & -> & ->)|(_ & ->)]; congruence. }
          eexists _, NotFound, nts, T, k. split; [reflexivity|].
          cbn [apply_op]. rewrite Hts.
          split; [|split; [assumption|split; [discriminate|apply rs_notfound; assumption]]].
          split; [eapply (Core_rules N k _ T s); [assumption|reflexivity..]|].
          split; [intros v1 a1 m1 Ha1 Hm1; rewrite <- Hsame; apply HRL'; assumption|].
          split; [eapply RI_ext; [exact HRI|reflexivity|lia]|].
          split; [lia|]. split; [congruence|]. lia. }
    destruct Hgoal as (s1 & r & nts1 & T1 & k1 & E & HF1 & HR1 & Hnm & Hst).
    destruct (IH k1 nts1 T1 s1 (apply_op ts o) (n + 1) HF1 HR1 Hok') as (s' & rs & nts' & T' & k' & E' & Hsts & HCo' & HR' & Hnm'); try lia; try assumption.
    exists s', (r :: rs), nts', T', k'. split; [cbn [run]; rewrite E; cbn [obind]; rewrite E'; reflexivity|].
    cbn [fold_left]. split; [eapply rss_cons; eassumption|]. split; [assumption|]. split; [assumption|].
    intros [Hc|Hc]; [congruence|tauto].
Qed.
