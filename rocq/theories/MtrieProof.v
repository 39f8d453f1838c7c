(* Histories of additions and deletions on the MTRIE. *)
From Verif Require Import Base RadixSpec MtrieSpec MtrieModel MtrieNum MtrieInv MtrieLoop MtrieRem.
Ltac Zify.zify_post_hook ::= idtac.

Definition ntab := nat -> Z -> Z -> option Z.
Definition upd (nts : ntab) (v : nat) (m P : Z) (o : option Z) : ntab := fun v' m' P' =>
  if Nat.eqb v' v && (m' =? m) && (P' =? P) then o else nts v' m' P'.
Lemma upd_case nts v m P o v' m' P' :
  (v' = v /\ m' = m /\ P' = P /\ upd nts v m P o v' m' P' = o) \/
  ((v' <> v \/ m' <> m \/ P' <> P) /\ upd nts v m P o v' m' P' = nts v' m' P').
Proof.
  unfold upd. destruct (Nat.eqb_spec v' v); [|right; tauto].
  destruct (Z.eqb_spec m' m); [|right; tauto]. destruct (Z.eqb_spec P' P); [left|right]; cbn; tauto.
Qed.

Definition leaf (nts : ntab) : leafp := fun v low q ml dt =>
  (low < ml <= hi low /\ nts v ml (q / 2 ^ (hi low - ml)) = Some dt /\
   forall m', ml < m' <= hi low -> nts v m' (q / 2 ^ (hi low - m')) = None) \/
  ((forall m', low < m' <= hi low -> nts v m' (q / 2 ^ (hi low - m')) = None) /\ (ml = 0 \/ ml > hi low)).

Definition CI (nts : ntab) (T : tmap) : Prop := forall v m p d, nts v m p = Some d ->
  1 <= m <= 32 /\ 0 <= p < 2 ^ m /\ forall l', l' = 16 \/ l' = 24 -> l' < m -> T v l' (p / 2 ^ (m - l')) <> None.

Lemma leaf_stable nts v low q dt m : lowok low -> leaf nts v low q 0 dt -> m > hi low -> leaf nts v low q m dt.
Proof.
  intros Hl [(H & _)|(H & _)] Hm.
  - exfalso. destruct Hl as [->|[->| ->]]; lia.
  - right. tauto.
Qed.

Lemma leaf_zero nts T v l' q' : CI nts T -> l' = 16 \/ l' = 24 -> 0 <= q' < 2 ^ hi l' ->
  T v l' (q' / 2 ^ wd l') = None -> leaf nts v l' q' 0 0.
Proof.
  intros HC Hl Hq HT. right. split; [|tauto]. intros m' Hm'.
  destruct (nts v m' (q' / 2 ^ (hi l' - m'))) eqn:E; [|reflexivity]. exfalso.
  destruct (HC _ _ _ _ E) as (_ & _ & H). apply (H l' Hl); [lia|].
  rewrite div_div_pow by lia. replace (hi l' - m' + (m' - l')) with (wd l') by (unfold wd; lia). assumption.
Qed.

Lemma leaf_in nts v m P d low q ml dt : low < m <= hi low -> lowok low -> q / 2 ^ (hi low - m) = P ->
  leaf nts v low q ml dt ->
  if (ml <=? m) || (ml >? hi low) then leaf (upd nts v m P (Some d)) v low q m d
  else leaf (upd nts v m P (Some d)) v low q ml dt.
Proof.
  intros Hm Hlo HP HL.
  assert (Hne : forall m', m' <> m -> upd nts v m P (Some d) v m' (q / 2 ^ (hi low - m')) = nts v m' (q / 2 ^ (hi low - m'))).
  { intros m' Hn. destruct (upd_case nts v m P (Some d) v m' (q / 2 ^ (hi low - m'))) as [(_ & E & _)|(_ & ->)]; [congruence|reflexivity]. }
  assert (Hlz : 0 <= low) by (destruct Hlo as [->|[->| ->]]; lia).
  destruct (Z.leb_spec ml m) as [Hle|Hgt]; cbn [orb].
  - left. split; [assumption|]. split.
    + destruct (upd_case nts v m P (Some d) v m (q / 2 ^ (hi low - m))) as [(_ & _ & _ & ->)|(Hd & _)]; [reflexivity|intuition congruence].
    + intros m' Hm'. rewrite Hne by lia. destruct HL as [(_ & _ & H)|(H & _)]; apply H; lia.
  - destruct (Z.gtb_spec ml (hi low)) as [Hgh|Hgh].
    + left. split; [assumption|]. split.
      * destruct (upd_case nts v m P (Some d) v m (q / 2 ^ (hi low - m))) as [(_ & _ & _ & ->)|(Hd & _)]; [reflexivity|intuition congruence].
      * intros m' Hm'. rewrite Hne by lia. destruct HL as [(H & _)|(H & _)]; [lia|]; apply H; lia.
    + destruct HL as [(H1 & H2 & H3)|(H & H1)]; [|lia].
      left. split; [assumption|]. rewrite Hne by lia. split; [assumption|].
      intros m' Hm'. rewrite Hne by lia. apply H3. lia.
Qed.

Lemma leaf_out nts v m P o low v' low' q ml dt : lowok low -> low < m <= hi low -> lowok low' ->
  v' <> v \/ low' <> low \/ q / 2 ^ (hi low - m) <> P ->
  leaf nts v' low' q ml dt -> leaf (upd nts v m P o) v' low' q ml dt.
Proof.
  intros Hlo Hm Hlo' Hd HL.
  assert (Hne : forall m', low' < m' <= hi low' -> upd nts v m P o v' m' (q / 2 ^ (hi low' - m')) = nts v' m' (q / 2 ^ (hi low' - m'))).
  { intros m' Hm'. destruct (upd_case nts v m P o v' m' (q / 2 ^ (hi low' - m'))) as [(-> & -> & E & _)|(_ & ->)]; [|reflexivity].
    exfalso. assert (low' = low).
    { rewrite (lvl_unique m low) by assumption. apply lvl_unique; assumption. }
    subst low'. intuition congruence. }
  destruct HL as [(H1 & H2 & H3)|(H & H1)]; [left|right].
  - split; [assumption|]. rewrite Hne by assumption. split; [assumption|].
    intros m' Hm'. rewrite Hne by lia. auto.
  - split; [|assumption]. intros m' Hm'. rewrite Hne by assumption. auto.
Qed.

(* ---- lookup ---- *)
Definition bestupto (nts : ntab) (v : nat) (a low : Z) (nh : option Z) : Prop :=
  match nh with
  | Some d => exists m, 1 <= m <= low /\ nts v m (pfx a m) = Some d /\ forall m', m < m' <= low -> nts v m' (pfx a m') = None
  | None => forall m', 1 <= m' <= low -> nts v m' (pfx a m') = None
  end.

Lemma best_extend nts v a low low' nh : bestupto nts v a low nh -> 
  (forall m', low < m' <= low' -> nts v m' (pfx a m') = None) -> low <= low' -> bestupto nts v a low' nh.
Proof.
  intros H Hn Hl. destruct nh as [d|]; cbn in *.
  - destruct H as (m & Hm & Hs & Ht). exists m. split; [lia|]. split; [assumption|].
    intros m' Hm'. destruct (Z.le_gt_cases m' low); [apply Ht; lia|apply Hn; lia].
  - intros m' Hm'. destruct (Z.le_gt_cases m' low); [apply H; lia|apply Hn; lia].
Qed.

Lemma pfx_pfx a h m : 0 <= m <= h -> h <= 32 -> pfx a h / 2 ^ (h - m) = pfx a m.
Proof.
  intros. unfold pfx. rewrite div_div_pow by lia. f_equal. f_equal. lia.
Qed.

Section search.
Variables (N k : nat) (nts : ntab) (T : tmap) (s : st) (v : nat) (a : Z).
Hypothesis HS : SI N k T s.
Hypothesis HL : LI (leaf nts) T s.
Hypothesis HC : CI nts T.
Hypothesis Ha : 0 <= a < 2 ^ 32.

Definition search_ok (low : Z) (lv : list (Z * Z)) : Prop := forall t nh,
  tab T v low (pfx a low) = Some t -> bestupto nts v a low nh -> 
  bestupto nts v a 32 (search_levels lv (tb s) t a nh).

Lemma no_deeper h : h = 16 \/ h = 24 -> T v h (pfx a h) = None -> forall m', h < m' <= 32 -> nts v m' (pfx a m') = None.
Proof.
  intros Hh HT m' Hm'. destruct (nts v m' (pfx a m')) eqn:E; [|reflexivity]. exfalso.
  destruct (HC _ _ _ _ E) as (_ & _ & H). apply (H h Hh); [lia|].
  rewrite pfx_pfx by lia. assumption.
Qed.

Lemma search_step low lv : lowok low -> (low = 24 /\ lv = [] \/ low <> 24 /\ search_ok (hi low) lv) -> search_ok low ((low, hi low) :: lv).
Proof.
  intros Hlo IH t nh Ht Hb. cbn [search_levels].
  pose proof (hi_cases low Hlo) as Hc.
  rewrite find_node_eq by assumption. fold (pfx a (hi low)).
  set (q := pfx a (hi low)).
  assert (Hq : 0 <= q < 2 ^ hi low) by (apply pfx_range; [lia|assumption]).
  assert (Hqd : q / 2 ^ wd low = pfx a low) by (apply pfx_split; assumption).
  rewrite <- Hqd in Ht. pose proof (HL v low q t Hlo Hq Ht) as Hleaf.
  set (e := tb s t (q mod 2 ^ wd low)) in *.
  assert (Hpq : forall m', low < m' <= hi low -> q / 2 ^ (hi low - m') = pfx a m').
  { intros m' Hm'. apply pfx_pfx; lia. }
  assert (Hlz : 0 <= low) by (clear - Hc; lia).
  (* the best route up to hi, when not stopping *)
  set (nh' := if e_mlen e <=? hi low then Some (e_data e) else nh).
  assert (Hb' : e_mlen e <> 0 -> bestupto nts v a (hi low) nh').
  { intros Hz. unfold nh'. destruct Hleaf as [(H1 & H2 & H3)|(H & [H1|H1])]; [| congruence|].
    - destruct (Z.leb_spec (e_mlen e) (hi low)); [|lia]. cbn. exists (e_mlen e).
      split; [clear - H1 Hlz; lia|]. rewrite <- Hpq by assumption. split; [assumption|].
      intros m' Hm'. rewrite <- Hpq; [auto|]. clear - H1 Hm'. lia.
    - destruct (Z.leb_spec (e_mlen e) (hi low)); [lia|].
      apply (best_extend _ _ _ low); [assumption| |lia].
      intros m' Hm'. rewrite <- Hpq by lia. auto. }
  destruct IH as [(-> & ->)|(Hl24 & IH)].
  - change (hi 24) with 32 in *.
    destruct (Z.eqb_spec (e_mlen e) 0) as [Hz|Hz].
    + destruct Hleaf as [(H1 & _)|(H & _)]; [lia|].
      apply (best_extend _ _ _ 24); [assumption| |lia]. intros m' Hm'. rewrite <- Hpq by lia. auto.
    + specialize (Hb' Hz). fold nh'. destruct (e_next e); exact Hb'.
  - assert (Hlo2 : low = 0 \/ low = 16) by (clear - Hlo Hl24; destruct Hlo; tauto).
    assert (Hh2 : hi low = 16 \/ hi low = 24) by (clear - Hc Hlo2; lia).
    assert (Hnext := si_next _ _ _ _ HS v low q t Hlo2 Hq Ht). fold e in Hnext.
    destruct (Z.eqb_spec (e_mlen e) 0) as [Hz|Hz].
    + assert (HT : T v (hi low) q = None).
      { destruct (T v (hi low) q) eqn:E; [|reflexivity]. exfalso.
        apply (si_nz _ _ _ _ HS v low q t Hlo2 Hq Ht); [congruence|exact Hz]. }
      apply (best_extend _ _ _ low); [assumption| |lia].
      intros m' Hm'. destruct (Z.le_gt_cases m' (hi low)) as [Hle|Hgt].
      * destruct Hleaf as [(H1 & _)|(H & _)]; [lia|]. rewrite <- Hpq by lia. apply H. lia.
      * apply (no_deeper (hi low)); [assumption|assumption|lia].
    + specialize (Hb' Hz). fold nh'. rewrite Hnext. destruct (T v (hi low) q) as [j|] eqn:HT.
      * apply IH; [|assumption]. unfold tab. destruct (Z.eqb_spec (hi low) 0); [lia|].
        fold q. rewrite HT. reflexivity.
      * apply (best_extend _ _ _ (hi low)); [assumption| |lia].
        apply no_deeper; [assumption|assumption].
Qed.

Lemma search_best : bestupto nts v a 32 (ofp_rtl_search s v a).
Proof.
  apply (search_step 0); [unfold lowok; tauto|right; split; [lia|]| |].
  - apply (search_step 16); [unfold lowok; tauto|right; split; [lia|]].
    apply (search_step 24); [unfold lowok; tauto|left; tauto].
  - reflexivity.
  - intros m' Hm'. lia.
Qed.
End search.


(* ---- bits and numbers ---- *)
Lemma testbit_div a n i : 0 <= n -> 0 <= i -> Z.testbit (a / 2 ^ n) i = Z.testbit a (i + n).
Proof. intros. apply Z.div_pow2_bits; lia. Qed.

Lemma firstn_u32 n a : (n <= 32)%nat -> firstn n (u32_bits a) = map (fun i => Z.testbit a (31 - Z.of_nat i)) (seq 0 n).
Proof.
  intros Hn. unfold u32_bits. rewrite firstn_map. f_equal.
  replace 32%nat with (n + (32 - n))%nat by lia. rewrite seq_app, firstn_app, firstn_all2 by (rewrite seq_length; lia).
  rewrite seq_length, Nat.sub_diag. cbn. apply app_nil_r.
Qed.
Lemma u32_bits_length a : length (u32_bits a) = 32%nat.
Proof. unfold u32_bits. rewrite map_length, seq_length. reflexivity. Qed.

Lemma firstn_u32_length n a : (n <= 32)%nat -> length (firstn n (u32_bits a)) = n.
Proof. intros. rewrite firstn_length, u32_bits_length. lia. Qed.

Lemma firstn_u32_eq n a b : (n <= 32)%nat -> 0 <= a < 2 ^ 32 -> 0 <= b < 2 ^ 32 ->
  firstn n (u32_bits a) = firstn n (u32_bits b) <-> pfx a (Z.of_nat n) = pfx b (Z.of_nat n).
Proof.
  intros Hn Ha Hb. rewrite !firstn_u32 by assumption. unfold pfx.
  assert (Hhigh : forall c i, 0 <= c < 2 ^ 32 -> 32 <= i -> Z.testbit c i = false).
  { intros c i Hc Hi. destruct (Z.eq_dec c 0) as [->|]; [apply Z.bits_0|].
    apply Z.bits_above_log2; [lia|]. apply Z.log2_lt_pow2; [lia|].
    eapply Z.lt_le_trans; [apply Hc|]. apply Z.pow_le_mono_r; lia. }
  split.
  - intros E. apply Z.bits_inj'. intros i Hi. rewrite !testbit_div by lia.
    destruct (Z.le_gt_cases 32 (i + (32 - Z.of_nat n))) as [Hge|Hlt].
    + rewrite !Hhigh by assumption. reflexivity.
    + set (j := Z.to_nat (31 - (i + (32 - Z.of_nat n)))).
      assert (Hj : (j < n)%nat) by (unfold j; lia).
      assert (E2 : forall j, In j (seq 0 n) -> Z.testbit a (31 - Z.of_nat j) = Z.testbit b (31 - Z.of_nat j)).
      { apply map_ext_in_iff. exact E. }
      clear E. assert (E := E2 j ltac:(apply in_seq; lia)).
      replace (31 - Z.of_nat j) with (i + (32 - Z.of_nat n)) in E by (unfold j; lia). exact E.
  - intros E. apply map_ext_in. intros i Hi. apply in_seq in Hi.
    apply (f_equal (fun z => Z.testbit z (31 - Z.of_nat i - (32 - Z.of_nat n)))) in E.
    rewrite !testbit_div in E by lia.
    replace (31 - Z.of_nat i - (32 - Z.of_nat n) + (32 - Z.of_nat n)) with (31 - Z.of_nat i) in E by lia. exact E.
Qed.

(* numeric tables represent the specification's tables *)
Record Rel (nts : ntab) (ts : tables) : Prop := mkRel {
  rel_eq : forall v a n, 0 <= a < 2 ^ 32 -> (1 <= n <= 32)%nat -> nts v (Z.of_nat n) (pfx a (Z.of_nat n)) = ts v (firstn n (u32_bits a));
  rel_dom : forall v p, ts v p <> None -> exists a n, 0 <= a < 2 ^ 32 /\ (1 <= n <= 32)%nat /\ p = firstn n (u32_bits a)
}.

Lemma Rel_upd nts ts v a n o : Rel nts ts -> 0 <= a < 2 ^ 32 -> (1 <= n <= 32)%nat ->
  Rel (upd nts v (Z.of_nat n) (pfx a (Z.of_nat n)) o) (set_table ts v (set_route (ts v) (firstn n (u32_bits a)) o)).
Proof.
  intros [He Hd] Ha Hn. constructor.
  - intros v' a' n' Ha' Hn'. unfold set_table, set_route.
    destruct (upd_case nts v (Z.of_nat n) (pfx a (Z.of_nat n)) o v' (Z.of_nat n') (pfx a' (Z.of_nat n'))) as [(-> & En & Ep & ->)|(Hne & ->)].
    + apply Nat2Z.inj in En. subst n'. rewrite Nat.eqb_refl.
      destruct (list_eq_dec _ _ _) as [|Hx]; [reflexivity|]. exfalso. apply Hx. apply firstn_u32_eq; auto; lia.
    + rewrite He by assumption. destruct (Nat.eqb_spec v' v) as [->|]; [|reflexivity].
      destruct (list_eq_dec _ _ _) as [E|]; [|reflexivity]. exfalso.
      assert (n' = n).
      { apply (f_equal (@length bool)) in E. rewrite !firstn_u32_length in E by lia. assumption. }
      subst n'. apply firstn_u32_eq in E; [|lia|assumption|assumption]. destruct Hne as [|[|]]; congruence.
  - intros v' p. unfold set_table, set_route. destruct (Nat.eqb_spec v' v) as [->|]; [|apply Hd].
    destruct (list_eq_dec _ _ _) as [->|]; [|apply Hd]. intros _. exists a, n. auto.
Qed.

Lemma Rel_empty_prefix nts ts v : Rel nts ts -> ts v [] = None.
Proof.
  intros HR. destruct (ts v []) eqn:E; [|reflexivity]. exfalso.
  destruct (rel_dom _ _ HR v []) as (a & n & _ & Hn & Hp); [congruence|].
  apply (f_equal (@length bool)) in Hp. rewrite firstn_u32_length in Hp by lia. cbn in Hp. lia.
Qed.

Lemma best_lpm nts ts v a nh : Rel nts ts -> 0 <= a < 2 ^ 32 -> bestupto nts v a 32 nh -> lpm (ts v) (u32_bits a) nh.
Proof.
  intros HR Ha Hb. unfold lpm. rewrite u32_bits_length.
  assert (Hk : forall k, (1 <= k <= 32)%nat -> ts v (firstn k (u32_bits a)) = nts v (Z.of_nat k) (pfx a (Z.of_nat k))).
  { intros. symmetry. apply rel_eq; assumption. }
  destruct nh as [d|]; cbn in Hb.
  - destruct Hb as (m & Hm & Hs & Ht). exists (Z.to_nat m). split; [lia|]. split.
    + rewrite Hk by lia. rewrite Z2Nat.id by lia. assumption.
    + intros k Hkr. rewrite Hk by lia. apply Ht. lia.
  - intros k Hkr. destruct k as [|k]; [cbn; apply Rel_empty_prefix with (1 := HR)|].
    rewrite Hk by lia. apply Hb. lia.
Qed.

(* ---- additions ---- *)
Lemma CI_text nts T T' : CI nts T -> text T T' -> CI nts T'.
Proof.
  intros HC Hx v m p d E. destruct (HC _ _ _ _ E) as (H1 & H2 & H3). split; [assumption|]. split; [assumption|].
  intros l' Hl' Hlt HT. destruct (T v l' (p / 2 ^ (m - l'))) eqn:E'; [|apply (H3 l' Hl' Hlt E')].
  apply Hx in E'. congruence.
Qed.

Definition Core (N k : nat) (nts : ntab) (T : tmap) (s : st) : Prop := SI N k T s /\ LI (leaf nts) T s /\ CI nts T.

Lemma insert_core N k nts T s v a n d : Core N k nts T s -> 0 <= a < 2 ^ 32 -> (1 <= n <= 32)%nat ->
  let m := Z.of_nat n in let P := pfx a m in
  exists s' ok, ofp_rtl_insert false s v a m d = Ret (s', ok) /\
  ins_post N k (leaf nts) (leaf (upd nts v m P (Some d))) T v (P * 2 ^ (32 - m)) m 0 s s' ok.
Proof.
  intros (HS & HL & HC) Ha Hn m P. unfold ofp_rtl_insert.
  assert (Hm : 1 <= m <= 32) by (unfold m; lia).
  assert (HP : 0 <= P < 2 ^ m) by (apply pfx_range; [lia|assumption]).
  destruct (Z.ltb_spec m 0); [lia|]. destruct (Z.gtb_spec m 32); [lia|]. destruct (Z.eqb_spec m 0); [lia|]. cbn [orb andb].
  rewrite to_network_prefix_eq by assumption. fold (pfx a m). fold P.
  assert (Hi : ins_ok N (leaf nts) (leaf (upd nts v m P (Some d))) v P m d 0 levels).
  { apply ins_all; try assumption.
    - intros. apply leaf_stable; assumption.
    - intros. apply leaf_in; assumption.
    - intros. eapply leaf_out; [| |assumption|eassumption|assumption]; assumption. }
  specialize (Hi k T s (TR v)). destruct (insert_levels levels s (TR v) (P * 2 ^ (32 - m)) m d) as (s', ok) eqn:Ei.
  exists s', ok. split; [reflexivity|]. apply Hi; try assumption; try lia.
  - reflexivity.
  - intros l' q' Hl' Hq' HT. eapply leaf_zero; eassumption.
Qed.

Lemma ins_post_core N k nts T s v a n d s' ok : CI nts T -> 0 <= a < 2 ^ 32 -> (1 <= n <= 32)%nat ->
  let m := Z.of_nat n in let P := pfx a m in
  ins_post N k (leaf nts) (leaf (upd nts v m P (Some d))) T v (P * 2 ^ (32 - m)) m 0 s s' ok ->
  exists k' T', Core N k' (if ok then upd nts v m P (Some d) else nts) T' s' /\ (k <= k' <= k + 2)%nat /\ (ok = false -> k' = N /\ (k' < k + 2)%nat).
Proof.
  intros HC Ha Hn m P (k' & T' & HS' & Hx & Hk & Hsl & _ & Hf & Ht & _).
  exists k', T'. split; [|split; [exact Hk|intros E; apply Hf, E]].
  pose proof (CI_text _ _ _ HC Hx) as HC'.
  destruct ok; (split; [assumption|]).
  - destruct (Ht eq_refl) as (HL' & Hp & _). split; [assumption|].
    intros v1 m1 p1 d1. destruct (upd_case nts v m P (Some d) v1 m1 p1) as [(-> & -> & -> & _)|(_ & ->)]; [|apply HC'].
    intros _. split; [unfold m; lia|]. split; [apply pfx_range; [unfold m; lia|assumption]|].
    intros l' Hl' Hlt. unfold P. rewrite pfx_pfx by (unfold m in *; lia).
    specialize (Hp l' Hl'). rewrite pfx_trunc in Hp by (unfold m in *; lia).
    unfold P in Hp. rewrite pfx_pfx in Hp by (unfold m in *; lia). apply Hp. lia.
  - split; [apply Hf; reflexivity|assumption].
Qed.

Lemma rule_add_tb s v a m d : tb (rule_add s v a m d) = tb s /\ ffirst (rule_add s v a m d) = ffirst s /\ flast (rule_add s v a m d) = flast s.
Proof. unfold rule_add. destruct (rule_search _ _ _ _); [|destruct (_ <? _)%nat]; repeat split; reflexivity. Qed.

Lemma Core_rules N k nts T s s' : Core N k nts T s -> tb s' = tb s -> ffirst s' = ffirst s -> flast s' = flast s -> Core N k nts T s'.
Proof.
  intros (HS & HL & HC) E1 E2 E3. split; [|split; [|assumption]].
  - destruct HS. constructor; rewrite ?E1, ?E2, ?E3; assumption.
  - intros v low q t. rewrite E1. apply HL.
Qed.

Lemma add_step N k nts T s ts v a n d : Core N k nts T s -> Rel nts ts -> 0 <= a < 2 ^ 32 -> (1 <= n <= 32)%nat ->
  exists s' (ok : bool) k' nts' T', exec false s (Add v a n d) = Ret (s', if ok then Added else NoMemory) /\
  Core N k' nts' T' s' /\ (k <= k' <= k + 2)%nat /\ (ok = false -> k' = N /\ (k' < k + 2)%nat) /\
  Rel nts' (if ok then apply_op ts (Add v a n d) else ts).
Proof.
  intros HCo HR Ha Hn. cbn [exec].
  destruct (insert_core N k nts T s v a n d HCo Ha Hn) as (s1 & ok & E & Hp).
  cbv zeta in E, Hp. rewrite E. cbn [obind].
  destruct (ins_post_core N k nts T s v a n d s1 ok (proj2 (proj2 HCo)) Ha Hn Hp) as (k' & T' & HCo' & Hk & Hf).
  destruct (rule_add_tb s1 v a (Z.of_nat n) d) as (E1 & E2 & E3).
  eexists _, ok, k', _, T'. split; [reflexivity|].
  split; [eapply Core_rules; [exact HCo'|eassumption..]|].
  split; [assumption|]. split; [assumption|].
  destruct ok; [|assumption]. cbn [apply_op]. apply Rel_upd; assumption.
Qed.

Definition no_ntab : ntab := fun _ _ _ => None.
Lemma init_core0 N R : Core N 0 no_ntab (fun _ _ _ => None) (init_st N R).
Proof.
  split; [|split].
  - assert (Et : tb (init_st N R) = init_tb N) by (destruct N; reflexivity).
    constructor; rewrite ?Et; try (intros; discriminate); try (intros; congruence).
    + intros v low q t Hl Hq Ht. destruct Hl as [->| ->]; cbn [tab Z.eqb option_map] in Ht; [|discriminate].
      injection Ht as <-. cbn. destruct (_ =? 0); reflexivity.
    + clear; lia.
    + destruct N; reflexivity.
    + destruct N; [reflexivity|]. cbn [init_st flast]. cbn [Nat.ltb Nat.leb]. f_equal. lia.
  - intros v low q t Hl Hq Ht. assert (Et : tb (init_st N R) = init_tb N) by (destruct N; reflexivity).
    rewrite Et. unfold tab in Ht. destruct (low =? 0); [|discriminate]. injection Ht as <-.
    right. split; [reflexivity|]. left. cbn. destruct (_ =? 0); reflexivity.
  - intros v m p d. discriminate.
Qed.
Lemma init_core N R : exists T, Core N 0 no_ntab T (init_st N R).
Proof. eexists. apply init_core0. Qed.
Lemma init_rel : Rel no_ntab no_tables.
Proof. constructor; [reflexivity|]. intros v p H. exfalso. apply H. reflexivity. Qed.

Lemma adds_run N os : forall k nts T s ts, Core N k nts T s -> Rel nts ts -> Forall op4_ok os -> Forall is_add os ->
  exists s' rs ts' nts' T' k', run false s os = Ret (s', rs) /\ rsteps u32_bits false ts os rs ts' /\
  Core N k' nts' T' s' /\ Rel nts' ts' /\ ((k + 2 * length os <= N)%nat -> Forall (eq Added) rs).
Proof.
  induction os as [|o os IH]; intros k nts T s ts HCo HR Hok Hadd.
  - exists s, [], ts, nts, T, k. split; [reflexivity|]. split; [constructor|]. split; [assumption|]. split; [assumption|]. constructor.
  - inversion Hok as [|? ? Ho Hok']; subst. inversion Hadd as [|? ? Hao Hadd']; subst.
    destruct o as [v a n d|]; [|contradiction]. destruct Ho as (Ha & Hn).
    destruct (add_step N k nts T s ts v a n d HCo HR Ha Hn) as (s1 & ok & k1 & nts1 & T1 & E & HCo1 & Hk1 & Hf & HR1).
    destruct (IH k1 nts1 T1 s1 _ HCo1 HR1 Hok' Hadd') as (s' & rs & ts' & nts' & T' & k' & E' & Hst & HCo' & HR' & Hall).
    exists s', ((if ok then Added else NoMemory) :: rs), ts', nts', T', k'.
    split; [cbn [run]; rewrite E; cbn [obind]; rewrite E'; reflexivity|].
    split.
    { eapply rss_cons; [|exact Hst]. destruct ok; [|apply rs_nomem]. apply rs_add. discriminate. }
    split; [assumption|]. split; [assumption|].
    intros HN. cbn [length] in HN. constructor; [|apply Hall; lia].
    destruct ok; [reflexivity|]. specialize (Hf eq_refl). lia.
Qed.

Lemma run_lookup N k nts T s ts v a : Core N k nts T s -> Rel nts ts -> 0 <= a < 2 ^ 32 -> lpm (ts v) (u32_bits a) (ofp_rtl_search s v a).
Proof.
  intros (HS & HL & HC) HR Ha. eapply best_lpm; [eassumption|assumption|]. eapply search_best; eassumption.
Qed.
