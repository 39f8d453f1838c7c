(* Structural invariant of the MTRIE tables and the effect of the level loops. *)
From Verif Require Import Base RadixSpec MtrieModel MtrieNum.

(* which small table stands for prefix b of length low of VRF v *)
Definition tmap := nat -> Z -> Z -> option nat.
Definition tab (T : tmap) (v : nat) (low b : Z) : option tid :=
  if low =? 0 then Some (TR v) else option_map TS (T v low b).

Record SI (N k : nat) (T : tmap) (s : st) : Prop := mkSI {
  si_next : forall v low q t, low = 0 \/ low = 16 -> 0 <= q < 2 ^ hi low ->
    tab T v low (q / 2 ^ wd low) = Some t -> e_next (tb s t (q mod 2 ^ wd low)) = T v (hi low) q;
  si_nz : forall v low q t, low = 0 \/ low = 16 -> 0 <= q < 2 ^ hi low ->
    tab T v low (q / 2 ^ wd low) = Some t -> T v (hi low) q <> None -> e_mlen (tb s t (q mod 2 ^ wd low)) <> 0;
  si_inj : forall v low b v' low' b' i, T v low b = Some i -> T v' low' b' = Some i ->
    v = v' /\ low = low' /\ b = b';
  si_dom : forall v low b i, T v low b = Some i -> (i < k)%nat /\ (low = 16 \/ low = 24) /\ 0 <= b < 2 ^ low;
  si_orph : forall v b, T v 24 b <> None -> T v 16 (b / 256) <> None;
  si_k : (k <= N)%nat;
  si_ff : ffirst s = if (k <? N)%nat then Some k else None;
  si_fl : flast s = if (k <? N)%nat then Some (N - 1)%nat else None;
  si_free : forall i x, (k <= i)%nat -> tb s (TS i) x = init_tb N (TS i) x
}.

Definition leafp := nat -> Z -> Z -> Z -> Z -> Prop.
Definition LI (L : leafp) (T : tmap) (s : st) : Prop :=
  forall v low q t, lowok low -> 0 <= q < 2 ^ hi low -> tab T v low (q / 2 ^ wd low) = Some t ->
    L v low q (e_mlen (tb s t (q mod 2 ^ wd low))) (e_data (tb s t (q mod 2 ^ wd low))).

Lemma tid_eqb_spec a b : reflect (a = b) (tid_eqb a b).
Proof.
  destruct a as [x|x], b as [y|y]; cbn; try (constructor; congruence);
  destruct (Nat.eqb_spec x y); constructor; congruence.
Qed.
Lemma updm_same m t i e : updm m t i e t i = e.
Proof. unfold updm. destruct (tid_eqb_spec t t); [|congruence]. rewrite Z.eqb_refl. reflexivity. Qed.
Lemma updm_case m t i e t' i' :
  updm m t i e t' i' = m t' i' /\ (t' <> t \/ i' <> i) \/ updm m t i e t' i' = e /\ t' = t /\ i' = i.
Proof.
  unfold updm. destruct (tid_eqb_spec t' t); [|tauto]. destruct (Z.eqb_spec i' i); cbn; tauto.
Qed.
Lemma updm_other m t i e t' i' : t' <> t \/ i' <> i -> updm m t i e t' i' = m t' i'.
Proof. destruct (updm_case m t i e t' i') as [(H & _)|(H & -> & ->)]; intuition congruence. Qed.

Lemma fill_spec n : forall m t i ml hg d t' i',
  fill m t i n ml hg d t' i' =
  if tid_eqb t' t && (i <=? i') && (i' <? i + Z.of_nat n) && ((e_mlen (m t' i') <=? ml) || (e_mlen (m t' i') >? hg))
  then set_leaf (m t' i') d ml else m t' i'.
Proof.
  induction n as [|n IH]; intros; cbn [fill].
  - replace (i + Z.of_nat 0) with i by lia.
    destruct (tid_eqb t' t); cbn [andb]; [|reflexivity].
    destruct (Z.leb_spec i i'); cbn [andb]; [|reflexivity].
    destruct (Z.ltb_spec i' i); [lia|reflexivity].
  - rewrite IH. clear IH.
    assert (Hn : (if (e_mlen (m t i) <=? ml) || (e_mlen (m t i) >? hg)
              then updm m t i (set_leaf (m t i) d ml) else m) t' i' =
            if tid_eqb t' t && (i' =? i) && ((e_mlen (m t i) <=? ml) || (e_mlen (m t i) >? hg))
            then set_leaf (m t i) d ml else m t' i').
    { destruct ((e_mlen (m t i) <=? ml) || (e_mlen (m t i) >? hg)); unfold updm;
      destruct (tid_eqb t' t && (i' =? i)); reflexivity. }
    rewrite Hn. clear Hn.
    destruct (tid_eqb_spec t' t) as [->|]; cbn [andb]; [|reflexivity].
    destruct (Z.eqb_spec i' i) as [->|Hne]; cbn [andb].
    + destruct (Z.leb_spec (i + 1) i); [lia|]. cbn [andb].
      destruct (Z.leb_spec i i); [|lia]. destruct (Z.ltb_spec i (i + Z.of_nat (S n))); [|lia].
      cbn [andb]. reflexivity.
    + replace (i + 1 <=? i') with (i <=? i') by lia.
      replace (i + 1 + Z.of_nat n) with (i + Z.of_nat (S n)) by lia. reflexivity.
Qed.

Lemma clear_spec n : forall m fl t i ml hg d t' i',
  (forall j l, t = TS j -> fl = Some l -> j <> l) ->
  clear m fl t i n ml hg d t' i' =
  if tid_eqb t' t && (i <=? i') && (i' <? i + Z.of_nat n) && ((e_mlen (m t' i') =? ml) && (e_data (m t' i') =? d))
  then set_mlen (m t' i') (match e_next (m t' i') with None => 0 | Some _ => hg + 1 end) else m t' i'.
Proof.
  induction n as [|n IH]; intros m fl t i ml hg d t' i' Hfl; cbn [clear].
  - replace (i + Z.of_nat 0) with i by lia.
    destruct (tid_eqb t' t); cbn [andb]; [|reflexivity].
    destruct (Z.leb_spec i i'); cbn [andb]; [|reflexivity].
    destruct (Z.ltb_spec i' i); [lia|reflexivity].
  - rewrite IH by assumption. clear IH.
    assert (Hl : match t, fl with TS i0, Some l => Nat.eqb i0 l && (i =? 0) | _, _ => false end = false).
    { destruct t as [|j]; [reflexivity|]. destruct fl as [l|]; [|reflexivity].
      specialize (Hfl j l eq_refl eq_refl). destruct (Nat.eqb_spec j l); [congruence|reflexivity]. }
    rewrite Hl. clear Hl.
    set (ne := set_mlen (m t i) (match e_next (m t i) with None => 0 | Some _ => hg + 1 end)).
    assert (Hn : (if (e_mlen (m t i) =? ml) && (e_data (m t i) =? d)
              then updm m t i ne else m) t' i' =
            if tid_eqb t' t && (i' =? i) && ((e_mlen (m t i) =? ml) && (e_data (m t i) =? d))
            then ne else m t' i').
    { destruct ((e_mlen (m t i) =? ml) && (e_data (m t i) =? d)); unfold updm;
      destruct (tid_eqb t' t && (i' =? i)); reflexivity. }
    rewrite Hn. clear Hn.
    destruct (tid_eqb_spec t' t) as [->|]; cbn [andb]; [|reflexivity].
    destruct (Z.eqb_spec i' i) as [->|Hne]; cbn [andb].
    + destruct (Z.leb_spec (i + 1) i); [lia|]. cbn [andb].
      destruct (Z.leb_spec i i); [|lia]. destruct (Z.ltb_spec i (i + Z.of_nat (S n))); [|lia].
      cbn [andb]. unfold ne. destruct (_ && _); reflexivity.
    + replace (i + 1 <=? i') with (i <=? i') by lia.
      replace (i + 1 + Z.of_nat n) with (i + Z.of_nat (S n)) by lia. reflexivity.
Qed.

Lemma tab_inj N k T s v low b v' low' b' t : SI N k T s -> 0 <= b < 2 ^ low -> 0 <= b' < 2 ^ low' ->
  tab T v low b = Some t -> tab T v' low' b' = Some t -> v = v' /\ low = low' /\ b = b'.
Proof.
  intros HS Hb Hb'. unfold tab.
  destruct (Z.eqb_spec low 0) as [->|], (Z.eqb_spec low' 0) as [->|].
  - intros [= <-] [= <-]. change (2 ^ 0) with 1 in *. lia.
  - intros [= <-]. destruct (T v' low' b'); discriminate.
  - intros H [= <-]. destruct (T v low b); discriminate.
  - destruct (T v low b) eqn:E1; [|discriminate]. destruct (T v' low' b') eqn:E2; [|discriminate].
    cbn. intros [= <-] [= ->]. eapply si_inj; eassumption.
Qed.

Lemma tab_lt N k T s v low b i : SI N k T s -> tab T v low b = Some (TS i) -> (i < k)%nat.
Proof.
  intros HS. unfold tab. destruct (low =? 0); [discriminate|].
  destruct (T v low b) eqn:E; [|discriminate]. cbn. intros [= ->]. eapply si_dom in E; [|eassumption]. tauto.
Qed.

(* a change that keeps links, the free tables and the free list *)
Lemma SI_tb N k T s m : SI N k T s ->
  (forall v low q t, low = 0 \/ low = 16 -> 0 <= q < 2 ^ hi low -> tab T v low (q / 2 ^ wd low) = Some t ->
     e_next (m t (q mod 2 ^ wd low)) = e_next (tb s t (q mod 2 ^ wd low)) /\
     (e_mlen (m t (q mod 2 ^ wd low)) = 0 -> e_next (m t (q mod 2 ^ wd low)) = None \/ e_mlen (tb s t (q mod 2 ^ wd low)) = 0)) ->
  (forall i x, (k <= i)%nat -> m (TS i) x = tb s (TS i) x) ->
  SI N k T (set_tb s m).
Proof.
  intros HS H1 H2. destruct HS. constructor; cbn [set_tb tb ffirst flast]; eauto.
  - intros. destruct (H1 v low q t) as (-> & _); eauto.
  - intros v low q t Hl Hq Ht HT Hz. destruct (H1 v low q t Hl Hq Ht) as (He & Hm).
    destruct (Hm Hz) as [Hn|Hn].
    + rewrite He in Hn. rewrite (si_next0 v low q t) in Hn by assumption. congruence.
    + apply (si_nz0 v low q t Hl Hq Ht HT Hn).
  - intros. rewrite H2 by assumption. auto.
Qed.

Lemma SI_inc N k T s t v low b : SI N k T s -> tab T v low b = Some t -> SI N k T (inc_use_reference s t).
Proof.
  intros HS Ht. unfold inc_use_reference. apply SI_tb; [assumption| |].
  - intros v' low' q' t' _ _ _. destruct (updm_case (tb s) t 0 (set_ref (tb s t 0) (u16 (e_ref (tb s t 0) + 1))) t' (q' mod 2 ^ wd low'))
      as [(-> & _)|(-> & -> & ->)]; cbn [set_ref e_next e_mlen]; tauto.
  - intros i x Hi. apply updm_other. left. intros <-.
    eapply tab_lt in Ht; [|eassumption]. lia.
Qed.
Lemma LI_inc L T s t : LI L T s -> LI L T (inc_use_reference s t).
Proof.
  intros HL v low q t' Hl Hq Ht. specialize (HL v low q t' Hl Hq Ht).
  unfold inc_use_reference, set_tb. cbn [tb].
  destruct (updm_case (tb s) t 0 (set_ref (tb s t 0) (u16 (e_ref (tb s t 0) + 1))) t' (q mod 2 ^ wd low))
      as [(-> & _)|(-> & -> & Hx)]; cbn [set_ref e_data e_mlen]; rewrite ?Hx in *; assumption.
Qed.

(* prefix of length low of an address *)
Definition pfx (a low : Z) : Z := a / 2 ^ (32 - low).

Lemma pfx_split a low : lowok low -> pfx a (hi low) / 2 ^ wd low = pfx a low.
Proof.
  intros Hl. unfold pfx. pose proof (hi_cases low Hl).
  rewrite div_div_pow by lia. f_equal. f_equal. lia.
Qed.
Lemma pfx_range a low : 0 <= low <= 32 -> 0 <= a < 2 ^ 32 -> 0 <= pfx a low < 2 ^ low.
Proof.
  intros Hl Ha. unfold pfx. pose proof (div_range a 32 (32 - low) ltac:(lia) Ha) as H.
  replace (32 - (32 - low)) with low in H by lia. exact H.
Qed.
Lemma pfx_trunc P m low : 0 <= low <= m -> m <= 32 -> pfx (P * 2 ^ (32 - m)) low = P / 2 ^ (m - low).
Proof.
  intros Hl Hm. unfold pfx.
  replace (32 - low) with ((32 - m) + (m - low)) by lia.
  rewrite <- div_div_pow by lia. rewrite Z.div_mul; [reflexivity|]. pose proof (pow_pos (32 - m)). lia.
Qed.

Lemma SI_fill N k T s t v low b ix n m d : SI N k T s -> tab T v low b = Some t -> 1 <= m ->
  SI N k T (set_tb s (fill (tb s) t ix n m (hi low) d)).
Proof.
  intros HS Ht Hm. apply SI_tb; [assumption| |].
  - intros v' low' q' t' _ _ _. rewrite fill_spec.
    destruct (_ && _); cbn [set_leaf e_next e_mlen]; [split; [reflexivity|lia]|tauto].
  - intros i x Hi. rewrite fill_spec. destruct (tid_eqb_spec (TS i) t) as [<-|]; [|reflexivity].
    eapply tab_lt in Ht; [|eassumption]. lia.
Qed.

(* writing route (m,P) in its table changes leaf predicate L into L' *)
Lemma LI_fill N k (L L' : leafp) T s t v low m P d :
  SI N k T s -> LI L T s -> lowok low -> low < m <= hi low -> 0 <= P < 2 ^ m ->
  tab T v low (P / 2 ^ (m - low)) = Some t ->
  (forall q ml dt, 0 <= q < 2 ^ hi low -> q / 2 ^ (hi low - m) = P -> L v low q ml dt -> 
     if (ml <=? m) || (ml >? hi low) then L' v low q m d else L' v low q ml dt) ->
  (forall v' low' q ml dt, lowok low' -> 0 <= q < 2 ^ hi low' -> v' <> v \/ low' <> low \/ q / 2 ^ (hi low - m) <> P ->
     L v' low' q ml dt -> L' v' low' q ml dt) ->
  LI L' T (set_tb s (fill (tb s) t (ip_range_begin (P * 2 ^ (32 - m)) m low (hi low))
     (Z.to_nat (ip_range_end (P * 2 ^ (32 - m)) m low (hi low) - ip_range_begin (P * 2 ^ (32 - m)) m low (hi low)))
     m (hi low) d)).
Proof.
  intros HS HL Hlo Hm HP Ht Hin Hout.
  rewrite end_eq, begin_eq by assumption.
  set (B := P mod 2 ^ (m - low) * 2 ^ (hi low - m)).
  replace (B + 2 ^ (hi low - m) - B) with (2 ^ (hi low - m)) by lia.
  pose proof (hi_cases low Hlo) as Hc.
  assert (HW : 0 < 2 ^ (hi low - m)) by (apply pow_pos; lia).
  intros v' low' q t' Hlo' Hq Ht'. cbn [set_tb tb]. rewrite fill_spec. rewrite Z2Nat.id by lia.
  specialize (HL v' low' q t' Hlo' Hq Ht').
  pose proof (hi_cases low' Hlo') as Hc'.
  assert (Hqd : 0 <= q / 2 ^ wd low' < 2 ^ low').
  { apply parent_range; assumption. }
  assert (Hbr : 0 <= P / 2 ^ (m - low) < 2 ^ low).
  { apply parent_range'; [clear - Hc Hm; lia|assumption]. }
  destruct (tid_eqb_spec t' t) as [->|Hne]; cbn [andb].
  - destruct (tab_inj _ _ _ _ _ _ _ _ _ _ _ HS Hqd Hbr Ht' Ht) as (-> & -> & Hb).
    pose proof (range_cover low m P q Hlo Hm ltac:(lia) ltac:(lia) Hb) as Hr. cbv zeta in Hr. fold B in Hr.
    destruct (Z.leb_spec B (q mod 2 ^ wd low)); cbn [andb];
    [destruct (Z.ltb_spec (q mod 2 ^ wd low) (B + 2 ^ (hi low - m))); cbn [andb]|].
    + specialize (Hin q _ _ Hq (proj1 Hr ltac:(lia)) HL).
      destruct (_ || _); cbn [set_leaf e_mlen e_data]; exact Hin.
    + apply Hout; auto. right; right. intros E. apply Hr in E. lia.
    + apply Hout; auto. right; right. intros E. apply Hr in E. lia.
  - apply Hout; auto.
    destruct (Nat.eq_dec v' v) as [->|]; [|tauto]. destruct (Z.eq_dec low' low) as [->|]; [|tauto].
    right; right. intros E. apply Hne.
    assert (Hb : q / 2 ^ wd low = P / 2 ^ (m - low)).
    { rewrite <- E. rewrite div_div_pow by lia. f_equal. f_equal. unfold wd. lia. }
    rewrite Hb in Ht'. congruence.
Qed.

(* extension of the table map *)
Definition text (T T' : tmap) := forall v low b i, T v low b = Some i -> T' v low b = Some i.
Definition Tset (T : tmap) (v : nat) (low b : Z) (j : nat) : tmap := fun v' low' b' =>
  if Nat.eqb v' v && (low' =? low) && (b' =? b) then Some j else T v' low' b'.
Lemma Tset_case T v low b j v' low' b' :
  (v' = v /\ low' = low /\ b' = b /\ Tset T v low b j v' low' b' = Some j) \/
  ((v' <> v \/ low' <> low \/ b' <> b) /\ Tset T v low b j v' low' b' = T v' low' b').
Proof.
  unfold Tset. destruct (Nat.eqb_spec v' v); [|right; tauto].
  destruct (Z.eqb_spec low' low); [|right; tauto]. destruct (Z.eqb_spec b' b); [left|right]; cbn; tauto.
Qed.
Lemma text_refl T : text T T. Proof. intros v low b i H. exact H. Qed.
Lemma text_trans T1 T2 T3 : text T1 T2 -> text T2 T3 -> text T1 T3.
Proof. intros H1 H2 v low b i H. auto. Qed.

(* the part of one round of the loop between the reference increment and the next round *)
Definition descend (s : st) (t : tid) (ix masklen : Z) : option nat * st :=
  let '(nx, s) :=
    match e_next (tb s t ix) with
    | Some j => (Some j, s)
    | None =>
      match NODEALLOC s with
      | (Some j, s) => (Some j, set_tb s (updm (tb s) t ix (set_next (tb s t ix) (Some j))))
      | (None, s) => (None, s)
      end
    end in
  match nx with
  | None => (None, s)
  | Some j => (Some j, if e_mlen (tb s t ix) =? 0
               then set_tb s (updm (tb s) t ix (set_mlen (tb s t ix) masklen)) else s)
  end.

Lemma insert_levels_cons low high lv s t addr m d :
  insert_levels ((low, high) :: lv) s t addr m d =
  let s := inc_use_reference s t in
  if m <=? high then
      (set_tb s (fill (tb s) t (ip_range_begin addr m low high)
         (Z.to_nat (ip_range_end addr m low high - ip_range_begin addr m low high)) m high d), true)
  else match descend s t (find_node addr low high) m with
       | (None, s) => (s, false)
       | (Some j, s) => insert_levels lv s (TS j) addr m d
       end.
Proof.
  cbn [insert_levels]. cbv zeta. destruct (m <=? high); [reflexivity|].
  unfold descend. destruct (e_next _); [reflexivity|].
  destruct (NODEALLOC _) as [[|] ?]; reflexivity.
Qed.
