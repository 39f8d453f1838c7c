(* The IPv4 functions are instances of the generic trie operations. *)
From Verif Require Import Base RadixModel RadixTree RadixGen RadixForest RadixSpec RadixRun RadixInst.

Definition M4 (i : nat) : Z := Z.shiftr 2147483648 (Z.of_nat i).

Lemma land_pow2 a k : 0 <= k -> negb (Z.land a (2 ^ k) =? 0) = Z.testbit a k.
Proof.
  intros Hk. destruct (Z.testbit a k) eqn:Et.
  - destruct (Z.land a (2 ^ k) =? 0) eqn:E0; [|reflexivity].
    apply Z.eqb_eq in E0. assert (H := f_equal (fun z => Z.testbit z k) E0). cbn beta in H.
    rewrite Z.land_spec, Et, Z.pow2_bits_true, Z.bits_0 in H by lia. discriminate.
  - destruct (Z.land a (2 ^ k) =? 0) eqn:E0; [reflexivity|].
    apply Z.eqb_neq in E0. exfalso. apply E0. apply Z.bits_inj'. intros j Hj.
    rewrite Z.land_spec, Z.bits_0. destruct (Z.eq_dec j k) as [->|Hn]; [now rewrite Et|].
    rewrite Z.pow2_bits_false by lia. apply andb_false_r.
Qed.

Lemma M4_pow i : (i < 32)%nat -> M4 i = 2 ^ (31 - Z.of_nat i).
Proof.
  intros H. unfold M4. change 2147483648 with (2 ^ 31). rewrite Z.shiftr_div_pow2 by lia.
  rewrite Z.pow_sub_r by lia. reflexivity.
Qed.
Lemma M4_zero i : (32 <= i)%nat -> M4 i = 0.
Proof.
  intros H. unfold M4. rewrite Z.shiftr_div_pow2 by lia. apply Z.div_small. split; [lia|].
  apply Z.lt_le_trans with (2 ^ 32); [reflexivity|]. apply Z.pow_le_mono_r; lia.
Qed.
Lemma M4_shr i : Z.shiftr (M4 i) 1 = M4 (S i).
Proof. unfold M4. rewrite Z.shiftr_shiftr by lia. f_equal. lia. Qed.
Lemma M4_shl i : (S i < 32)%nat -> u32 (Z.shiftl (M4 (S i)) 1) = M4 i.
Proof.
  intros H. rewrite !M4_pow by lia. rewrite Z.shiftl_mul_pow2 by lia. rewrite <- Z.pow_add_r by lia.
  replace (31 - Z.of_nat (S i) + 1) with (31 - Z.of_nat i) by lia.
  unfold u32. apply Z.mod_small. split; [apply Z.pow_nonneg; lia|].
  change 4294967296 with (2 ^ 32). apply Z.pow_lt_mono_r; lia.
Qed.
Lemma M4_start n : (1 <= n <= 32)%nat -> u32 (Z.shiftl 1 (32 - Z.of_nat n)) = M4 (n - 1).
Proof.
  intros H. rewrite M4_pow by lia. rewrite Z.shiftl_mul_pow2 by lia. rewrite Z.mul_1_l.
  replace (31 - Z.of_nat (n - 1)) with (32 - Z.of_nat n) by lia.
  unfold u32. apply Z.mod_small. split; [apply Z.pow_nonneg; lia|].
  change 4294967296 with (2 ^ 32). apply Z.pow_lt_mono_r; lia.
Qed.

Lemma u32_bits_length a : length (u32_bits a) = 32%nat.
Proof. reflexivity. Qed.
Lemma nth_u32_bits a i : (i < 32)%nat -> nth i (u32_bits a) false = Z.testbit a (31 - Z.of_nat i).
Proof.
  intros H. unfold u32_bits.
  rewrite (nth_indep _ false (Z.testbit a (31 - Z.of_nat 0))) by (rewrite map_length, seq_length; exact H).
  rewrite (map_nth (fun i => Z.testbit a (31 - Z.of_nat i))). rewrite seq_nth by exact H. reflexivity.
Qed.

Lemma bit4 a i : negb (Z.land a (M4 i) =? 0) = nth i (u32_bits a) false.
Proof.
  destruct (lt_dec i 32) as [H|H].
  - rewrite M4_pow by exact H. rewrite land_pow2 by lia. symmetry. apply nth_u32_bits. exact H.
  - rewrite M4_zero by lia. rewrite Z.land_0_r. rewrite nth_overflow; [reflexivity|]. rewrite u32_bits_length. lia.
Qed.

(* the masked address of ofp_rtl_insert: first n bits kept, the others cleared *)
Definition masked (a : Z) (n : nat) : Z := Z.land a (u32 (Z.shiftl 4294967295 (32 - Z.of_nat n))).
Lemma masked_bit a n i : (1 <= n <= 32)%nat ->
  nth i (u32_bits (masked a n)) false = if (i <? n)%nat then nth i (u32_bits a) false else false.
Proof.
  intros Hn. destruct (lt_dec i 32) as [H|H].
  - rewrite !nth_u32_bits by exact H. unfold masked. rewrite Z.land_spec. unfold u32.
    change 4294967296 with (2 ^ 32). rewrite Z.mod_pow2_bits_low by lia. rewrite Z.shiftl_spec by lia.
    change 4294967295 with (Z.ones 32). destruct (Nat.ltb_spec i n) as [E|E].
    + rewrite Z.ones_spec_low by lia. apply andb_true_r.
    + rewrite (Z.testbit_neg_r (Z.ones 32)) by lia. apply andb_false_r.
  - rewrite !nth_overflow by (rewrite u32_bits_length; lia). destruct (i <? n)%nat; reflexivity.
Qed.
Lemma masked_firstn a n : (1 <= n <= 32)%nat -> firstn n (u32_bits (masked a n)) = firstn n (u32_bits a).
Proof.
  intros Hn. apply nth_ext with false false.
  - rewrite !firstn_length, !u32_bits_length. reflexivity.
  - intros i Hi. rewrite firstn_length, u32_bits_length in Hi.
    rewrite !nth_firstn_b by lia. rewrite masked_bit by exact Hn. destruct (i <? n)%nat eqn:E; [reflexivity|lia].
Qed.

Section V4.
Variable a : Z.
Let bits := u32_bits a.
Lemma Hbl4 : length bits = 32%nat.
Proof. reflexivity. Qed.

Lemma walk4_eq h : forall k bit nd st nd' st' rem, (bit + k <= 32)%nat ->
  gwalk h (firstn k (skipn bit bits)) nd st = (nd', st', rem) ->
  walk4 a h k (M4 bit) (Z.of_nat bit) nd st = (nd', st', Z.of_nat (bit + k - length rem)) /\
  rem = skipn (k - length rem) (firstn k (skipn bit bits)) /\ (length rem <= k)%nat.
Proof.
  induction k as [|k IH]; intros bit nd st nd' st' rem Hb H.
  - cbn in H. injection H as <- <- <-. cbn. split; [do 2 f_equal; lia|auto].
  - assert (Hsk : skipn bit bits = nth bit bits false :: skipn (S bit) bits) by (apply skipn_cons_nth; rewrite Hbl4; lia).
    rewrite Hsk in *. cbn [firstn gwalk] in H.
    destruct nd as [p|].
    + destruct (IH (S bit) _ _ _ _ _ ltac:(lia) H) as (E1 & E2 & E3).
      cbn [walk4]. rewrite bit4, M4_shr.
      replace (Z.of_nat bit + 1) with (Z.of_nat (S bit)) by lia. fold bits. rewrite E1.
      split; [do 2 f_equal; lia|]. split; [|lia].
      replace (S k - length rem)%nat with (S (k - length rem)) by lia. cbn [firstn skipn]. exact E2.
    + assert (Hlr : length (firstn k (skipn (S bit) bits)) = k) by (rewrite firstn_length, skipn_length, Hbl4; lia).
      cbn [firstn]. remember (firstn k (skipn (S bit) bits)) as rr eqn:Err. clear Err.
      injection H as <- <- <-. cbn [walk4 length]. rewrite Hlr.
      split; [do 2 f_equal; lia|]. split; [|lia]. replace (S k - S k)%nat with 0%nat by lia. reflexivity.
Qed.

Lemma chain4_eq : forall rbs s bit nd dn s' nd' dn' ok,
  (length rbs <= bit)%nat -> (bit < 32)%nat ->
  (forall i, (i < length rbs)%nat -> nth (bit - i) bits false = nth i rbs false) ->
  gchain NODEALLOC4 s rbs nd dn = (s', nd', dn', ok) ->
  chain4 a s (length rbs) (M4 bit) nd = (s', (nd', M4 (bit - (length dn' - length dn))), ok) /\
  (length dn <= length dn')%nat /\
  dn' = rev (firstn (length dn' - length dn) rbs) ++ dn /\ (length dn' - length dn <= length rbs)%nat /\
  (ok = true -> (length dn' - length dn = length rbs)%nat).
Proof.
  induction rbs as [|b rbs IH]; intros s bit nd dn s' nd' dn' ok Hl H32 Hb H.
  - cbn in *. injection H as <- <- <- <-. rewrite Nat.sub_diag. cbn. rewrite Nat.sub_0_r. auto.
  - cbn [gchain] in H. cbn [length chain4]. destruct (NODEALLOC4 s) as [[t|] s1] eqn:Ea.
    + cbn [length] in Hl. assert (H0 := Hb 0%nat ltac:(cbn; lia)). cbn [nth] in H0. rewrite Nat.sub_0_r in H0.
      rewrite bit4. fold bits. rewrite H0.
      assert (Hb' : forall i, (i < length rbs)%nat -> nth (bit - 1 - i) bits false = nth i rbs false).
      { intros i Hi. replace (bit - 1 - i)%nat with (bit - (S i))%nat by lia. apply (Hb (S i)). cbn. lia. }
      destruct (IH _ (bit - 1)%nat _ _ _ _ _ _ ltac:(lia) ltac:(lia) Hb' H)
        as (E1 & E2 & E3 & E4 & E5).
      replace (u32 (Z.shiftl (M4 bit) 1)) with (M4 (bit - 1)).
      2:{ symmetry. replace bit with (S (bit - 1)) at 1 by lia. apply M4_shl. lia. }
      cbn [length] in E1, E2, E3, E4, E5. rewrite E1. split; [do 4 f_equal; lia|]. split; [lia|].
      split; [|split; [lia|intros Hok; specialize (E5 Hok); lia]].
      replace (length dn' - length dn)%nat with (S (length dn' - S (length dn))) by lia.
      cbn [firstn rev]. rewrite <- app_assoc. exact E3.
    + injection H as <- <- <- <-. rewrite Nat.sub_diag. cbn. rewrite Nat.sub_0_r. split; [reflexivity|]. split; [auto|].
      split; [reflexivity|]. split; [lia|discriminate].
Qed.

Lemma nomem4_eq : forall l fuel s nd bit s',
  (forall i, (i < length l)%nat -> nth (bit + 1 + i) bits false = nth i l false) ->
  (length l <= fuel)%nat ->
  gnomem NODEFREE4 s nd l = (s', None) -> nomem4 a fuel s nd (M4 bit) = Ret s'.
Proof.
  induction l as [|b l IH]; intros fuel s nd bit s' Hb Hf H.
  - destruct nd; cbn in H; injection H as ->; [discriminate|]. destruct fuel; reflexivity.
  - destruct nd as [p|]; cbn in H.
    + destruct fuel as [|f]; [cbn in Hf; lia|]. cbn [nomem4].
      assert (H0 := Hb 0%nat ltac:(cbn; lia)). cbn [nth] in H0. rewrite Nat.add_0_r in H0.
      rewrite M4_shr, bit4. replace (bit + 1)%nat with (S bit) in H0 by lia. fold bits. rewrite H0.
      apply IH; [|cbn in Hf; lia|exact H].
      intros i Hi. replace (S bit + 1 + i)%nat with (bit + 1 + S i)%nat by lia. apply (Hb (S i)). cbn. lia.
    + injection H as <-. destruct fuel; reflexivity.
Qed.

Lemma unwind4_eq : forall rbs stack s bit,
  (length rbs <= S bit)%nat -> (bit < 32)%nat ->
  (forall i, (i < length rbs)%nat -> nth (bit - i) bits false = nth i rbs false) ->
  length stack = length rbs -> stack <> [] ->
  unwind4 a s stack (M4 bit) = Ret (gunwind NODEFREE4 s stack rbs).
Proof.
  induction rbs as [|b rbs IH]; intros stack s bit Hlb H32 Hb Hl Hne.
  - destruct stack; [contradiction|discriminate].
  - destruct stack as [|p stack]; [contradiction|]. cbn [unwind4 gunwind].
    assert (H0 := Hb 0%nat ltac:(cbn; lia)). cbn [nth] in H0. rewrite Nat.sub_0_r in H0.
    rewrite bit4. fold bits. rewrite H0.
    match goal with |- context [match ?c with Some _ => _ | None => _ end] => destruct c; [reflexivity|] end.
    match goal with |- context [if ?c then _ else _] => destruct c; [reflexivity|] end.
    destruct stack as [|p2 stack]; [reflexivity|]. cbn [length] in *.
    replace (u32 (Z.shiftl (M4 bit) 1)) with (M4 (bit - 1)).
    2:{ symmetry. replace bit with (S (bit - 1)) at 1 by lia. apply M4_shl. lia. }
    apply IH; [lia|lia| |cbn [length]; lia|discriminate].
    intros i Hi. replace (bit - 1 - i)%nat with (bit - S i)%nat by lia. apply (Hb (S i)). cbn. lia.
Qed.

Lemma remove4_eq s root n :
  (n <= 32)%nat ->
  ofp_rtl_remove4 s root a (Z.of_nat n) = Ret (gremove NODEFREE4 s root (firstn n bits)).
Proof.
  intros Hn. unfold gremove, ofp_rtl_remove4. rewrite Nat2Z.id.
  destruct (gwalk (hp s) (firstn n bits) root []) as [[nd stack] rem] eqn:Ew.
  destruct (walk4_eq (hp s) n 0 root [] nd stack rem ltac:(lia) Ew) as (E1 & E2 & E3).
  change (Z.of_nat 0) with 0 in E1. change (M4 0) with 2147483648 in E1. rewrite E1. cbn [skipn] in E2.
  apply gwalk_lens in Ew. destruct Ew as [Hl Hr]. cbn [length] in Hl. rewrite firstn_length, Hbl4, Nat.min_l in Hl by exact Hn.
  destruct (65 <? length stack)%nat eqn:E129; [lia|].
  destruct nd as [p|]; [|reflexivity]. rewrite Hr in * by discriminate. cbn [length] in *.
  destruct (negb (is_valid (hp s p))); [reflexivity|].
  set (s1 := set_hp s (upd (hp s) p (set_flags (hp s p) 0))).
  destruct (left (hp s1 p)); [reflexivity|]. destruct (right (hp s1 p)); [reflexivity|].
  cbn [Nat.add]. rewrite Nat.sub_0_r.
  destruct n as [|n'].
  - reflexivity.
  - destruct (Z.of_nat (S n') =? 0) eqn:Ez; [lia|].
    assert (Hfl : length (firstn (S n') bits) = S n') by (rewrite firstn_length, Hbl4; lia).
    rewrite M4_start by lia.
    destruct (firstn (S n') bits) as [|b0 bs0] eqn:Ef; [discriminate|]. rewrite <- Ef in *.
    rewrite (unwind4_eq (rev (firstn (S n') bits))).
    + reflexivity.
    + rewrite rev_length, Hfl. lia.
    + lia.
    + intros i Hi. rewrite rev_length, Hfl in Hi. rewrite nth_rev_bits by (rewrite Hfl; exact Hi). rewrite Hfl.
      rewrite nth_firstn_b by lia. reflexivity.
    + rewrite rev_length, Hfl. lia.
    + intros ->. cbn in Hl. lia.
Qed.

Lemma search4_eq h : forall t o bit mt acc fuel,
  rep h t o -> (height t <= fuel)%nat -> (height t + length mt <= 65)%nat ->
  acc = match mt with p :: _ => Some (data (h p)) | [] => None end ->
  exists r, search4 a h fuel o (M4 bit) mt = Ret r /\
    ((bit + height t <= 33)%nat ->
    best t (skipn bit bits) acc = match r with p :: _ => Some (data (h p)) | [] => None end).
Proof.
  induction t as [|p v l IHl r IHr]; intros o bit mt acc fuel Hr Hf Hb Ha.
  - cbn in Hr. subst o. exists mt. destruct fuel; cbn; auto.
  - cbn [rep] in Hr. destruct Hr as (-> & Hv & Hl & Hrr). cbn [height] in Hf, Hb |- *.
    destruct fuel as [|f]; [lia|]. cbn [search4].
    destruct (65 <? length (if is_valid (h p) then p :: mt else mt))%nat eqn:E65.
    { exfalso. apply Nat.ltb_lt in E65. destruct (is_valid (h p)); cbn [length] in E65; lia. }
    rewrite M4_shr.
    assert (Ha' : match v with Some d => Some d | None => acc end =
            match (if is_valid (h p) then p :: mt else mt) with q :: _ => Some (data (h q)) | [] => None end).
    { rewrite (nval_valid _ _ Hv). destruct v as [d|]; [cbn in Hv; destruct Hv as [_ ->]; reflexivity|exact Ha]. }
    assert (Hln : (length (if is_valid (h p) then p :: mt else mt) <= S (length mt))%nat) by (destruct (is_valid (h p)); cbn; lia).
    set (mt' := if is_valid (h p) then p :: mt else mt) in *.
    destruct (lt_dec bit 32) as [Hbit|Hbit].
    + rewrite bit4. fold bits. rewrite skipn_cons_nth by (rewrite Hbl4; lia). cbn [best].
      destruct (nth bit bits false); cbn [child].
      * destruct (IHr (right (h p)) (S bit) mt' _ f Hrr ltac:(lia) ltac:(lia) Ha') as (x & X1 & X2).
        exists x. split; [exact X1|]. intros Hh. apply X2. lia.
      * destruct (IHl (left (h p)) (S bit) mt' _ f Hl ltac:(lia) ltac:(lia) Ha') as (x & X1 & X2).
        exists x. split; [exact X1|]. intros Hh. apply X2. lia.
    + rewrite (M4_zero bit) by lia. rewrite Z.land_0_r. cbn [negb Z.eqb child].
      destruct (IHl (left (h p)) (S bit) mt' _ f Hl ltac:(lia) ltac:(lia) Ha') as (x & X1 & X2).
      exists x. split; [exact X1|]. intros Hh.
      assert (l = E) by (destruct l; [reflexivity|cbn [height] in Hh; lia]). 
      assert (r = E) by (destruct r; [reflexivity|cbn [height] in Hh; lia]). subst l r.
      rewrite skipn_all2 by (rewrite Hbl4; lia). cbn [best]. rewrite Ha'.
      cbn in Hl. rewrite Hl in X1. destruct f; cbn in X1; injection X1 as <-; reflexivity.
Qed.
End V4.

Lemma insert4_eq s root a n d x :
  (1 <= n <= 32)%nat -> root <> None ->
  ginsert NODEALLOC4 NODEFREE4 true false s root (firstn n (u32_bits a)) d = Ret x ->
  ofp_rtl_insert4 s root a (Z.of_nat n) d = Ret x.
Proof.
  intros Hn Hroot H. unfold ginsert in H. unfold ofp_rtl_insert4.
  destruct ((Z.of_nat n <? 1) || (Z.of_nat n >? 32)) eqn:Erng; [lia|].
  rewrite Nat2Z.id. fold (masked a n). rewrite <- masked_firstn in H by exact Hn.
  assert (Hx : forall i, (n <= i)%nat -> nth i (u32_bits (masked a n)) false = false).
  { intros i Hi. rewrite masked_bit by exact Hn. destruct (i <? n)%nat eqn:E; [lia|reflexivity]. }
  set (ma := masked a n) in *. clearbody ma. set (bits := u32_bits ma) in *.
  assert (Hbl : length bits = 32%nat) by reflexivity.
  assert (Hfl : length (firstn n bits) = n) by (rewrite firstn_length, Hbl; lia).
  destruct (gwalk (hp s) (firstn n bits) root []) as [[nd stack] rem] eqn:Ew.
  destruct (walk4_eq ma (hp s) n 0 root [] nd stack rem ltac:(lia) Ew) as (E1 & E2 & E3).
  change (Z.of_nat 0) with 0 in E1. change (M4 0) with 2147483648 in E1. rewrite E1. cbn [skipn] in E2.
  destruct nd as [p|].
  - cbn [negb andb] in H. exact H.
  - destruct (NODEALLOC4 s) as [[p|] s1]; [|exact H].
    assert (Hrl : (length rem < n)%nat).
    { destruct root as [r|]; [|contradiction]. destruct (firstn n bits) as [|b' bs'] eqn:Ef; [cbn in Ew; congruence|].
      assert (Hl := gwalk_progress _ _ _ _ _ _ _ _ Ew). cbn [length] in *. lia. }
    match type of H with context [gchain NODEALLOC4 ?a ?b ?c ?d] => destruct (gchain NODEALLOC4 a b c d) as [[[s3 nd3] dn] ok] eqn:Ec end.
    rewrite M4_start by lia. cbn [Nat.add].
    replace (Z.to_nat (Z.of_nat n - Z.of_nat (n - length rem))) with (length (rev rem)) by (rewrite rev_length; lia).
    assert (Hbit : forall i, (i < length (rev rem))%nat -> nth (n - 1 - i) bits false = nth i (rev rem) false).
    { intros i Hi. rewrite rev_length in Hi. rewrite nth_rev_bits by exact Hi.
      transitivity (nth (length rem - 1 - i) (skipn (n - length rem) (firstn n bits)) false); [|unfold bits; congruence].
      rewrite nth_skipn_b, nth_firstn_b by lia. f_equal. lia. }
    assert (Hrlen := rev_length rem).
    destruct (chain4_eq ma (rev rem) _ (n - 1) _ _ _ _ _ _ ltac:(lia) ltac:(lia) Hbit Ec) as (C1 & C2 & C3 & C4 & C5).
    rewrite C1. cbn [length] in C2, C3, C4, C5 |- *. rewrite Nat.sub_0_r in *. rewrite app_nil_r in C3.
    rewrite rev_length in *.
    destruct ok.
    + specialize (C5 eq_refl). destruct stack as [|last stack]; [exact H|].
      assert (Hstk : length (last :: stack) = (n - length rem)%nat).
      { apply gwalk_lens in Ew. destruct Ew as [Ew _]. cbn [length] in *. lia. }
      rewrite bit4. fold bits.
      replace (nth (n - 1 - length dn) bits false) with (nth (length (last :: stack) - 1) (firstn n bits) false); [exact H|].
      rewrite nth_firstn_b by lia. f_equal. lia.
    + destruct (gnomem NODEFREE4 s3 (Some nd3) (dn ++ [false])) as [s4 o4] eqn:Eg.
      destruct o4; [discriminate|]. injection H as <-.
      rewrite (nomem4_eq ma (dn ++ [false]) (S n) s3 (Some nd3) _ s4); [reflexivity| | |exact Eg].
      * intros i Hi. rewrite app_length in Hi. cbn [length] in Hi. fold bits.
        destruct (Nat.eq_dec i (length dn)) as [->|Hne].
        -- rewrite app_nth2, Nat.sub_diag by lia. cbn [nth]. apply Hx. lia.
        -- rewrite app_nth1 by lia.
           assert (Cn : nth i dn false = nth i (rev (firstn (length dn) (rev rem))) false) by (rewrite <- C3; reflexivity).
           rewrite Cn. rewrite nth_rev_bits by (rewrite firstn_length, rev_length; lia).
           rewrite firstn_length, rev_length. replace (Nat.min (length dn) (length rem)) with (length dn) by lia.
           rewrite nth_firstn_b by lia. rewrite <- Hbit by lia. f_equal. lia.
      * rewrite app_length. cbn [length]. lia.
Qed.
