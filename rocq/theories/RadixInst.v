(* The IPv6 and IPv4 functions are instances of the generic trie operations. *)
From Verif Require Import Base RadixModel RadixTree RadixGen RadixForest RadixSpec RadixRun.

(* ---------------- bits of the address ---------------- *)
Lemma byte_bit_at b k : 0 <= b < 256 -> (k < 8)%nat ->
  negb (Z.land b (Z.shiftl 1 (7 - Z.of_nat k)) =? 0) = nth k (byte_bits b) false.
Proof.
  intros Hb Hk.
  assert (H : forallb (fun b => forallb (fun k =>
     Bool.eqb (negb (Z.land (Z.of_nat b) (Z.shiftl 1 (7 - Z.of_nat k)) =? 0)) (nth k (byte_bits (Z.of_nat b)) false))
     (seq 0 8)) (seq 0 256) = true) by (vm_compute; reflexivity).
  rewrite forallb_forall in H. specialize (H (Z.to_nat b) ltac:(apply in_seq; lia)).
  rewrite forallb_forall in H. specialize (H k ltac:(apply in_seq; lia)).
  rewrite Z2Nat.id in H by lia. apply Bool.eqb_prop. exact H.
Qed.

Lemma bytes_bits_length m : length (bytes_bits m) = (8 * length m)%nat.
Proof. induction m as [|b m IH]; [reflexivity|]. unfold bytes_bits in *. cbn [flat_map]. rewrite app_length, IH. cbn. lia. Qed.

Lemma nth_bytes_bits m : forall i b, nth_error m (i / 8) = Some b ->
  nth i (bytes_bits m) false = nth (i mod 8) (byte_bits b) false.
Proof.
  induction m as [|a m IH]; intros i b H.
  - destruct (i / 8)%nat; discriminate.
  - unfold bytes_bits in *. cbn [flat_map]. destruct (lt_dec i 8) as [Hi|Hi].
    + rewrite Nat.div_small in H by exact Hi. cbn in H. injection H as <-.
      rewrite app_nth1 by (cbn; lia). rewrite Nat.mod_small by exact Hi. reflexivity.
    + assert (E1 : (i / 8 = S ((i - 8) / 8))%nat).
      { replace i with (i - 8 + 1 * 8)%nat at 1 by lia. rewrite Nat.div_add by lia. lia. }
      assert (E2 : (i mod 8 = (i - 8) mod 8)%nat).
      { replace i with (i - 8 + 1 * 8)%nat at 1 by lia. rewrite Nat.mod_add by lia. reflexivity. }
      rewrite E1 in H. cbn in H. rewrite app_nth2 by (cbn; lia). rewrite E2. apply IH. exact H.
Qed.

Lemma rt_bit_set_ok m i : bytes_ok m -> (i < 8 * length m)%nat ->
  rt_bit_set m (Z.of_nat i) = Ret (nth i (bytes_bits m) false).
Proof.
  intros Hm Hi. unfold rt_bit_set.
  assert (E : Z.to_nat (Z.of_nat i / 8) = (i / 8)%nat).
  { rewrite <- (Nat2Z.id (i / 8)). f_equal. rewrite Nat2Z.inj_div. reflexivity. }
  rewrite E. destruct (nth_error m (i / 8)) as [b|] eqn:Eb.
  - rewrite (nth_bytes_bits _ _ _ Eb). f_equal.
    assert (E2 : Z.of_nat i mod 8 = Z.of_nat (i mod 8)) by (rewrite Nat2Z.inj_mod; reflexivity).
    rewrite E2. apply byte_bit_at.
    + apply nth_error_In in Eb. unfold bytes_ok in Hm. rewrite Forall_forall in Hm. apply Hm in Eb. exact Eb.
    + apply Nat.mod_upper_bound. lia.
  - exfalso. apply nth_error_None in Eb. assert (i / 8 < length m)%nat by (apply Nat.div_lt_upper_bound; lia). lia.
Qed.

Lemma rt_bit_set_oob m i : (8 * length m <= i)%nat -> rt_bit_set m (Z.of_nat i) = UB.
Proof.
  intros Hi. unfold rt_bit_set.
  assert (E : Z.to_nat (Z.of_nat i / 8) = (i / 8)%nat).
  { rewrite <- (Nat2Z.id (i / 8)). f_equal. rewrite Nat2Z.inj_div. reflexivity. }
  rewrite E. destruct (nth_error m (i / 8)) as [b|] eqn:Eb; [|reflexivity].
  exfalso. assert (i / 8 < length m)%nat by (apply nth_error_Some; congruence).
  assert (length m <= i / 8)%nat by (apply Nat.div_le_lower_bound; lia). lia.
Qed.

Lemma skipn_cons_nth (l : list bool) i : (i < length l)%nat -> skipn i l = nth i l false :: skipn (S i) l.
Proof.
  revert i; induction l as [|a l IH]; intros i Hi; [cbn in Hi; lia|].
  destruct i as [|i]; [reflexivity|]. cbn in Hi. cbn [skipn nth]. rewrite IH by lia. reflexivity.
Qed.

Lemma nth_skipn_b (l : list bool) : forall k j, nth j (skipn k l) false = nth (k + j) l false.
Proof.
  induction l as [|a l IH]; intros [|k] j; try reflexivity.
  - cbn. destruct j; reflexivity.
  - cbn [skipn Nat.add nth]. apply IH.
Qed.
Lemma nth_firstn_b (l : list bool) : forall k j, (j < k)%nat -> nth j (firstn k l) false = nth j l false.
Proof.
  induction l as [|a l IH]; intros [|k] j Hj; try lia; [reflexivity|].
  destruct j as [|j]; [reflexivity|]. cbn. apply IH. lia.
Qed.
Lemma gwalk_lens h : forall bs o st nd' st' rem', gwalk h bs o st = (nd', st', rem') ->
  (length st' + length rem' = length st + length bs)%nat /\ (nd' <> None -> rem' = []).
Proof.
  induction bs as [|b bs IH]; intros o st nd' st' rem' H; cbn in H.
  - injection H as <- <- <-. auto.
  - destruct o as [p|]; [apply IH in H; cbn in *; split; [lia|tauto]|injection H as <- <- <-; split; [reflexivity|contradiction]].
Qed.
Lemma gwalk_progress h b bs p st nd' st' rem' : gwalk h (b :: bs) (Some p) st = (nd', st', rem') ->
  (length rem' <= length bs)%nat.
Proof.
  cbn [gwalk]. intros H.
  assert (Hs : forall h bs o st, (length st <= length (snd (fst (gwalk h bs o st))))%nat).
  { clear. intros h bs. induction bs as [|b bs IH]; intros o st; cbn; [lia|]. destruct o as [p|]; cbn; [|lia].
    specialize (IH (child (h p) b) (p :: st)). cbn in IH. lia. }
  assert (H2 := Hs h bs (child (h p) b) (p :: st)). rewrite H in H2. cbn in H2.
  apply gwalk_lens in H. cbn in H. destruct H as [H _]. lia.
Qed.

(* ---------------- IPv6 ---------------- *)
Section V6.
Variable m : list Z.
Hypothesis Hm : bytes_ok m.
Let bits := bytes_bits m.
Lemma Hbl : length bits = (8 * length m)%nat.
Proof. apply bytes_bits_length. Qed.

Lemma walk6_eq h : forall k bit nd st nd' st' rem, (bit + k <= length bits)%nat ->
  gwalk h (firstn k (skipn bit bits)) nd st = (nd', st', rem) ->
  walk6 m h k (Z.of_nat bit) nd st = Ret (nd', st', Z.of_nat (bit + k - length rem)) /\
  rem = skipn (k - length rem) (firstn k (skipn bit bits)) /\ (length rem <= k)%nat.
Proof.
  induction k as [|k IH]; intros bit nd st nd' st' rem Hb H.
  - cbn in H. injection H as <- <- <-. cbn. split; [f_equal; f_equal; lia|auto].
  - assert (Hsk : skipn bit bits = nth bit bits false :: skipn (S bit) bits) by (apply skipn_cons_nth; lia).
    rewrite Hsk in *. cbn [firstn gwalk] in H.
    destruct nd as [p|].
    + destruct (IH (S bit) _ _ _ _ _ ltac:(lia) H) as (E1 & E2 & E3).
      cbn [walk6]. rewrite rt_bit_set_ok by (auto; rewrite <- Hbl; lia). cbn [obind].
      replace (Z.of_nat bit + 1) with (Z.of_nat (S bit)) by lia. fold bits. rewrite E1.
      split; [do 2 f_equal; lia|]. split; [|lia].
      replace (S k - length rem)%nat with (S (k - length rem)) by lia. cbn [firstn skipn]. exact E2.
    + assert (Hlr : length (firstn k (skipn (S bit) bits)) = k) by (rewrite firstn_length, skipn_length; lia).
      cbn [firstn]. remember (firstn k (skipn (S bit) bits)) as rr eqn:Err. clear Err.
      injection H as <- <- <-. cbn [walk6 length]. rewrite Hlr.
      split; [do 2 f_equal; lia|]. split; [|lia]. replace (S k - S k)%nat with 0%nat by lia. reflexivity.
Qed.

Lemma chain6_eq : forall rbs s bit nd dn s' nd' dn' ok,
  (forall i, (i < length rbs)%nat -> rt_bit_set m (bit - Z.of_nat i) = Ret (nth i rbs false)) ->
  gchain NODEALLOC6 s rbs nd dn = (s', nd', dn', ok) ->
  chain6 m s (length rbs) bit nd = Ret (s', (nd', bit - Z.of_nat (length dn' - length dn)), ok) /\
  (length dn <= length dn')%nat /\
  dn' = rev (firstn (length dn' - length dn) rbs) ++ dn /\ (length dn' - length dn <= length rbs)%nat /\
  (ok = true -> (length dn' - length dn = length rbs)%nat).
Proof.
  induction rbs as [|b rbs IH]; intros s bit nd dn s' nd' dn' ok Hb H.
  - cbn in *. injection H as <- <- <- <-. rewrite Nat.sub_diag. cbn.
    split; [do 4 f_equal; lia|]. auto.
  - cbn [gchain] in H. cbn [length chain6]. destruct (NODEALLOC6 s) as [[t|] s1] eqn:Ea.
    + assert (H0 := Hb 0%nat ltac:(cbn; lia)). cbn in H0. rewrite Z.sub_0_r in H0. rewrite H0. cbn [obind].
      assert (Hb' : forall i, (i < length rbs)%nat -> rt_bit_set m (bit - 1 - Z.of_nat i) = Ret (nth i rbs false)).
      { intros i Hi. replace (bit - 1 - Z.of_nat i) with (bit - Z.of_nat (S i)) by lia. apply (Hb (S i)). cbn. lia. }
      destruct (IH _ (bit - 1) _ _ _ _ _ _ Hb' H)
        as (E1 & E2 & E3 & E4 & E5).
      cbn [length] in E1, E2, E3, E4, E5. rewrite E1. split; [do 4 f_equal; lia|]. split; [lia|].
      split; [|split; [lia|intros Hok; specialize (E5 Hok); lia]].
      replace (length dn' - length dn)%nat with (S (length dn' - S (length dn))) by lia.
      cbn [firstn rev]. rewrite <- app_assoc. exact E3.
    + injection H as <- <- <- <-. rewrite Nat.sub_diag. cbn. split; [do 4 f_equal; lia|]. split; [auto|].
      split; [reflexivity|]. split; [lia|discriminate].
Qed.

Lemma nomem6_eq : forall l fuel s nd bit s',
  (forall i, (i < length l)%nat -> rt_bit_set m (bit + 1 + Z.of_nat i) = Ret (nth i l false)) ->
  (length l <= fuel)%nat ->
  gnomem NODEFREE6 s nd l = (s', None) -> nomem6 m fuel s nd bit = Ret s'.
Proof.
  induction l as [|b l IH]; intros fuel s nd bit s' Hb Hf H.
  - destruct nd; cbn in H; injection H as ->; [discriminate|]. destruct fuel; reflexivity.
  - destruct nd as [p|]; cbn in H.
    + destruct fuel as [|f]; [cbn in Hf; lia|]. cbn [nomem6].
      assert (H0 := Hb 0%nat ltac:(cbn; lia)). cbn in H0. rewrite Z.add_0_r in H0. rewrite H0. cbn [obind].
      apply IH; [|cbn in Hf; lia|exact H].
      intros i Hi. replace (bit + 1 + 1 + Z.of_nat i) with (bit + 1 + Z.of_nat (S i)) by lia. apply (Hb (S i)). cbn. lia.
    + injection H as <-. destruct fuel; reflexivity.
Qed.

Lemma nth_rev_bits (l : list bool) i : (i < length l)%nat -> nth i (rev l) false = nth (length l - 1 - i) l false.
Proof. intros H. rewrite rev_nth by exact H. f_equal. lia. Qed.

Lemma insert6_eq s root n d x :
  (n < length bits)%nat -> root <> None ->
  ginsert NODEALLOC6 NODEFREE6 false (nth n bits false) s root (firstn n bits) d = Ret x ->
  Z.of_nat n < 4294967296 ->
  ofp_rtl_insert6 s root m (Z.of_nat n) d = Ret x.
Proof.
  intros Hn Hroot H H32. unfold ginsert in H. unfold ofp_rtl_insert6. rewrite Nat2Z.id.
  destruct (gwalk (hp s) (firstn n bits) root []) as [[nd stack] rem] eqn:Ew.
  destruct (walk6_eq (hp s) n 0 root [] nd stack rem ltac:(lia) Ew) as (E1 & E2 & E3).
  change (Z.of_nat 0) with 0 in E1. rewrite E1. cbn [obind]. cbn [skipn] in E2.
  destruct nd as [p|].
  - cbn [negb andb] in H. destruct (flags (hp s p) =? VALID); exact H.
  - destruct (NODEALLOC6 s) as [[p|] s1]; [|exact H].
    assert (Hrl : (length rem < n)%nat).
    { assert (Hfl : length (firstn n bits) = n) by (rewrite firstn_length; lia).
      destruct root as [r|]; [|contradiction]. destruct (firstn n bits) as [|b' bs'] eqn:Ef; [cbn in Ew; congruence|].
      assert (Hl := gwalk_progress _ _ _ _ _ _ _ _ Ew). cbn [length] in *. lia. }
    match type of H with context [gchain NODEALLOC6 ?a ?b ?c ?d] => destruct (gchain NODEALLOC6 a b c d) as [[[s3 nd3] dn] ok] eqn:Ec end.
    assert (Hu : u32 (Z.of_nat n - 1) = Z.of_nat n - 1) by (unfold u32; apply Z.mod_small; lia).
    rewrite Hu. cbn [Nat.add].
    replace (Z.to_nat (Z.of_nat n - Z.of_nat (n - length rem))) with (length (rev rem)) by (rewrite rev_length; lia).
    assert (Hbit : forall i, (i < length (rev rem))%nat -> rt_bit_set m (Z.of_nat n - 1 - Z.of_nat i) = Ret (nth i (rev rem) false)).
    { intros i Hi. rewrite rev_length in Hi. rewrite nth_rev_bits by exact Hi.
      replace (Z.of_nat n - 1 - Z.of_nat i) with (Z.of_nat (n - 1 - i)) by lia.
      rewrite rt_bit_set_ok by (auto; rewrite <- Hbl; lia). f_equal. fold bits.
      transitivity (nth (length rem - 1 - i) (skipn (n - length rem) (firstn n bits)) false); [|congruence].
      rewrite nth_skipn_b, nth_firstn_b by lia. f_equal. lia. }
    destruct (chain6_eq _ _ _ _ _ _ _ _ _ Hbit Ec) as (C1 & C2 & C3 & C4 & C5).
    rewrite C1. cbn [obind]. cbn [length] in C2, C3, C4, C5 |- *. rewrite Nat.sub_0_r in *. rewrite app_nil_r in C3.
    rewrite rev_length in *.
    destruct ok.
    + specialize (C5 eq_refl). destruct stack as [|last stack]; [exact H|].
      assert (Hstk : length (last :: stack) = (n - length rem)%nat).
      { apply gwalk_lens in Ew. destruct Ew as [Ew _]. cbn [length] in *. rewrite firstn_length in Ew. lia. }
      replace (Z.of_nat n - 1 - Z.of_nat (length dn)) with (Z.of_nat (length (last :: stack) - 1)) by lia.
      rewrite rt_bit_set_ok by (auto; rewrite <- Hbl; lia). cbn [obind]. rewrite <- H. do 4 f_equal.
      fold bits. rewrite <- (firstn_skipn n bits) at 1. rewrite app_nth1 by (rewrite firstn_length; lia). reflexivity.
    + destruct (gnomem NODEFREE6 s3 (Some nd3) (dn ++ [nth n bits false])) as [s4 o4] eqn:Eg.
      destruct o4; [discriminate|]. injection H as <-.
      rewrite (nomem6_eq (dn ++ [nth n bits false]) (S n) s3 (Some nd3) _ s4); [reflexivity| | |exact Eg].
      * intros i Hi. rewrite app_length in Hi. cbn [length] in Hi.
        replace (Z.of_nat n - 1 - Z.of_nat (length dn) + 1 + Z.of_nat i) with (Z.of_nat (n - length dn + i)) by lia.
        rewrite rt_bit_set_ok by (auto; rewrite <- Hbl; lia). f_equal. fold bits.
        destruct (Nat.eq_dec i (length dn)) as [->|Hne].
        -- rewrite app_nth2, Nat.sub_diag by lia. cbn [nth]. f_equal. lia.
        -- rewrite app_nth1 by lia.
           assert (Cn : nth i dn false = nth i (rev (firstn (length dn) (rev rem))) false) by (rewrite <- C3; reflexivity).
           rewrite Cn. rewrite nth_rev_bits by (rewrite firstn_length, rev_length; lia).
           rewrite firstn_length, rev_length. replace (Nat.min (length dn) (length rem)) with (length dn) by lia.
           assert (Hf : forall j, (j < length dn)%nat -> nth j (firstn (length dn) (rev rem)) false = nth j (rev rem) false).
           { intros j Hj. rewrite <- (firstn_skipn (length dn) (rev rem)) at 2. rewrite app_nth1; [reflexivity|].
             rewrite firstn_length, rev_length. lia. }
           rewrite Hf by lia.
           assert (X := Hbit (length dn - 1 - i)%nat ltac:(lia)).
           replace (Z.of_nat n - 1 - Z.of_nat (length dn - 1 - i)) with (Z.of_nat (n - length dn + i)) in X by lia.
           rewrite rt_bit_set_ok in X by (auto; rewrite <- Hbl; lia). fold bits in X; congruence.
      * rewrite app_length. cbn [length]. lia.
Qed.

Lemma unwind6_eq : forall rbs stack s bit,
  (forall i, (i < length rbs)%nat -> rt_bit_set m (bit - Z.of_nat i) = Ret (nth i rbs false)) ->
  length stack = length rbs -> stack <> [] ->
  unwind6 m s stack bit = Ret (gunwind NODEFREE6 s stack rbs).
Proof.
  induction rbs as [|b rbs IH]; intros stack s bit Hb Hl Hne.
  - destruct stack; [contradiction|discriminate].
  - destruct stack as [|p stack]; [contradiction|]. cbn [unwind6 gunwind].
    assert (H0 := Hb 0%nat ltac:(cbn; lia)). cbn in H0. rewrite Z.sub_0_r in H0. rewrite H0. cbn [obind].
    match goal with |- context [match ?c with Some _ => _ | None => _ end] => destruct c; [reflexivity|] end.
    match goal with |- context [if ?c then _ else _] => destruct c; [reflexivity|] end.
    destruct stack as [|p2 stack]; [reflexivity|].
    apply IH; [|cbn in *; lia|discriminate].
    intros i Hi. replace (bit - 1 - Z.of_nat i) with (bit - Z.of_nat (S i)) by lia. apply (Hb (S i)). cbn. lia.
Qed.

Lemma remove6_eq s root n :
  (n <= length bits)%nat -> (n <= 128)%nat ->
  ofp_rtl_remove6 s root m (Z.of_nat n) = Ret (gremove NODEFREE6 s root (firstn n bits)).
Proof.
  intros Hn H128. unfold gremove, ofp_rtl_remove6. rewrite Nat2Z.id.
  destruct (gwalk (hp s) (firstn n bits) root []) as [[nd stack] rem] eqn:Ew.
  destruct (walk6_eq (hp s) n 0 root [] nd stack rem ltac:(lia) Ew) as (E1 & E2 & E3).
  change (Z.of_nat 0) with 0 in E1. rewrite E1. cbn [obind]. cbn [skipn] in E2.
  apply gwalk_lens in Ew. destruct Ew as [Hl Hr]. cbn [length] in Hl. rewrite firstn_length, Nat.min_l in Hl by exact Hn.
  destruct (129 <? length stack)%nat eqn:E129; [lia|].
  destruct nd as [p|]; [|reflexivity]. rewrite Hr in * by discriminate. cbn [length] in *.
  destruct (negb (is_valid (hp s p))); [reflexivity|].
  set (s1 := set_hp s (upd (hp s) p (set_flags (hp s p) 0))).
  destruct (left (hp s1 p)); [reflexivity|]. destruct (right (hp s1 p)); [reflexivity|].
  cbn [Nat.add]. rewrite Nat.sub_0_r.
  destruct n as [|n'].
  - reflexivity.
  - destruct (Z.of_nat (S n') =? 0) eqn:Ez; [lia|].
    assert (Hfl : length (firstn (S n') bits) = S n') by (rewrite firstn_length; lia).
    destruct (firstn (S n') bits) as [|b0 bs0] eqn:Ef; [discriminate|]. rewrite <- Ef in *.
    rewrite (unwind6_eq (rev (firstn (S n') bits))).
    + reflexivity.
    + intros i Hi. rewrite rev_length, Hfl in Hi. rewrite nth_rev_bits by (rewrite Hfl; exact Hi). rewrite Hfl.
      replace (Z.of_nat (S n') - 1 - Z.of_nat i) with (Z.of_nat (S n' - 1 - i)) by lia.
      rewrite rt_bit_set_ok by (auto; rewrite <- Hbl; lia). f_equal. fold bits.
      rewrite <- (firstn_skipn (S n') bits) at 1. rewrite app_nth1 by lia. reflexivity.
    + rewrite rev_length, Hfl. lia.
    + intros ->. cbn in Hl. lia.
Qed.

Lemma search6_eq h : forall t o bit mt acc fuel,
  rep h t o -> (height t <= fuel)%nat -> (bit + height t <= length bits)%nat ->
  acc = match mt with Some p => Some (data (h p)) | None => None end ->
  exists r, search6 m h fuel o (Z.of_nat bit) mt = Ret r /\
    best t (skipn bit bits) acc = match r with Some p => Some (data (h p)) | None => None end.
Proof.
  induction t as [|p v l IHl r IHr]; intros o bit mt acc fuel Hr Hf Hb Ha.
  - cbn in Hr. subst o. exists mt. destruct fuel; cbn; auto.
  - cbn [rep] in Hr. destruct Hr as (-> & Hv & Hl & Hrr). cbn [height] in Hf, Hb.
    destruct fuel as [|f]; [lia|]. cbn [search6].
    rewrite rt_bit_set_ok by (auto; rewrite <- Hbl; lia). cbn [obind]. fold bits.
    rewrite skipn_cons_nth by lia. cbn [best].
    assert (Ha' : match v with Some d => Some d | None => acc end =
            match (if is_valid (h p) then Some p else mt) with Some q => Some (data (h q)) | None => None end).
    { rewrite (nval_valid _ _ Hv). destruct v as [d|]; [cbn in Hv; destruct Hv as [_ ->]; reflexivity|exact Ha]. }
    replace (Z.of_nat bit + 1) with (Z.of_nat (S bit)) by lia.
    destruct (nth bit bits false); cbn [child].
    + apply IHr; auto; lia.
    + apply IHl; auto; lia.
Qed.
End V6.
