From Verif Require Import Base CksumModel CksumSpec CksumProof CksumProof2 CksumProof3 CksumProps Ip4Model Ip4Spec.
Ltac Zify.zify_post_hook ::= idtac.

Lemma wr_at a b c b' i : i = length a -> length b = length b' -> wr (a ++ b ++ c) i b' = Ret (a ++ b' ++ c).
Proof.
  intros -> E. unfold wr. rewrite !app_length. destruct (Nat.leb_spec (length a + length b') (length a + (length b + length c))); [|lia].
  f_equal. rewrite firstn_app, firstn_all, Nat.sub_diag, firstn_O, app_nil_r. f_equal. f_equal. rewrite <- E. rewrite app_assoc, skipn_app.
  rewrite <- app_length, Nat.sub_diag, skipn_all. reflexivity.
Qed.
Lemma slice_at a b c i n : i = length a -> n = length b -> slice (a ++ b ++ c) i n = Ret b.
Proof.
  intros -> ->. unfold slice. rewrite !app_length. destruct (Nat.leb_spec (length a + length b) (length a + (length b + length c))); [|lia].
  f_equal. rewrite skipn_app, Nat.sub_diag, skipn_all. cbn [skipn app]. rewrite firstn_app, Nat.sub_diag, firstn_all, firstn_O, app_nil_r. reflexivity.
Qed.
Lemma ld8_at a x c i : i = length a -> ld8 (a ++ x :: c) i = Ret x.
Proof. intros ->. apply ld8_app. Qed.

(* a packet of 20 bytes or more, in the open *)
Lemma open20 (p : list Z) : (20 <= length p)%nat -> exists x0 x1 x2 x3 x4 x5 x6 x7 x8 x9 x10 x11 x12 x13 x14 x15 x16 x17 x18 x19 t,
  p = x0::x1::x2::x3::x4::x5::x6::x7::x8::x9::x10::x11::x12::x13::x14::x15::x16::x17::x18::x19::t.
Proof.
  intros H. do 20 (destruct p as [|? p]; [cbn [length] in H; lia|]). repeat eexists.
Qed.

(* sums *)
Lemma wsum_cons a b x y l : wsum a b (x :: y :: l) = a * x + b * y + wsum a b l.
Proof. cbn [wsum]. lia. Qed.
Lemma sum_ok_iff l : bytes_ok l -> (rfc1071_sum l = 65535 <-> cong (wsum 256 1 l) 0 /\ wsum 256 1 l <> 0).
Proof.
  intros B. destruct (rfc_sum_char l B) as (R & C & Z0). split.
  - intros E. rewrite E in *. split; [|lia]. destruct C as [k C]. exists (-k + 1). lia.
  - intros [C1 N]. apply ones_unique; [lia|lia| |lia]. apply (cong_trans _ _ _ C). destruct C1 as [k C1]. exists (k - 1). lia.
Qed.
Lemma net16_inj x y : net16 x = net16 y -> x = y.
Proof. unfold net16. intros E. injection E as E1 E2. rewrite (Z_div_mod_eq_full x 256), (Z_div_mod_eq_full y 256). lia. Qed.
Lemma st16_zero be c : 0 <= c <= 65535 -> (c = 0 <-> st16 be c = [0; 0]).
Proof.
  intros H. split; [intros ->; destruct be; reflexivity|]. unfold st16. intros E. pose proof (Z_div_mod_eq_full c 256). destruct be; injection E as E1 E2; lia.
Qed.

Definition hdr_ok (hl : Z) (p : list Z) : Prop := bytes_ok p /\ 5 <= hl <= 15 /\ (Z.to_nat (4 * hl) <= length p)%nat.
Lemma iph_zero be al p hl : hdr_ok hl p -> exists c, ofp_cksum_iph be al p hl = Ret c /\ 0 <= c <= 65535 /\
  st16 be c = net16 (rfc1071 (firstn (Z.to_nat (4 * hl)) p)) /\ (c = 0 <-> rfc1071_sum (firstn (Z.to_nat (4 * hl)) p) = 65535).
Proof.
  intros (B & H & L). set (hdr := firstn (Z.to_nat (4 * hl)) p).
  assert (E : p = hdr ++ skipn (Z.to_nat (4 * hl)) p) by (symmetry; apply firstn_skipn).
  assert (Bh : bytes_ok hdr) by (rewrite E in B; apply bytes_ok_app in B; tauto).
  assert (Lh : Z.of_nat (length hdr) = 4 * hl) by (unfold hdr; rewrite firstn_length_le by exact L; lia).
  destruct (iph_good be al hdr (skipn (Z.to_nat (4 * hl)) p) hl Bh H Lh) as (c & Ec & G). rewrite <- E in Ec. exists c.
  destruct (GoodSum_rfc be hdr c Bh G) as [_ G2]. pose proof (GoodSum_exists_swap be hdr c Bh G) as R.
  split; [exact Ec|]. split; [exact R|]. split; [exact G2|]. rewrite (st16_zero be c R), G2. destruct (rfc_sum_char hdr Bh) as (Rs & _ & _). unfold rfc1071.
  split; [|intros ->; reflexivity]. intros W. change [0;0] with (net16 0) in W. apply net16_inj in W. lia.
Qed.

(* the TTL step *)
Lemma ttl_step_ok be x0 x1 x2 x3 x4 x5 x6 x7 x8 x9 x10 x11 t :
  let p := x0::x1::x2::x3::x4::x5::x6::x7::x8::x9::x10::x11::t in
  bytes_ok p -> 1 < x8 -> exists y10 y11,
  ttl_step be p = Ret (x0::x1::x2::x3::x4::x5::x6::x7::(x8-1)::x9::y10::y11::t) /\ is_byte y10 /\ is_byte y11 /\
  cong (256 * y10 + y11) (256 * x10 + x11 + 256).
Proof.
  intros p B T. unfold bytes_ok in B. do 12 (apply Forall_cons_iff in B; destruct B as [? B]). unfold is_byte in *.
  unfold ttl_step, p. cbn [ld8 nth_error obind]. unfold wr at 1. cbn [length Nat.leb Nat.add firstn skipn app obind].
  assert (E8 : u8 (x8 - 1) = x8 - 1) by (unfold u8; apply Z.mod_small; lia). rewrite E8.
  unfold ld16. cbn [nth_error obind].
  set (s := if be then x10 * 256 + x11 else x10 + x11 * 256).
  set (a := u16 (Z.lnot (cpu_to_be_16 be 256))).
  set (k := cpu_to_be_16 be 256).
  assert (Ek : k = if be then 256 else 1) by (unfold k, cpu_to_be_16; destruct be; reflexivity).
  assert (Ea : a = 65535 - k) by (unfold a; fold k; rewrite Ek; destruct be; reflexivity).
  set (v := if s >=? a then s - a else u16 (s + k)).
  assert (V : 0 <= v <= 65535 /\ (v = s + k \/ v = s + k - 65535)).
  { unfold v. destruct (Z.geb_spec s a); [unfold s, k in *; destruct be; cbn in *; lia|]. unfold u16. rewrite Z.mod_small; unfold s, k in *; destruct be; cbn in *; lia. }
  destruct V as [V1 V2]. pose proof (Z_div_mod_eq_full v 256). pose proof (Z.mod_pos_bound v 256 ltac:(lia)).
  assert (0 <= v / 256 < 256) by (split; [apply Z.div_pos; lia|apply Z.div_lt_upper_bound; lia]).
  unfold wr, st16. destruct be; cbn [length Nat.leb Nat.add firstn skipn app]; do 2 eexists; (split; [reflexivity|]); (split; [unfold is_byte; lia|]); (split; [unfold is_byte; lia|]); subst k; cbn [cpu_to_be_16] in *.
  - unfold s in V2. destruct V2 as [V2|V2]; [exists 0|exists (-1)]; lia.
  - unfold s in V2. rewrite Ek in V2. destruct V2 as [V2|V2]; [exists (x11 - v / 256)|exists (x11 - v / 256 - 256)]; lia.
Qed.

Lemma hdr_words_bound p : 0 <= hdr_words p <= 15.
Proof. unfold hdr_words. pose proof (Z.mod_pos_bound (nth 0 p 0) 16 ltac:(lia)). lia. Qed.
Lemma there_ok p : header_there p -> hdr_ok (HL p) p /\ (20 <= length p)%nat.
Proof.
  intros (B & H & L). pose proof (hdr_words_bound p). unfold hdr_len in L. unfold hdr_ok. change (HL p) with (hdr_words p).
  split; [split; [exact B|split; [lia|exact L]]|lia].
Qed.
Lemma header_sum_spec be al p : header_there p -> exists c, ofp_cksum_iph be al p (HL p) = Ret c /\ (c = 0 <-> header_sum_ok p).
Proof. intros H. destruct (there_ok p H) as [K _]. destruct (iph_zero be al p (HL p) K) as (c & E & _ & _ & Z0). exists c. split; [exact E|exact Z0]. Qed.

Lemma ttl_step_spec be p : header_there p -> header_sum_ok p -> 1 < ttl p -> exists p', ttl_step be p = Ret p' /\
  header_there p' /\ header_sum_ok p' /\ ttl p' = ttl p - 1 /\ same_but_ttl p p'.
Proof.
  intros H S T. destruct (there_ok p H) as [(B & H1 & H2) L20]. destruct (open20 p L20) as (x0&x1&x2&x3&x4&x5&x6&x7&x8&x9&x10&x11&x12&x13&x14&x15&x16&x17&x18&x19&t&E).
  unfold ttl in *. rewrite E in T. cbn [nth] in T. rewrite E in B. destruct (ttl_step_ok be x0 x1 x2 x3 x4 x5 x6 x7 x8 x9 x10 x11 _ B T) as (y10 & y11 & E' & B10 & B11 & C).
  set (p' := x0::x1::x2::x3::x4::x5::x6::x7::(x8-1)::x9::y10::y11::x12::x13::x14::x15::x16::x17::x18::x19::t) in *.
  exists p'. split; [rewrite E; exact E'|].
  assert (Ew : hdr_words p' = hdr_words p) by (rewrite E; reflexivity).
  assert (B' : bytes_ok p').
  { unfold bytes_ok, p' in *. do 12 (apply Forall_cons_iff in B; destruct B as [? B]). unfold is_byte in *. repeat (apply Forall_cons; [unfold is_byte; lia|]). exact B. }
  assert (El : length p' = length p) by (rewrite E; reflexivity).
  split; [|split; [|split]].
  - destruct H as (_ & h1 & h2). split; [exact B'|]. unfold hdr_len in *. rewrite Ew, El. auto.
  - unfold header_sum_ok, hdr_len in *. rewrite Ew. set (n := Z.to_nat (4 * hdr_words p)) in *.
    assert (N : (20 <= n)%nat) by (unfold n; destruct H as (_ & h1 & _); lia).
    assert (Bf : forall l, bytes_ok l -> bytes_ok (firstn n l)) by (intros l Hl; rewrite <- (firstn_skipn n l) in Hl; apply bytes_ok_app in Hl; tauto).
    rewrite E in S. apply sum_ok_iff in S; [|apply Bf; exact B]. apply sum_ok_iff; [apply Bf; exact B'|]. destruct S as [S1 S2].
    replace n with (20 + (n - 20))%nat in * by lia. unfold p'. set (m := (n - 20)%nat) in *. change (20 + m)%nat with (S (S (S (S (S (S (S (S (S (S (S (S (S (S (S (S (S (S (S (S m)))))))))))))))))))) in *.
    cbn [firstn] in *. rewrite !wsum_cons in *. split.
    + destruct S1 as [k1 S1]. destruct C as [k2 C]. exists (k1 + k2). lia.
    + assert (Bt : bytes_ok (firstn m t)).
      { unfold bytes_ok in B. do 20 (apply Forall_cons_iff in B; destruct B as [? B]). rewrite <- (firstn_skipn m t) in B. apply Forall_app in B. tauto. }
      pose proof (wsum_nonneg 256 1 (firstn m t) ltac:(lia) ltac:(lia) Bt). unfold bytes_ok in B'. unfold p' in B'. do 20 (apply Forall_cons_iff in B'; destruct B' as [? B']). unfold is_byte in *.
      intros Wz. assert (x8 = 1) by lia. lia.
  - rewrite E. reflexivity.
  - split; [exact El|]. rewrite E. intros i n8 n10 n11. do 12 (destruct i as [|i]; [try reflexivity; congruence|]). reflexivity.
Qed.

Definition is_group (dst : list Z) : Prop := nth 0 dst 0 / 16 = 14.
(* who a packet is for *)
Definition for_us (e : env) (dst : list Z) : Prop :=
  e_addr e = dst \/ is_group dst \/ exists n, e_route e dst = Some n /\ nh_local n = true.

Definition hw_ok (e : env) (p : list Z) : Prop := (e_hw e = HwOk -> header_sum_ok p).

Lemma fwd_v4_run be al e p : header_there p -> hw_ok e p ->
  (version p <> 4 -> fwd_v4 be al e p = Ret VDrop) /\ (~ header_sum_ok p -> fwd_v4 be al e p = Ret VDrop) /\
  (version p = 4 -> header_sum_ok p -> e_hw e <> HwBad -> fwd_v4 be al e p =
    let dst := sub p 16 4 in
    if list_eq_dec Z.eq_dec (e_bcast e) dst then Ret VDrop else
    let ours := (if list_eq_dec Z.eq_dec (e_addr e) dst then true else false) || (nth 0 dst 0 / 16 =? 14) in
    let nh := if ours then None else e_route e dst in
    let ours := ours || match nh with Some n => nh_local n | None => false end in
    if ours then if negb ((nth 6 p 0 * 256 + nth 7 p 0) mod 16384 =? 0) then Ret (VReass p) else Ret (local_v4 e p)
    else if e_in e false p then Ret VDrop else
    match e_fwd e p with
    | HOther r => Ret (VHook r)
    | HCont => let '(drop, sa) := e_out e p in if drop then Ret VDrop else
      match nh, sa with
      | None, None => Ret VSlow
      | _, _ => if ttl p <=? 1 then Ret (VExpired p) else
        obind (ttl_step be p) (fun p =>
        if e_redirect e then match nh with None => UB | Some n => Ret (VForward p nh sa (match sa with None => e_same_net e n p | Some _ => false end)) end
        else Ret (VForward p nh sa false))
      end
    end).
Proof.
  intros H Hw. destruct (header_sum_spec be al p H) as (c & Ec & Zc). destruct (there_ok p H) as [_ L20].
  destruct (open20 p L20) as (x0&x1&x2&x3&x4&x5&x6&x7&x8&x9&x10&x11&x12&x13&x14&x15&x16&x17&x18&x19&t&E).
  assert (L0 : ld8 p 0 = Ret (nth 0 p 0)) by (rewrite E; reflexivity).
  unfold fwd_v4. rewrite L0. cbn [obind]. unfold version.
  split; [|split].
  - intros V. destruct (Z.eqb_spec (nth 0 p 0 / 16) 4); [contradiction|reflexivity].
  - intros N. destruct (negb (nth 0 p 0 / 16 =? 4)); [reflexivity|].
    destruct (e_hw e) eqn:Eh; cbn [obind]; try reflexivity; try (rewrite Ec; cbn [obind]; destruct (Z.eqb_spec c 0) as [W|W]; [apply Zc in W; contradiction|reflexivity]).
    destruct (N (Hw Eh)).
  - intros V S B. rewrite V. cbn [Z.eqb negb].
    assert (C : (match e_hw e with HwOk => Ret true | HwBad => Ret false | HwUnknown | HwNone => obind (ofp_cksum_iph be al p (HL p)) (fun c0 : Z => Ret (c0 =? 0)) end) = Ret true).
    { destruct (e_hw e); [|reflexivity| |destruct (B eq_refl)]; rewrite Ec; cbn [obind]; apply Zc in S; subst c; reflexivity. }
    rewrite C. cbn [obind negb]. assert (S4 : slice p 16 4 = Ret (sub p 16 4)) by (rewrite E; reflexivity). rewrite S4. cbn [obind].
    assert (B6 : be16 p 6 = Ret (nth 6 p 0 * 256 + nth 7 p 0)) by (rewrite E; reflexivity). rewrite B6. cbn [obind].
    assert (L8 : ld8 p 8 = Ret (ttl p)) by (rewrite E; reflexivity). rewrite L8. cbn [obind]. reflexivity.
Qed.

Lemma forward_ok be al e p p' nh sa r : header_there p -> hw_ok e p -> fwd_v4 be al e p = Ret (VForward p' nh sa r) ->
  version p = 4 /\ header_sum_ok p /\ 1 < ttl p /\ ttl p' = ttl p - 1 /\ same_but_ttl p p' /\ header_there p' /\ header_sum_ok p' /\
  ~ for_us e (sub p 16 4) /\ e_bcast e <> sub p 16 4 /\ nh = e_route e (sub p 16 4) /\ e_fwd e p = HCont /\ e_in e false p = false /\ e_out e p = (false, sa).
Proof.
  intros H Hw F. destruct (fwd_v4_run be al e p H Hw) as (F1 & F2 & F3).
  destruct (Z.eq_dec (version p) 4) as [V|V]; [|rewrite (F1 V) in F; discriminate].
  assert (D : header_sum_ok p \/ ~ header_sum_ok p) by (unfold header_sum_ok; destruct (Z.eq_dec (rfc1071_sum (firstn (hdr_len p) p)) 65535); auto).
  destruct D as [S|S]; [|rewrite (F2 S) in F; discriminate].
  assert (Hb : e_hw e <> HwBad).
  { intros Hb. unfold fwd_v4 in F. rewrite Hb in F. destruct (ld8 p 0); cbn [obind] in F; [|discriminate|discriminate]. destruct (negb (a / 16 =? 4)); discriminate. }
  rewrite (F3 V S Hb) in F. cbv zeta in F. unfold for_us, is_group.
  destruct (list_eq_dec Z.eq_dec (e_bcast e) (sub p 16 4)) as [|Nb]; [discriminate|].
  destruct (list_eq_dec Z.eq_dec (e_addr e) (sub p 16 4)) as [|Na]; [cbn [orb] in F; destruct (negb _); [discriminate|]; unfold local_v4 in F; destruct (e_in e true p); [discriminate|destruct (e_local e p); discriminate]|].
  cbn [orb] in F. destruct (Z.eqb_spec (nth 0 (sub p 16 4) 0 / 16) 14) as [|Ng]; [cbn [orb] in F; destruct (negb _); [discriminate|]; unfold local_v4 in F; destruct (e_in e true p); [discriminate|destruct (e_local e p); discriminate]|].
  cbn [orb] in F. destruct (match e_route e (sub p 16 4) with Some n => nh_local n | None => false end) eqn:El.
  { destruct (negb _); [discriminate|]; unfold local_v4 in F; destruct (e_in e true p); [discriminate|destruct (e_local e p); discriminate]. }
  destruct (e_in e false p) eqn:Ei; [discriminate|]. destruct (e_fwd e p) eqn:Ef; [|discriminate]. destruct (e_out e p) as [dr s0] eqn:Eo.
  destruct dr; [discriminate|].
  assert (K : exists q, ttl p > 1 /\ ttl_step be p = Ret q /\ q = p' /\ nh = e_route e (sub p 16 4) /\ sa = s0).
  { destruct (e_route e (sub p 16 4)) as [n|] eqn:Er.
    - destruct (Z.leb_spec (ttl p) 1); [discriminate|]. destruct (ttl_step be p) as [q| |]; cbn [obind] in F; try discriminate. exists q. destruct (e_redirect e); injection F as -> -> -> _; split; [lia|auto|lia|auto].
    - destruct s0 as [s0|]; [|discriminate]. destruct (Z.leb_spec (ttl p) 1); [discriminate|]. destruct (ttl_step be p) as [q| |]; cbn [obind] in F; try discriminate. exists q.
      destruct (e_redirect e); [discriminate|]. injection F as -> -> -> _; split; [lia|auto]. }
  destruct K as (q & T & Eq & -> & -> & ->). destruct (ttl_step_spec be p H S ltac:(lia)) as (q' & Eq' & R1 & R2 & R3 & R4). rewrite Eq in Eq'. injection Eq' as <-.
  repeat (split; [first [assumption|lia]|]). split.
  - intros [W|[W|(n & W1 & W2)]]; [contradiction|contradiction|]. rewrite W1 in El. congruence.
  - auto 10.
Qed.
