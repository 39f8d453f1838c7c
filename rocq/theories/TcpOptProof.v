From Verif Require Import Base TcpOptModel TcpOptSpec.
Ltac Zify.zify_post_hook ::= idtac.

Lemma app_len_inj : forall (d d0 r r0 : list Z), length d = length d0 -> d ++ r = d0 ++ r0 -> d0 = d /\ r0 = r.
Proof.
  induction d as [|a d IH]; intros [|b d0] r r0; simpl; try discriminate; auto.
  intros Hl He. injection He as -> He. injection Hl as Hl. destruct (IH _ _ _ Hl He) as [-> ->]. auto.
Qed.
Lemma options_det l os1 : options l os1 -> forall os2, options l os2 -> os1 = os2.
Proof.
  induction 1 as [|r|r os H IH|k data r os H0 H1 H IH|k r H0 H1 H]; intros os2 H2; inversion H2; subst; auto; try congruence.
  - match goal with He : _ ++ _ = _ ++ _, Hz : @eq Z _ _ |- _ => change (2 + Z.of_nat (length data0) = 2 + Z.of_nat (length data)) in Hz end.
    assert (Hl : length data = length data0) by lia.
    match goal with He : _ ++ _ = _ ++ _ |- _ => destruct (app_len_inj _ _ _ _ (eq_sym Hl) He) as [-> ->] end.
    f_equal. auto.
  - exfalso. match goal with Hn : ~ well_formed_rest _ |- _ => apply Hn end. exists data, r. reflexivity.
  - exfalso. apply H. exists data, r0. reflexivity.
Qed.

Definition orr {A} (a b : option A) : option A := match a with Some v => Some v | None => b end.
Definition mask {A} (c : bool) (a : option A) : option A := if c then a else None.
Definition merge (ds syn : bool) (os : list (Z * list Z)) (to : topt) : topt :=
  mkOpt (orr (mask syn (final says_mss os)) (o_mss to)) (orr (mask syn (final says_ws os)) (o_ws to))
        (is_so (mask (syn && ds) (final says_sackok os)) || o_sackok to)
        (orr (final says_ts os) (o_ts to)) (o_sig to) (orr (mask (negb syn) (final says_sack os)) (o_sack to)).

Lemma blocks_rd : forall n pre d post, length d = (8 * n)%nat ->
  exists bl, blocks d = Some bl /\ rd_blocks (pre ++ d ++ post) (length pre) n = Ret bl.
Proof.
  induction n as [|n IH]; intros pre d post Hl.
  - destruct d; [|simpl in Hl; lia]. exists []. auto.
  - destruct d as [|a [|b [|c [|d' [|e [|f [|g [|h r]]]]]]]]; try (simpl in Hl; lia).
    destruct (IH (pre ++ [a; b; c; d'; e; f; g; h]) r post) as [bl [Hb Hr]]; [simpl in Hl; lia|].
    simpl blocks. rewrite Hb. eexists; split; [reflexivity|].
    cbn [rd_blocks].
    rewrite app_length in Hr. cbn [length] in Hr.
    replace ((pre ++ [a; b; c; d'; e; f; g; h]) ++ r ++ post) with (pre ++ (a :: b :: c :: d' :: e :: f :: g :: h :: r) ++ post) in Hr
      by (rewrite <- app_assoc; reflexivity).
    unfold rd32, rd16, rd.
    assert (Hn : forall i x, nth_error (a :: b :: c :: d' :: e :: f :: g :: h :: r ++ post) i = Some x ->
       nth_error (pre ++ (a :: b :: c :: d' :: e :: f :: g :: h :: r) ++ post) (length pre + i) = Some x).
    { intros i x Hx. rewrite nth_error_app2 by lia. replace (length pre + i - length pre)%nat with i by lia. exact Hx. }
    pose proof (Hn 0%nat _ eq_refl) as N0. pose proof (Hn 1%nat _ eq_refl) as N1. pose proof (Hn 2%nat _ eq_refl) as N2. pose proof (Hn 3%nat _ eq_refl) as N3.
    pose proof (Hn 4%nat _ eq_refl) as N4. pose proof (Hn 5%nat _ eq_refl) as N5. pose proof (Hn 6%nat _ eq_refl) as N6. pose proof (Hn 7%nat _ eq_refl) as N7.
    replace (length pre + 0)%nat with (length pre) in N0 by lia.
    replace (S (length pre)) with (length pre + 1)%nat by lia.
    replace (S (S (length pre))) with (length pre + 2)%nat by lia.
    replace (S (length pre + 4)) with (length pre + 5)%nat by lia.
    replace (S (S (length pre + 4))) with (length pre + 6)%nat by lia.
    replace (S (length pre + 2)) with (length pre + 3)%nat by lia.
    replace (S (length pre + 6)) with (length pre + 7)%nat by lia.
    replace (length pre + 1 + 1)%nat with (length pre + 2)%nat by lia.
    rewrite N0, ?N1. cbn [obind].
    replace (S (length pre + 1)) with (length pre + 2)%nat by lia.
    rewrite ?N2. cbn [obind].
    rewrite ?N3. replace (S (length pre + 2)) with (length pre + 3)%nat by lia. rewrite ?N3. cbn [obind].
    rewrite ?N4. cbn [obind]. replace (S (length pre + 4)) with (length pre + 5)%nat by lia. rewrite ?N5. cbn [obind].
    replace (S (length pre + 5)) with (length pre + 6)%nat by lia. rewrite ?N6. cbn [obind].
    replace (S (length pre + 6)) with (length pre + 7)%nat by lia. rewrite ?N7. cbn [obind].
    rewrite Hr. cbn [obind]. do 2 f_equal. unfold be. f_equal; lia.
Qed.
Lemma blocks_len : forall n d bl, (length d <= n)%nat -> blocks d = Some bl -> length d = (8 * length bl)%nat.
Proof.
  induction n as [|n IH]; intros d bl Hn.
  - destruct d; [|simpl in Hn; lia]. simpl. intros H; inversion H; reflexivity.
  - destruct d as [|a [|b [|c [|d' [|e [|f [|g [|h r]]]]]]]]; simpl; try discriminate.
    + intros H; inversion H; reflexivity.
    + destruct (blocks r) as [q|] eqn:E; [|discriminate]. intros H; inversion H; subst.
      apply IH in E; [|simpl in Hn; lia]. simpl. lia.
Qed.

Lemma one_opt_merge ds syn k data r to :
  one_opt ds syn (k :: (2 + Z.of_nat (length data)) :: data ++ r) k (2 + Z.of_nat (length data)) to = Ret (merge ds syn [(k, data)] to).
Proof.
  unfold one_opt, merge. cbn [final].
  destruct (k =? 2) eqn:E2; [apply Z.eqb_eq in E2; subst k|].
  { destruct to as [m w s t g c]. cbn [o_mss o_ws o_sackok o_ts o_sig o_sack].
    destruct data as [|a [|b [|x q]]]; [..|simpl length]; cbn [says_mss says_ws says_sackok says_ts says_sack];
      try (replace (2 + _ =? 4) with false by lia); try (replace (2 + _ =? 4) with true by lia); destruct syn, ds; cbn; try reflexivity;
      try (do 2 f_equal; lia). }
  destruct (k =? 3) eqn:E3; [apply Z.eqb_eq in E3; subst k|].
  { destruct to as [m w s t g c]. cbn [o_mss o_ws o_sackok o_ts o_sig o_sack].
    destruct data as [|a [|x q]]; [..|simpl length]; cbn [says_mss says_ws says_sackok says_ts says_sack];
      try (replace (2 + _ =? 3) with false by lia); try (replace (2 + _ =? 3) with true by lia); destruct syn, ds; cbn; try reflexivity. }
  destruct (k =? 8) eqn:E8; [apply Z.eqb_eq in E8; subst k|].
  { destruct to as [m w s t g c]. cbn [o_mss o_ws o_sackok o_ts o_sig o_sack].
    destruct (2 + Z.of_nat (length data) =? 10) eqn:El.
    - destruct data as [|x0 [|x1 [|x2 [|x3 [|x4 [|x5 [|x6 [|x7 [|x8 q]]]]]]]]]; try (simpl length in El; lia).
      cbn. destruct syn, ds; cbn; do 4 f_equal; lia.
    - destruct data as [|x0 [|x1 [|x2 [|x3 [|x4 [|x5 [|x6 [|x7 [|x8 q]]]]]]]]]; try (simpl length in El; lia); destruct syn, ds; reflexivity. }
  destruct (k =? 4) eqn:E4; [apply Z.eqb_eq in E4; subst k|].
  { destruct to as [m w s t g c]. cbn [o_mss o_ws o_sackok o_ts o_sig o_sack].
    destruct data as [|x q].
    - destruct syn, ds; cbn; try reflexivity.
    - simpl length. replace (2 + _ =? 2) with false by lia. destruct syn, ds; cbn; reflexivity. }
  destruct (k =? 5) eqn:E5; [apply Z.eqb_eq in E5; subst k|].
  { destruct to as [m w s t g c]. cbn [o_mss o_ws o_sackok o_ts o_sig o_sack]. cbn [says_mss says_ws says_sackok says_ts].
    replace (2 + Z.of_nat (length data) - 2) with (Z.of_nat (length data)) by lia.
    destruct data as [|x q].
    - destruct syn, ds; reflexivity.
    - remember (x :: q) as d eqn:Ed. replace (2 + Z.of_nat (length d) <=? 2) with false by (subst d; simpl length; lia).
      replace (says_sack (5, d)) with (blocks d) by (subst d; reflexivity).
      destruct (Z.of_nat (length d) mod 8 =? 0) eqn:Em.
      + destruct syn; [destruct ds; reflexivity|].
        assert (Hl : length d = (8 * Z.to_nat (Z.of_nat (length d) / 8))%nat)
          by (pose proof (Z.div_mod (Z.of_nat (length d)) 8 ltac:(lia)); assert (0 <= Z.of_nat (length d) / 8) by (apply Z.div_pos; lia); lia).
        destruct (blocks_rd _ [5; 2 + Z.of_nat (length d)] d r Hl) as [bl [Hb Hr]].
        cbn [app length] in Hr. cbn [orb negb]. rewrite Hr, Hb. destruct ds; reflexivity.
      + destruct (blocks d) as [bl|] eqn:Eb.
        * apply (blocks_len (length d)) in Eb; [|lia]. exfalso. rewrite Eb in Em. rewrite Nat2Z.inj_mul in Em.
          rewrite Z.mul_comm, Z.mod_mul in Em by lia. discriminate.
        * destruct syn, ds; reflexivity. }
  assert (Hm : says_mss (k, data) = None /\ says_ws (k, data) = None /\ says_sackok (k, data) = None /\ says_ts (k, data) = None /\ says_sack (k, data) = None).
  { apply Z.eqb_neq in E2, E3, E4, E5, E8. unfold says_mss, says_ws, says_sackok, says_ts, says_sack.
    destruct k as [|p|p]; try (repeat split; reflexivity).
    destruct p as [p|p|]; try destruct p as [p|p|]; try destruct p as [p|p|]; try destruct p as [p|p|]; try (repeat split; reflexivity); lia. }
  destruct Hm as (-> & -> & -> & -> & ->). destruct to, syn, ds; reflexivity.
Qed.

Lemma merge_cons ds syn o os to : merge ds syn os (merge ds syn [o] to) = merge ds syn (o :: os) to.
Proof.
  unfold merge. cbn [final o_mss o_ws o_sackok o_ts o_sig o_sack].
  destruct syn, ds; cbn [mask andb negb];
  destruct (final says_mss os), (final says_ws os), (final says_sackok os), (final says_ts os), (final says_sack os); cbn; try reflexivity;
  rewrite ?orb_true_r; try reflexivity; repeat (match goal with |- context [says_sackok o] => destruct (says_sackok o) end); reflexivity.
Qed.
Lemma merge_nil ds syn to : merge ds syn [] to = to.
Proof. destruct to, ds, syn; reflexivity. Qed.

Lemma dooptions_ok : forall fuel ds syn l to, (length l < fuel)%nat -> exists os, options l os /\ dooptions fuel ds syn l to = Ret (merge ds syn os to).
Proof.
  induction fuel as [|fuel IH]; intros ds syn l to Hf; [lia|].
  destruct l as [|k r]; cbn [dooptions].
  { exists []. rewrite merge_nil. split; [constructor|reflexivity]. }
  destruct (k =? 0) eqn:E0.
  { apply Z.eqb_eq in E0; subst. exists []. rewrite merge_nil. split; [constructor|reflexivity]. }
  destruct (k =? 1) eqn:E1.
  { apply Z.eqb_eq in E1; subst. cbn [obind]. unfold one_opt; cbn [Z.eqb Pos.eqb obind]. change (skipn (Z.to_nat 1) (1 :: r)) with r.
    destruct (IH ds syn r to) as [os [Ho Hd]]; [simpl in Hf; lia|]. exists os. split; [constructor; auto|exact Hd]. }
  apply Z.eqb_neq in E0, E1.
  destruct r as [|n r].
  { replace (Z.of_nat (length [k]) <? 2) with true by (simpl length; lia). cbn [obind]. exists []. rewrite merge_nil. split; [|reflexivity].
    apply opts_bad; auto. intros (d & q & Hq). discriminate. }
  replace (Z.of_nat (length (k :: n :: r)) <? 2) with false by (simpl length; lia).
  change (rd (k :: n :: r) 1) with (Ret n : outcome Z). cbn [obind].
  destruct ((n <? 2) || (n >? Z.of_nat (length (k :: n :: r)))) eqn:Eb.
  { cbn [obind]. exists []. rewrite merge_nil. split; [|reflexivity].
    apply opts_bad; auto. intros (d & q & Hq). pose proof (f_equal (hd 0) Hq) as Hn; pose proof (f_equal (@tl Z) Hq) as Ht; cbn [hd tl] in Hn, Ht; subst n r. simpl length in Eb. rewrite app_length in Eb. lia. }
  apply orb_false_iff in Eb. destruct Eb as [Eb1 Eb2]. simpl length in Eb2, Hf.
  assert (Hsplit : exists d q, r = d ++ q /\ n = 2 + Z.of_nat (length d)).
  { exists (firstn (Z.to_nat (n - 2)) r), (skipn (Z.to_nat (n - 2)) r). rewrite firstn_skipn. split; auto.
    rewrite firstn_length. lia. }
  destruct Hsplit as (d & q & -> & ->).
  cbn [obind]. rewrite one_opt_merge. cbn [obind].
  replace (skipn (Z.to_nat (2 + Z.of_nat (length d))) (k :: 2 + Z.of_nat (length d) :: d ++ q)) with q.
  2:{ replace (Z.to_nat (2 + Z.of_nat (length d))) with (S (S (length d))) by lia. cbn [skipn]. rewrite skipn_app, skipn_all, Nat.sub_diag. reflexivity. }
  rewrite app_length in Hf.
  destruct (IH ds syn q (merge ds syn [(k, d)] to)) as [os [Ho Hd]]; [lia|].
  exists ((k, d) :: os). split; [constructor; auto|]. rewrite Hd, merge_cons. reflexivity.
Qed.

(* ---- building ---- *)
Definition closed (p : list Z) (os : list (Z * list Z)) : Prop := forall r os', options r os' -> options (p ++ r) (os ++ os').
Lemma closed_nil : closed [] []. Proof. intros r os' H; exact H. Qed.
Lemma closed_nop p os : closed p os -> closed (p ++ [1]) os.
Proof. intros H r os' Hr. rewrite <- app_assoc. apply H. simpl. constructor. exact Hr. Qed.
Lemma closed_tlv p os k data : k <> 0 -> k <> 1 -> closed p os -> closed (p ++ k :: (2 + Z.of_nat (length data)) :: data) (os ++ [(k, data)]).
Proof. intros H0 H1 H r os' Hr. rewrite <- !app_assoc. apply H. simpl. constructor; auto. Qed.
Fixpoint nopn (n : nat) (ok : Z -> bool) (len : nat) : nat :=
  match n with O => O | S n => if ok (Z.of_nat len) then O else S (nopn n ok (S len)) end.
Lemma nops_len : forall n ok out, length (nops n ok out) = (length out + nopn n ok (length out))%nat.
Proof.
  induction n as [|n IH]; intros ok out; simpl; [lia|]. destruct (ok (Z.of_nat (length out))); [lia|].
  rewrite IH, app_length. simpl. replace (length out + 1)%nat with (S (length out)) by lia. lia.
Qed.
Lemma nops_closed : forall n ok out os, closed out os -> closed (nops n ok out) os.
Proof. induction n as [|n IH]; intros ok out os H; simpl; auto. destruct (ok _); auto. apply IH, closed_nop, H. Qed.
Lemma put_ok ok need f out os n k data :
  closed out os -> length out = n -> n <> 40%nat -> k <> 0 -> k <> 1 ->
  (Z.of_nat (n + nopn 4 ok n) + need <=? 40) = true ->
  (forall o, length o = (n + nopn 4 ok n)%nat -> f o = k :: (2 + Z.of_nat (length data)) :: data) ->
  closed (put true ok need f out) (os ++ [(k, data)]) /\ length (put true ok need f out) = (n + nopn 4 ok n + 2 + length data)%nat.
Proof.
  intros Hc Hl Hn H0 H1 Hr Hf. unfold put, room. cbn [negb orb]. replace (Z.of_nat (length out) =? 40) with false by lia.
  rewrite nops_len, Hl. replace (40 - Z.of_nat (n + nopn 4 ok n) <? need) with false by lia.
  rewrite Hf by (rewrite nops_len, Hl; reflexivity). split.
  - apply closed_tlv; auto. apply nops_closed, Hc.
  - rewrite app_length, nops_len, Hl. simpl. lia.
Qed.
Lemma put_no ok need f out os n :
  closed out os -> length out = n -> ((n =? 40)%nat || negb (Z.of_nat (n + nopn 4 ok n) + need <=? 40)) = true ->
  closed (put true ok need f out) os /\ length (put true ok need f out) = (n + if (n =? 40)%nat then 0 else nopn 4 ok n)%nat.
Proof.
  intros Hc Hl Hr. unfold put, room. cbn [negb orb]. destruct (n =? 40)%nat eqn:E.
  - replace (Z.of_nat (length out) =? 40) with true by (apply Nat.eqb_eq in E; lia). split; auto; lia.
  - replace (Z.of_nat (length out) =? 40) with false by (apply Nat.eqb_neq in E; lia).
    rewrite nops_len, Hl. replace (40 - Z.of_nat (n + nopn 4 ok n) <? need) with true by lia.
    split; [apply nops_closed, Hc|rewrite nops_len, Hl; lia].
Qed.
Lemma put_off ok need f out : put false ok need f out = out. Proof. reflexivity. Qed.

Lemma sack_bytes_cut bl out : sack_bytes bl out = sack_bytes (firstn 4 bl) out.
Proof.
  unfold sack_bytes. assert (H : (40 - (Z.of_nat (length out) + 2)) / 8 <= 4) by (apply Z.lt_succ_r, Z.div_lt_upper_bound; lia).
  set (m := (40 - (Z.of_nat (length out) + 2)) / 8) in *.
  rewrite firstn_length, firstn_firstn.
  replace (Z.min (Z.of_nat (Nat.min 4 (length bl))) m) with (Z.min (Z.of_nat (length bl)) m) by lia.
  replace (Nat.min (Z.to_nat (Z.min (Z.of_nat (length bl)) m)) 4) with (Z.to_nat (Z.min (Z.of_nat (length bl)) m)) by lia. reflexivity.
Qed.
Lemma sack_bytes_eq bl o m : (40 - (Z.of_nat (length o) + 2)) / 8 = Z.of_nat m ->
  sack_bytes bl o = 5 :: (2 + Z.of_nat (length (flat_map blk_bytes (firstn m bl)))) :: flat_map blk_bytes (firstn m bl).
Proof.
  intros Hm. unfold sack_bytes. rewrite Hm.
  replace (firstn (Z.to_nat (Z.min (Z.of_nat (length bl)) (Z.of_nat m))) bl) with (firstn m bl).
  2:{ destruct (Nat.le_gt_cases (length bl) m).
      - replace (Z.to_nat (Z.min (Z.of_nat (length bl)) (Z.of_nat m))) with (length bl) by lia. rewrite !firstn_all2 by lia. reflexivity.
      - replace (Z.to_nat (Z.min (Z.of_nat (length bl)) (Z.of_nat m))) with m by lia. reflexivity. }
  assert (Hl : forall l, length (flat_map blk_bytes l) = (8 * length l)%nat) by (induction l as [|x l IHl]; simpl; [lia|rewrite IHl; lia]).
  rewrite Hl, firstn_length. cbn [app]. do 2 f_equal. lia.
Qed.

(* the options written, in order; m is the number of SACK blocks for which there is room *)
Definition sent (to : topt) (m : nat) (fits : bool) : list (Z * list Z) :=
  match o_mss to with Some v => [(2, b16 v)] | None => [] end ++
  match o_ws to with Some v => [(3, [v])] | None => [] end ++
  (if o_sackok to then [(4, [])] else []) ++
  match o_ts to with Some (v, e) => [(8, b32 v ++ b32 e)] | None => [] end ++
  (if o_sig to then [(19, repeat 0 16)] else []) ++
  match o_sack to with Some bl => if fits then [(5, flat_map blk_bytes (firstn m bl))] else [] | None => [] end.

(* length before the SACK option, from the flags *)
Definition base_len (to : topt) : nat :=
  let n := O in
  let n := if is_so (o_mss to) then 4%nat else n in
  let n := if is_so (o_ws to) then (n + nopn 4 al1 n + 3)%nat else n in
  let n := if o_sackok to then (n + nopn 4 al2 n + 2)%nat else n in
  let n := if is_so (o_ts to) then (n + nopn 4 al42 n + 10)%nat else n in
  if o_sig to then (n + nopn 4 al42 n + 18)%nat else n.
Definition sack_pos (to : topt) : nat := (base_len to + nopn 4 al42 (base_len to))%nat.
Definition sack_fits (to : topt) : bool := negb (base_len to =? 40)%nat && (Z.of_nat (sack_pos to) + 10 <=? 40).
Definition sack_room (to : topt) : nat := if sack_fits to then Z.to_nat ((40 - (Z.of_nat (sack_pos to) + 2)) / 8) else O.

Lemma pad_closed out os : closed out os -> options (pad_end out) os.
Proof.
  intros H. unfold pad_end. rewrite <- (app_nil_r os). apply H. destruct (Z.to_nat _); simpl; constructor.
Qed.
Lemma pad_len out : Z.of_nat (length (pad_end out)) = Z.of_nat (length out) + (- Z.of_nat (length out)) mod 4.
Proof. unfold pad_end. rewrite app_length, repeat_length. pose proof (Z.mod_pos_bound (- Z.of_nat (length out)) 4). lia. Qed.

Ltac put1 H L :=
  match goal with
  | |- context [put false ?ok ?need ?f ?out] => rewrite (put_off ok need f out)
  | _ => fail
  end.
Definition before_sack (to : topt) : list Z :=
  let out := put (is_so (o_mss to)) al4 4 (fun _ => [2; 4] ++ b16 (match o_mss to with Some v => v | None => 0 end)) [] in
  let out := put (is_so (o_ws to)) al1 3 (fun _ => [3; 3; match o_ws to with Some v => v | None => 0 end]) out in
  let out := put (o_sackok to) al2 2 (fun _ => [4; 2]) out in
  let out := put (is_so (o_ts to)) al42 10 (fun _ => [8; 10] ++ match o_ts to with Some (v, e) => b32 v ++ b32 e | None => [] end) out in
  put (o_sig to) al42 18 (fun _ => [19; 18] ++ repeat 0 16) out.
Definition sent0 (to : topt) : list (Z * list Z) :=
  match o_mss to with Some v => [(2, b16 v)] | None => [] end ++
  match o_ws to with Some v => [(3, [v])] | None => [] end ++
  (if o_sackok to then [(4, [])] else []) ++
  match o_ts to with Some (v, e) => [(8, b32 v ++ b32 e)] | None => [] end ++
  (if o_sig to then [(19, repeat 0 16)] else []).
Lemma put_step want ok need f out os n k data :
  closed out os -> length out = n -> n <> 40%nat -> k <> 0 -> k <> 1 ->
  (want = true -> (Z.of_nat (n + nopn 4 ok n) + need <=? 40) = true) ->
  (want = true -> forall o, f o = k :: (2 + Z.of_nat (length data)) :: data) ->
  closed (put want ok need f out) (os ++ if want then [(k, data)] else []) /\
  length (put want ok need f out) = (if want then n + nopn 4 ok n + 2 + length data else n)%nat.
Proof.
  destruct want; intros.
  - eapply put_ok; eauto.
  - rewrite put_off, app_nil_r. auto.
Qed.
Lemma before_sack_ok to : closed (before_sack to) (sent0 to) /\ length (before_sack to) = base_len to.
Proof.
  unfold before_sack, sent0, base_len. destruct to as [m w s t g c]. cbn [o_mss o_ws o_sackok o_ts o_sig o_sack].
  pose proof closed_nil as H0.
  edestruct (put_step (is_so m) al4 4 (fun _ => [2; 4] ++ b16 (match m with Some v => v | None => 0 end)) [] [] 0 2
               (b16 (match m with Some v => v | None => 0 end)) H0 eq_refl) as [H1 L1]; [lia|lia|lia|reflexivity|reflexivity|].
  edestruct (put_step (is_so w) al1 3 (fun _ => [3; 3; match w with Some v => v | None => 0 end]) _ _ _ 3
               [match w with Some v => v | None => 0 end] H1 L1) as [H2 L2]; [destruct m; vm_compute; lia|lia|lia|destruct m; reflexivity|reflexivity|].
  edestruct (put_step s al2 2 (fun _ => [4; 2]) _ _ _ 4 [] H2 L2) as [H3 L3];
    [destruct m, w; vm_compute; lia|lia|lia|destruct m, w; reflexivity|reflexivity|].
  edestruct (put_step (is_so t) al42 10 (fun _ => [8; 10] ++ match t with Some (v, e) => b32 v ++ b32 e | None => [] end) _ _ _ 8
     (match t with Some (v, e) => b32 v ++ b32 e | None => [] end) H3 L3) as [H4 L4];
    [destruct m, w, s; vm_compute; lia|lia|lia|destruct m, w, s; reflexivity|destruct t as [[? ?]|]; [reflexivity|discriminate]|].
  edestruct (put_step g al42 18 (fun _ => [19; 18] ++ repeat 0 16) _ _ _ 19 (repeat 0 16) H4 L4) as [H5 L5];
    [destruct m, w, s, t as [[? ?]|]; vm_compute; lia|lia|lia|destruct m, w, s, t as [[? ?]|]; reflexivity|reflexivity|].
  split.
  - rewrite <- !app_assoc in H5. cbn [app] in H5.
    replace (match m with Some v => [(2, b16 v)] | None => [] end) with (if is_so m then [(2, b16 match m with Some v => v | None => 0 end)] else []) by (destruct m; reflexivity).
    replace (match w with Some v => [(3, [v])] | None => [] end) with (if is_so w then [(3, [match w with Some v => v | None => 0 end])] else []) by (destruct w; reflexivity).
    replace (match t with Some (v, e) => [(8, b32 v ++ b32 e)] | None => [] end) with
      (if is_so t then [(8, match t with Some (v, e) => b32 v ++ b32 e | None => [] end)] else []) by (destruct t as [[? ?]|]; reflexivity).
    exact H5.
  - rewrite L5. destruct m, w, s, t as [[? ?]|], g; reflexivity.
Qed.

Lemma flat_len l : length (flat_map blk_bytes l) = (8 * length l)%nat.
Proof. induction l as [|x l IHl]; simpl; [lia|rewrite IHl; lia]. Qed.
Lemma base_cases to : exists b, In b [0;2;4;6;8;10;12;14;16;18;20;22;24;26;28;30;32;34;36;38;40]%nat /\ base_len to = b.
Proof.
  unfold base_len. destruct to as [m w s t g c]. cbn [o_mss o_ws o_sackok o_ts o_sig o_sack].
  eexists; split; [|reflexivity]. destruct (is_so m), (is_so w), s, (is_so t), g; vm_compute; tauto.
Qed.
Lemma addoptions_ok to : options (addoptions to) (sent to (sack_room to) (sack_fits to)) /\ Z.of_nat (length (addoptions to)) <= 40 /\ Z.of_nat (length (addoptions to)) mod 4 = 0.
Proof.
  assert (Hpad : forall n, (n + (- n) mod 4) mod 4 = 0).
  { intros n. rewrite Z.add_mod, Z.mod_mod, <- Z.add_mod by lia. replace (n + - n) with 0 by lia. reflexivity. }
  assert (Hle : forall n, n <= 40 -> n + (- n) mod 4 <= 40).
  { intros n Hn. pose proof (Z.div_mod (- n) 4 ltac:(lia)). pose proof (Z.mod_pos_bound (- n) 4 ltac:(lia)). lia. }
  destruct (before_sack_ok to) as [Hc Hl].
  assert (Hmain : exists out os, addoptions to = pad_end out /\ closed out os /\ os = sent to (sack_room to) (sack_fits to) /\ (length out <= 40)%nat).
  { unfold addoptions. fold (before_sack to). unfold sent. fold (sent0 to).
    replace (match o_mss to with Some v => [(2, b16 v)] | None => [] end ++ match o_ws to with Some v => [(3, [v])] | None => [] end ++
      (if o_sackok to then [(4, [])] else []) ++ match o_ts to with Some (v, e) => [(8, b32 v ++ b32 e)] | None => [] end ++
      (if o_sig to then [(19, repeat 0 16)] else []) ++
      match o_sack to with Some bl => if sack_fits to then [(5, flat_map blk_bytes (firstn (sack_room to) bl))] else [] | None => [] end)
      with (sent0 to ++ match o_sack to with Some bl => if sack_fits to then [(5, flat_map blk_bytes (firstn (sack_room to) bl))] else [] | None => [] end)
      by (unfold sent0; rewrite <- !app_assoc; reflexivity).
    destruct (base_cases to) as [b [Hb Eb]].
    destruct (o_sack to) as [bl|]; cbn [is_so].
    2:{ rewrite put_off. do 2 eexists. split; [reflexivity|]. split; [exact Hc|]. split; [rewrite app_nil_r; reflexivity|].
        rewrite Hl, Eb. simpl in Hb. lia. }
    unfold sack_room. destruct (sack_fits to) eqn:Ef.
    - unfold sack_fits in Ef.
      apply andb_prop in Ef. destruct Ef as [Ef1 Ef2]. apply negb_true_iff, Nat.eqb_neq in Ef1.
      edestruct (put_ok al42 10 (sack_bytes bl) (before_sack to) _ _ 5 (flat_map blk_bytes (firstn (Z.to_nat ((40 - (Z.of_nat (sack_pos to) + 2)) / 8)) bl)) Hc Hl) as [H5 L5].
      + exact Ef1. + lia. + lia. + exact Ef2.
      + intros o Ho. apply sack_bytes_eq. rewrite Ho. fold (sack_pos to). rewrite Z2Nat.id; [reflexivity|]. apply Z.div_pos; lia.
      + do 2 eexists. split; [reflexivity|]. split; [exact H5|]. split; [reflexivity|].
        rewrite L5, flat_len, firstn_length. fold (sack_pos to).
        pose proof (Z.div_mod (40 - (Z.of_nat (sack_pos to) + 2)) 8 ltac:(lia)). pose proof (Z.mod_pos_bound (40 - (Z.of_nat (sack_pos to) + 2)) 8 ltac:(lia)).
        assert (0 <= (40 - (Z.of_nat (sack_pos to) + 2)) / 8) by (apply Z.div_pos; lia). lia.
    - unfold sack_fits in Ef. rewrite app_nil_r.
      edestruct (put_no al42 10 (sack_bytes bl) (before_sack to) _ _ Hc Hl) as [H5 L5].
      + apply andb_false_iff in Ef. unfold sack_pos in Ef. destruct (base_len to =? 40)%nat; [reflexivity|]. cbn [negb andb] in Ef. destruct Ef as [Ef|Ef]; [discriminate|]. rewrite Ef. reflexivity.
      + do 2 eexists. split; [reflexivity|]. split; [exact H5|]. split; [reflexivity|].
        rewrite L5, Eb. clear - Hb. simpl in Hb. repeat (destruct Hb as [<-|Hb]; [vm_compute; lia|]). contradiction. }
  destruct Hmain as (out & os & -> & Hco & -> & Hlo).
  split; [apply pad_closed, Hco|]. rewrite pad_len. split; [apply Hle; lia|apply Hpad].
Qed.

(* ---- round trip ---- *)
Definition w32 (v : Z) : Prop := 0 <= v < 4294967296.
Lemma be_b16 v : 0 <= v < 65536 -> be (b16 v) 0 = v.
Proof. intros H. unfold b16, be, u8. pose proof (Z.div_mod v 256 ltac:(lia)). rewrite (Z.mod_small (v / 256)); [lia|].
  split; [apply Z.div_pos; lia|apply Z.div_lt_upper_bound; lia]. Qed.
Lemma be_b32 v : w32 v -> be (b32 v) 0 = v.
Proof.
  unfold w32. intros H. unfold b32, be, u8.
  replace 16777216 with (256 * 256 * 256) by reflexivity. replace 65536 with (256 * 256) by reflexivity. rewrite <- !Z.div_div by lia.
  pose proof (Z.div_mod v 256 ltac:(lia)). pose proof (Z.div_mod (v / 256) 256 ltac:(lia)). pose proof (Z.div_mod (v / 256 / 256) 256 ltac:(lia)).
  rewrite (Z.mod_small (v / 256 / 256 / 256)); [lia|].
  rewrite !Z.div_div by lia. split; [apply Z.div_pos; lia|apply Z.div_lt_upper_bound; lia].
Qed.
Definition w32p (b : Z * Z) : Prop := w32 (fst b) /\ w32 (snd b).
Lemma blocks_flat : forall l, Forall w32p l -> blocks (flat_map blk_bytes l) = Some l.
Proof.
  induction 1 as [|[s e] l [Hs He] Hl IH]; [reflexivity|]. cbn [fst snd] in Hs, He.
  cbn [flat_map]. unfold blk_bytes at 1. cbn [fst snd]. rewrite <- (be_b32 s Hs) at 2. rewrite <- (be_b32 e He) at 2.
  unfold b32. cbn [app blocks]. rewrite IH. reflexivity.
Qed.
