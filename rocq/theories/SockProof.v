From Verif Require Import Base SockModel SockSpec.
Ltac Zify.zify_post_hook ::= idtac.

Lemma LEN64 : SOCKBUF_LEN = 64%nat. Proof. reflexivity. Qed.
Global Opaque SOCKBUF_LEN.
Lemma bump_lt i : (i < 64)%nat -> (bump i < 64)%nat.
Proof. intros H. unfold bump. rewrite LEN64. destruct (Nat.leb_spec 64 (i + 1)); lia. Qed.
Fixpoint steps (n i : nat) : nat := match n with O => i | S n => steps n (bump i) end.
Lemma steps_closed n : forall i, (i < 64)%nat -> (n <= 64)%nat -> steps n i = if (i + n <? 64)%nat then (i + n)%nat else (i + n - 64)%nat.
Proof.
  induction n as [|n IH]; intros i Hi Hn; cbn [steps].
  - destruct (Nat.ltb_spec (i + 0) 64); lia.
  - rewrite IH by (try apply bump_lt; lia). unfold bump. rewrite LEN64. destruct (Nat.leb_spec 64 (i + 1)).
    + assert (i = 63%nat) by lia. subst i. destruct (Nat.ltb_spec (0 + n) 64), (Nat.ltb_spec (63 + S n) 64); lia.
    + destruct (Nat.ltb_spec (i + 1 + n) 64), (Nat.ltb_spec (i + S n) 64); lia.
Qed.
Lemma steps_lt n i : (i < 64)%nat -> (steps n i < 64)%nat.
Proof. revert i. induction n as [|n IH]; intros i H; cbn [steps]; [exact H|]. apply IH, bump_lt, H. Qed.
Lemma steps_inj n1 n2 i : (i < 64)%nat -> (n1 < 64)%nat -> (n2 < 64)%nat -> steps n1 i = steps n2 i -> n1 = n2.
Proof. intros H1 H2 H3. rewrite !steps_closed by lia. destruct (Nat.ltb_spec (i + n1) 64), (Nat.ltb_spec (i + n2) 64); lia. Qed.
Lemma steps_S n i : steps (S n) i = bump (steps n i).
Proof. revert i. induction n as [|n IH]; intros i; [reflexivity|]. cbn [steps] in *. apply IH. Qed.
Lemma steps_add a b i : steps (a + b) i = steps b (steps a i).
Proof. revert i. induction a as [|a IH]; intros i; [reflexivity|]. cbn [steps Nat.add]. apply IH. Qed.

Fixpoint seg (mb : nat -> pkt) (i : nat) (l : list pkt) : Prop := match l with [] => True | m :: r => mb i = m /\ seg mb (bump i) r end.
Lemma seg_app mb l2 : forall l1 i, seg mb i (l1 ++ l2) <-> seg mb i l1 /\ seg mb (steps (length l1) i) l2.
Proof. induction l1 as [|m l1 IH]; intros i; cbn [app seg length steps]; [tauto|]. rewrite IH. tauto. Qed.
Lemma seg_upd mb p m : forall l i, (forall j, (j < length l)%nat -> steps j i <> p) -> seg mb i l -> seg (upd_mb mb p m) i l.
Proof.
  induction l as [|x l IH]; intros i H S; cbn [seg] in *; [exact I|]. destruct S as (S1 & S2). split.
  - unfold upd_mb. destruct (Nat.eqb_spec i p) as [->|]; [|exact S1]. exfalso. apply (H 0%nat); [cbn [length]; lia|reflexivity].
  - apply IH; [|exact S2]. intros j Hj. apply (H (S j)). cbn [length]. lia.
Qed.

Lemma bytes_app a b : bytes (a ++ b) = bytes a ++ bytes b.
Proof. unfold bytes. rewrite map_app, concat_app. reflexivity. Qed.
Lemma bytes_cons m l : bytes (m :: l) = pk_data m ++ bytes l.
Proof. reflexivity. Qed.
Notation small := (fun m => Z.of_nat (length (pk_data m)) <= 65535).
Lemma bytes_bound l : Forall small l -> (Z.of_nat (length (bytes l)) <= 65535 * Z.of_nat (length l)).
Proof. induction 1 as [|m l H F IH]; [cbn; lia|]. rewrite bytes_cons, app_length. cbn [length]. lia. Qed.

(* the buffer holds exactly the packets l, in this order *)
Record Q (sb : sbuf) (l : list pkt) : Prop := {
  q_get : (sb_get sb < 64)%nat;
  q_len : (length l <= 63)%nat;
  q_put : sb_put sb = steps (length l) (sb_get sb);
  q_seg : seg (sb_mb sb) (sb_get sb) l;
  q_cc : sb_cc sb = Z.of_nat (length (bytes l));
  q_small : Forall small l
}.
Lemma Q_empty : Q sb_empty [].
Proof. constructor; cbn; try lia; auto. Qed.
Lemma Q_put_lt sb l : Q sb l -> (sb_put sb < 64)%nat.
Proof. intros H. rewrite (q_put _ _ H). apply steps_lt, (q_get _ _ H). Qed.
Lemma Q_full sb l : Q sb l -> Nat.eqb (bump (sb_put sb)) (sb_get sb) = negb (length l <? ROOM)%nat.
Proof.
  intros H. assert (G := q_get _ _ H). assert (LN := q_len _ _ H). rewrite (q_put _ _ H), <- steps_S. unfold ROOM. rewrite steps_closed by lia.
  destruct (Nat.ltb_spec (length l) 63) as [LT|GE]; cbn [negb].
  - apply Nat.eqb_neq. destruct (Nat.ltb_spec (sb_get sb + S (length l)) 64); lia.
  - apply Nat.eqb_eq. destruct (Nat.ltb_spec (sb_get sb + S (length l)) 64); lia.
Qed.
Lemma Q_nil sb l : Q sb l -> Nat.eqb (sb_get sb) (sb_put sb) = match l with [] => true | _ => false end.
Proof.
  intros H. assert (G := q_get _ _ H). assert (LN := q_len _ _ H). rewrite (q_put _ _ H). destruct l as [|m l].
  - apply Nat.eqb_refl.
  - apply Nat.eqb_neq. intros E. assert (X := steps_inj 0 (length (m :: l)) (sb_get sb) G ltac:(lia) ltac:(lia) E). discriminate.
Qed.
Lemma u32_small x : 0 <= x < 4294967296 -> u32 x = x.
Proof. intros H. unfold u32. apply Z.mod_small. exact H. Qed.

Lemma Q_push sb l m : Q sb l -> small m -> (length l < 63)%nat ->
  Q (mkSb (upd_mb (sb_mb sb) (sb_put sb) m) (bump (sb_put sb)) (sb_get sb) (u32 (sb_cc sb + plen m))) (l ++ [m]).
Proof.
  intros H SM LT. destruct H as [G LN PU SG CC F]. constructor; cbn [sb_mb sb_put sb_get sb_cc].
  - exact G.
  - rewrite app_length. cbn [length]. lia.
  - rewrite PU, app_length, Nat.add_1_r, steps_S. reflexivity.
  - apply seg_app. split; [apply seg_upd; [|exact SG]|].
    + intros j Hj E. rewrite PU in E. apply steps_inj in E; lia.
    + rewrite <- PU. cbn [seg]. split; [|exact I]. unfold upd_mb. rewrite Nat.eqb_refl. reflexivity.
  - cbv beta in SM. assert (B := bytes_bound _ F). rewrite CC, bytes_app, app_length. unfold plen. rewrite bytes_cons, app_length. cbn [bytes map concat length]. rewrite u32_small; lia.
  - apply Forall_app. split; [exact F|]. constructor; [exact SM|constructor].
Qed.
Lemma put_last_ok takes sb l m : Q sb l -> small m ->
  exists sb' f, put_last takes sb m = (sb', f) /\ Q sb' (fst (bspec takes 0 l (BPut m))) /\ BFate f = snd (bspec takes 0 l (BPut m)).
Proof.
  intros H SM. unfold put_last, bspec. destruct (takes m); [eexists _, _; split; [reflexivity|]; split; [exact H|reflexivity]|].
  rewrite (Q_full _ _ H). unfold ROOM. destruct (Nat.ltb_spec (length l) 63); cbn [negb]; eexists _, _; (split; [reflexivity|]); cbn [fst snd]; (split; [|reflexivity]).
  - apply Q_push; assumption.
  - exact H.
Qed.
Lemma append_addr_ok sb l m : Q sb l -> small m ->
  exists sb' f, append_addr sb m = (sb', f) /\ Q sb' (fst (bspec (fun _ => false) 0 l (BAppend m))) /\ BRc f = snd (bspec (fun _ => false) 0 l (BAppend m)).
Proof.
  intros H SM. unfold append_addr, bspec.
  rewrite (Q_full _ _ H). unfold ROOM. destruct (Nat.ltb_spec (length l) 63); cbn [negb]; eexists _, _; (split; [reflexivity|]); cbn [fst snd]; (split; [|reflexivity]).
  - apply Q_push; assumption.
  - exact H.
Qed.
Lemma get_first_ok sb l : Q sb l -> get_first sb = hd_error l.
Proof. intros H. unfold get_first. rewrite (Q_nil _ _ H). destruct l as [|m l]; [reflexivity|]. assert (S := q_seg _ _ H). cbn [seg] in S. destruct S as (-> & _). reflexivity. Qed.
Lemma Q_pop sb m l : Q sb (m :: l) -> Q (mkSb (sb_mb sb) (sb_put sb) (bump (sb_get sb)) (u32 (sb_cc sb - plen m))) l.
Proof.
  intros H. destruct H as [G LN PU SG CC F]. cbn [seg length] in *. inversion F; subst. constructor; cbn [sb_mb sb_put sb_get sb_cc].
  - apply bump_lt, G.
  - lia.
  - exact PU.
  - apply SG.
  - assert (B := bytes_bound _ F). cbn [length] in B. rewrite CC, bytes_cons, app_length in *. unfold plen. rewrite u32_small; lia.
  - assumption.
Qed.
Lemma remove_first_free sb m l : Q sb (m :: l) -> exists sb', remove_first sb = (sb', Some m) /\ Q (sbfree sb' m) l.
Proof.
  intros H. unfold remove_first. rewrite (Q_nil _ _ H). assert (S := q_seg _ _ H). cbn [seg] in S. destruct S as (E & _). rewrite E.
  eexists. split; [reflexivity|]. unfold sbfree. cbn [sb_mb sb_put sb_get sb_cc]. exact (Q_pop _ _ _ H).
Qed.
Lemma free_remove_first sb m l : Q sb (m :: l) -> Q (fst (remove_first (sbfree sb m))) l.
Proof.
  intros H. unfold remove_first, sbfree. cbn [sb_mb sb_put sb_get sb_cc]. rewrite (Q_nil _ _ H). cbn [fst]. exact (Q_pop _ _ _ H).
Qed.
Lemma Q_pull sb m l n : Q sb (m :: l) -> 0 <= n <= plen m ->
  Q (mkSb (upd_mb (sb_mb sb) (sb_get sb) (pull_head m n)) (sb_put sb) (sb_get sb) (u32 (sb_cc sb - n))) (pull_head m n :: l).
Proof.
  intros H Hn. destruct H as [G LN PU SG CC F]. cbn [seg length] in *. inversion F as [|x y F1 F2]; subst. constructor; cbn [sb_mb sb_put sb_get sb_cc length].
  - exact G.
  - lia.
  - exact PU.
  - cbn [seg]. split; [unfold upd_mb; rewrite Nat.eqb_refl; reflexivity|]. apply seg_upd; [|apply SG]. intros j Hj E. change (steps (S j) (sb_get sb) = steps 0 (sb_get sb)) in E. apply steps_inj in E; lia.
  - assert (B := bytes_bound _ F). cbn [length] in B. rewrite CC. rewrite !bytes_cons, !app_length in *. unfold pull_head, plen in *. cbn [pk_data]. rewrite skipn_length, u32_small; lia.
  - constructor; [|exact F2]. unfold pull_head. cbn [pk_data]. rewrite skipn_length. lia.
Qed.
Lemma sbdrop_ok : forall l sb n fuel, Q sb l -> (length l < fuel)%nat -> exists sb' fr, sbdrop fuel sb n = Ret (sb', fr) /\ Q sb' (drop_bytes n l).
Proof.
  induction l as [|m l IH]; intros sb n fuel H HF; (destruct fuel as [|fuel]; [cbn [length] in HF; lia|]); cbn [sbdrop drop_bytes].
  - rewrite (get_first_ok _ _ H). cbn [hd_error]. destruct (n <=? 0); eexists _, _; (split; [reflexivity|exact H]).
  - rewrite (get_first_ok _ _ H). cbn [hd_error]. destruct (n <=? 0) eqn:E0; [eexists _, _; (split; [reflexivity|exact H])|]. apply Z.leb_gt in E0.
    destruct (plen m >? n) eqn:E1.
    + apply Z.gtb_lt in E1. replace (plen m <=? n) with false by (symmetry; apply Z.leb_gt; lia). eexists _, _. split; [reflexivity|]. apply Q_pull; [exact H|lia].
    + assert (plen m <= n) by (rewrite Z.gtb_ltb in E1; apply Z.ltb_ge in E1; lia). replace (plen m <=? n) with true by (symmetry; apply Z.leb_le; lia).
      destruct (remove_first_free _ _ _ H) as (sb1 & -> & H1). cbn [length] in HF. destruct (IH _ (n - plen m) fuel H1 ltac:(lia)) as (sb2 & fr & -> & H2). cbn [obind].
      eexists _, _. split; [reflexivity|exact H2].
Qed.
Lemma drop_bytes_stream l : forall n, bytes (drop_bytes n l) = skipn (Z.to_nat n) (bytes l).
Proof.
  induction l as [|m l IH]; intros n; cbn [drop_bytes]; [rewrite skipn_nil; reflexivity|].
  destruct (n <=? 0) eqn:E0; [apply Z.leb_le in E0; replace (Z.to_nat n) with 0%nat by lia; reflexivity|]. apply Z.leb_gt in E0.
  rewrite bytes_cons, skipn_app. unfold plen in *. destruct (Z.of_nat (length (pk_data m)) <=? n) eqn:E1.
  - apply Z.leb_le in E1. rewrite IH, (skipn_all2 (pk_data m)) by lia. cbn [app]. f_equal. lia.
  - apply Z.leb_gt in E1. rewrite bytes_cons. unfold pull_head. cbn [pk_data]. replace (Z.to_nat n - length (pk_data m))%nat with 0%nat by lia. reflexivity.
Qed.

(* copy_out *)
Lemma skip_loop_ok sb : forall l i off fuel, seg (sb_mb sb) i l -> sb_put sb = steps (length l) i -> (i < 64)%nat -> (length l < 64)%nat -> (length l < fuel)%nat -> 0 <= off ->
  exists j off' l', skip_loop fuel sb i off = Ret (j, off') /\ seg (sb_mb sb) j l' /\ sb_put sb = steps (length l') j /\ (j < 64)%nat /\ (length l' <= length l)%nat /\
    (match l' with [] => True | m :: _ => 0 <= off' < plen m end) /\ skipn (Z.to_nat off) (bytes l) = skipn (Z.to_nat off') (bytes l').
Proof.
  induction l as [|m l IH]; intros i off fuel SG PU I64 L64 HF HO; (destruct fuel as [|fuel]; [cbn [length] in HF; lia|]); cbn [skip_loop].
  - cbn [length steps] in PU. rewrite PU, Nat.eqb_refl. exists i, off, []. repeat split; try assumption; try reflexivity.
  - assert (NE : Nat.eqb i (sb_put sb) = false).
    { apply Nat.eqb_neq. intros E. rewrite PU in E. apply (steps_inj 0 (length (m :: l)) i I64) in E; [discriminate|lia|lia]. }
    rewrite NE. cbn [seg] in SG. destruct SG as (E & SG). rewrite E. destruct (plen m <=? off) eqn:C; [apply Z.leb_le in C|apply Z.leb_gt in C].
    + cbn [length] in *. assert (0 <= plen m) by (unfold plen; lia). destruct (IH (bump i) (off - plen m) fuel SG PU (bump_lt _ I64) ltac:(lia) ltac:(lia) ltac:(lia)) as (j & o & l' & -> & A1 & A2 & A3 & A4 & A5 & A6).
      exists j, o, l'. repeat split; try assumption; [lia|]. rewrite bytes_cons, skipn_app. unfold plen in *. rewrite skipn_all2 by lia. cbn [app]. rewrite <- A6. f_equal. lia.
    + exists i, off, (m :: l). repeat split; try assumption; try lia; try reflexivity.
Qed.
Lemma copy_loop_ok sb : forall l i off len fuel, seg (sb_mb sb) i l -> sb_put sb = steps (length l) i -> (i < 64)%nat -> (length l < 64)%nat -> (length l < fuel)%nat -> 0 <= len ->
  (match l with [] => True | m :: _ => 0 <= off <= plen m end) ->
  copy_loop fuel sb i off len = Ret (firstn (Z.to_nat len) (skipn (Z.to_nat off) (bytes l))).
Proof.
  induction l as [|m l IH]; intros i off len fuel SG PU I64 L64 HF HL HO; (destruct fuel as [|fuel]; [cbn [length] in HF; lia|]); cbn [copy_loop].
  - cbn [length steps] in PU. rewrite PU, Nat.eqb_refl, orb_true_r. cbn [bytes map concat]. rewrite skipn_nil, firstn_nil. reflexivity.
  - assert (NE : Nat.eqb i (sb_put sb) = false).
    { apply Nat.eqb_neq. intros E. rewrite PU in E. apply (steps_inj 0 (length (m :: l)) i I64) in E; [discriminate|lia|lia]. }
    rewrite NE, orb_false_r. destruct (len =? 0) eqn:E0; [apply Z.eqb_eq in E0; subst len; reflexivity|]. apply Z.eqb_neq in E0.
    cbn [seg] in SG. destruct SG as (E & SG). rewrite E. set (pl := if len <? plen m - off then len else plen m - off).
    assert (HP : 0 <= pl /\ off + pl <= plen m /\ pl <= len) by (unfold pl; destruct (Z.ltb_spec len (plen m - off)); lia).
    unfold copy_to_mem. replace (off + pl <=? plen m) with true by (symmetry; apply Z.leb_le; lia). replace (0 <=? off) with true by (symmetry; apply Z.leb_le; lia). replace (0 <=? pl) with true by (symmetry; apply Z.leb_le; lia). cbn [andb].
    cbn [length] in *. rewrite (IH (bump i) 0 (len - pl) fuel SG PU (bump_lt _ I64) ltac:(lia) ltac:(lia) ltac:(lia)); [|destruct l; [exact I|unfold plen; lia]]. cbn [obind]. f_equal.
    rewrite bytes_cons, skipn_app. change (skipn (Z.to_nat 0) (bytes l)) with (bytes l). unfold plen in *. replace (Z.to_nat off - length (pk_data m))%nat with 0%nat by lia.
    cbn [skipn]. rewrite firstn_app, skipn_length. unfold pl. destruct (Z.ltb_spec len (Z.of_nat (length (pk_data m)) - off)).
    + replace (Z.to_nat (len - len)) with 0%nat by lia. replace (Z.to_nat len - (length (pk_data m) - Z.to_nat off))%nat with 0%nat by lia. reflexivity.
    + f_equal; [|f_equal; lia]. rewrite !firstn_all2 by (rewrite skipn_length; lia). reflexivity.
Qed.
Lemma copy_out_ok sb l off len fuel : Q sb l -> (length l < fuel)%nat -> 0 <= off -> 0 <= len -> copy_out fuel sb off len = Ret (firstn (Z.to_nat len) (skipn (Z.to_nat off) (bytes l))).
Proof.
  intros H HF HO HL. unfold copy_out. pose proof (q_len _ _ H).
  destruct (skip_loop_ok sb l (sb_get sb) off fuel (q_seg _ _ H) (q_put _ _ H) (q_get _ _ H) ltac:(lia) HF HO) as (j & o & l' & -> & A1 & A2 & A3 & A4 & A5 & A6). cbn [obind].
  rewrite A6. apply copy_loop_ok; try assumption; try lia. destruct l'; [exact I|lia].
Qed.
Lemma sbspace_ok bs sb l : Q sb l -> sbspace bs sb = bs * (63 - Z.of_nat (length l)).
Proof.
  intros H. unfold sbspace. rewrite LEN64. f_equal. assert (G := q_get _ _ H). assert (LN := q_len _ _ H). assert (PU := q_put _ _ H). rewrite steps_closed in PU by lia.
  rewrite PU. destruct (Nat.ltb_spec (sb_get sb + length l) 64); destruct (Nat.leb_spec (sb_get sb) (sb_get sb + length l)); destruct (Nat.leb_spec (sb_get sb) (sb_get sb + length l - 64)); lia.
Qed.
Lemma sbdroprecord_ok sb l : Q sb l -> Q (fst (sbdroprecord sb)) (tl l).
Proof.
  intros H. unfold sbdroprecord. destruct l as [|m l].
  - unfold remove_first. rewrite (Q_nil _ _ H). exact H.
  - destruct (remove_first_free _ _ _ H) as (sb1 & -> & H1). exact H1.
Qed.
