(* Histories of IPv4 route operations (non-MTRIE build). *)
From Verif Require Import Base RadixModel RadixTree RadixGen RadixForest RadixSpec RadixRun RadixInst RadixInst4 RadixHist RadixProof.

Notation Good4 := (Good FreeRep4).

Definition op4 (nvrf : nat) (o : rop Z) : Prop :=
  match o with
  | Add v _ n _ => (v < nvrf)%nat /\ (1 <= n <= 32)%nat
  | Del v _ n => (v < nvrf)%nat /\ (n <= 32)%nat
  end.

Lemma Good_nth FreeRep N H s roots fs fl v : Good FreeRep N H s roots fs fl -> (v < length roots)%nat ->
  exists root t, nth_error fs v = Some (root, t) /\ nth_error roots v = Some (Some root).
Proof.
  intros (_ & -> & _) Hv. rewrite map_length in Hv. destruct (nth_error fs v) as [[root t]|] eqn:En.
  - exists root, t. split; [reflexivity|]. rewrite nth_error_map, En. reflexivity.
  - apply nth_error_None in En. lia.
Qed.

Lemma exec4_ok N s roots fs fl ts o :
  op4 (length roots) o -> Good4 N 32 s roots fs fl -> Rel ts fs ->
  exists s' r fs' fl' ts', exec4 s roots o = Ret (s', r) /\
    Good4 N 32 s' roots fs' fl' /\ Rel ts' fs' /\
    rstep u32_bits false ts o r ts' /\
    (r = NoMemory -> nalloc s' = nalloc s /\ fs' = fs /\
       match o with Add _ _ n _ => (length fl <= n)%nat | Del _ _ _ => False end).
Proof.
  intros Ho G R. destruct o as [v a n d|v a n]; destruct Ho as (Hv & Hn); cbn [exec4];
    destruct (Good_nth _ _ _ _ _ _ _ _ G Hv) as (root & t & N1 & N2); rewrite N2.
  - assert (Hlen : length (firstn n (u32_bits a)) = n) by (rewrite firstn_length, u32_bits_length; lia).
    destruct (add_step NODEALLOC4 NODEFREE4 FreeRep4 FR4_frame FR4_nil FR4_alloc FR4_free NODEFREE4_data
                true false N 32 s _ _ fl ts v root t _ u32_bits a n d G R N1 ltac:(lia))
      as (s' & r & fs' & fl' & ts' & E1 & G' & R' & S' & X').
    rewrite (insert4_eq s (Some root) a n d (s', r)); [|exact Hn|discriminate|exact E1].
    exists s', (ans r), fs', fl', ts'. cbn [obind]. split; [reflexivity|]. split; [exact G'|]. split; [exact R'|].
    split; [exact S'|]. intros Hr. destruct (X' Hr) as (X1 & X2 & X3). split; [exact X1|]. split; [exact X2|]. lia.
  - destruct (del_step NODEALLOC4 NODEFREE4 FreeRep4 FR4_frame FR4_nil FR4_alloc FR4_free NODEFREE4_data
                false N 32 s _ _ fl ts v root t _ u32_bits a n G R N1)
      as (s' & r & fs' & fl' & ts' & E1 & G' & R' & S').
    rewrite (remove4_eq a s (Some root) n) by exact Hn. rewrite E1. cbn [obind].
    eexists s', _, fs', fl', ts'. split; [reflexivity|]. split; [exact G'|]. split; [exact R'|].
    split; [exact S'|]. destruct r; discriminate.
Qed.

Lemma run4_ok N : forall ops s roots fs fl ts,
  Forall (op4 (length roots)) ops -> Good4 N 32 s roots fs fl -> Rel ts fs ->
  exists s' rs fs' fl' ts', run4 s roots ops = Ret (s', rs) /\
    Good4 N 32 s' roots fs' fl' /\ Rel ts' fs' /\ rsteps u32_bits false ts ops rs ts'.
Proof.
  induction ops as [|o ops IH]; intros s roots fs fl ts Ho G R.
  - exists s, [], fs, fl, ts. split; [reflexivity|]. split; [exact G|]. split; [exact R|constructor].
  - inversion Ho as [|? ? Ho1 Ho2]; subst.
    destruct (exec4_ok N s roots fs fl ts o Ho1 G R) as (s1 & r & t1 & fl1 & ts1 & E1 & G1 & R1 & S1 & _).
    destruct (IH s1 roots t1 fl1 ts1 Ho2 G1 R1) as (s2 & rs & t2 & fl2 & ts2 & E2 & G2 & R2 & S2).
    exists s2, (r :: rs), t2, fl2, ts2. cbn [run4]. rewrite E1. cbn [obind]. rewrite E2. cbn [obind].
    split; [reflexivity|]. split; [exact G2|]. split; [exact R2|]. econstructor; eassumption.
Qed.

Lemma lookup4_ok N s roots fs fl ts a fuel v :
  Good4 N 32 s roots fs fl -> Rel ts fs -> (v < length roots)%nat -> (33 <= fuel)%nat ->
  exists r, ofp_get_next_hop4 fuel s roots v a = Ret r /\ lpm (ts v) (u32_bits a) r.
Proof.
  intros G R Hv Hf. destruct (Good_nth _ _ _ _ _ _ _ _ G Hv) as (root & t & N1 & N2).
  unfold ofp_get_next_hop4. rewrite N2. destruct G as ((F1 & _) & _ & G3 & _).
  rewrite Forall_forall in F1, G3. assert (Hin := nth_error_In _ _ N1).
  specialize (F1 _ Hin). specialize (G3 _ Hin). cbn [fst snd] in *. destruct G3 as [_ Hh].
  destruct (search4_eq a (hp s) t (Some root) 0 [] None fuel F1 ltac:(lia) ltac:(cbn; lia) eq_refl) as (mt & E1 & E2).
  specialize (E2 ltac:(lia)). change (M4 0) with 2147483648 in E1. unfold ofp_rtl_search4. rewrite E1. cbn [obind].
  eexists. split; [reflexivity|]. rewrite <- E2. cbn [skipn].
  assert (Hvv := R v root t N1).
  destruct (best_lpm (u32_bits a) t None) as [(n & d & B1 & B2 & B3 & B4)|(B1 & B2)].
  - rewrite B3. cbn [lpm]. exists n. split; [exact B1|]. rewrite Hvv. split; [exact B2|].
    intros k Hk. rewrite Hvv. apply B4. exact Hk.
  - rewrite B1. cbn [lpm]. intros k Hk. rewrite Hvv. apply B2. exact Hk.
Qed.

Lemma init_roots_ok N : forall k s roots fs fl, Good4 N 32 s roots fs fl -> Rel no_tables fs -> (k <= length fl)%nat ->
  exists rs s' fs' fl', init_roots s k = (rs, s') /\ length rs = k /\
    Good4 N 32 s' (roots ++ rs) fs' fl' /\ Rel no_tables fs'.
Proof.
  induction k as [|k IH]; intros s roots fs fl G R Hk.
  - exists [], s, fs, fl. rewrite app_nil_r. auto.
  - destruct fl as [|p fl]; [cbn in Hk; lia|].
    destruct (root_init_ok NODEALLOC4 FreeRep4 FR4_frame FR4_alloc _ _ _ _ _ _ _ G) as (s1 & E1 & G1).
    assert (R1 : Rel no_tables (fs ++ [(p, T p None E E)])).
    { intros v root t Hv q. destruct (lt_dec v (length fs)) as [Hl|Hl].
      - rewrite nth_error_app1 in Hv by exact Hl. exact (R _ _ _ Hv q).
      - rewrite nth_error_app2 in Hv by lia. destruct (v - length fs)%nat as [|[|]]; try discriminate.
        injection Hv as <- <-. unfold no_tables, no_routes. destruct q as [|b q]; [reflexivity|].
        unfold val. cbn. destruct b; rewrite sub_E; reflexivity. }
    destruct (IH s1 _ _ _ G1 R1 ltac:(cbn in Hk; lia)) as (rs & s' & fs' & fl' & E2 & L2 & G2 & R2).
    exists (Some p :: rs), s', fs', fl'. cbn [init_roots]. rewrite E1, E2. split; [reflexivity|].
    split; [cbn; lia|]. rewrite <- app_assoc in G2. auto.
Qed.

Lemma hist4 N nvrf ops : (nvrf <= N)%nat -> Forall (op4 nvrf) ops ->
  exists s rs fs fl ts, run4 (snd (init4 N nvrf)) (fst (init4 N nvrf)) ops = Ret (s, rs) /\
    length (fst (init4 N nvrf)) = nvrf /\
    Good4 N 32 s (fst (init4 N nvrf)) fs fl /\ Rel ts fs /\ rsteps u32_bits false no_tables ops rs ts.
Proof.
  intros HN Ho. unfold init4.
  assert (R0 : Rel no_tables []) by (intros v root t Hv; destruct v; discriminate).
  destruct (init_roots_ok N nvrf (init_pool N) [] [] (seq 0 N) (Good_init4 N 32) R0) as (rs0 & s0 & fs0 & fl0 & E0 & L0 & G0 & R1).
  { rewrite seq_length. exact HN. }
  rewrite E0. cbn [fst snd app] in *. rewrite <- L0 in Ho.
  destruct (run4_ok N ops s0 rs0 fs0 fl0 no_tables Ho G0 R1) as (s & rs & fs & fl & ts & H1 & H2 & H3 & H4).
  exists s, rs, fs, fl, ts. auto.
Qed.

Lemma route4_history N nvrf ops : (nvrf <= N)%nat -> Forall (op4 nvrf) ops ->
  exists s rs ts, run4 (snd (init4 N nvrf)) (fst (init4 N nvrf)) ops = Ret (s, rs) /\
    rsteps u32_bits false no_tables ops rs ts /\
    forall v a fuel, (v < nvrf)%nat -> (33 <= fuel)%nat ->
    exists r, ofp_get_next_hop4 fuel s (fst (init4 N nvrf)) v a = Ret r /\ lpm (ts v) (u32_bits a) r.
Proof.
  intros HN Ho. destruct (hist4 N nvrf ops HN Ho) as (s & rs & fs & fl & ts & H1 & H2 & H3 & H4 & H5).
  exists s, rs, ts. split; [exact H1|]. split; [exact H5|]. intros v a fuel Hv Hf.
  eapply lookup4_ok; try eassumption. rewrite H2. exact Hv.
Qed.

Lemma route4_failed_add N nvrf ops v m n nh s rs s' :
  (nvrf <= N)%nat -> Forall (op4 nvrf) ops -> op4 nvrf (Add v m n nh) ->
  run4 (snd (init4 N nvrf)) (fst (init4 N nvrf)) ops = Ret (s, rs) ->
  exec4 s (fst (init4 N nvrf)) (Add v m n nh) = Ret (s', NoMemory) ->
  nalloc s' = nalloc s /\
  (forall vrf a fuel, (vrf < nvrf)%nat -> (33 <= fuel)%nat ->
     ofp_get_next_hop4 fuel s' (fst (init4 N nvrf)) vrf a = ofp_get_next_hop4 fuel s (fst (init4 N nvrf)) vrf a) /\
  Z.of_nat N - nalloc s <= Z.of_nat n.
Proof.
  intros HN Ho Ha Hrun Hex.
  destruct (hist4 N nvrf ops HN Ho) as (s0 & rs0 & fs & fl & ts & H1 & H2 & H3 & H4 & H5).
  rewrite Hrun in H1. injection H1 as <- <-. rewrite <- H2 in Ha.
  destruct (exec4_ok N s _ fs fl ts _ Ha H3 H4) as (s1 & r & fs1 & fl1 & ts1 & E1 & G1 & R1 & S1 & X1).
  rewrite Hex in E1. injection E1 as <- <-. destruct (X1 eq_refl) as (X2 & -> & X3).
  split; [exact X2|]. split.
  - intros vrf a fuel Hb Hf. rewrite <- H2 in Hb.
    destruct (lookup4_ok N s _ fs fl ts a fuel vrf H3 H4 Hb Hf) as (r1 & L1 & L2).
    destruct (lookup4_ok N s' _ fs fl1 ts a fuel vrf G1 H4 Hb Hf) as (r2 & L3 & L4).
    rewrite L1, L3. f_equal. eapply lpm_unique; eassumption.
  - assert (Hl := fnodes_len _ _ _ _ _ _ _ H3). destruct H3 as ((_ & _ & _ & Hna) & _). lia.
Qed.

Lemma fnodes_bound ts (L : nat -> list (list bool)) : forall fs k,
  Forall (fun rt => rtrim (snd rt)) fs ->
  (forall v root t, nth_error fs v = Some (root, t) -> forall q, ts (k + v)%nat q = val t q) ->
  (forall v q, (k <= v < k + length fs)%nat -> ts v q <> None -> In q (L v)) ->
  (length (fnodes fs) <= length fs + list_sum (map (fun v => sumlen (L v)) (seq k (length fs))))%nat.
Proof.
  induction fs as [|[r t] fs IH]; intros k Ht Hr HL; [cbn; lia|].
  inversion Ht as [|? ? Ht1 Ht2]; subst. cbn [fnodes flat_map snd length seq map list_sum fold_right] in *.
  rewrite app_length.
  assert (H1 : (length (addrs t) <= 1 + sumlen (L k))%nat).
  { apply rtrim_size; [exact Ht1|]. intros q Hq. apply HL; [lia|].
    assert (X := Hr 0%nat r t eq_refl q). rewrite Nat.add_0_r in X. rewrite X. exact Hq. }
  assert (H2 : (length (fnodes fs) <= length fs + list_sum (map (fun v => sumlen (L v)) (seq (S k) (length fs))))%nat).
  { apply IH; [exact Ht2| |].
    - intros v root t0 Hv q. replace (S k + v)%nat with (k + S v)%nat by lia. exact (Hr (S v) root t0 Hv q).
    - intros v q Hv Hq. apply HL; [lia|exact Hq]. }
  unfold fnodes, list_sum in *. lia.
Qed.

Lemma route4_add_succeeds N nvrf ops v m n nh s rs ts (L : nat -> list (list bool)) :
  (nvrf <= N)%nat -> Forall (op4 nvrf) ops -> op4 nvrf (Add v m n nh) ->
  run4 (snd (init4 N nvrf)) (fst (init4 N nvrf)) ops = Ret (s, rs) ->
  rsteps u32_bits false no_tables ops rs ts ->
  (forall w q, (w < nvrf)%nat -> ts w q <> None -> In q (L w)) ->
  (nvrf + list_sum (map (fun w => sumlen (L w)) (seq 0 nvrf)) + n < N)%nat ->
  exists s', exec4 s (fst (init4 N nvrf)) (Add v m n nh) = Ret (s', Added).
Proof.
  intros HN Ho Ha Hrun Hst HL Hsz.
  destruct (hist4 N nvrf ops HN Ho) as (s0 & rs0 & fs & fl & ts0 & H1 & H2 & H3 & H4 & H5).
  rewrite Hrun in H1. injection H1 as <- <-. rewrite <- H2 in Ha.
  assert (ts = ts0) by (eapply rsteps_det; eassumption). subst ts0.
  destruct (exec4_ok N s _ fs fl ts _ Ha H3 H4) as (s1 & r & fs1 & fl1 & ts1 & E1 & G1 & R1 & S1 & X1).
  exists s1. rewrite E1. do 2 f_equal.
  assert (Hr : r = Added \/ r = NoMemory) by (inversion S1; auto; discriminate).
  destruct Hr as [->| ->]; [reflexivity|]. exfalso. destruct (X1 eq_refl) as (_ & _ & X3).
  assert (Hl := fnodes_len _ _ _ _ _ _ _ H3).
  assert (Hfs : length fs = length (fst (init4 N (length (fst (init4 N nvrf)))))).
  { rewrite H2. destruct H3 as (_ & -> & _). rewrite map_length. reflexivity. }
  rewrite H2 in Hfs. rewrite H2 in Hfs.
  assert (Hb := fnodes_bound ts L fs 0). rewrite Hfs in Hb.
  assert (length (fnodes fs) <= nvrf + list_sum (map (fun w => sumlen (L w)) (seq 0 nvrf)))%nat; [|lia].
  apply Hb.
  - destruct H3 as (_ & _ & G3 & _). eapply Forall_impl; [|exact G3]. intros x [Hx _]. exact Hx.
  - exact H4.
  - intros w q Hw. apply HL. lia.
Qed.

Lemma route4_pool N nvrf ops s rs : (nvrf <= N)%nat -> Forall (op4 nvrf) ops ->
  run4 (snd (init4 N nvrf)) (fst (init4 N nvrf)) ops = Ret (s, rs) ->
  exists live free, Permutation (live ++ free) (seq 0 N) /\
    (forall q, (exists v root, nth_error (fst (init4 N nvrf)) v = Some root /\ reach (hp s) root q) <-> In q live) /\
    flist (hp s) (ffirst s) free /\ nalloc s = Z.of_nat (length live) /\
    (forall ts, rsteps u32_bits false no_tables ops rs ts ->
       (forall v q, (v < nvrf)%nat -> ts v q = None) -> length live = nvrf).
Proof.
  intros HN Ho Hrun.
  destruct (hist4 N nvrf ops HN Ho) as (s0 & rs0 & fs & fl & ts & H1 & H2 & H3 & H4 & H5).
  rewrite Hrun in H1. injection H1 as <- <-.
  exists (fnodes fs), fl. assert (H3' := H3). destruct H3 as ((F1 & F2 & F3 & F4) & G2 & G3 & G4).
  split; [exact G4|]. split.
  - intros q. split.
    + intros (v & root & Hv & Hr). rewrite G2, nth_error_map in Hv.
      destruct (nth_error fs v) as [[r t]|] eqn:En; [|discriminate]. injection Hv as <-.
      cbn [fst] in Hr. apply (Good_reach _ _ _ _ _ _ _ _ _ _ H3' En) in Hr.
      apply in_flat_map. exists (r, t). split; [eapply nth_error_In; exact En|exact Hr].
    + intros Hq. apply in_flat_map in Hq. destruct Hq as ([r t] & Hin & Hq).
      apply In_nth_error in Hin. destruct Hin as (v & Hv). exists v, (Some r).
      rewrite G2, nth_error_map, Hv. split; [reflexivity|]. eapply Good_reach; eassumption.
  - split; [exact (proj1 F2)|]. split; [exact F4|].
    intros ts' Hst Hno. assert (ts' = ts) by (eapply rsteps_det; eassumption). subst ts'.
    assert (Hlen : length fs = nvrf) by (rewrite <- H2, G2, map_length; reflexivity).
    assert (Hone : forall v root t, nth_error fs v = Some (root, t) -> addrs t = [root]).
    { intros v root t Hv. assert (Hvl : (v < nvrf)%nat) by (rewrite <- Hlen; apply nth_error_Some; congruence).
      assert (Hin := nth_error_In _ _ Hv). rewrite Forall_forall in F1, G3.
      specialize (F1 _ Hin). specialize (G3 _ Hin). cbn [fst snd] in *. destruct G3 as [Gt _].
      assert (Hvv := H4 v root t Hv).
      destruct t as [|p x l r]; [discriminate F1|]. cbn in F1. destruct F1 as (Fr & _). injection Fr as <-.
      cbn in Gt. destruct Gt as [Gl Gr].
      assert (l = E) by (apply trim_no_val; [exact Gl|intros q; rewrite <- (Hno v (false :: q) Hvl), Hvv; reflexivity]).
      assert (r = E) by (apply trim_no_val; [exact Gr|intros q; rewrite <- (Hno v (true :: q) Hvl), Hvv; reflexivity]).
      subst. reflexivity. }
    rewrite <- Hlen. clear -Hone. induction fs as [|[r t] fs IH]; [reflexivity|].
    unfold fnodes in *. cbn [flat_map snd]. rewrite app_length. rewrite (Hone 0%nat r t eq_refl). cbn [length].
    rewrite IH; [reflexivity|]. intros v root t0 Hv. exact (Hone (S v) root t0 Hv).
Qed.

(* an operation on one VRF does not change what another VRF resolves *)
Lemma route4_vrf_isolation N nvrf ops o s rs s' r w :
  (nvrf <= N)%nat -> Forall (op4 nvrf) ops -> op4 nvrf o ->
  run4 (snd (init4 N nvrf)) (fst (init4 N nvrf)) ops = Ret (s, rs) ->
  exec4 s (fst (init4 N nvrf)) o = Ret (s', r) ->
  (w < nvrf)%nat -> w <> (match o with Add v _ _ _ => v | Del v _ _ => v end) ->
  forall a fuel, (33 <= fuel)%nat ->
     ofp_get_next_hop4 fuel s' (fst (init4 N nvrf)) w a = ofp_get_next_hop4 fuel s (fst (init4 N nvrf)) w a.
Proof.
  intros HN Ho Ha Hrun Hex Hw Hne a fuel Hf.
  destruct (hist4 N nvrf ops HN Ho) as (s0 & rs0 & fs & fl & ts & H1 & H2 & H3 & H4 & H5).
  rewrite Hrun in H1. injection H1 as <- <-. rewrite <- H2 in Ha, Hw.
  destruct (exec4_ok N s _ fs fl ts _ Ha H3 H4) as (s1 & r1 & fs1 & fl1 & ts1 & E1 & G1 & R1 & S1 & _).
  rewrite Hex in E1. injection E1 as <- <-.
  destruct (lookup4_ok N s _ fs fl ts a fuel w H3 H4 Hw Hf) as (x & L1 & L2).
  destruct (lookup4_ok N s' _ fs1 fl1 ts1 a fuel w G1 R1 Hw Hf) as (y & L3 & L4).
  rewrite L1, L3. f_equal. eapply lpm_unique; [exact L4|].
  assert (Et : ts1 w = ts w).
  { inversion S1; subst; try reflexivity; unfold set_table;
      (match goal with |- (if ?c then _ else _) = _ => destruct c eqn:Ec; [apply Nat.eqb_eq in Ec; congruence|reflexivity] end). }
  rewrite Et. exact L2.
Qed.
