(* Histories of route operations: IPv6 and IPv4 (non-MTRIE). *)
From Verif Require Import Base RadixModel RadixTree RadixGen RadixForest RadixSpec RadixRun RadixInst RadixInst4 RadixHist.

Section RootInit.
Variable alloc : pool -> option nat * pool.
Variable FreeRep : pool -> list nat -> Prop.
Hypothesis FR_frame : forall s fl h, FreeRep s fl -> (forall q, In q fl -> h q = hp s q) ->
  FreeRep (set_hp s h) fl.
Hypothesis FR_alloc : forall s p fl, FreeRep s (p :: fl) -> NoDup (p :: fl) ->
  exists s', alloc s = (Some p, s') /\ FreeRep s' fl /\
    (forall q, ~ In q (p :: fl) -> hp s' q = hp s q) /\ nalloc s' = nalloc s + 1.

Lemma root_init_ok N H s roots fs p fl :
  Good FreeRep N H s roots fs (p :: fl) ->
  exists s', root_init alloc s = (Some p, s') /\
    Good FreeRep N H s' (roots ++ [Some p]) (fs ++ [(p, T p None E E)]) fl.
Proof.
  intros ((F1 & F2 & F3 & F4) & G2 & G3 & G4).
  assert (F3' := F3). apply NoDup_app_iff in F3'. destruct F3' as (N1 & N2 & N3).
  destruct (FR_alloc s p fl F2 N2) as (s1 & Ea & A1 & A2 & A3).
  unfold root_init. rewrite Ea. eexists. split; [reflexivity|].
  assert (Hp : ~ In p fl) by (apply NoDup_cons_iff in N2; tauto).
  assert (Hn : fnodes (fs ++ [(p, T p None E E)]) = fnodes fs ++ [p]).
  { unfold fnodes. rewrite flat_map_app. reflexivity. }
  assert (PP : Permutation ((fnodes fs ++ [p]) ++ fl) (fnodes fs ++ p :: fl)) by (rewrite <- app_assoc; reflexivity).
  split; [|split; [rewrite G2, map_app; reflexivity|split]].
  - split; [|split; [|split]].
    + apply Forall_app. split.
      * rewrite Forall_forall in *. intros rt Hrt. cbn [set_hp hp].
        assert (Hin : forall q, In q (addrs (snd rt)) -> In q (fnodes fs)).
        { intros q Hq. apply in_flat_map. exists rt. auto. }
        eapply rep_ext; [|apply F1, Hrt]. intros q Hq. apply Hin in Hq.
        rewrite upd_other by (intros ->; apply (N3 p Hq); left; reflexivity).
        apply A2. intros Hi. exact (N3 q Hq Hi).
      * constructor; [|constructor]. cbn [snd fst rep set_hp hp]. rewrite upd_same. cbn. auto.
    + apply FR_frame; [exact A1|]. intros q Hq. apply upd_other. intros ->. tauto.
    + rewrite Hn. eapply Permutation_NoDup; [symmetry; exact PP|exact F3].
    + cbn [set_hp nalloc]. rewrite A3, F4, Hn, app_length. cbn [length]. lia.
  - apply Forall_app. split; [exact G3|]. constructor; [|constructor]. cbn. split; [auto|lia].
  - rewrite Hn, PP. exact G4.
Qed.
End RootInit.

Lemma Good_init6 N H : Good FreeRep6 N H (init_pool N) [] [] (seq 0 N).
Proof.
  split; [|split; [reflexivity|split; [constructor|reflexivity]]].
  split; [constructor|]. split; [apply init_free6|]. split; [apply seq_NoDup|].
  destruct N; reflexivity.
Qed.
Lemma Good_init4 N H : Good FreeRep4 N H (init_pool N) [] [] (seq 0 N).
Proof.
  split; [|split; [reflexivity|split; [constructor|reflexivity]]].
  split; [constructor|]. split; [apply init_free4|]. split; [apply seq_NoDup|].
  destruct N; reflexivity.
Qed.

Lemma Good_reach FreeRep N H s roots fs fl v root t :
  Good FreeRep N H s roots fs fl -> nth_error fs v = Some (root, t) ->
  forall q, reach (hp s) (Some root) q <-> In q (addrs t).
Proof.
  intros ((F1 & _) & _) Hv q. apply rep_reach. rewrite Forall_forall in F1.
  apply (F1 (root, t)). eapply nth_error_In. exact Hv.
Qed.

Lemma rstep_det {A} (bits : A -> list bool) keep a o r b c :
  rstep bits keep a o r b -> rstep bits keep a o r c -> b = c.
Proof. intros Hb Hc; inversion Hb; subst; inversion Hc; subst; reflexivity. Qed.
Lemma rsteps_det {A} (bits : A -> list bool) keep : forall os rs a b c,
  rsteps bits keep a os rs b -> rsteps bits keep a os rs c -> b = c.
Proof.
  induction os as [|o os IH]; intros rs a b c Hb Hc; inversion Hb as [|? ? ? b1 ? ? ? Hb1 Hb2]; subst;
    inversion Hc as [|? ? ? c1 ? ? ? Hc1 Hc2]; subst; [reflexivity|].
  rewrite (rstep_det _ _ _ _ _ _ _ Hb1 Hc1) in Hb2. eapply IH; eassumption.
Qed.

(* ================= IPv6 ================= *)
(* an address buffer: bytes, at least the 16 of the address, with bit number B readable *)
Definition buf6 (B : nat) (m : list Z) : Prop := bytes_ok m /\ (16 <= length m)%nat /\ (B < 8 * length m)%nat.
Definition op6 (B : nat) (o : rop (list Z)) : Prop :=
  match o with Add _ m n _ => buf6 B m /\ (n <= B)%nat | Del _ m n => buf6 B m /\ (n <= B)%nat end.

Lemma addr6_firstn m n : (n <= 128)%nat -> firstn n (addr6_bits m) = firstn n (bytes_bits m).
Proof. intros H. unfold addr6_bits. rewrite firstn_firstn. f_equal. lia. Qed.

Notation Good6 := (Good FreeRep6).

Lemma exec6_ok N B s root t fl ts o :
  (B <= 128)%nat -> op6 B o -> Good6 N B s [Some root] [(root, t)] fl -> Rel ts [(root, t)] ->
  exists s' r t' fl' ts', exec6 s (Some root) o = Ret (s', r) /\
    Good6 N B s' [Some root] [(root, t')] fl' /\ Rel ts' [(root, t')] /\
    rstep addr6_bits true ts (on_vrf0 o) r ts' /\
    (r = NoMemory -> nalloc s' = nalloc s /\ t' = t /\
       match o with Add _ _ n _ => (length fl <= n)%nat | Del _ _ _ => False end).
Proof.
  intros HB Ho G R.
  assert (Hroots : forall s1 fs1 fl1, Good6 N B s1 [Some root] fs1 fl1 -> exists t1, fs1 = [(root, t1)]).
  { intros s1 fs1 fl1 (_ & Hr & _). destruct fs1 as [|[r1 t1] [|]]; try discriminate. injection Hr as <-. eauto. }
  destruct o as [v m n d|v m n]; destruct Ho as ((Hm & Hm16 & HmB) & Hn); cbn [on_vrf0 exec6].
  - assert (Hlen : length (firstn n (addr6_bits m)) = n).
    { unfold addr6_bits. rewrite !firstn_length, bytes_bits_length. lia. }
    destruct (add_step NODEALLOC6 NODEFREE6 FreeRep6 FR6_frame FR6_nil FR6_alloc FR6_free NODEFREE6_data
                false (nth n (bytes_bits m) false) N B s _ _ fl ts 0%nat root t _ addr6_bits m n d G R eq_refl ltac:(lia))
      as (s' & r & fs' & fl' & ts' & E1 & G' & R' & S' & X').
    destruct (Hroots _ _ _ G') as (t' & ->).
    rewrite addr6_firstn in E1 by lia.
    rewrite (insert6_eq m Hm s (Some root) n d (s', r)); [| |discriminate|exact E1|lia].
    2:{ rewrite bytes_bits_length. lia. }
    exists s', (ans r), t', fl', ts'. cbn [obind]. split; [reflexivity|]. split; [exact G'|]. split; [exact R'|].
    split; [exact S'|]. intros Hr. destruct (X' Hr) as (X1 & X2 & X3). injection X2 as ->. split; [exact X1|].
    split; [reflexivity|]. lia.
  - destruct (del_step NODEALLOC6 NODEFREE6 FreeRep6 FR6_frame FR6_nil FR6_alloc FR6_free NODEFREE6_data
                true N B s _ _ fl ts 0%nat root t _ addr6_bits m n G R eq_refl)
      as (s' & r & fs' & fl' & ts' & E1 & G' & R' & S').
    destruct (Hroots _ _ _ G') as (t' & ->).
    rewrite (remove6_eq m Hm s (Some root) n); [| |lia].
    2:{ rewrite bytes_bits_length. lia. }
    rewrite addr6_firstn in E1 by lia. rewrite E1. cbn [obind].
    eexists s', _, t', fl', ts'. split; [reflexivity|]. split; [exact G'|]. split; [exact R'|].
    split; [exact S'|]. destruct r; discriminate.
Qed.

Lemma run6_ok N B : forall ops s root t fl ts,
  (B <= 128)%nat -> Forall (op6 B) ops -> Good6 N B s [Some root] [(root, t)] fl -> Rel ts [(root, t)] ->
  exists s' rs t' fl' ts', run6 s (Some root) ops = Ret (s', rs) /\
    Good6 N B s' [Some root] [(root, t')] fl' /\ Rel ts' [(root, t')] /\
    rsteps addr6_bits true ts (map on_vrf0 ops) rs ts'.
Proof.
  induction ops as [|o ops IH]; intros s root t fl ts HB Ho G R.
  - exists s, [], t, fl, ts. split; [reflexivity|]. split; [exact G|]. split; [exact R|constructor].
  - inversion Ho as [|? ? Ho1 Ho2]; subst.
    destruct (exec6_ok N B s root t fl ts o HB Ho1 G R) as (s1 & r & t1 & fl1 & ts1 & E1 & G1 & R1 & S1 & _).
    destruct (IH s1 root t1 fl1 ts1 HB Ho2 G1 R1) as (s2 & rs & t2 & fl2 & ts2 & E2 & G2 & R2 & S2).
    exists s2, (r :: rs), t2, fl2, ts2. cbn [run6 map]. rewrite E1. cbn [obind]. rewrite E2. cbn [obind].
    split; [reflexivity|]. split; [exact G2|]. split; [exact R2|]. econstructor; eassumption.
Qed.

Lemma lookup6_ok N B s root t fl ts m fuel vrf :
  (B <= 128)%nat -> Good6 N B s [Some root] [(root, t)] fl -> Rel ts [(root, t)] ->
  buf6 B m -> (129 <= fuel)%nat ->
  exists r, ofp_get_next_hop6 fuel s (Some root) vrf m = Ret r /\ lpm (ts 0%nat) (addr6_bits m) r.
Proof.
  intros HB G R (Hm & Hm16 & HmB) Hf. destruct G as ((F1 & _) & _ & G3 & _).
  inversion F1 as [|? ? F1a _]; subst. inversion G3 as [|? ? [_ G3a] _]; subst. cbn [fst snd] in *.
  assert (Hbl := bytes_bits_length m).
  destruct (search6_eq m Hm (hp s) t (Some root) 0 None None fuel F1a ltac:(lia) ltac:(lia) eq_refl) as (mt & E1 & E2).
  unfold ofp_get_next_hop6, ofp_rtl_search6. change (Z.of_nat 0) with 0 in E1. rewrite E1. cbn [obind].
  eexists. split; [reflexivity|]. rewrite <- E2. cbn [skipn].
  assert (Hv : forall q, ts 0%nat q = val t q) by (apply (R 0%nat root t eq_refl)).
  assert (Hal : length (addr6_bits m) = 128%nat) by (unfold addr6_bits; rewrite firstn_length; lia).
  destruct (best_lpm (bytes_bits m) t None) as [(n & d & B1 & B2 & B3 & B4)|(B1 & B2)].
  - rewrite B3. cbn [lpm]. assert (Hn : (n <= 128)%nat).
    { destruct (le_dec n 128) as [|Hn]; [assumption|exfalso]. rewrite val_deep in B2; [discriminate|].
      rewrite firstn_length. lia. }
    exists n. rewrite Hal. split; [exact Hn|]. rewrite addr6_firstn by lia. rewrite Hv. split; [exact B2|].
    intros k Hk. rewrite addr6_firstn by lia. rewrite Hv. apply B4. lia.
  - rewrite B1. cbn [lpm]. intros k Hk. rewrite Hal in Hk. rewrite addr6_firstn by lia. rewrite Hv. apply B2. lia.
Qed.

Lemma init6_ok N B : (1 <= N)%nat -> exists s0, init6 N = (Some 0%nat, s0) /\
  Good6 N B s0 [Some 0%nat] [(0%nat, T 0 None E E)] (seq 1 (N - 1)) /\ Rel no_tables [(0%nat, T 0 None E E)].
Proof.
  intros HN. destruct N as [|N']; [lia|]. assert (G := Good_init6 (S N') B). cbn [seq] in G.
  destruct (root_init_ok NODEALLOC6 FreeRep6 FR6_frame FR6_alloc _ _ _ _ _ _ _ G) as (s0 & E0 & G0).
  exists s0. split; [exact E0|]. cbn [app] in G0. replace (S N' - 1)%nat with N' by lia. split; [exact G0|].
  intros v root t Hv q. destruct v as [|v]; [|destruct v; discriminate]. injection Hv as <- <-.
  unfold no_tables, no_routes. destruct q as [|b q]; [reflexivity|]. unfold val. cbn. destruct b; rewrite sub_E; reflexivity.
Qed.

(* everything reachable by a history *)
Lemma hist6 N B ops : (1 <= N)%nat -> (B <= 128)%nat -> Forall (op6 B) ops ->
  exists s rs t fl ts, run6 (snd (init6 N)) (fst (init6 N)) ops = Ret (s, rs) /\ fst (init6 N) = Some 0%nat /\
    Good6 N B s [Some 0%nat] [(0%nat, t)] fl /\ Rel ts [(0%nat, t)] /\
    rsteps addr6_bits true no_tables (map on_vrf0 ops) rs ts.
Proof.
  intros HN HB Ho. destruct (init6_ok N B HN) as (s0 & E0 & G0 & R0). rewrite E0. cbn [fst snd].
  destruct (run6_ok N B ops s0 0%nat _ _ _ HB Ho G0 R0) as (s & rs & t & fl & ts & H1 & H2 & H3 & H4).
  exists s, rs, t, fl, ts. auto.
Qed.

Lemma route6_history N B ops : (1 <= N)%nat -> (B <= 128)%nat -> Forall (op6 B) ops ->
  exists s rs ts, run6 (snd (init6 N)) (fst (init6 N)) ops = Ret (s, rs) /\
    rsteps addr6_bits true no_tables (map on_vrf0 ops) rs ts /\
    forall vrf m fuel, buf6 B m -> (129 <= fuel)%nat ->
    exists r, ofp_get_next_hop6 fuel s (fst (init6 N)) vrf m = Ret r /\ lpm (ts 0%nat) (addr6_bits m) r.
Proof.
  intros HN HB Ho. destruct (hist6 N B ops HN HB Ho) as (s & rs & t & fl & ts & H1 & H2 & H3 & H4 & H5).
  exists s, rs, ts. split; [exact H1|]. split; [exact H5|]. intros vrf m fuel Hm Hf. rewrite H2.
  eapply lookup6_ok; eassumption.
Qed.

Lemma lpm_unique r a x y : lpm r a x -> lpm r a y -> x = y.
Proof.
  destruct x as [x|], y as [y|]; cbn; intros Hx Hy.
  - destruct Hx as (n & N1 & N2 & N3). destruct Hy as (k & K1 & K2 & K3).
    destruct (Nat.lt_trichotomy n k) as [Hl|[->|Hl]].
    + rewrite N3 in K2 by lia. discriminate.
    + congruence.
    + rewrite K3 in N2 by lia. discriminate.
  - destruct Hx as (n & N1 & N2 & _). rewrite Hy in N2 by exact N1. discriminate.
  - destruct Hy as (n & N1 & N2 & _). rewrite Hx in N2 by exact N1. discriminate.
  - reflexivity.
Qed.

Lemma route6_failed_add N B ops v m n nh s rs s' :
  (1 <= N)%nat -> (B <= 128)%nat -> Forall (op6 B) ops -> op6 B (Add v m n nh) ->
  run6 (snd (init6 N)) (fst (init6 N)) ops = Ret (s, rs) ->
  exec6 s (fst (init6 N)) (Add v m n nh) = Ret (s', NoMemory) ->
  nalloc s' = nalloc s /\
  (forall vrf a fuel, buf6 B a -> (129 <= fuel)%nat ->
     ofp_get_next_hop6 fuel s' (fst (init6 N)) vrf a = ofp_get_next_hop6 fuel s (fst (init6 N)) vrf a) /\
  Z.of_nat N - nalloc s <= Z.of_nat n.
Proof.
  intros HN HB Ho Ha Hrun Hex.
  destruct (hist6 N B ops HN HB Ho) as (s0 & rs0 & t & fl & ts & H1 & H2 & H3 & H4 & H5).
  rewrite Hrun in H1. injection H1 as <- <-. rewrite H2 in *.
  destruct (exec6_ok N B s 0%nat t fl ts _ HB Ha H3 H4) as (s1 & r & t1 & fl1 & ts1 & E1 & G1 & R1 & S1 & X1).
  rewrite Hex in E1. injection E1 as <- <-. destruct (X1 eq_refl) as (X2 & -> & X3). cbn [on_vrf0] in S1.
  split; [exact X2|]. split.
  - intros vrf a fuel Hb Hf.
    destruct (lookup6_ok N B s 0%nat t fl ts a fuel vrf HB H3 H4 Hb Hf) as (r1 & L1 & L2).
    destruct (lookup6_ok N B s' 0%nat t fl1 ts a fuel vrf HB G1) as (r2 & L3 & L4); auto.
    rewrite L1, L3. f_equal. eapply lpm_unique; eassumption.
  - assert (Hl := fnodes_len _ _ _ _ _ _ _ H3). destruct H3 as ((_ & _ & _ & Hna) & _). lia.
Qed.

Lemma route6_add_succeeds N B ops v m n nh s rs ts L :
  (1 <= N)%nat -> (B <= 128)%nat -> Forall (op6 B) ops -> op6 B (Add v m n nh) ->
  run6 (snd (init6 N)) (fst (init6 N)) ops = Ret (s, rs) ->
  rsteps addr6_bits true no_tables (map on_vrf0 ops) rs ts ->
  ts 0%nat (firstn n (addr6_bits m)) = None ->
  (forall q, ts 0%nat q <> None -> In q L) -> (1 + sumlen L + n < N)%nat ->
  exists s', exec6 s (fst (init6 N)) (Add v m n nh) = Ret (s', Added).
Proof.
  intros HN HB Ho Ha Hrun Hst Hnone HL Hsz.
  destruct (hist6 N B ops HN HB Ho) as (s0 & rs0 & t & fl & ts0 & H1 & H2 & H3 & H4 & H5).
  rewrite Hrun in H1. injection H1 as <- <-. rewrite H2 in *.
  assert (ts = ts0) by (eapply rsteps_det; eassumption). subst ts0.
  destruct (exec6_ok N B s 0%nat t fl ts _ HB Ha H3 H4) as (s1 & r & t1 & fl1 & ts1 & E1 & G1 & R1 & S1 & X1).
  exists s1. rewrite E1. do 2 f_equal. cbn [on_vrf0] in S1. inversion S1; subst; [reflexivity|contradiction|].
  exfalso. destruct (X1 eq_refl) as (_ & _ & X3).
  assert (Hl := fnodes_len _ _ _ _ _ _ _ H3). cbn [fnodes flat_map snd] in Hl. rewrite app_nil_r in Hl.
  assert (Ht : rtrim t) by (destruct H3 as (_ & _ & G3 & _); inversion G3 as [|? ? [G3a _] _]; exact G3a).
  assert (Hs := rtrim_size t L Ht). assert (length (addrs t) <= 1 + sumlen L)%nat; [|lia].
  apply Hs. intros q Hq. apply HL. rewrite (H4 0%nat 0%nat t eq_refl). exact Hq.
Qed.

Lemma route6_pool N B ops s rs : (1 <= N)%nat -> (B <= 128)%nat -> Forall (op6 B) ops ->
  run6 (snd (init6 N)) (fst (init6 N)) ops = Ret (s, rs) ->
  exists live free, Permutation (live ++ free) (seq 0 N) /\
    (forall q, reach (hp s) (fst (init6 N)) q <-> In q live) /\
    flist (hp s) (ffirst s) free /\ nalloc s = Z.of_nat (length live) /\
    (forall ts, rsteps addr6_bits true no_tables (map on_vrf0 ops) rs ts ->
       (forall q, ts 0%nat q = None) -> live = [0%nat]).
Proof.
  intros HN HB Ho Hrun.
  destruct (hist6 N B ops HN HB Ho) as (s0 & rs0 & t & fl & ts & H1 & H2 & H3 & H4 & H5).
  rewrite Hrun in H1. injection H1 as <- <-. rewrite H2 in *.
  exists (addrs t), fl. assert (H3' := H3). destruct H3 as ((F1 & F2 & F3 & F4) & G2 & G3 & G4).
  unfold fnodes in *. cbn [flat_map snd] in *. rewrite app_nil_r in *.
  split; [exact G4|]. split; [eapply Good_reach with (v := 0%nat); [exact H3'|reflexivity]|].
  split; [exact F2|]. split; [exact F4|].
  intros ts' Hst Hno.
  assert (ts' = ts) by (eapply rsteps_det; eassumption). subst ts'.
  assert (Hv := H4 0%nat 0%nat t eq_refl). inversion G3 as [|? ? [Gt _] _]; subst. cbn [snd] in Gt.
  inversion F1 as [|? ? Fr _]; subst. cbn [fst snd] in Fr.
  destruct t as [|p v l r]; [discriminate Fr|]. cbn in Fr. destruct Fr as (Fr & _). injection Fr as <-.
  cbn in Gt. destruct Gt as [Gl Gr].
  assert (l = E) by (apply trim_no_val; [exact Gl|intros q; rewrite <- (Hno (false :: q)), Hv; reflexivity]).
  assert (r = E) by (apply trim_no_val; [exact Gr|intros q; rewrite <- (Hno (true :: q)), Hv; reflexivity]).
  subst. reflexivity.
Qed.
