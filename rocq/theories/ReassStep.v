(* One call of ofp_ip_reass from a state satisfying the invariant. *)
From Coq Require Import Permutation.
From Verif Require Import Base CksumModel CksumSpec
  ReassModel ReassSpec ReassProof ReassInv.
Ltac Zify.zify_post_hook ::= idtac.

Definition hash_of (p : ippkt) : Z := reass_hash (h_src (p_hdr p)) (h_id (p_hdr p)).
Definition new_frag (p : ippkt) : frag :=
  mkFr (p_uid p) (p_hdr p) (Z.land (h_off (p_hdr p)) 57344)
    (u16 (Z.shiftl (h_off (p_hdr p)) 3)) (u16 (h_len (p_hdr p) - 4 * h_hl (p_hdr p))) (p_data p).

Lemma new_frag_off p : pkt_wf p -> fr_off (new_frag p) = frag_begin p.
Proof. intros (W & _). cbn. apply off_val, W. Qed.
Lemma new_frag_len p : pkt_wf p -> fr_len (new_frag p) = frag_len p.
Proof.
  intros (W & L & _). cbn. unfold u16, frag_len. apply Z.mod_small.
  pose proof (hw_hl _ W). lia.
Qed.
Lemma new_frag_ok p : pkt_wf p -> fok (KK (key (p_hdr p))) (new_frag p).
Proof.
  intros W. pose proof (new_frag_off p W) as E1. pose proof (new_frag_len p W) as E2.
  destruct W as (W & L & D). split; [|split; [reflexivity|exact W]].
  unfold fsafe. rewrite E1, E2. unfold frag_begin, frag_len in *.
  assert (0 <= h_off (p_hdr p) mod 8192 < 8192) by (apply Z.mod_pos_bound; reflexivity).
  pose proof (hw_hl _ W). unfold zlen. cbn [new_frag fr_data]. lia.
Qed.
Lemma new_frag_TT p hist : pkt_wf p -> In p hist -> TT hist (new_frag p).
Proof.
  intros W HI. exists p. rewrite (new_frag_off p W), (new_frag_len p W).
  split; [exact HI|]. split; [reflexivity|]. split; [lia|]. split; [reflexivity|].
  split; [cbn [new_frag fr_flags]; intros H; unfold more_frags; apply flag_val; exact H|].
  unfold piece. rewrite (new_frag_len p W). rewrite Z.sub_diag. reflexivity.
Qed.

(* replacing the chain of a bucket by one with the same key *)
Lemma nodup_replace (a b : list chain) c c' : ckey c' = ckey c ->
  NoDup (map ckey (a ++ c :: b)) -> NoDup (map ckey (a ++ c' :: b)).
Proof. intros E. rewrite !map_app. cbn [map]. rewrite E. auto. Qed.

Lemma fok_ckey k l n t : Forall (fok (KK k)) l -> l <> [] -> ckey (mkC l n t) = Some k.
Proof.
  intros HF NE. destruct l as [|f l]; [congruence|]. unfold ckey. cbn [c_frags].
  inversion HF as [|? ? [_ [E _]] _]; subst. reflexivity.
Qed.

Definition buids (l : list chain) : list Z := flat_map (fun c => uids (c_frags c)) l.
Definition ret_uid (o : option ippkt) : list Z := match o with Some d => [p_uid d] | None => [] end.

(* what the call may do to its bucket *)
Inductive bucket_step (p : ippkt) (l l' : list chain) (dn : Z) : Prop :=
| BSame : l' = l -> dn = 0 -> bucket_step p l l' dn
| BNew : forall c, l' = c :: l -> dn = 1 -> (forall x, In x l -> ckey x <> Some (key (p_hdr p))) ->
    ckey c = Some (key (p_hdr p)) -> bucket_step p l l' dn
| BRepl : forall a c c' b, l = a ++ c :: b -> l' = a ++ c' :: b -> dn = 0 ->
    ckey c = Some (key (p_hdr p)) -> ckey c' = Some (key (p_hdr p)) -> bucket_step p l l' dn
| BDel : forall a c b, l = a ++ c :: b -> l' = a ++ b ->
    ckey c = Some (key (p_hdr p)) -> dn = 0 \/ dn = -1 -> bucket_step p l l' dn.

Definition cnt_ok (c : chain) : Prop :=
  c_nfrags c = Z.of_nat (length (c_frags c)) /\ (length (c_frags c) <= 16)%nat.

Lemma guard_malformed p : pkt_wf p ->
  negb (Z.land (h_off (p_hdr p)) OFP_IP_MF =? 0) &&
  ((u16 (h_len (p_hdr p) - 4 * h_hl (p_hdr p)) =? 0) || negb (Z.land (u16 (h_len (p_hdr p) - 4 * h_hl (p_hdr p))) 7 =? 0)) = true ->
  malformed p.
Proof.
  intros W H. pose proof (new_frag_len p W) as EL. cbn [new_frag fr_len] in EL. rewrite EL in H.
  apply andb_true_iff in H. destruct H as [H1 H2]. split.
  - unfold more_frags. destruct (Z.testbit (h_off (p_hdr p)) 13) eqn:T; [reflexivity|].
    apply flag_val in T. rewrite <- Z.land_assoc in T. change (Z.land 57344 OFP_IP_MF) with OFP_IP_MF in T.
    rewrite T in H1. discriminate.
  - apply orb_true_iff in H2. destruct H2 as [H2|H2]; [left; lia|right].
    change 7 with (Z.ones 3) in H2. rewrite Z.land_ones in H2 by lia. change (2 ^ 3) with 8 in H2.
    intros X. rewrite X in H2. discriminate.
Qed.

Record step_ok (be : bool) (hist : list ippkt) (st : reass) (p : ippkt) (st' : reass) (e : effect) : Prop := {
  so_inv : RInv (hist ++ [p]) st';
  so_ret : forall d, ef_ret e = Some d -> delivered_ok be (hist ++ [p]) p d;
  so_frame : forall ix, ix <> hash_of p -> r_q st' ix = r_q st ix;
  so_bucket : bucket_step p (r_q st (hash_of p)) (r_q st' (hash_of p)) (r_nipq st' - r_nipq st);
  so_perm : Permutation (buids (r_q st' (hash_of p)) ++ ef_freed e ++ ret_uid (ef_ret e))
                        (p_uid p :: buids (r_q st (hash_of p)));
  so_dn : r_nipq st' - r_nipq st = -1 <-> ef_ret e <> None;
  so_cnt : ~ malformed p ->
    (forall c, In c (r_q st (hash_of p)) -> cnt_ok c) ->
    forall c, In c (r_q st' (hash_of p)) -> cnt_ok c
}.

Lemma buids_app a b : buids (a ++ b) = buids a ++ buids b.
Proof. apply flat_map_app. Qed.

Lemma perm_replace (A C C' B F : list Z) u :
  Permutation (C' ++ F) (u :: C) -> Permutation ((A ++ C' ++ B) ++ F) (u :: A ++ C ++ B).
Proof.
  intros H. rewrite <- !app_assoc.
  rewrite (Permutation_app_comm B F).
  rewrite (app_assoc C' F B), H. cbn [app]. symmetry. apply Permutation_middle.
Qed.
Lemma perm_delete (A C B F : list Z) u :
  Permutation F (u :: C) -> Permutation ((A ++ B) ++ F) (u :: A ++ C ++ B).
Proof.
  intros H. rewrite <- app_assoc, (Permutation_app_comm B F), H. cbn [app]. symmetry. apply Permutation_middle.
Qed.

Lemma nth_ztake n l i : 0 <= i < n -> nth_error (ztake n l) (Z.to_nat i) = nth_error l (Z.to_nat i).
Proof.
  intros H. unfold ztake.
  assert (HH : (Z.to_nat i < Z.to_nat n)%nat) by lia. revert HH.
  generalize (Z.to_nat n) (Z.to_nat i). clear. intros a b. revert a l.
  induction b; intros [|a] [|x l] H; cbn; try lia; try reflexivity. apply IHb. lia.
Qed.
Lemma nth_zdrop n l i : 0 <= n -> 0 <= i -> nth_error (zdrop n l) (Z.to_nat i) = nth_error l (Z.to_nat (n + i)).
Proof.
  intros H1 H2. unfold zdrop. replace (Z.to_nat (n + i)) with (Z.to_nat n + Z.to_nat i)%nat by lia.
  generalize (Z.to_nat n) (Z.to_nat i). clear. intros a b. revert l.
  induction a; intros [|x l]; cbn; try reflexivity; [destruct b; reflexivity|apply IHa].
Qed.

Lemma key_sym_dg a b : key a = key b -> same_datagram a b.
Proof. apply key_same_datagram. Qed.

Lemma deliver_ok be al hist p hd rest next :
  let l' := hd :: rest in
  pkt_wf p ->
  Forall (fok (KK (key (p_hdr p)))) l' -> good (TT (hist ++ [p])) l' ->
  complete 0 0 l' = Some next -> next + 4 * h_hl (p_hdr p) <= 65535 ->
  exists data hd',
    add_frags (fr_data hd) (fr_len hd) rest = Ret (data, next) /\
    finish_hdr be al (fr_hdr hd) (4 * h_hl (fr_hdr hd) + next) = Ret hd' /\
    zlen (fr_data hd) <? fr_len hd = false /\
    delivered_ok be (hist ++ [p]) p (mkP (fr_uid hd) hd' data).
Proof.
  intros l' W HF G HC HN.
  pose proof (hw_hl _ (proj1 W)) as HL.
  destruct (complete_span (KK (key (p_hdr p))) (TT (hist ++ [p])) (KK_cut _) (TT_cut _) _ _ _ _ HF HC) as (SP & TOT & LAST).
  assert (AT : Forall (TT (hist ++ [p])) l') by (apply (good_all (KK (key (p_hdr p))) (TT (hist ++ [p])) (KK_cut _) (TT_cut _) l' 0 0 next HF G HC); lia).
  unfold l' in HF. inversion HF as [|? ? HF1 HF2]; subst. destruct HF1 as [(S1 & S2 & S3) [KH WH]].
  assert (DH : zlen (fr_data hd) <? fr_len hd = false) by (apply Z.ltb_ge; lia).
  destruct (add_frags_ok (KK (key (p_hdr p))) (TT (hist ++ [p])) (KK_cut _) (TT_cut _) rest (fr_data hd) (fr_len hd) HF2) as (data & E & LD & TD); [lia|].
  assert (EN : fr_len hd + zlen (payload rest) = 0 + zlen (payload l')).
  { unfold l', payload. cbn [map concat]. rewrite zlen_app. unfold piece at 2. rewrite zlen_ztake by lia. lia. }
  rewrite EN in E, LD, TD.
  destruct (finish_hdr_ok be al (fr_hdr hd) (4 * h_hl (fr_hdr hd) + (0 + zlen (payload l'))) WH)
    as (hd' & FH & FK & F1 & F2 & F3 & F5 & F6 & F7 & F4).
  exists data, hd'. split; [exact E|]. split; [exact FH|]. split; [exact DH|].
  pose proof (zlen_nonneg (payload l')) as NN.
  exists (0 + zlen (payload l')). cbn [p_hdr p_data].
  split; [apply key_same_datagram; congruence|].
  split; [unfold zlen in LD |- *; lia|]. split; [lia|].
  split; [|split; [|split; [|split; [|split]]]].
  - intros i Hi.
    destruct (nth_piece (KK (key (p_hdr p))) (TT (hist ++ [p])) (KK_cut _) (TT_cut _) l' 0 i HF SP) as (f & Hf & R & NE); [lia|].
    rewrite Forall_forall in AT. destruct (AT f Hf) as (q & Hq & Kq & Bq & Eq & _ & Pq).
    assert (KF : key (fr_hdr f) = key (p_hdr p)).
    { rewrite Forall_forall in HF. destruct (HF f Hf) as [_ [KF _]]. exact KF. }
    assert (PL : payload l' = ztake (0 + zlen (payload l')) data).
    { rewrite TD. reflexivity. }
    assert (NX : nth_error data (Z.to_nat i) = nth_error (payload l') (Z.to_nat i)).
    { rewrite PL. symmetry. apply nth_ztake. lia. }
    assert (LI : (Z.to_nat i < length (payload l'))%nat) by (unfold zlen in Hi; lia).
    destruct (nth_error (payload l') (Z.to_nat i)) as [v|] eqn:EV;
      [|apply nth_error_None in EV; lia].
    exists v. split; [exact NX|].
    exists q. split; [exact Hq|]. split; [apply key_same_datagram; congruence|]. split; [lia|].
    rewrite Z.add_0_l in NE. rewrite Pq in NE.
    rewrite nth_ztake in NE by lia. rewrite nth_zdrop in NE by lia.
    rewrite NE. f_equal. lia.
  - destruct LAST as [X|(f & Hf & FL & FE)]; [discriminate|].
    rewrite Forall_forall in AT. destruct (AT f Hf) as (q & Hq & Kq & Bq & Eq & MF & Pq).
    rewrite Forall_forall in HF. destruct (HF f Hf) as [_ [KF _]].
    exists q. split; [exact Hq|]. split; [apply key_same_datagram; congruence|]. split; [auto|lia].
  - rewrite F1. exact F2.
  - exact F3.
  - exact F4.
  - assert (HI : In hd l') by (left; reflexivity).
    rewrite Forall_forall in AT. destruct (AT hd HI) as (q & Hq & Kq & Bq & _). 
    exists q. split; [exact Hq|]. split; [apply key_same_datagram; congruence|].
    assert (B0 : frag_begin q = 0).
    { destruct SP as [SP0 _]. unfold frag_begin in *.
      assert (0 <= h_off (p_hdr q) mod 8192 < 8192) by (apply Z.mod_pos_bound; reflexivity). lia. }
    rewrite F1, F5, F6, F7, Kq. auto.
Qed.

Lemma RInv_replace hist st ix a c b c' n : RInv hist st -> r_q st ix = a ++ c :: b ->
  chain_ok hist ix c' -> ckey c' = ckey c -> RInv hist (mkR (rupd (r_q st) ix (a ++ c' :: b)) n).
Proof.
  intros R E OK EK. apply RInv_bucket; [exact R| |].
  - intros x Hx. apply in_app_iff in Hx. destruct Hx as [Hx|[<-|Hx]]; [|exact OK|].
    + apply (ri_ok _ _ R). rewrite E. apply in_app_iff. auto.
    + apply (ri_ok _ _ R). rewrite E. apply in_app_iff. right. right. exact Hx.
  - apply (nodup_replace a b c c' EK). rewrite <- E. apply (ri_nd _ _ R).
Qed.
Lemma RInv_delete hist st ix a c b n : RInv hist st -> r_q st ix = a ++ c :: b ->
  RInv hist (mkR (rupd (r_q st) ix (a ++ b)) n).
Proof.
  intros R E. apply RInv_bucket; [exact R| |].
  - intros x Hx. apply (ri_ok _ _ R). rewrite E. apply in_app_iff in Hx. apply in_app_iff.
    destruct Hx; [left|right; right]; assumption.
  - pose proof (ri_nd _ _ R ix) as ND. rewrite E, map_app in ND. cbn [map] in ND.
    rewrite map_app. exact (NoDup_remove_1 _ _ _ ND).
Qed.

Lemma step_total be al junk pushed hist st p : RInv hist st -> pkt_wf p ->
  exists st' e, ip_reass be al junk pushed st p = Ret (st', e) /\ step_ok be hist st p st' e.
Proof.
  intros R W. apply (RInv_mono _ p) in R. unfold ip_reass.
  fold (hash_of p). fold (new_frag p).
  assert (SAME : forall L, step_ok be hist st p st (mkEff None [p_uid p] L)).
  { intros L. split; cbn [ef_ret ef_freed ret_uid].
    - exact R.
    - discriminate.
    - reflexivity.
    - apply BSame; [reflexivity|lia].
    - rewrite app_nil_r. symmetry. apply Permutation_cons_append.
    - split; [lia|congruence].
    - auto. }
  destruct (r_nipq st >? maxnipq); [eauto|].
  destruct pushed; cbn [negb]; [|eauto].
  pose proof (find_chain_spec (p_hdr p) (r_q st (hash_of p))) as FS.
  destruct (find_chain (p_hdr p) (r_q st (hash_of p))) as [[[a c] b]|] eqn:EF.
  2:{ (* no chain *)
    destruct (negb _ && _); [eauto|].
    eexists _, _. split; [reflexivity|]. split; cbn [ef_ret ef_freed ret_uid r_q r_nipq].
    - apply RInv_bucket; [exact R| |].
      + intros x [<-|Hx]; [|apply (ri_ok _ _ R); exact Hx].
        exists (key (p_hdr p)). split; [reflexivity|]. split; [reflexivity|]. cbn [c_frags].
        split; [constructor; [apply new_frag_ok; exact W|constructor]|].
        cbn [good]. split; [|auto]. apply new_frag_TT; [exact W|]. apply in_app_iff. right. left. reflexivity.
      + cbn [map]. constructor; [|apply (ri_nd _ _ R)]. intros Hin.
        apply in_map_iff in Hin. destruct Hin as (x & Ex & Hx). apply (FS x Hx). exact Ex.
    - discriminate.
    - intros ix N. apply rupd_other. exact N.
    - rewrite rupd_same. eapply BNew; [reflexivity|lia|exact FS|reflexivity].
    - rewrite rupd_same. cbn [buids flat_map c_frags uids map new_frag fr_uid app].
      rewrite app_nil_r. reflexivity.
    - split; [lia|congruence].
    - rewrite rupd_same. intros _ CN x [<-|Hx]; [|auto]. split; cbn [c_nfrags c_frags length]; lia. }
  destruct FS as [EQ CK].
  assert (OK : chain_ok (hist ++ [p]) (hash_of p) c).
  { apply (ri_ok _ _ R). rewrite EQ. apply in_app_iff. right. left. reflexivity. }
  destruct OK as (k & CK' & KH & HF & G). rewrite CK in CK'. injection CK' as <-.
  assert (KEEP : forall n t, chain_ok (hist ++ [p]) (hash_of p) (mkC (c_frags c) n t) /\ ckey (mkC (c_frags c) n t) = ckey c).
  { intros n t. split; [|reflexivity]. exists (key (p_hdr p)). split; [exact CK|]. auto. }
  (* the fragment is dropped, the chain keeps its fragments *)
  assert (DROP : forall n t, (~ malformed p -> cnt_ok c -> n = Z.of_nat (length (c_frags c))) -> step_ok be hist st p
      (mkR (rupd (r_q st) (hash_of p) (a ++ mkC (c_frags c) n t :: b)) (r_nipq st)) (mkEff None [p_uid p] [true; false])).
  { intros n t HN. split; cbn [ef_ret ef_freed ret_uid r_q r_nipq].
    - apply (RInv_replace _ _ _ a c b); [exact R|exact EQ|apply KEEP|reflexivity].
    - discriminate.
    - intros ix N. apply rupd_other. exact N.
    - rewrite rupd_same. eapply BRepl; [exact EQ|reflexivity|lia|exact CK|exact CK].
    - rewrite rupd_same, EQ, !buids_app, app_nil_r. cbn [buids flat_map c_frags].
      apply perm_replace. symmetry. apply Permutation_cons_append.
    - split; [lia|congruence].
    - rewrite rupd_same, EQ. intros NM CN x Hx.
      assert (CC : cnt_ok c) by (apply CN, in_app_iff; right; left; reflexivity).
      apply in_app_iff in Hx. destruct Hx as [Hx|[<-|Hx]].
      + apply CN, in_app_iff. auto.
      + split; cbn [c_nfrags c_frags]; [apply HN; assumption|apply CC].
      + apply CN, in_app_iff. right. right. exact Hx. }
  destruct (negb _ && _) eqn:EG.
  { eexists _, _. split; [reflexivity|]. apply DROP. intros NM. destruct (NM (guard_malformed p W EG)). }
  destruct (place_total (KK (key (p_hdr p))) (TT (hist ++ [p])) (KK_cut _) (TT_cut _) (c_frags c) (new_frag p) None
      (new_frag_ok p W) HF) as (o & EP & PO); [discriminate|].
  rewrite EP. cbn [obind]. destruct o as [[l' fd]|].
  2:{ eexists _, _. split; [reflexivity|]. apply DROP. intros _ [C1 C2]. rewrite C1. unfold u8.
      rewrite Zminus_mod_idemp_l. rewrite Z.mod_small by lia. lia. }
  destruct PO as (HF' & NE & PM). cbn [new_frag fr_uid] in PM.
  assert (G' : good (TT (hist ++ [p])) l').
  { apply (place_good (KK (key (p_hdr p))) (TT (hist ++ [p])) (KK_cut _) (TT_cut _) (c_frags c) (new_frag p) None l' fd
      (new_frag_ok p W)); try assumption; [|discriminate].
    apply new_frag_TT; [exact W|]. apply in_app_iff. right. left. reflexivity. }
  (* the chain is thrown away *)
  assert (KILL : step_ok be hist st p
      (mkR (rupd (r_q st) (hash_of p) (a ++ b)) (r_nipq st)) (mkEff None (fd ++ uids l') [true; false])).
  { split; cbn [ef_ret ef_freed ret_uid r_q r_nipq].
    - apply (RInv_delete _ _ _ a c b); [exact R|exact EQ].
    - discriminate.
    - intros ix N. apply rupd_other. exact N.
    - rewrite rupd_same. eapply BDel; [exact EQ|reflexivity|exact CK|left; lia].
    - rewrite rupd_same, EQ, !buids_app, app_nil_r. cbn [buids flat_map].
      apply perm_delete. rewrite Permutation_app_comm. exact PM.
    - split; [lia|congruence].
    - rewrite rupd_same, EQ. intros NM CN x Hx. apply CN.
      apply in_app_iff in Hx. apply in_app_iff. destruct Hx; [auto|right; right; assumption]. }
  destruct (complete 0 0 l') as [next|] eqn:EC.
  - destruct (next + 4 * h_hl (p_hdr p) >? 65535) eqn:EB; [eauto|].
    destruct l' as [|hd rest]; [congruence|].
    destruct (deliver_ok be al hist p hd rest next W HF' G' EC) as (data & hd' & E1 & E2 & E3 & DOK); [lia|].
    rewrite E3, E1. cbn [obind]. rewrite E2. cbn [obind].
    eexists _, _. split; [reflexivity|]. split; cbn [ef_ret ef_freed ret_uid r_q r_nipq p_uid].
    + apply (RInv_delete _ _ _ a c b); [exact R|exact EQ].
    + intros d E. injection E as <-. exact DOK.
    + intros ix N. apply rupd_other. exact N.
    + rewrite rupd_same. eapply BDel; [exact EQ|reflexivity|exact CK|right; lia].
    + rewrite rupd_same, EQ, !buids_app. cbn [buids flat_map].
      apply perm_delete. rewrite <- PM. cbn [uids map app].
      rewrite <- app_assoc, Permutation_app_comm, <- app_assoc. cbn [app].
      rewrite <- Permutation_middle. reflexivity.
    + split; [congruence|lia].
    + rewrite rupd_same, EQ. intros NM CN x Hx. apply CN.
      apply in_app_iff in Hx. apply in_app_iff. destruct Hx; [auto|right; right; assumption].
  - destruct (_ >? maxfragsperpacket) eqn:EM; [eauto|].
    eexists _, _. split; [reflexivity|].
    assert (CKN : forall n t, ckey (mkC l' n t) = Some (key (p_hdr p))) by (intros; apply fok_ckey; assumption).
    split; cbn [ef_ret ef_freed ret_uid r_q r_nipq].
    + apply (RInv_replace _ _ _ a c b); [exact R|exact EQ| |rewrite CK; apply CKN].
      exists (key (p_hdr p)). split; [apply CKN|]. auto.
    + discriminate.
    + intros ix N. apply rupd_other. exact N.
    + rewrite rupd_same. eapply BRepl; [exact EQ|reflexivity|lia|exact CK|apply CKN].
    + rewrite rupd_same, EQ, !buids_app, app_nil_r. cbn [buids flat_map c_frags].
      apply perm_replace. exact PM.
    + split; [lia|congruence].
    + rewrite rupd_same, EQ. intros NM CN x Hx.
      assert (CC : cnt_ok c) by (apply CN, in_app_iff; right; left; reflexivity).
      apply in_app_iff in Hx. destruct Hx as [Hx|[<-|Hx]].
      * apply CN, in_app_iff. auto.
      * unfold cnt_ok. cbn [c_nfrags c_frags]. destruct CC as [C1 C2].
        apply Permutation_length in PM. unfold uids in PM. rewrite app_length in PM. cbn [length] in PM.
        rewrite !map_length in PM. rewrite C1 in EM |- *. unfold u8, maxfragsperpacket in *.
        rewrite Zminus_mod_idemp_l in EM |- *. rewrite Z.mod_small in EM |- * by lia. lia.
      * apply CN, in_app_iff. right. right. exact Hx.
Qed.
