(* Histories of arrivals and timeouts. *)
From Coq Require Import Permutation.
From Verif Require Import Base CksumModel CksumSpec
  ReassModel ReassSpec ReassProof ReassInv ReassStep.
Ltac Zify.zify_post_hook ::= idtac.

(* ---- timeouts ---- *)
Lemma expire_sub : forall l c, In c (fst (expire_bucket l)) ->
  exists c0, In c0 l /\ c_frags c = c_frags c0.
Proof.
  induction l as [|x l IH]; cbn [expire_bucket]; [intros c []|].
  destruct (expire_bucket l) as [r' fd] eqn:E. cbn [fst] in IH. intros c H.
  destruct (u8 (c_ttl x - 1) =? 0); cbn [fst] in H.
  - destruct (IH c H) as (c0 & A & B). exists c0. split; [right; exact A|exact B].
  - destruct H as [<-|H]; [exists x; split; [left; reflexivity|reflexivity]|].
    destruct (IH c H) as (c0 & A & B). exists c0. split; [right; exact A|exact B].
Qed.
Lemma ckey_frags c c0 : c_frags c = c_frags c0 -> ckey c = ckey c0.
Proof. unfold ckey. intros ->. reflexivity. Qed.
Lemma expire_nodup : forall l, NoDup (map ckey l) -> NoDup (map ckey (fst (expire_bucket l))).
Proof.
  induction l as [|x l IH]; cbn [expire_bucket map]; intros H; [exact H|].
  inversion H as [|? ? N1 N2]; subst. specialize (IH N2).
  assert (SUB : In (ckey x) (map ckey (fst (expire_bucket l))) -> False).
  { intros Hin. apply in_map_iff in Hin. destruct Hin as (c & Ec & Hc).
    destruct (expire_sub l c Hc) as (c0 & A & B). apply N1. rewrite <- Ec, (ckey_frags c c0 B). apply in_map, A. }
  destruct (expire_bucket l) as [r' fd]. cbn [fst] in *.
  destruct (u8 (c_ttl x - 1) =? 0); cbn [fst map]; [exact IH|]. constructor; [exact SUB|exact IH].
Qed.
Lemma expire_uids : forall l, Permutation (buids (fst (expire_bucket l)) ++ snd (expire_bucket l)) (buids l).
Proof.
  induction l as [|x l IH]; cbn [expire_bucket]; [reflexivity|].
  destruct (expire_bucket l) as [r' fd]. cbn [fst snd] in IH.
  destruct (u8 (c_ttl x - 1) =? 0); cbn [fst snd buids flat_map c_frags].
  - rewrite <- IH. rewrite app_assoc, (Permutation_app_comm (buids r') (uids (c_frags x))), <- app_assoc. reflexivity.
  - rewrite <- IH, <- app_assoc. reflexivity.
Qed.
Lemma expire_len : forall l, (length (fst (expire_bucket l)) <= length l)%nat.
Proof.
  induction l as [|x l IH]; cbn [expire_bucket]; [apply le_n|].
  destruct (expire_bucket l) as [r' fd]. cbn [fst] in IH.
  destruct (u8 (c_ttl x - 1) =? 0); cbn [fst length]; lia.
Qed.

Lemma RInv_slow hist st : RInv hist st -> RInv hist (fst (slow_tmo st)).
Proof.
  intros [A B]. unfold slow_tmo. split; cbn [fst r_q]; intros ix.
  - intros c H. destruct (expire_sub _ _ H) as (c0 & Hc & E).
    destruct (A ix c0 Hc) as (k & K1 & K2 & K3 & K4). exists k.
    rewrite E, (ckey_frags c c0 E). auto.
  - apply expire_nodup, B.
Qed.

(* ---- sums over the buckets ---- *)
Lemma buckets_nodup : NoDup buckets.
Proof.
  unfold buckets. apply FinFun.Injective_map_NoDup; [|apply seq_NoDup].
  intros a b. apply Nat2Z.inj.
Qed.
Lemma buckets_in k : In (khash k) buckets.
Proof.
  pose proof (khash_range k). unfold buckets. apply in_map_iff. exists (Z.to_nat (khash k)).
  split; [lia|]. apply in_seq. lia.
Qed.
Lemma hash_in p : In (hash_of p) buckets.
Proof. exact (buckets_in (key (p_hdr p))). Qed.

Lemma fm_update {A} (f f' : Z -> list A) b L X u : NoDup L -> In b L ->
  (forall i, i <> b -> f' i = f i) -> Permutation (f' b ++ X) (u ++ f b) ->
  Permutation (flat_map f' L ++ X) (u ++ flat_map f L).
Proof.
  intros ND HI HO HP. induction L as [|y L IH]; [destruct HI|].
  inversion ND as [|? ? N1 N2]; subst. cbn [flat_map].
  destruct (Z.eq_dec y b) as [->|N].
  - assert (E : flat_map f' L = flat_map f L).
    { clear IH ND HI N2. induction L as [|z L IHL]; [reflexivity|]. cbn [flat_map].
      rewrite HO by (intros ->; apply N1; left; reflexivity).
      rewrite IHL; [reflexivity|]. intros H. apply N1. right. exact H. }
    rewrite E, <- app_assoc, (Permutation_app_comm _ X), app_assoc, HP, <- app_assoc. reflexivity.
  - destruct HI as [E|HI]; [congruence|]. rewrite (HO y N), <- app_assoc, (IH N2 HI).
    rewrite !app_assoc. apply Permutation_app_tail, Permutation_app_comm.
Qed.
Definition zsum (g : Z -> Z) (L : list Z) : Z := fold_right Z.add 0 (map g L).
Lemma zsum_update (g g' : Z -> Z) b L : NoDup L -> In b L ->
  (forall i, i <> b -> g' i = g i) -> zsum g' L = zsum g L + (g' b - g b).
Proof.
  intros ND HI HO. unfold zsum. induction L as [|y L IH]; [destruct HI|].
  inversion ND as [|? ? N1 N2]; subst. cbn [map fold_right].
  destruct (Z.eq_dec y b) as [->|N].
  - assert (E : map g' L = map g L).
    { apply map_ext_in. intros z Hz. apply HO. intros ->. contradiction. }
    rewrite E. lia.
  - destruct HI as [E|HI]; [congruence|]. rewrite (HO y N), (IH N2 HI). lia.
Qed.
Lemma zsum_le (g g' : Z -> Z) L : (forall i, g' i <= g i) -> zsum g' L <= zsum g L.
Proof. intros H. unfold zsum. induction L as [|y L IH]; [apply Z.le_refl|]. cbn [map fold_right]. specialize (H y). lia. Qed.
Lemma fm_perm {A} (f g h : Z -> list A) L : (forall i, Permutation (f i ++ g i) (h i)) ->
  Permutation (flat_map f L ++ flat_map g L) (flat_map h L).
Proof.
  intros H. induction L as [|y L IH]; [constructor|]. cbn [flat_map]. rewrite <- H, <- IH.
  rewrite <- !app_assoc. apply Permutation_app_head. rewrite !app_assoc. apply Permutation_app_tail, Permutation_app_comm.
Qed.

Definition qlen (st : reass) (i : Z) : Z := Z.of_nat (length (r_q st i)).
Lemma live_zsum st : live st = zsum (qlen st) buckets.
Proof. reflexivity. Qed.
Lemma held_fm st : held st = flat_map (fun i => buids (r_q st i)) buckets.
Proof. reflexivity. Qed.

Lemma step_held be hist st p st' e : step_ok be hist st p st' e ->
  Permutation (held st' ++ ef_freed e ++ ret_uid (ef_ret e)) (p_uid p :: held st).
Proof.
  intros S. rewrite !held_fm. change (p_uid p :: ?x) with ([p_uid p] ++ x).
  apply (fm_update (fun i => buids (r_q st i)) (fun i => buids (r_q st' i)) (hash_of p)).
  - apply buckets_nodup.
  - apply hash_in.
  - intros i N. rewrite (so_frame _ _ _ _ _ _ S i N). reflexivity.
  - exact (so_perm _ _ _ _ _ _ S).
Qed.
Lemma bucket_step_len p l l' dn : bucket_step p l l' dn ->
  0 <= dn - (Z.of_nat (length l') - Z.of_nat (length l)) <= 1 /\ -1 <= dn <= 1.
Proof.
  intros [E D|c E D _ _|a c c' b E E' D _ _|a c b E E' _ D]; subst; rewrite ?app_length; cbn [length]; lia.
Qed.
Lemma step_live be hist st p st' e : step_ok be hist st p st' e ->
  0 <= (r_nipq st' - r_nipq st) - (live st' - live st) <= 1.
Proof.
  intros S. rewrite !live_zsum.
  rewrite (zsum_update (qlen st) (qlen st') (hash_of p)).
  - pose proof (bucket_step_len _ _ _ _ (so_bucket _ _ _ _ _ _ S)). unfold qlen. lia.
  - apply buckets_nodup.
  - apply hash_in.
  - intros i N. unfold qlen. rewrite (so_frame _ _ _ _ _ _ S i N). reflexivity.
Qed.
Lemma slow_held st : Permutation (held (fst (slow_tmo st)) ++ ef_freed (snd (slow_tmo st))) (held st).
Proof.
  rewrite !held_fm. unfold slow_tmo. cbn [fst snd r_q ef_freed].
  change bucket_indices with buckets. apply (fm_perm (fun i => buids (fst (expire_bucket (r_q st i)))) _ (fun i => buids (r_q st i))).
  intros i. apply expire_uids.
Qed.
Lemma slow_live st : live (fst (slow_tmo st)) <= live st.
Proof.
  rewrite !live_zsum. apply zsum_le. intros i. unfold qlen, slow_tmo. cbn [fst r_q].
  pose proof (expire_len (r_q st i)). lia.
Qed.

(* ---- histories ---- *)
Record run_ok (hist : list ippkt) (st : reass) (evs : list revent) (st' : reass) (es : list effect) : Prop := {
  ro_inv : RInv (hist ++ arrivals evs) st';
  ro_ret : forall e1 be al junk pushed p e2 s1 e s2 d, evs = e1 ++ Arrive be al junk pushed p :: e2 ->
     es = s1 ++ e :: s2 -> length s1 = length e1 -> ef_ret e = Some d ->
     delivered_ok be (hist ++ arrivals e1 ++ [p]) p d;
  ro_tmo : forall e1 e2 s1 e s2, evs = e1 ++ SlowTmo :: e2 ->
     es = s1 ++ e :: s2 -> length s1 = length e1 -> ef_ret e = None;
  ro_perm : Permutation (held st' ++ freed es ++ map p_uid (returned es)) (map p_uid (arrivals evs) ++ held st);
  ro_nipq : r_nipq st' - live st' >= r_nipq st - live st;
  ro_len : length es = length evs
}.

Lemma arrivals_app a b : arrivals (a ++ b) = arrivals a ++ arrivals b.
Proof. induction a as [|[be al j pu p|] a IH]; cbn [arrivals app]; [reflexivity| |exact IH]. rewrite IH. reflexivity. Qed.

Lemma ret_returned o : ret_uid o = map p_uid (match o with Some d => [d] | None => [] end).
Proof. destruct o; reflexivity. Qed.

Lemma run_total : forall evs hist st, RInv hist st -> arrivals_wf evs ->
  exists st' es, rrun st evs = Ret (st', es) /\ run_ok hist st evs st' es.
Proof.
  induction evs as [|ev evs IH]; intros hist st R W.
  { exists st, []. split; [reflexivity|]. split; cbn [arrivals freed returned flat_map map].
    - rewrite app_nil_r. exact R.
    - intros [|]; intros; discriminate.
    - intros [|]; intros; discriminate.
    - rewrite !app_nil_r. reflexivity.
    - lia.
    - reflexivity. }
  cbn [rrun]. destruct ev as [be al junk pushed p|]; cbn [rstep].
  - unfold arrivals_wf in W. cbn [arrivals] in W. inversion W as [|? ? W1 W2]; subst.
    destruct (step_total be al junk pushed hist st p R W1) as (st1 & e & E & S). rewrite E. cbn [obind].
    destruct (IH (hist ++ [p]) st1 (so_inv _ _ _ _ _ _ S) W2) as (st2 & es & E2 & O). rewrite E2. cbn [obind].
    exists st2, (e :: es). split; [reflexivity|].
    pose proof (step_held _ _ _ _ _ _ S) as PH. pose proof (step_live _ _ _ _ _ _ S) as PL.
    split.
    + pose proof (ro_inv _ _ _ _ _ O) as X. rewrite <- app_assoc in X. exact X.
    + intros [|x e1] be' al' junk' pushed' p' e2 [|s s1] e' s2 d EV ES L ER; try discriminate L.
      * cbn [app] in EV, ES. injection EV as <- <- <- <- <- <-. injection ES as <- <-.
        exact (so_ret _ _ _ _ _ _ S d ER).
      * cbn [app] in EV, ES. injection EV as <- EV. injection ES as <- ES. cbn [arrivals].
        injection L as L. pose proof (ro_ret _ _ _ _ _ O _ _ _ _ _ _ _ _ _ _ d EV ES L ER) as X.
        rewrite <- app_assoc in X. exact X.
    + intros [|x e1] e2 [|s s1] e' s2 EV ES L; try discriminate L; cbn [app] in EV, ES; [discriminate|].
      injection EV as _ EV. injection ES as _ ES. injection L as L. exact (ro_tmo _ _ _ _ _ O _ _ _ _ _ EV ES L).
    + unfold freed, returned. cbn [flat_map arrivals map]. fold (freed es) (returned es).
      rewrite map_app, <- ret_returned.
      pose proof (ro_perm _ _ _ _ _ O) as X.
      transitivity ((held st2 ++ freed es ++ map p_uid (returned es)) ++ ef_freed e ++ ret_uid (ef_ret e)).
      { rewrite <- !app_assoc. apply Permutation_app_head.
        rewrite (Permutation_app_comm (ef_freed e)). rewrite <- app_assoc. apply Permutation_app_head.
        rewrite (Permutation_app_comm (ret_uid _)), <- app_assoc. apply Permutation_app_head.
        apply Permutation_app_comm. }
      rewrite X, <- app_assoc, PH. cbn [app]. symmetry. apply Permutation_middle.
    + pose proof (ro_nipq _ _ _ _ _ O). lia.
    + cbn [length]. f_equal. exact (ro_len _ _ _ _ _ O).
  - destruct (slow_tmo st) as [st1 e] eqn:ES1. cbn [obind].
    assert (EF : st1 = fst (slow_tmo st)) by (rewrite ES1; reflexivity).
    assert (EE : e = snd (slow_tmo st)) by (rewrite ES1; reflexivity).
    assert (R1 : RInv hist st1) by (rewrite EF; apply RInv_slow; exact R).
    destruct (IH hist st1 R1 W) as (st2 & es & E2 & O). rewrite E2. cbn [obind].
    exists st2, (e :: es). split; [reflexivity|]. 
    assert (RN : ef_ret e = None) by (rewrite EE; reflexivity).
    split.
    + exact (ro_inv _ _ _ _ _ O).
    + intros [|x e1] be' al' junk' pushed' p' e2 [|s s1] e' s2 d EV ES L ER; try discriminate L;
        cbn [app] in EV, ES; [discriminate|].
      injection EV as <- EV. injection ES as <- ES. injection L as L. cbn [arrivals].
      exact (ro_ret _ _ _ _ _ O _ _ _ _ _ _ _ _ _ _ d EV ES L ER).
    + intros [|x e1] e2 [|s s1] e' s2 EV ES L; try discriminate L; cbn [app] in EV, ES.
      * injection ES as <- <-. exact RN.
      * injection EV as _ EV. injection ES as _ ES. injection L as L. exact (ro_tmo _ _ _ _ _ O _ _ _ _ _ EV ES L).
    + unfold freed, returned. cbn [flat_map arrivals map]. fold (freed es) (returned es).
      rewrite RN. cbn [app].
      pose proof (ro_perm _ _ _ _ _ O) as X.
      transitivity ((held st2 ++ freed es ++ map p_uid (returned es)) ++ ef_freed e).
      { rewrite <- !app_assoc. apply Permutation_app_head.
        rewrite (Permutation_app_comm (ef_freed e)). rewrite <- app_assoc. reflexivity. }
      rewrite X, <- app_assoc. apply Permutation_app_head. rewrite EF, EE. apply slow_held.
    + pose proof (ro_nipq _ _ _ _ _ O). pose proof (slow_live st) as SL. rewrite <- EF in SL.
      assert (r_nipq st1 = r_nipq st) by (rewrite EF; reflexivity). lia.
    + cbn [length]. f_equal. exact (ro_len _ _ _ _ _ O).
Qed.

(* ---- C21: other datagrams ---- *)
Definition look (h : iphdr) (l : list chain) : option chain :=
  match find_chain h l with Some (_, c, _) => Some c | None => None end.
Lemma look_cons h c l : look h (c :: l) = if chain_matches h c then Some c else look h l.
Proof. unfold look. cbn [find_chain]. destruct (chain_matches h c); [reflexivity|]. destruct (find_chain h l) as [[[a x] b]|]; reflexivity. Qed.
Lemma look_app h a l : look h (a ++ l) = match look h a with Some c => Some c | None => look h l end.
Proof.
  induction a as [|c a IH]; [reflexivity|]. cbn [app]. rewrite !look_cons.
  destruct (chain_matches h c); [reflexivity|exact IH].
Qed.
Lemma nomatch h c k : ckey c = Some k -> k <> key h -> chain_matches h c = false.
Proof.
  intros E N. destruct (chain_matches h c) eqn:M; [|reflexivity]. apply matches_iff in M. congruence.
Qed.
Lemma bucket_step_other p h l l' dn : bucket_step p l l' dn -> key (p_hdr p) <> key h -> look h l' = look h l.
Proof.
  intros B N. destruct B as [E D|c E D F CK|a c c' b E E' D CK CK'|a c b E E' CK D]; subst; [reflexivity| | |].
  - rewrite look_cons, (nomatch h c _ CK N). reflexivity.
  - rewrite !look_app, !look_cons, (nomatch h c _ CK N), (nomatch h c' _ CK' N). reflexivity.
  - rewrite !look_app, !look_cons, (nomatch h c _ CK N). reflexivity.
Qed.
Lemma step_other be hist st p st' e h : step_ok be hist st p st' e -> key (p_hdr p) <> key h ->
  queued st' h = queued st h.
Proof.
  intros S N. unfold queued. set (ix := reass_hash (h_src h) (h_id h)).
  change (look h (r_q st' ix) = look h (r_q st ix)).
  destruct (Z.eq_dec ix (hash_of p)) as [E|E].
  - rewrite E. exact (bucket_step_other p h _ _ _ (so_bucket _ _ _ _ _ _ S) N).
  - rewrite (so_frame _ _ _ _ _ _ S ix E). reflexivity.
Qed.
