From Verif Require Import Base ArpModel ArpSpec ArpProof.
From Coq Require Import Permutation.
Ltac Zify.zify_post_hook ::= idtac.

Definition sim (e e' : aent) : Prop :=
  e_used e' = e_used e /\ e_pkts e' = e_pkts e /\ e_ref e' = e_ref e /\ e_compl e' = e_compl e /\
  (e_used e = true -> e_vrf e' = e_vrf e /\ e_ip e' = e_ip e /\ e_man e' = e_man e) /\
  (e_compl e = true -> e_mac e' = e_mac e).
Definition others (s s' : arp) (i : nat) : Prop := forall j, j <> i -> sim (ents s j) (ents s' j).
Definition quiet (s s' : arp) : Prop := forall j, sim (ents s j) (ents s' j).
Definition isfree (c : acfg) (s : arp) (i : nat) : Prop := rng c i /\ e_used (ents s i) = false.
Definition known (c : acfg) (s : arp) (v ip : Z) : option Z :=
  match arp_lookup s (hash c v ip) v ip with
  | Some i => if e_compl (ents s i) then Some (e_mac (ents s i)) else None
  | None => None
  end.

Lemma sim_refl e : sim e e.
Proof. unfold sim. tauto. Qed.
Lemma sim_trans a b d : sim a b -> sim b d -> sim a d.
Proof.
  unfold sim. intros (A1 & A2 & A3 & A4 & A5 & A6) (B1 & B2 & B3 & B4 & B5 & B6).
  repeat split; try congruence.
  - rewrite A1 in B5. destruct (A5 H) as (? & _). destruct (B5 H) as (? & _). congruence.
  - rewrite A1 in B5. destruct (A5 H) as (_ & ? & _). destruct (B5 H) as (_ & ? & _). congruence.
  - rewrite A1 in B5. destruct (A5 H) as (_ & _ & ?). destruct (B5 H) as (_ & _ & ?). congruence.
  - intros H. rewrite B6, A6; congruence.
Qed.
Lemma quiet_refl s : quiet s s. Proof. intros j. apply sim_refl. Qed.

Definition agecond (c : acfg) (e : aent) (now : Z) : bool :=
  (e_ref e =? 0) && e_used e && negb (e_man e) && (match e_pkts e with [] => true | _ => false end) && (now >? e_time e + tmo c).

Inductive eff (c : acfg) (s : arp) : aop -> arp -> ares -> Prop :=
| eff_learn v ip mac man now cok s' i : names c s' i v ip ->
    (names c s i v ip \/ isfree c s i /\ forall j, ~ names c s j v ip) -> others s s' i ->
    e_compl (ents s' i) = true -> e_mac (ents s' i) = mac -> e_pkts (ents s' i) = [] -> e_ref (ents s' i) = e_ref (ents s i) ->
    eff c s (OLearn v ip mac man now cok) s' (mkR COk None (Some i) (e_pkts (ents s i)) [])
| eff_learn_fail v ip mac man now cok s' : quiet s s' -> (forall i, ~ isfree c s i) -> (forall j, ~ names c s j v ip) ->
    eff c s (OLearn v ip mac man now cok) s' (mkR CFail None None [] [])
| eff_res_old v ip now tok cok s' i : names c s i v ip -> quiet s s' ->
    eff c s (OResolve v ip now tok cok) s' (mkR COk None (Some i) [] [])
| eff_res_new v ip now tok cok s' i : isfree c s i -> (forall j, ~ names c s j v ip) -> names c s' i v ip -> others s s' i ->
    e_compl (ents s' i) = false -> e_pkts (ents s' i) = [] -> e_ref (ents s' i) = 0 ->
    eff c s (OResolve v ip now tok cok) s' (mkR COk None (Some i) [] [])
| eff_res_fail v ip now tok cok s' : quiet s s' -> (forall i, ~ isfree c s i) -> (forall j, ~ names c s j v ip) ->
    eff c s (OResolve v ip now tok cok) s' (mkR CFail None None [] [])
| eff_inc i s' : others s s' i -> names c s' i (e_vrf (ents s i)) (e_ip (ents s i)) ->
    e_compl (ents s' i) = e_compl (ents s i) -> e_mac (ents s' i) = e_mac (ents s i) ->
    e_pkts (ents s' i) = e_pkts (ents s i) -> e_ref (ents s' i) = e_ref (ents s i) + 1 ->
    eff c s (OInc i) s' (mkR COk None None [] [])
| eff_dec i s' : others s s' i -> e_ref (ents s i) <> 1 -> names c s' i (e_vrf (ents s i)) (e_ip (ents s i)) ->
    e_compl (ents s' i) = e_compl (ents s i) -> e_mac (ents s' i) = e_mac (ents s i) ->
    e_pkts (ents s' i) = e_pkts (ents s i) -> e_ref (ents s' i) = e_ref (ents s i) - 1 ->
    eff c s (ODec i) s' (mkR COk None None [] [])
| eff_dec_rm i s' : others s s' i -> e_ref (ents s i) = 1 -> isfree c s' i -> e_pkts (ents s' i) = [] -> e_ref (ents s' i) = 0 ->
    eff c s (ODec i) s' (mkR COk None None [] (e_pkts (ents s i)))
| eff_remove_not i s' : quiet s s' -> (forall v ip, unref c s i 0 v ip = false) ->
    eff c s (ORemove i) s' (mkR COk None None [] [])
| eff_remove i s' : others s s' i -> e_ref (ents s i) = 0 -> rng c i -> e_used (ents s i) = true ->
    isfree c s' i -> e_pkts (ents s' i) = [] -> e_ref (ents s' i) = 0 ->
    eff c s (ORemove i) s' (mkR COk None None [] (e_pkts (ents s i)))
| eff_lookup v ip now tok s' : quiet s s' ->
    eff c s (OLookup v ip now tok) s' (mkR (match known c s v ip with Some _ => COk | None => CFail end) (known c s v ip) None [] [])
| eff_get i s' : quiet s s' ->
    eff c s (OGetMac i) s' (mkR (match get_mac_by_idx s i with Some _ => COk | None => CFail end) (get_mac_by_idx s i) None [] [])
| eff_out_cont pkt nh lo v ip idx now tok cok tst mac s' : quiet s s' ->
    (if lo : bool then known c s v ip else get_mac_by_idx s idx) = Some mac ->
    eff c s (OOutput pkt nh lo v ip idx now tok cok tst) s' (mkR CContinue (Some mac) None [] [])
| eff_out_drop pkt nh lo v ip idx now tok cok tst s' : quiet s s' ->
    (if lo : bool then known c s v ip else get_mac_by_idx s idx) = None ->
    eff c s (OOutput pkt nh lo v ip idx now tok cok tst) s' (mkR CDrop None None [] [])
| eff_out_drop_rm pkt nh v ip idx now tok cok tst s' i : others s s' i -> names c s i v ip -> e_compl (ents s i) = false ->
    e_pkts (ents s i) = [] -> e_ref (ents s i) = 0 -> isfree c s' i -> e_pkts (ents s' i) = [] -> e_ref (ents s' i) = 0 ->
    known c s v ip = None ->
    eff c s (OOutput pkt nh true v ip idx now tok cok tst) s' (mkR CDrop None None [] [])
| eff_out_acc pkt nh (lo : bool) v ip idx now tok cok tst s' i v' ip' : others s s' i ->
    (if lo then (v', ip') = (v, ip) else idx = i /\ names c s idx v' ip') ->
    (names c s i v' ip' \/ isfree c s i /\ forall j, ~ names c s j v' ip') ->
    names c s' i v' ip' -> e_compl (ents s i) = false -> e_compl (ents s' i) = false ->
    e_pkts (ents s' i) = (pkt, nh) :: e_pkts (ents s i) -> e_ref (ents s' i) = e_ref (ents s i) ->
    (if lo : bool then known c s v ip else get_mac_by_idx s idx) = None -> 
    eff c s (OOutput pkt nh lo v ip idx now tok cok tst) s' (mkR CProcessed None None [] [])
| eff_usetmo i s' : quiet s s' -> eff c s (OUseTmo i) s' (mkR COk None None [] [])
| eff_age now s' : (forall j, rng c j -> if agecond c (ents s j) now && Nat.ltb (hash c (e_vrf (ents s j)) (e_ip (ents s j))) (nset c)
                             then isfree c s' j /\ e_pkts (ents s' j) = [] /\ e_ref (ents s' j) = 0 else sim (ents s j) (ents s' j)) ->
    eff c s (OAge now) s' (mkR COk None None [] [])
| eff_flush s' : (forall j, rng c j -> isfree c s' j /\ e_pkts (ents s' j) = [] /\ e_ref (ents s' j) = 0) ->
    eff c s OFlush s' (mkR COk None None [] (waiting c s)).

Lemma sim_eq e e' : e' = e -> sim e e'. Proof. intros ->. apply sim_refl. Qed.
Lemma free_compl c s i : inv c s -> isfree c s i -> e_compl (ents s i) = false /\ e_pkts (ents s i) = [] /\ e_ref (ents s i) = 0.
Proof. intros I [R U]. pose proof (i_ent _ _ I i R) as E. unfold entok in E. rewrite U in E. tauto. Qed.
Lemma used_ok c s i : inv c s -> rng c i -> e_used (ents s i) = true ->
  0 <= e_vrf (ents s i) < 65536 /\ (e_compl (ents s i) = true -> e_pkts (ents s i) = []) /\ 0 <= e_ref (ents s i) < 4294967296.
Proof. intros I R U. pose proof (i_ent _ _ I i R) as E. unfold entok in E. now rewrite U in E. Qed.
Lemma ref_used c s i : inv c s -> rng c i -> e_ref (ents s i) <> 0 -> e_used (ents s i) = true.
Proof.
  intros I R N. destruct (e_used (ents s i)) eqn:U; [auto|]. destruct (free_compl c s i I); [split; auto|]. destruct H0. contradiction.
Qed.
Lemma nofree c s : inv c s -> afree s = [] -> forall i, ~ isfree c s i.
Proof. intros I F i X. apply (i_fre _ _ I) in X. now rewrite F in X. Qed.

(* touch *)
Lemma touch_quiet s i now tok : quiet s (touch s i now tok).
Proof.
  intros j. unfold touch. destruct (_ && _); [|apply sim_refl]. cbn [setE ents].
  nu i j; [|apply sim_refl]. unfold sim; cbn; tauto.
Qed.
Lemma touch_inv c s i now tok : inv c s -> rng c i -> e_used (ents s i) = true -> inv c (touch s i now tok).
Proof.
  intros I R U. unfold touch. destruct (_ && _); [|auto]. apply inv_setE; cbn; auto.
  pose proof (i_ent _ _ I i R) as E. unfold entok in *. cbn. rewrite U in *. auto.
Qed.
Lemma touch_pfree s i now tok : pfree (touch s i now tok) = pfree s.
Proof. unfold touch. now destruct (_ && _). Qed.
Lemma touch_tab s i now tok : tab (touch s i now tok) = tab s.
Proof. unfold touch. now destruct (_ && _). Qed.

Lemma quiet_names c s s' i v ip : quiet s s' -> (names c s' i v ip <-> names c s i v ip).
Proof.
  intros Q. destruct (Q i) as (A1 & _ & _ & _ & A5 & _). unfold names. split.
  - intros (R & U & V & P). rewrite A1 in U. destruct (A5 U) as (B1 & B2 & _). rewrite <- B1, <- B2. auto.
  - intros (R & U & V & P). destruct (A5 U) as (B1 & B2 & _). rewrite A1, B1, B2. auto.
Qed.

Lemma lookup_idx_spec c s v ip now tok s1 r : inv c s -> 0 <= v < 65536 -> lookup_idx c s v ip now tok = (s1, r) ->
  inv c s1 /\ quiet s s1 /\ pfree s1 = pfree s /\ tab s1 = tab s /\
  match r with
  | Some i => names c s i v ip
  | None => s1 = s /\ ((forall i, ~ names c s i v ip) \/ exists i, names c s i v ip /\ e_pkts (ents s i) <> [])
  end.
Proof.
  intros I Hv. unfold lookup_idx. destruct (keyeq (ents s (cache s (hash c v ip))) v ip) eqn:K.
  - destruct (i_cac _ _ I (hash c v ip)) as [C0|CI]; [rewrite C0 in K; rewrite (keyeq_0 c s v ip I Hv) in K; discriminate|].
    apply keyeq_iff in K. apply (i_tab _ _ I) in CI. destruct CI as (R & U & _). intros [= <- <-].
    split; [now apply touch_inv|]. split; [apply touch_quiet|]. split; [apply touch_pfree|]. split; [apply touch_tab|].
    split; [auto|tauto].
  - destruct (arp_lookup s (hash c v ip) v ip) as [i|] eqn:L.
    + assert (N : names c s i v ip) by (now apply lookup_some). destruct N as (R & U & V & P).
      destruct (e_pkts (ents s i)) eqn:PK.
      * intros [= <- <-]. assert (I2 : inv c (setC s (hash c v ip) i)).
        { apply inv_setC; auto. right. apply (i_tab _ _ I). rewrite V, P. auto. }
        split; [apply touch_inv; auto|]. split; [apply (touch_quiet (setC s (hash c v ip) i))|].
        rewrite touch_pfree, touch_tab. split; [auto|]. split; [auto|]. split; auto.
      * intros [= <- <-]. split; [auto|]. split; [apply quiet_refl|]. split; [auto|]. split; [auto|]. split; [auto|]. right. exists i. split; [split; auto|].
        rewrite PK. discriminate.
    + intros [= <- <-]. split; [auto|]. split; [apply quiet_refl|]. split; [auto|]. split; [auto|]. split; [auto|]. left.
      now apply lookup_none.
Qed.
Lemma known_none c s v ip : inv c s -> (forall i, ~ names c s i v ip) -> known c s v ip = None.
Proof.
  intros I N. unfold known. destruct (arp_lookup _ _ _ _) eqn:L; [|auto]. apply (lookup_some c s v ip n I) in L. now apply N in L.
Qed.
Lemma known_at c s v ip i : inv c s -> names c s i v ip -> known c s v ip = if e_compl (ents s i) then Some (e_mac (ents s i)) else None.
Proof. intros I N. unfold known. apply (lookup_some c s v ip i I) in N. now rewrite N. Qed.

Lemma lookup_mac_spec c s v ip now tok s1 r : inv c s -> 0 <= v < 65536 -> lookup_mac c s v ip now tok = (s1, r) ->
  inv c s1 /\ quiet s s1 /\ pfree s1 = pfree s /\ r = known c s v ip.
Proof.
  intros I Hv. unfold lookup_mac. destruct (lookup_idx c s v ip now tok) as [s2 [i|]] eqn:L; intros [= <- <-];
    destruct (lookup_idx_spec _ _ _ _ _ _ _ _ I Hv L) as (I2 & Q & P & T & X).
  - split; [auto|]. split; [auto|]. split; [auto|]. rewrite (known_at c s v ip i I X).
    destruct (Q i) as (_ & _ & _ & A4 & _ & A6). rewrite A4. destruct (e_compl (ents s i)); [|auto]. f_equal. auto.
  - destruct X as [-> X]. split; [auto|]. split; [auto|]. split; [auto|]. destruct X as [X|(i & X & Y)].
    + now rewrite known_none.
    + rewrite (known_at c s v ip i I X). destruct (e_compl (ents s i)) eqn:C; [|auto]. exfalso. apply Y.
      destruct X as (R & U & _). now apply (used_ok c s i I R U).
Qed.

Definition nacc (op : aop) (r : ares) : list (Z * Z) :=
  match op, r_rc r with OOutput pkt nh _ _ _ _ _ _ _ _, CProcessed => [(pkt, nh)] | _, _ => [] end.
Notation len l := (Z.of_nat (length l)).
Definition good (c : acfg) (s : arp) (op : aop) : Prop :=
  exists s' r, astep c s op = Ret (s', r) /\ inv c s' /\ eff c s op s' r /\ 0 <= pfree s' /\
    pfree s' = pfree s + len (r_sent r) + len (r_lost r) - len (nacc op r).

Lemma others_nupd s s' i e : (forall j, ents s' j = nupd (ents s) i e j) -> others s s' i.
Proof. intros H j N. rewrite H, nupd_other by auto. apply sim_refl. Qed.
Lemma others_quiet s s1 s2 i : quiet s s1 -> others s1 s2 i -> others s s2 i.
Proof. intros Q O j N. eapply sim_trans; [apply Q|auto]. Qed.
Lemma names_ext c s s' i v ip : e_used (ents s' i) = e_used (ents s i) -> e_vrf (ents s' i) = e_vrf (ents s i) -> e_ip (ents s' i) = e_ip (ents s i) ->
  names c s i v ip -> names c s' i v ip.
Proof. unfold names. intros -> -> ->. auto. Qed.

(* insert_new_entry, in the form the callers need *)
Lemma insert_new_cases c s v ip cok s1 r : inv c s -> 0 <= v < 65536 ->
  insert_new_entry s (hash c v ip) v ip cok = (s1, r) ->
  inv c s1 /\ pfree s1 = pfree s /\
  match r with
  | None => s1 = s /\ (forall i, ~ isfree c s i) /\ forall i, ~ names c s i v ip
  | Some i => names c s1 i v ip /\ others s s1 i /\ e_pkts (ents s1 i) = e_pkts (ents s i) /\ e_ref (ents s1 i) = e_ref (ents s i) /\
      ((names c s i v ip /\ s1 = s) \/ (isfree c s i /\ (forall j, ~ names c s j v ip) /\ e_compl (ents s1 i) = false))
  end.
Proof.
  intros I Hv H. destruct (insert_new_spec _ _ _ _ _ _ _ I Hv H) as (I1 & P & X).
  split; [auto|]. split; [auto|]. destruct r as [i|].
  - destruct X as (N & [->|(NN & R & U & t & E)]).
    + split; [auto|]. split; [intros j _; apply sim_refl|]. auto.
    + split; [auto|]. split; [now apply others_nupd in E|]. rewrite !E, !nupd_same.
      destruct (free_compl c s i I) as (C1 & C2 & C3); [split; auto|]. rewrite C2, C3. cbn. split; [auto|]. split; [auto|]. right.
      split; [split; auto|]. auto.
  - destruct X as (-> & F & N). split; [auto|]. split; [now apply nofree|auto].
Qed.

Lemma good_learn c s v ip mac man now cok : inv c s -> 0 <= pfree s -> 0 <= v < 65536 -> good c s (OLearn v ip mac man now cok).
Proof.
  intros I P0 Hv. unfold good. cbn [astep]. unfold insert_entry.
  destruct (insert_new_entry s (hash c v ip) v ip cok) as [s1 [i|]] eqn:L;
    destruct (insert_new_cases _ _ _ _ _ _ _ I Hv L) as (I1 & P1 & X).
  - destruct X as (N & O & E1 & E2 & Y). cbn [e_compl e_pkts e_vrf e_ip e_used e_man e_mac e_ptmo e_utmo e_time e_ref].
    rewrite orb_true_r. cbn [andb]. destruct N as (R & U & V & Q).
    set (e2 := mkE _ _ _ _ _ _ _ _ _ _ _).
    exists (setP (setE s1 i e2) (pfree (setE s1 i e2) + len (e_pkts (ents s1 i)))), (mkR COk None (Some i) (e_pkts (ents s1 i)) []).
    split; [reflexivity|]. split.
    { apply inv_setP. apply inv_setE; auto. unfold entok, e2. cbn. rewrite U. destruct (used_ok _ _ _ I1 R U) as (? & ? & ?). auto. }
    split.
    { rewrite E1. eapply eff_learn; cbn [setP setE ents]; rewrite ?nupd_same.
      - split; [auto|]. cbn [setP setE ents]. rewrite nupd_same. unfold e2. cbn. auto.
      - destruct Y as [[? _]|[? [? ?]]]; auto.
      - intros j Nj. cbn [setP setE ents]. rewrite nupd_other by auto. now apply O.
      - reflexivity.
      - reflexivity.
      - reflexivity.
      - unfold e2. cbn. auto. }
    cbn. lia.
  - destruct X as (-> & F & N). exists s, (mkR CFail None None [] []). split; [reflexivity|]. split; [auto|].
    split; [apply eff_learn_fail; auto; apply quiet_refl|]. cbn. lia.
Qed.

Lemma good_resolve c s v ip now tok cok : inv c s -> 0 <= pfree s -> 0 <= v < 65536 -> good c s (OResolve v ip now tok cok).
Proof.
  intros I P0 Hv. unfold good. cbn [astep].
  destruct (lookup_idx c s v ip now tok) as [s1 [i|]] eqn:L; destruct (lookup_idx_spec _ _ _ _ _ _ _ _ I Hv L) as (I1 & Q & P & T & X).
  - do 2 eexists. split; [reflexivity|]. split; [auto|]. split; [apply eff_res_old; auto|]. cbn. lia.
  - destruct X as [-> _]. unfold insert_entry.
    destruct (insert_new_entry s (hash c v ip) v ip cok) as [s1 [i|]] eqn:L2;
      destruct (insert_new_cases _ _ _ _ _ _ _ I Hv L2) as (I2 & P2 & X).
    + destruct X as (N & O & E1 & E2 & Y). cbn [e_compl e_pkts e_vrf e_ip e_used e_man e_mac e_ptmo e_utmo e_time e_ref].
      rewrite !orb_false_r, !andb_false_r. cbn [andb].
      destruct N as (R & U & V & W). set (e2 := mkE _ _ _ _ _ _ _ _ _ _ _).
      exists (setE s1 i e2), (mkR COk None (Some i) [] []). split; [reflexivity|].
      split. { apply inv_setE; auto. unfold entok, e2. cbn. rewrite U. apply (used_ok _ _ _ I2 R U). }
      split; [|cbn; lia].
      destruct Y as [[N ->]|(F & NN & C)].
      * apply eff_res_old; auto. intros j. cbn [setE ents]. nu i j; [|apply sim_refl]. unfold sim, e2. cbn.
        repeat split; auto. intros C. exfalso.
        (* complete entries have no waiting packets, so the lookup would have found it *)
        pose proof (lookup_idx_spec c s v ip now tok s None I Hv L) as (_ & _ & _ & _ & _ & X).
        destruct X as [X|(k & X & Y)]; [apply (X i); auto|]. assert (k = i) by (eapply names_unq; eauto). subst k. apply Y. now apply (used_ok _ _ _ I R U).
      * eapply eff_res_new; eauto; cbn [setE ents]; rewrite ?nupd_same.
        -- split; [auto|]. cbn [setE ents]. rewrite nupd_same. unfold e2; cbn. auto.
        -- intros j Nj. cbn [setE ents]. rewrite nupd_other by auto. now apply O.
        -- unfold e2; cbn. auto.
        -- unfold e2; cbn. rewrite E1. now apply (free_compl c s i I).
        -- unfold e2; cbn. rewrite E2. now apply (free_compl c s i I).
    + destruct X as (-> & F & N). do 2 eexists. split; [reflexivity|]. split; [auto|].
      split; [apply eff_res_fail; auto; apply quiet_refl|]. cbn. lia.
Qed.

Lemma inrange_true c i : (i <= nent c)%nat -> inrange c i = true.
Proof. unfold inrange. intros. apply Nat.leb_le. auto. Qed.

Lemma set_ref_inv c s i n : inv c s -> rng c i -> e_used (ents s i) = true -> 0 <= n < 4294967296 -> inv c (set_ref s i n).
Proof.
  intros I R U H. unfold set_ref. apply inv_setE; auto. unfold entok. cbn. rewrite U. destruct (used_ok _ _ _ I R U) as (? & ? & ?). auto.
Qed.
Lemma u32_id x : 0 <= x < 4294967296 -> u32 x = x.
Proof. intros. unfold u32. now rewrite Z.mod_small. Qed.

Lemma good_inc c s i : inv c s -> 0 <= pfree s -> op_ok c s (OInc i) -> good c s (OInc i).
Proof.
  intros I P0 (R & U & W). unfold good. cbn [astep]. rewrite inrange_true by lia.
  destruct (used_ok _ _ _ I R U) as (? & ? & ?).
  unfold inc_ref. rewrite u32_id by lia. do 2 eexists. split; [reflexivity|].
  split; [apply set_ref_inv; auto; lia|]. split; [|cbn; lia].
  apply eff_inc; unfold set_ref; cbn [setE ents]; rewrite ?nupd_same; auto.
  - intros j Nj. cbn [setE ents]. rewrite nupd_other by auto. apply sim_refl.
  - split; [auto|]. cbn [setE ents]. rewrite nupd_same. cbn. auto.
Qed.

Lemma remove_unref_not s st i : (e_ref (ents s i) =? 0) && e_used (ents s i) = false -> remove_unref s st i = Ret (s, []).
Proof. unfold remove_unref. now intros ->. Qed.

Lemma good_dec c s i : inv c s -> 0 <= pfree s -> op_ok c s (ODec i) -> good c s (ODec i).
Proof.
  intros I P0 (R & NZ). pose proof (ref_used c s i I R NZ) as U. unfold good. cbn [astep]. rewrite inrange_true by lia.
  destruct (used_ok _ _ _ I R U) as (? & ? & ?).
  unfold dec_ref. rewrite u32_id by lia. set (s1 := set_ref s i _).
  assert (I1 : inv c s1) by (apply set_ref_inv; auto; lia).
  assert (E : ents s1 i = mkE (e_vrf (ents s i)) (e_ip (ents s i)) (e_used (ents s i)) (e_compl (ents s i)) (e_man (ents s i)) (e_mac (ents s i))
              (e_pkts (ents s i)) (e_ptmo (ents s i)) (e_utmo (ents s i)) (e_time (ents s i)) (e_ref (ents s i) - 1)).
  { unfold s1, set_ref. cbn [setE ents]. apply nupd_same. }
  assert (O : others s s1 i). { apply (others_nupd s s1 i (ents s1 i)). intros j. unfold s1, set_ref. cbn [setE ents]. rewrite nupd_same. reflexivity. }
  destruct (Z.eq_dec (e_ref (ents s i)) 1) as [E1|N1].
  - destruct (remove_unref_spec c s1 i I1 R) as (s2 & RM & I2 & EN & PF & TB).
    { rewrite E. cbn. lia. } { rewrite E. cbn. auto. }
    rewrite E in RM, PF, EN. cbn [e_vrf e_ip e_pkts] in RM, PF. rewrite RM. cbn [obind].
    do 2 eexists. split; [reflexivity|]. split; [auto|]. split; [|cbn; change (pfree s1) with (pfree s) in PF; lia].
    apply eff_dec_rm; auto.
    + intros j Nj. rewrite EN, nupd_other by auto. apply O; auto.
    + split; [auto|]. rewrite EN, nupd_same. reflexivity.
    + rewrite EN, nupd_same. reflexivity.
    + rewrite EN, nupd_same. cbn. lia.
  - rewrite remove_unref_not; [|rewrite E; cbn; replace (e_ref (ents s i) - 1 =? 0) with false by lia; reflexivity].
    cbn [obind]. do 2 eexists. split; [reflexivity|]. split; [auto|]. split; [|cbn; lia].
    apply eff_dec; auto; rewrite ?E; auto. split; [auto|]. rewrite E. cbn. auto.
Qed.

Lemma good_remove c s i : inv c s -> 0 <= pfree s -> op_ok c s (ORemove i) -> good c s (ORemove i).
Proof.
  intros I P0 R0. cbn in R0. unfold good. cbn [astep]. rewrite inrange_true by lia. unfold remove_idx.
  destruct ((e_ref (ents s i) =? 0) && e_used (ents s i)) eqn:B.
  - apply andb_true_iff in B. destruct B as [B U]. apply Z.eqb_eq in B.
    assert (R : rng c i). { split; [|auto]. destruct i; [|lia]. destruct (i_zero _ _ I) as (_ & _ & Z0). contradiction. }
    destruct (remove_unref_spec c s i I R B U) as (s2 & RM & I2 & EN & PF & TB). rewrite RM. cbn [obind].
    do 2 eexists. split; [reflexivity|]. split; [auto|]. split; [|cbn; lia].
    apply eff_remove; auto.
    + now apply others_nupd in EN.
    + split; [auto|]. rewrite EN, nupd_same. reflexivity.
    + rewrite EN, nupd_same. reflexivity.
    + rewrite EN, nupd_same. auto.
  - rewrite remove_unref_not by auto. cbn [obind]. do 2 eexists. split; [reflexivity|]. split; [auto|]. split; [|cbn; lia].
    apply eff_remove_not; [apply quiet_refl|]. intros v ip. unfold unref, namesb.
    destruct (e_ref (ents s i) =? 0), (e_used (ents s i)); cbn in *; try discriminate; rewrite ?andb_false_r, ?andb_false_l; auto.
Qed.
Lemma good_lookup c s v ip now tok : inv c s -> 0 <= pfree s -> 0 <= v < 65536 -> good c s (OLookup v ip now tok).
Proof.
  intros I P0 Hv. unfold good. cbn [astep]. destruct (lookup_mac c s v ip now tok) as [s1 m] eqn:L.
  destruct (lookup_mac_spec _ _ _ _ _ _ _ _ I Hv L) as (I1 & Q & P & ->).
  do 2 eexists. split; [reflexivity|]. split; [auto|]. split; [now apply eff_lookup|]. cbn. lia.
Qed.
Lemma good_get c s i : inv c s -> 0 <= pfree s -> op_ok c s (OGetMac i) -> good c s (OGetMac i).
Proof.
  intros I P0 R. cbn in R. unfold good. cbn [astep]. rewrite inrange_true by auto.
  do 2 eexists. split; [reflexivity|]. split; [auto|]. split; [apply eff_get; apply quiet_refl|]. cbn. lia.
Qed.
Lemma good_usetmo c s i : inv c s -> 0 <= pfree s -> op_ok c s (OUseTmo i) -> good c s (OUseTmo i).
Proof.
  intros I P0 R. cbn in R. unfold good. cbn [astep]. rewrite inrange_true by auto.
  do 2 eexists. split; [reflexivity|]. unfold usetime_tmo. set (e := mkE _ _ _ _ _ _ _ _ _ _ _).
  assert (Q : quiet s (setE s i e)). { intros j. cbn [setE ents]. nu i j; [|apply sim_refl]. unfold sim, e. cbn. tauto. }
  split.
  { destruct i as [|i].
    - destruct I as [A B C D E F G H]. constructor; cbn [setE ents afree tab cache]; auto.
      + intros j. rewrite B. nu 0%nat j; [cbn; tauto|tauto].
      + intros st j. rewrite D. nu 0%nat j; [cbn; tauto|tauto].
      + intros j k Rj Rk. unfold rng in *. rewrite !nupd_other by lia. auto.
      + intros j Rj. unfold rng in Rj. rewrite nupd_other by lia. auto.
    - apply inv_setE; auto; [split; [lia|auto]|]. pose proof (i_ent _ _ I (S i)) as X. unfold entok, e in *. cbn.
      assert (rng c (S i)) as RR by (split; [lia|auto]). specialize (X RR). destruct (e_used _); tauto. }
  split; [now apply eff_usetmo|]. cbn. lia.
Qed.
Lemma good_flush c s : inv c s -> pool c s -> good c s OFlush.
Proof.
  intros I [P1 P0]. unfold good. cbn [astep]. do 2 eexists. split; [reflexivity|].
  assert (X : forall j, rng c j -> e_used (ents (init_tables c s) j) = false /\ entok (ents (init_tables c s) j)).
  { intros j R. destruct j; [unfold rng in R; lia|]. cbn. unfold entok. cbn. auto 10. }
  split.
  { constructor; cbn [init_tables afree tab cache].
    - apply seq_NoDup.
    - intros j. rewrite in_seq. split.
      + intros H. assert (rng c j) by (unfold rng; lia). split; [auto|now apply X].
      + intros [H _]. unfold rng in H. lia.
    - constructor.
    - intros st j. split; [intros []|]. intros (R & U & _). apply X in R. destruct R. unfold init_tables in *. congruence.
    - intros j k Rj _ U. apply X in Rj. destruct Rj. unfold init_tables in *. congruence.
    - auto.
    - intros j Rj. now apply X.
    - cbn. split; [auto|]. split; [auto|]. lia. }
  split.
  - apply eff_flush. intros j R. destruct j; [unfold rng in R; lia|]. cbn. split; [split; auto|auto].
  - cbn. unfold pool in *. lia.
Qed.

Lemma age_set_spec c st now l : forall s, inv c s -> NoDup l ->
  (forall j, In j l -> rng c j /\ hash c (e_vrf (ents s j)) (e_ip (ents s j)) = st) ->
  exists s', age_set c s st l now = Ret (s', []) /\ inv c s' /\ pfree s' = pfree s /\
    forall j, ents s' j = if existsb (Nat.eqb j) l && agecond c (ents s j) now then freed_e (ents s j) else ents s j.
Proof.
  induction l as [|i l IH]; intros s I ND H.
  - exists s. cbn. auto.
  - apply NoDup_cons_iff in ND. destruct ND as [NI ND]. cbn [age_set].
    assert (NE : existsb (Nat.eqb i) l = false).
    { destruct (existsb _ _) eqn:E; [|auto]. apply existsb_exists in E. destruct E as (x & E1 & E2). apply Nat.eqb_eq in E2. subst. contradiction. }
    assert (SKIP : forall s1, s1 = s -> agecond c (ents s i) now = false ->
       exists s', age_set c s1 st l now = Ret (s', []) /\ inv c s' /\ pfree s' = pfree s /\
       forall j, ents s' j = if existsb (Nat.eqb j) (i :: l) && agecond c (ents s j) now then freed_e (ents s j) else ents s j).
    { intros s1 -> AC. destruct (IH s I ND) as (s' & A & B & C & D); [intros; apply H; now right|].
      exists s'. split; [auto|]. split; [auto|]. split; [auto|]. intros j. rewrite D. cbn [existsb].
      destruct (Nat.eqb_spec j i) as [->|]; [|auto]. rewrite AC, !andb_false_r. auto. }
    destruct (negb (e_man (ents s i)) && _ && timed_out c (ents s i) now) eqn:B.
    + destruct ((e_ref (ents s i) =? 0) && e_used (ents s i)) eqn:B2.
      * assert (AC : agecond c (ents s i) now = true).
        { unfold agecond, timed_out in *. apply andb_true_iff in B2. destruct B2 as [-> ->]. cbn [andb]. exact B. }
        apply andb_true_iff in B2. destruct B2 as [B2 U]. apply Z.eqb_eq in B2.
        destruct (H i) as [R Hs]; [now left|].
        destruct (remove_unref_spec c s i I R B2 U) as (s1 & RM & I1 & EN & PF & _). rewrite Hs in RM.
        assert (PK : e_pkts (ents s i) = []). { destruct (e_pkts (ents s i)); [auto|]. rewrite andb_false_r in B. discriminate. }
        rewrite PK in *. rewrite RM. cbn [obind]. destruct (IH s1 I1 ND) as (s' & A1 & A2 & A3 & A4).
        { intros j Hj. rewrite EN, nupd_other by (intros ->; contradiction). apply H. now right. }
        rewrite A1. cbn [obind]. exists s'. cbn [app]. split; [auto|]. split; [auto|]. split; [cbn in PF; lia|].
        intros j. rewrite A4, EN. cbn [existsb]. nu i j.
        -- rewrite NE, Nat.eqb_refl, AC. reflexivity.
        -- replace (Nat.eqb j i) with false by (symmetry; now apply Nat.eqb_neq). reflexivity.
      * rewrite remove_unref_not by auto. cbn [obind]. destruct (SKIP s eq_refl) as (s' & A1 & A2); [unfold agecond; now rewrite B2|].
        rewrite A1. cbn [obind]. exists s'. auto.
    + apply SKIP; [auto|]. unfold agecond, timed_out in *. rewrite <- !andb_assoc in *. rewrite B, !andb_false_r. reflexivity.
Qed.

Lemma age_from_spec c now l : forall s, inv c s -> NoDup l ->
  exists s', age_from c s l now = Ret (s', []) /\ inv c s' /\ pfree s' = pfree s /\
    forall j, rng c j -> ents s' j = if existsb (Nat.eqb (hash c (e_vrf (ents s j)) (e_ip (ents s j)))) l && agecond c (ents s j) now then freed_e (ents s j) else ents s j.
Proof.
  induction l as [|st l IH]; intros s I ND.
  - exists s. cbn. auto.
  - apply NoDup_cons_iff in ND. destruct ND as [NI ND]. cbn [age_from].
    destruct (age_set_spec c st now (tab s st) s I (i_tnd _ _ I st)) as (s1 & A1 & A2 & A3 & A4).
    { intros j Hj. apply (i_tab _ _ I) in Hj. tauto. }
    rewrite A1. cbn [obind]. destruct (IH s1 A2 ND) as (s2 & B1 & B2 & B3 & B4). rewrite B1. cbn [obind app].
    exists s2. split; [auto|]. split; [auto|]. split; [congruence|]. intros j R. rewrite B4 by auto. rewrite A4. cbn [existsb].
    destruct (agecond c (ents s j) now) eqn:AC.
    + rewrite !andb_true_r.
      assert (U : e_used (ents s j) = true). { unfold agecond in AC. destruct (e_used (ents s j)); [auto|]. now rewrite andb_false_r in AC. }
      destruct (existsb (Nat.eqb j) (tab s st)) eqn:X.
      * apply existsb_exists in X. destruct X as (k & X1 & X2). apply Nat.eqb_eq in X2. subst k. apply (i_tab _ _ I) in X1. destruct X1 as (_ & _ & X1).
        rewrite X1, Nat.eqb_refl. cbn [orb]. replace (agecond c (freed_e (ents s j)) now) with false by (unfold agecond; cbn [freed_e e_used]; now rewrite !andb_false_r). rewrite andb_false_r. reflexivity.
      * destruct (Nat.eqb_spec (hash c (e_vrf (ents s j)) (e_ip (ents s j))) st) as [E|E].
        -- exfalso. assert (In j (tab s st)) as Y by (apply (i_tab _ _ I); auto).
           assert (existsb (Nat.eqb j) (tab s st) = true) by (apply existsb_exists; exists j; split; [auto|apply Nat.eqb_refl]). congruence.
        -- cbn [orb]. rewrite AC, andb_true_r. reflexivity.
    + rewrite !andb_false_r. rewrite AC, andb_false_r. reflexivity.
Qed.

Lemma good_age c s now : inv c s -> 0 <= pfree s -> good c s (OAge now).
Proof.
  intros I P0. unfold good. cbn [astep]. unfold age.
  destruct (age_from_spec c now (seq 0 (nset c)) s I (seq_NoDup _ _)) as (s' & A & B & C & D). rewrite A. cbn [obind].
  do 2 eexists. split; [reflexivity|]. split; [auto|]. split; [|cbn; lia]. apply eff_age. intros j R. rewrite !D by auto.
  assert (X : existsb (Nat.eqb (hash c (e_vrf (ents s j)) (e_ip (ents s j)))) (seq 0 (nset c)) = Nat.ltb (hash c (e_vrf (ents s j)) (e_ip (ents s j))) (nset c)).
  { apply eq_true_iff_eq. rewrite existsb_exists, Nat.ltb_lt. split.
    - intros (x & H1 & H2). apply Nat.eqb_eq in H2. apply in_seq in H1. lia.
    - intros H. exists (hash c (e_vrf (ents s j)) (e_ip (ents s j))). split; [apply in_seq; lia|apply Nat.eqb_refl]. }
  rewrite X, (andb_comm (Nat.ltb _ _)). destruct (agecond c (ents s j) now && _) eqn:Y; [|apply sim_refl].
  apply andb_true_iff in Y. destruct Y as [AC Y]. unfold isfree. rewrite !D, X, AC, Y by auto. cbn. split; [split; auto|]. split; [auto|].
  unfold agecond in AC. destruct (e_ref (ents s j) =? 0) eqn:E; [|discriminate]. lia.
Qed.

(* --- output --- *)
Lemma good_output c s pkt nh lo v ip idx now tok cok tst : inv c s -> 0 <= pfree s ->
  op_ok c s (OOutput pkt nh lo v ip idx now tok cok tst) -> good c s (OOutput pkt nh lo v ip idx now tok cok tst).
Proof.
  intros I P0 OK. unfold good. cbn [astep]. destruct lo.
  - cbn in OK. cbn [negb andb]. destruct (lookup_mac c s v ip now tok) as [s1 m] eqn:L.
    destruct (lookup_mac_spec _ _ _ _ _ _ _ _ I OK L) as (I1 & Q & P & K). destruct m as [mac|].
    { do 2 eexists. split; [reflexivity|]. split; [auto|]. split; [now apply eff_out_cont|]. cbn; lia. }
    unfold save_pkt. destruct (insert_new_entry s1 (hash c v ip) v ip cok) as [s2 [i|]] eqn:N;
      destruct (insert_new_cases _ _ _ _ _ _ _ I1 OK N) as (I2 & P2 & X).
    + destruct X as (N2 & O & E1 & E2 & Y).
      assert (C0 : e_compl (ents s2 i) = false).
      { destruct Y as [[Y ->]|(_ & _ & Y)]; [|auto]. destruct (e_compl (ents s1 i)) eqn:C; [|auto].
        destruct (quiet_names c s s1 i v ip Q) as [QN _]. rewrite (known_at c s v ip i I (QN Y)) in K.
        destruct (Q i) as (_ & _ & _ & Cq & _). rewrite <- Cq, C in K. discriminate. }
      rewrite C0. cbn [andb].
      destruct N2 as (R & U & V & W). destruct (used_ok _ _ _ I2 R U) as (UV & UC & UR).
      set (e1 := mkE _ _ _ _ _ _ _ _ _ 0 _). set (s3 := setE s2 i e1).
      assert (I3 : inv c s3). { apply inv_setE; auto. unfold entok, e1. cbn. rewrite U. split; [auto|]. split; [discriminate|auto]. }
      assert (E3 : ents s3 i = e1) by (unfold s3; cbn [setE ents]; apply nupd_same).
      assert (Q3 : quiet s2 s3). { intros j. unfold s3. cbn [setE ents]. nu i j; [|apply sim_refl]. unfold sim, e1. cbn. rewrite C0. tauto. }
      assert (O3 : others s s3 i). { intros j Nj. eapply sim_trans; [apply Q|]. eapply sim_trans; [apply O; auto|apply Q3]. }
      change (pfree s3) with (pfree s2). destruct (Z.leb_spec (pfree s2) 0) as [Z0|Z0].
      * destruct (e_pkts (ents s2 i)) as [|pk0 pks] eqn:PK.
        -- destruct ((e_ref (ents s3 i) =? 0) && e_used (ents s3 i)) eqn:B.
           ++ apply andb_true_iff in B. destruct B as [B B']. apply Z.eqb_eq in B.
              destruct (remove_unref_spec c s3 i I3 R B B') as (s4 & RM & I4 & EN & PF & _).
              rewrite E3 in RM, PF. unfold e1 in RM, PF. cbn [e_vrf e_ip e_pkts] in RM, PF. rewrite V, W in RM. rewrite RM. cbn [obind].
              do 2 eexists. split; [reflexivity|]. split; [auto|]. split; [|cbn in PF |- *; lia].
              assert (F4 : isfree c s4 i). { split; [auto|]. rewrite EN, nupd_same. reflexivity. }
              assert (O4 : others s s4 i). { intros j Nj. rewrite EN, nupd_other by auto. now apply O3. }
              assert (Q4 : e_pkts (ents s4 i) = [] /\ e_ref (ents s4 i) = 0 /\ e_compl (ents s4 i) = false).
              { rewrite EN, nupd_same. cbn [freed_e e_pkts e_ref e_compl]. auto. }
              destruct Q4 as (Q4 & Q5 & Q6).
              destruct Y as [[Y ->]|(Yf & Yn & _)].
              ** destruct (Q i) as (S1 & S2 & S3 & S4 & S5 & S6).
                 eapply eff_out_drop_rm with (i := i); auto.
                 --- now apply (quiet_names c s s1 i v ip Q).
                 --- congruence.
                 --- congruence.
                 --- rewrite E3 in B. unfold e1 in B. cbn in B. congruence.
              ** apply eff_out_drop; [|auto]. intros j. destruct (Nat.eq_dec j i) as [->|Nj]; [|now apply O4].
                 destruct Yf as [_ Yf]. destruct (Q i) as (S1 & S2 & S3 & S4 & S5 & S6). destruct F4 as [_ F4].
                 assert (Fs : isfree c s i) by (split; [auto|congruence]). destruct (free_compl c s i I Fs) as (T1 & T2 & T3).
                 destruct Fs as [_ Fs]. unfold sim. rewrite F4, Q4, Q5, Q6, T1, T2, T3, Fs. repeat split; auto; discriminate.
           ++ rewrite remove_unref_not by auto. cbn [obind]. do 2 eexists. split; [reflexivity|]. split; [auto|].
              split; [|cbn; lia]. apply eff_out_drop; [|auto]. intros j. destruct (Nat.eq_dec j i) as [->|Nj]; [|now apply O3].
              destruct Y as [[Y ->]|(Yf & Yn & _)]; [eapply sim_trans; [apply Q|apply Q3]|].
              exfalso. destruct (free_compl c s1 i I1 Yf) as (_ & _ & T3). rewrite E3 in B. unfold e1 in B. cbn [e_ref e_used] in B. rewrite E2, T3, U in B. discriminate.
        -- do 2 eexists. split; [reflexivity|]. split; [auto|]. split; [|cbn; change (pfree s3) with (pfree s2); lia].
           apply eff_out_drop; [|auto]. intros j. destruct (Nat.eq_dec j i) as [->|Nj]; [|now apply O3].
           destruct Y as [[Y ->]|(Yf & Yn & _)]; [eapply sim_trans; [apply Q|apply Q3]|].
           destruct (free_compl c s1 i I1 Yf) as (_ & T2 & _). congruence.
      * set (e2 := mkE _ _ _ _ _ _ (_ :: _) _ _ 0 _). cbn [obind].
        do 2 eexists. split; [reflexivity|]. split.
        { apply inv_setP. apply inv_setE; auto; rewrite ?E3; auto. unfold entok, e2. cbn. rewrite U. split; [auto|]. split; [discriminate|auto]. }
        split; [|cbn; change (pfree s3) with (pfree s2); lia].
        assert (En : ents (setP (setE s3 i e2) (pfree s2 - 1)) i = e2) by (cbn [setP setE ents]; apply nupd_same).
        eapply eff_out_acc with (i := i) (v' := v) (ip' := ip).
        -- intros j Nj. cbn [setP setE ents]. rewrite nupd_other by auto. now apply O3.
        -- reflexivity.
        -- destruct Y as [[Y ->]|(Yf & Yn & _)]; [left; now apply (quiet_names c s s1 i v ip Q)|right].
           destruct Yf as [_ Yf]. split; [split; [auto|]|].
           ++ destruct (Q i) as (S1 & _). congruence.
           ++ intros j Nj. apply (quiet_names c s s1 j v ip Q) in Nj. now apply Yn in Nj.
        -- split; [auto|]. rewrite En. unfold e2. cbn. auto.
        -- destruct (Q i) as (S1 & S2 & S3 & S4 & S5 & S6). rewrite <- S4. destruct Y as [[Y ->]|(Yf & Yn & _)]; [auto|]. now apply (free_compl c s1 i I1 Yf).
        -- rewrite En. unfold e2. cbn. auto.
        -- rewrite En. unfold e2. cbn. rewrite E1. destruct (Q i) as (S1 & -> & _). reflexivity.
        -- rewrite En. unfold e2. cbn. rewrite E2. destruct (Q i) as (S1 & S2 & -> & _). reflexivity.
        -- auto.
    + destruct X as (-> & F & NN). cbn [obind]. do 2 eexists. split; [reflexivity|]. split; [auto|]. split; [|cbn; lia].
      apply eff_out_drop; auto.
  - destruct OK as (R & NZ). pose proof (ref_used c s idx I R NZ) as U. rewrite inrange_true by (unfold rng in R; lia). cbn [negb andb].
    destruct (used_ok _ _ _ I R U) as (UV & UC & UR).
    destruct (get_mac_by_idx s idx) as [mac|] eqn:G.
    { do 2 eexists. split; [reflexivity|]. split; [auto|]. split; [apply eff_out_cont; auto; apply quiet_refl|]. cbn; lia. }
    assert (C0 : e_compl (ents s idx) = false). { unfold get_mac_by_idx in G. destruct (e_compl _); [discriminate|auto]. }
    unfold save_pkt. cbn [andb]. set (e1 := mkE _ _ _ _ _ _ _ _ _ 0 _). set (s3 := setE s idx e1).
    assert (I3 : inv c s3). { apply inv_setE; auto. unfold entok, e1. cbn. rewrite U. auto. }
    assert (E3 : ents s3 idx = e1) by (unfold s3; cbn [setE ents]; apply nupd_same).
    assert (Q3 : quiet s s3). { intros j. unfold s3. cbn [setE ents]. nu idx j; [|apply sim_refl]. unfold sim, e1. cbn. tauto. }
    change (pfree s3) with (pfree s). destruct (Z.leb_spec (pfree s) 0) as [Z0|Z0].
    + assert (B : (e_ref (ents s3 idx) =? 0) && e_used (ents s3 idx) = false).
      { rewrite E3. unfold e1. cbn [e_ref e_used]. replace (e_ref (ents s idx) =? 0) with false by lia. reflexivity. }
      destruct (e_pkts (ents s idx)) as [|pk0 pks] eqn:PK.
      * rewrite remove_unref_not by auto. cbn [obind]. do 2 eexists. split; [reflexivity|]. split; [auto|]. split; [now apply eff_out_drop|]. cbn. lia.
      * cbn [obind]. do 2 eexists. split; [reflexivity|]. split; [auto|]. split; [now apply eff_out_drop|]. cbn. lia.
    + set (e2 := mkE _ _ _ _ _ _ (_ :: _) _ _ 0 _). cbn [obind].
      do 2 eexists. split; [reflexivity|]. split.
      { apply inv_setP. apply inv_setE; auto; rewrite ?E3; auto. unfold entok, e2. cbn. rewrite U, C0. split; [auto|]. split; [discriminate|auto]. }
      split; [|cbn; lia].
      assert (En : ents (setP (setE s3 idx e2) (pfree s - 1)) idx = e2) by (cbn [setP setE ents]; apply nupd_same).
      eapply eff_out_acc with (i := idx) (v' := e_vrf (ents s idx)) (ip' := e_ip (ents s idx)).
      * intros j Nj. cbn [setP setE ents]. rewrite nupd_other by auto. now apply Q3.
      * split; [auto|]. split; auto.
      * left. split; auto.
      * split; [auto|]. rewrite En. unfold e2. cbn. auto.
      * auto.
      * rewrite En. unfold e2. cbn. auto.
      * rewrite En. reflexivity.
      * rewrite En. reflexivity.
      * auto.
Qed.

Theorem astep_good c s op : inv c s -> pool c s -> op_ok c s op -> good c s op.
Proof.
  intros I P OK. destruct P as [P1 P0]. destruct op.
  - now apply good_learn.
  - now apply good_resolve.
  - now apply good_inc.
  - now apply good_dec.
  - now apply good_remove.
  - now apply good_lookup.
  - now apply good_get.
  - now apply good_output.
  - now apply good_usetmo.
  - now apply good_age.
  - apply good_flush; [auto|]. split; auto.
Qed.
