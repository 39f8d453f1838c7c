(* C06-C10, MTRIE build: theorems about the IPv4 route table of src/ofp_rt_mtrie_lookup.c.
   Tables, operations, answers and longest-prefix match: RadixSpec; histories: MtrieSpec. *)
From Verif Require Import Base RadixSpec MtrieSpec MtrieModel MtrieNum MtrieInv MtrieLoop MtrieRem MtrieProof MtrieDel.

(* ---- C06 ---- *)
(* Any history of additions (including ones refused for lack of memory), in any number of VRFs, with
   any number N of tables: no undefined behaviour, the answers are those of the specification, and
   every lookup is the longest-prefix match. *)
Theorem mtrie_adds_lpm : forall N R os, Forall op4_ok os -> Forall is_add os ->
  exists s rs ts, run false (init_st N R) os = Ret (s, rs) /\ rsteps u32_bits false no_tables os rs ts /\
  forall v a, 0 <= a < 2 ^ 32 -> lpm (ts v) (u32_bits a) (ofp_rtl_search s v a).
Proof.
  intros N R os Hok Hadd. destruct (init_core N R) as (T & HC).
  destruct (adds_run N os 0 no_ntab T (init_st N R) no_tables HC init_rel Hok Hadd)
    as (s' & rs & ts' & nts' & T' & k' & E & Hst & HCo & HR & _).
  exists s', rs, ts'. split; [exact E|]. split; [exact Hst|]. intros v a Ha. eapply run_lookup; eassumption.
Qed.

(* no addition is refused while two tables per operation are available *)
Theorem mtrie_adds_succeed : forall N R os, Forall op4_ok os -> Forall is_add os -> (2 * length os <= N)%nat ->
  exists s rs, run false (init_st N R) os = Ret (s, rs) /\ Forall (eq Added) rs.
Proof.
  intros N R os Hok Hadd HN. destruct (init_core N R) as (T & HC).
  destruct (adds_run N os 0 no_ntab T (init_st N R) no_tables HC init_rel Hok Hadd)
    as (s' & rs & ts' & nts' & T' & k' & E & Hst & HCo & HR & Hall).
  exists s', rs. split; [exact E|]. apply Hall. exact HN.
Qed.

Example mtrie_adds_instance :
  let os := [Add 0 0x0a000000 8 1; Add 0 0x0a010200 24 2; Add 0 0x0a010203 32 3; Add 1 0x0a010203 32 4; Add 0 0x0b000000 30 5] in
  Forall op4_ok os /\ Forall is_add os /\
  match run false (init_st 3 9) os with
  | Ret (s, rs) => rs = [Added; Added; Added; NoMemory; NoMemory] /\
      map (ofp_rtl_search s 0) [0x0a010203; 0x0a010204; 0x0a010304; 0x0b000001] = [Some 3; Some 2; Some 1; None]
  | _ => False
  end.
Proof.
  cbv zeta. split; [repeat constructor; lia|]. split; [repeat constructor|]. vm_compute. auto.
Qed.

(* ---- C07 ---- *)
Theorem mtrie_history_lpm_partial : forall N R os, Forall op4_ok os ->
  Z.of_nat (length os) < 65536 -> (2 * length os <= N)%nat -> (length os <= R)%nat -> blocks_survive no_tables os ->
  exists s rs, run false (init_st N R) os = Ret (s, rs) /\
  rsteps u32_bits false no_tables os rs (fold_left apply_op os no_tables) /\ ~ In NoMemory rs /\
  forall v a, 0 <= a < 2 ^ 32 -> lpm (fold_left apply_op os no_tables v) (u32_bits a) (ofp_rtl_search s v a).
Proof.
  intros N R os Hok H1 H2 H3 Hbs. destruct (init_core N R) as (T & HC).
  assert (HF : Full N 0 no_ntab (fun _ _ _ => None) (init_st N R) 0 R).
  { assert (HT : Core N 0 no_ntab (fun _ _ _ => None) (init_st N R)) by apply init_core0.
    split; [exact HT|]. split; [|split; [|split; [|split]]].
    - intros v a m _ _. destruct N; reflexivity.
    - intros v l b i. discriminate.
    - destruct N; cbn; lia.
    - destruct N; reflexivity.
    - lia. }
  destruct (del_run N R os 0 no_ntab _ (init_st N R) no_tables 0 HF init_rel Hok) as (s' & rs & nts' & T' & k' & E & Hst & HCo & HR & Hnm); try lia; try assumption.
  exists s', rs. split; [exact E|]. split; [exact Hst|]. split; [exact Hnm|]. intros v a Ha. eapply run_lookup; eassumption.
Qed.

Example mtrie_history_instance :
  let os := [Add 0 0x0a000000 16 1; Add 0 0x0a000100 24 2; Add 0 0x0a000180 25 3; Add 0 0x0a000100 26 4;
             Del 0 0x0a000100 24; Del 0 0x0a000180 25; Del 0 0x0a000180 25] in
  Forall op4_ok os /\ blocks_survive no_tables os /\
  match run false (init_st 14 7) os with
  | Ret (s, rs) => rs = [Added; Added; Added; Added; Deleted 2; Deleted 3; NotFound] /\
      map (ofp_rtl_search s 0) [0x0a000101; 0x0a000181; 0x0a0001ff; 0x0b000001] = [Some 4; Some 1; Some 1; None]
  | _ => False
  end.
Proof.
  cbv zeta. split; [repeat constructor; lia|]. split; [|vm_compute; auto].
  cbn [blocks_survive]. repeat split; try exact I.
  - intros _ L [->| ->] HL; [|exfalso; vm_compute in HL; lia].
    exists (firstn 26 (u32_bits 0x0a000100)). vm_compute. repeat split; try discriminate; lia.
  - intros _ L [->| ->] HL; exists (firstn 26 (u32_bits 0x0a000100)); vm_compute; repeat split; try discriminate; lia.
  - intros H. exfalso. apply H. vm_compute. reflexivity.
Qed.

(* the statement of C07 without the restriction on deletions is false: a lookup returns the next hop
   of a deleted route (the freed table keeps an entry that becomes valid when the table is reused) *)
Theorem mtrie_deleted_route_returned_refuted :
  let os := [Add 0 0x0a000000 24 1; Del 0 0x0a000000 24; Add 0 0x14000080 25 2] in
  exists s, run false (init_st 2 10) os = Ret (s, [Added; Deleted 1; Added]) /\
  ofp_rtl_search s 0 0x14000000 = Some 1 /\
  lpm (fold_left apply_op os no_tables 0%nat) (u32_bits 0x14000000) None.
Proof.
  cbv zeta. eexists. split; [vm_compute; reflexivity|]. split; [vm_compute; reflexivity|].
  intros k Hk. do 33 (destruct k as [|k]; [vm_compute; reflexivity|]). vm_compute in Hk. lia.
Qed.

(* likewise a table that is freed while still linked captures another block's routes *)
Theorem mtrie_foreign_route_returned_refuted :
  let os := [Add 0 0x0a000000 16 1; Add 0 0x0a000100 24 2; Del 0 0x0a000100 24; Add 0 0x14000100 24 3] in
  exists s, run false (init_st 1 10) os = Ret (s, [Added; Added; Deleted 2; Added]) /\
  ofp_rtl_search s 0 0x0a000105 = Some 3 /\
  lpm (fold_left apply_op os no_tables 0%nat) (u32_bits 0x0a000105) (Some 1).
Proof.
  cbv zeta. eexists. split; [vm_compute; reflexivity|]. split; [vm_compute; reflexivity|].
  exists 16%nat. split; [vm_compute; lia|]. split; [vm_compute; reflexivity|].
  intros k Hk. do 33 (destruct k as [|k]; [vm_compute; try reflexivity; vm_compute in Hk; lia|]). vm_compute in Hk. lia.
Qed.

(* ---- C08 ---- *)
(* A default route.  In C the shift by 32 is undefined ... *)
Theorem mtrie_default_route_undefined_refuted : forall s v a d, exec false s (Add v a 0 d) = UB.
Proof. reflexivity. Qed.
(* ... and with the hardware's shift (modulo 32) it hides every longer route of a block that has no
   route of at most 16 bits, and is itself never found there *)
Lemma default_add_search s v d b : 0 <= b < 2 ^ 32 ->
  e_mlen (tb s (TR v) (b / 65536)) = 0 \/ e_mlen (tb s (TR v) (b / 65536)) > 16 ->
  exists s', exec true s (Add v 0 0 d) = Ret (s', Added) /\ ofp_rtl_search s' v b = None.
Proof.
  intros Hb He. change (2 ^ 32) with 4294967296 in Hb.
  unfold exec, ofp_rtl_insert. change (Z.of_nat 0) with 0. cbn [Z.ltb Z.gtb Z.compare Z.eqb negb orb andb obind].
  change (to_network_prefix 0 0) with 0. unfold levels. rewrite insert_levels_cons. cbv zeta.
  change (0 <=? 16) with true. cbv iota.
  change (ip_range_begin 0 0 0 16) with 0. change (ip_range_end 0 0 0 16) with 65536. set (big := Z.to_nat (65536 - 0)).
  assert (Hbig : Z.of_nat big = 65536) by reflexivity. clearbody big.
  eexists. split; [reflexivity|].
  unfold ofp_rtl_search. destruct (rule_add_tb (set_tb (inc_use_reference s (TR v)) (fill (tb (inc_use_reference s (TR v))) (TR v) 0 big 0 16 d)) v 0 0 d) as (-> & _).
  cbn [set_tb tb]. unfold levels. cbn [search_levels].
  assert (Ef : find_node b 0 16 = b / 65536).
  { change 16 with (hi 0). rewrite find_node_eq by (unfold lowok; auto). change (32 - hi 0) with 16. change (2 ^ 16) with 65536.
    change (2 ^ wd 0) with 65536. lia. }
  rewrite Ef. rewrite fill_spec.
  assert (Ei : e_mlen (tb (inc_use_reference s (TR v)) (TR v) (b / 65536)) = e_mlen (tb s (TR v) (b / 65536))).
  { unfold inc_use_reference. cbn [set_tb tb].
    destruct (updm_case (tb s) (TR v) 0 (set_ref (tb s (TR v) 0) (u16 (e_ref (tb s (TR v) 0) + 1))) (TR v) (b / 65536)) as [(-> & _)|(-> & _ & ->)]; reflexivity. }
  rewrite Ei.
  destruct (tid_eqb_spec (TR v) (TR v)) as [_|]; [|congruence].
  assert (Hc : true && (0 <=? b / 65536) && (b / 65536 <? 0 + Z.of_nat big) && ((e_mlen (tb s (TR v) (b / 65536)) <=? 0) || (e_mlen (tb s (TR v) (b / 65536)) >? 16)) = true).
  { rewrite Hbig. clear Ef Ei. lia. }
  rewrite Hc. cbn [set_leaf e_mlen]. reflexivity.
Qed.

Theorem mtrie_default_route_hides_refuted : forall d, exists s,
  run true (init_st 2 10) [Add 0 0x0a000000 24 1; Add 0 0 0 d] = Ret (s, [Added; Added]) /\
  ofp_rtl_search s 0 0x0a000005 = None.
Proof.
  intros d. set (s1 := match exec true (init_st 2 10) (Add 0%nat 0x0a000000 24 1) with Ret (s, _) => s | _ => init_st 0 0 end).
  assert (E1 : exec true (init_st 2 10) (Add 0%nat 0x0a000000 24 1) = Ret (s1, Added)) by (vm_compute; reflexivity).
  destruct (default_add_search s1 0%nat d 0x0a000005) as (s2 & E2 & E3); [lia|right; vm_compute; reflexivity|].
  exists s2. cbn [run]. rewrite E1. cbn [obind]. rewrite E2. cbn [obind]. split; [reflexivity|exact E3].
Qed.

(* ---- C09 ---- *)
(* after an addition refused for lack of memory, deleting that route dereferences a null table *)
Theorem mtrie_delete_null_table_refuted :
  run false (init_st 0 10) [Add 0 0x0a000000 16 1; Add 0 0x0a000100 24 2; Del 0 0x0a000100 24] = UB.
Proof. vm_compute. reflexivity. Qed.
(* on the histories of mtrie_history_lpm_partial no deletion does *)
Theorem mtrie_delete_safe_partial : forall N R os, Forall op4_ok os ->
  Z.of_nat (length os) < 65536 -> (2 * length os <= N)%nat -> (length os <= R)%nat -> blocks_survive no_tables os ->
  run false (init_st N R) os <> UB.
Proof.
  intros N R os H1 H2 H3 H4 H5. destruct (mtrie_history_lpm_partial N R os H1 H2 H3 H4 H5) as (s & rs & E & _). congruence.
Qed.

(* ---- C10, MTRIE: what is done in one VRF does not change lookups in another ---- *)
Definition op_vrf (o : rop Z) : nat := match o with Add v _ _ _ | Del v _ _ => v end.
Lemma fold_vrf os : forall ts ts' v, ts v = ts' v ->
  fold_left apply_op os ts v = fold_left apply_op (filter (fun o => Nat.eqb (op_vrf o) v) os) ts' v.
Proof.
  induction os as [|o os IH]; intros ts ts' v E; [exact E|]. cbn [fold_left filter].
  destruct (Nat.eqb_spec (op_vrf o) v) as [Ev|Ev]; cbn [fold_left]; apply IH.
  - destruct o as [w a n d|w a n]; cbn [apply_op op_vrf] in *; subst w.
    + unfold set_table. rewrite Nat.eqb_refl, E. reflexivity.
    + rewrite E. destruct (ts' v _); [|exact E]. unfold set_table. rewrite Nat.eqb_refl. reflexivity.
  - rewrite <- E. destruct o as [w a n d|w a n]; cbn [apply_op op_vrf] in *.
    + unfold set_table. destruct (Nat.eqb_spec v w); congruence.
    + destruct (ts w _); [|reflexivity]. unfold set_table. destruct (Nat.eqb_spec v w); congruence.
Qed.
(* lookups in VRF v are the longest-prefix match over the operations made on VRF v alone *)
Theorem mtrie_vrfs_isolated : forall N R os, Forall op4_ok os ->
  Z.of_nat (length os) < 65536 -> (2 * length os <= N)%nat -> (length os <= R)%nat -> blocks_survive no_tables os ->
  exists s rs, run false (init_st N R) os = Ret (s, rs) /\
  forall v a, 0 <= a < 2 ^ 32 ->
    lpm (fold_left apply_op (filter (fun o => Nat.eqb (op_vrf o) v) os) no_tables v) (u32_bits a) (ofp_rtl_search s v a).
Proof.
  intros N R os H1 H2 H3 H4 H5. destruct (mtrie_history_lpm_partial N R os H1 H2 H3 H4 H5) as (s & rs & E & _ & _ & H).
  exists s, rs. split; [exact E|]. intros v a Ha. rewrite <- (fold_vrf os no_tables no_tables v eq_refl). apply H. exact Ha.
Qed.

Print Assumptions mtrie_adds_lpm.
Print Assumptions mtrie_adds_succeed.
Print Assumptions mtrie_history_lpm_partial.
Print Assumptions mtrie_deleted_route_returned_refuted.
Print Assumptions mtrie_foreign_route_returned_refuted.
Print Assumptions mtrie_default_route_undefined_refuted.
Print Assumptions mtrie_default_route_hides_refuted.
Print Assumptions mtrie_delete_null_table_refuted.
Print Assumptions mtrie_delete_safe_partial.
Print Assumptions mtrie_vrfs_isolated.
