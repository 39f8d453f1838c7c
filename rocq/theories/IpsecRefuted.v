(* C52-C57: what fails outside the hypotheses of IpsecProps.v, as concrete runs
   from start-up, and a run that meets those hypotheses. *)
From Verif Require Import Base IpsecModel IpsecSpec IpsecProps.

Definition insync (_ : Z) : bool := true.
(* calls in order; the last answer *)
Fixpoint irun (d : db) (cs : list call) (x : answer) : outcome (db * answer) :=
  match cs with [] => Ret (d, x) | c :: r => obind (istep 10 insync d c) (fun '(d, x) => irun d r x) end.
(* addresses 10.0.0.0 - 10.0.0.255, any protocol, outbound unless stated *)
Definition ten (x : Z) : Z := 10 + 16777216 * x.
Definition sel10 := mkSel 0 (ten 0) (ten 255) (ten 0) (ten 255) 0 0 0 0 0.
Definition pol (prio : Z) (a : action) (dir id : Z) (s : sel) := mkSpar prio a None dir s 0 id.
Definition assoc (dir spi id : Z) := mkSapar dir 1 0 false false spi 0 id 7.
(* 20 header bytes: 10.0.0.s -> 10.0.0.t *)
Definition pkt (proto s t : Z) : list Z := [69;0;0;20;0;0;0;0;64;proto;0;0;10;0;0;s;10;0;0;t].

(* C52: "For ANY address set first = last = 0" (api/ofp_ipsec.h:425): such a
   DISCARD policy lets every packet pass *)
Theorem ipsec_any_address_refuted : exists d,
  let p := pol 0 DISCARD 1 1 (mkSel 0 0 0 0 0 0 0 0 0 0) in
  sel_accepts_pkt (p_sel p) (pkt 17 1 2) /\ irun (db_init 4 4) [CSpCreate p] AUnit = Ret (d, AHandle (Some 3%nat)) /\
  exists d', istep 10 insync d (COut 0 (pkt 17 1 2)) = Ret (d', AOut false None).
Proof. eexists. cbv zeta. split; [|split; [vm_compute; reflexivity|eexists; vm_compute; reflexivity]]. split; [left; split; reflexivity|]. split; [left; split; reflexivity|left; reflexivity]. Qed.

(* C54: destroying a policy again, with a handle that is still valid, ties the
   list of policies into a loop: a later packet is never judged *)
Theorem ipsec_double_destroy_refuted : exists d,
  irun (db_init 4 4) [CSpCreate (pol 2 BYPASS 1 1 sel10); CSpCreate (pol 1 BYPASS 1 2 sel10); CSpRef 2; CSpDestroy 2; CSpDestroy 2] AUnit = Ret (d, ARc false) /\
  forall fuel, istep fuel insync d (COut 1 (pkt 17 1 2)) = Diverge.
Proof.
  eexists. split; [vm_compute; reflexivity|]. intros fuel. unfold istep, out_lookup. cbn [active rheld negb]. unfold sp_lookup, lk. cbn [Z.eqb DIR_IN Pos.eqb outl].
  match goal with |- context [sp_walk fuel ?h 1 ?v ?o] => assert (H : sp_walk fuel h 1 v o = Diverge) end.
  { induction fuel as [|f IH]; [reflexivity|]. cbn [sp_walk]. exact IH. }
  rewrite H. reflexivity.
Qed.

(* C52, C56: binding an SA to a BYPASS policy makes its packets protected; to a
   DISCARD policy, leaves the lock held when a packet was dropped: the next
   control call never returns *)
Theorem ipsec_bypass_bound_refuted : exists d, irun (db_init 4 4)
  [CSpCreate (pol 1 BYPASS 1 1 sel10); CSaCreate (assoc 1 5 1) true; CSpBind 3 3; COut 0 (pkt 17 1 2)] AUnit = Ret (d, AOut false (Some 3%nat)).
Proof. eexists. vm_compute. reflexivity. Qed.
Theorem ipsec_discard_bound_refuted : exists d, irun (db_init 4 4)
  [CSpCreate (pol 1 DISCARD 1 1 sel10); CSaCreate (assoc 1 5 1) true; CSpBind 3 3; COut 0 (pkt 17 1 2)] AUnit = Ret (d, AOut true (Some 3%nat)) /\
  forall fuel i, istep fuel insync d (CSpDestroy i) = Diverge.
Proof. eexists. split; [vm_compute; reflexivity|]. intros fuel i. reflexivity. Qed.

(* C55: an ICMP error that quotes a protected packet is refused: the header
   length is taken in bytes, not words *)
Definition icmp_pkt : list Z :=
  [69;0;0;48;0;0;0;0;64;1;0;0;10;0;0;9;172;16;0;1] ++ [3;1;0;0;0;0;0;0] ++ pkt 17 1 2.
Theorem ipsec_icmp_error_refuted : exists d,
  icmp_error_for sel10 icmp_pkt /\
  irun (db_init 4 4) [CSpCreate (pol 1 PROTECT 0 1 sel10); CSaCreate (assoc 0 5 1) true; CSpBind 3 3] AUnit = Ret (d, ARc true) /\
  exists d', istep 10 insync d (CInput 3 0 icmp_pkt) = Ret (d', ABool false).
Proof.
  eexists. split; [|split; [vm_compute; reflexivity|eexists; vm_compute; reflexivity]].
  unfold icmp_error_for, sel_accepts, in_range, any_range, addr_value. cbn.
  split; [reflexivity|]. split; [lia|]. split; [left; reflexivity|]. split; [right; split; reflexivity || (intros W; discriminate W)|].
  split; [right; split; reflexivity || (intros W; discriminate W)|]. left. reflexivity.
Qed.

(* C57: iteration from a destroyed policy, whose handle is still valid, gives the
   handle of a policy destroyed long before and free for reuse; SAs installed
   later in the list are not visited *)
Theorem ipsec_iterate_destroyed_refuted : exists d, irun (db_init 4 4)
  [CSpCreate (pol 1 BYPASS 1 1 sel10); CSpCreate (pol 1 BYPASS 1 2 sel10); CSpDestroy 2; CSpDestroy 3; CSpUnref 3; CSpNext 2] AUnit = Ret (d, AHandle (Some 3%nat)) /\
  spl d = None.
Proof. eexists. split; vm_compute; reflexivity. Qed.
(* C57: when ODP refuses to destroy an SA the record is neither installed nor ever
   free again *)
Theorem ipsec_sa_destroy_leak_refuted : exists d, irun (db_init 1 1)
  [CSaCreate (assoc 1 5 1) true; CSaDestroy 0 true false; CSaUnref 0] AUnit = Ret (d, AUnit) /\ sal d = None /\ saf d = None /\
  (forall q odp, istep 10 insync d (CSaCreate q odp) = Ret (d, AHandle None)).
Proof. eexists. split; [vm_compute; reflexivity|]. split; [reflexivity|]. split; [reflexivity|]. intros q odp. reflexivity. Qed.
(* C57: when ODP refuses to disable an SA it can never be destroyed *)
Theorem ipsec_sa_undestroyable_refuted : exists d, irun (db_init 1 1)
  [CSaCreate (assoc 0 5 1) true; CSaDestroy 0 false true] AUnit = Ret (d, ARc false) /\
  (forall o1 o2, istep 10 insync d (CSaDestroy 0 o1 o2) = Ret (d, ARc false)) /\ sal d = Some 0%nat.
Proof. eexists. split; [vm_compute; reflexivity|]. split; reflexivity. Qed.
(* C53: ofp_ipsec_sp_create shows the policy (ofp_ipsec.c:622) before it enters it
   in the look-up list (629): when another thread finds it and destroys it in
   between, the policy keeps deciding about packets although destroyed *)
Theorem ipsec_create_destroy_race_refuted : exists d1 d2 d3 d4,
  sp_add 10 (db_init 4 4) (pol 1 DISCARD 1 1 sel10) = Ret (d1, Some 3%nat) /\
  irun d1 [CSpFind 1; CSpDestroy 3; CSpUnref 3] AUnit = Ret (d2, AUnit) /\
  sp_create2 10 d2 3 = Ret d3 /\
  irun d3 [CSpFind 1] AUnit = Ret (d4, AHandle None) /\
  exists d5, istep 10 insync d4 (COut 0 (pkt 17 1 2)) = Ret (d5, AOut true None).
Proof. do 4 eexists. split; [vm_compute; reflexivity|]. split; [vm_compute; reflexivity|]. split; [vm_compute; reflexivity|]. split; [vm_compute; reflexivity|]. eexists. vm_compute. reflexivity. Qed.

(* a run within the hypotheses: two policies of different priority, an SA bound to
   one; the packet gets that SA *)
Ltac few := intros h; unfold LIMIT; cbn; unfold set; repeat (match goal with |- context [Nat.eqb ?x ?y] => destruct (Nat.eqb x y) end); lia.
Ltac rstep R c := let d1 := fresh in let x1 := fresh in
  match type of R with reach _ _ _ _ ?d ?a =>
    let r := eval vm_compute in (istep 10 insync d c) in
    match r with Ret (?d', ?x) =>
      let L := fresh "L" in assert (L : legal a c);
      [split; [few|split; [intros W; first [reflexivity|discriminate W]|]]
      |let E := fresh in assert (E : istep 10 insync d c = Ret (d', x)) by (vm_compute; reflexivity);
       let R' := fresh "R" in pose proof (r_step 10 4 4 insync d a c d' x R L E) as R'; clear E L R; rename R' into R] end end.
Example ipsec_run_nonvacuous : exists d a, reach 10 4 4 insync d a /\ legal a (COut 0 (pkt 17 1 2)) /\ fits 10 4 4 /\ length (pols a) = 3%nat /\
  decides a false 0 (pkt 17 1 2) (Some (2%nat, Some 3%nat)) /\
  exists d', istep 10 insync d (COut 0 (pkt 17 1 2)) = Ret (d', AOut false (Some 3%nat)) /\ rheld d' = true.
Proof.
  pose proof (r_init 10 4 4 insync) as R.
  assert (S10 : forall p, p_sel p = sel10 -> let s := p_sel p in
      u32v (s_sf s) /\ u32v (s_sl s) /\ u32v (s_df s) /\ u32v (s_dl s) /\ ~ any_range (s_sf s) (s_sl s) /\ ~ any_range (s_df s) (s_dl s)).
  { intros p ->. unfold u32v, any_range, sel10, ten. cbn. lia. }
  rstep R (CSpCreate (pol 2 DISCARD 1 1 sel10)); [apply S10; reflexivity|].
  rstep R (CSpCreate (pol 1 PROTECT 1 2 sel10)); [apply S10; reflexivity|].
  rstep R (CSpCreate (pol 9 DISCARD 1 3 sel10)); [apply S10; reflexivity|].
  rstep R (CSaCreate (assoc 1 5 1) true); [exact I|].
  rstep R (CSpBind 2 3); [cbn; unfold installed; cbn; repeat split; try lia; auto|].
  match type of R with reach _ _ _ _ ?d ?a => exists d, a end. split; [exact R|].
  split; [split; [few|split; [discriminate|split; [cbn; lia|unfold pkt, bytes_ok, is_byte; repeat constructor; lia]]]|].
  split; [unfold fits; lia|]. split; [reflexivity|].
  assert (Acc : sel_accepts_pkt sel10 (pkt 17 1 2)).
  { unfold sel_accepts_pkt, sel_accepts, in_range, addr_value. cbn. split; [right; lia|]. split; [right; lia|]. auto. }
  split.
  - cbn [decides]. exists [(1%nat, None)], [(3%nat, None)]. split; [reflexivity|]. split; [split; [reflexivity|split; [reflexivity|exact Acc]]|].
    split; intros h' b' [E|[]]; injection E as <- <-; intros _; cbn; lia.
  - eexists. split; [vm_compute; reflexivity|reflexivity].
Qed.

Print Assumptions ipsec_calls_return_partial.
Print Assumptions ipsec_out_decision_partial.
Print Assumptions ipsec_in_decision_partial.
Print Assumptions ipsec_decider_unique.
Print Assumptions ipsec_sp_create_partial.
Print Assumptions ipsec_sa_create_partial.
Print Assumptions ipsec_handle_stable_partial.
Print Assumptions ipsec_sp_info_partial.
Print Assumptions ipsec_sa_info_partial.
Print Assumptions ipsec_ids_unique_partial.
Print Assumptions ipsec_find_partial.
Print Assumptions ipsec_sp_iterate_partial.
Print Assumptions ipsec_input_check_partial.
Print Assumptions ipsec_lock_released_partial.
Print Assumptions ipsec_double_destroy_refuted.
Print Assumptions ipsec_run_nonvacuous.
