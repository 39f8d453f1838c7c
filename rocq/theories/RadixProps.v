(* C01-C05, C10: route tables kept in binary tries (IPv6 in every build, IPv4 in the build
   without MTRIE). *)
From Verif Require Import Base RadixModel RadixTree RadixForest RadixSpec RadixRun RadixProof RadixProof4.

(* [buf6 B m]: m is the readable memory at an address argument: bytes, 16 of them at least, with
   bit number B readable.  For B <= 127 the 16 address bytes suffice; B = 128 needs a 17th byte
   (see the refutations below). *)
Lemma buf6_meaning B m : buf6 B m <-> bytes_ok m /\ (16 <= length m)%nat /\ (B < 8 * length m)%nat.
Proof. reflexivity. Qed.
Lemma op6_meaning B v m n nh : op6 B (Add v m n nh) <-> buf6 B m /\ (n <= B)%nat.
Proof. reflexivity. Qed.

(* C01: after any history of additions and deletions of prefixes of length 0..B <= 128, with any
   pool size, the calls return, their answers are those of the table specification, and every
   lookup is the longest-prefix match over the resulting table. *)
Theorem route6_history_lpm : forall N B ops, (1 <= N)%nat -> (B <= 128)%nat -> Forall (op6 B) ops ->
  exists s rs ts, run6 (snd (init6 N)) (fst (init6 N)) ops = Ret (s, rs) /\
    rsteps addr6_bits true no_tables (map on_vrf0 ops) rs ts /\
    forall vrf m fuel, buf6 B m -> (129 <= fuel)%nat ->
    exists r, ofp_get_next_hop6 fuel s (fst (init6 N)) vrf m = Ret r /\ lpm (ts 0%nat) (addr6_bits m) r.
Proof. exact route6_history. Qed.
Print Assumptions route6_history_lpm.

(* the answer is determined: at most one result is the longest-prefix match *)
Theorem lpm_is_unique : forall r a x y, lpm r a x -> lpm r a y -> x = y.
Proof. exact lpm_unique. Qed.

(* an addition is refused for lack of nodes only when the pool is nearly full: with L listing
   every installed prefix, 1 + (sum of the lengths in L) + n < N guarantees success *)
Theorem route6_add_succeeds_if_room : forall N B ops v m n nh s rs ts L,
  (1 <= N)%nat -> (B <= 128)%nat -> Forall (op6 B) ops -> op6 B (Add v m n nh) ->
  run6 (snd (init6 N)) (fst (init6 N)) ops = Ret (s, rs) ->
  rsteps addr6_bits true no_tables (map on_vrf0 ops) rs ts ->
  ts 0%nat (firstn n (addr6_bits m)) = None ->
  (forall q, ts 0%nat q <> None -> In q L) -> (1 + sumlen L + n < N)%nat ->
  exists s', exec6 s (fst (init6 N)) (Add v m n nh) = Ret (s', Added).
Proof. exact route6_add_succeeds. Qed.
Print Assumptions route6_add_succeeds_if_room.

(* C02, but for the read past the address: a refused addition leaves the number of allocated
   nodes and every lookup unchanged, and happens only when at most n nodes are free.  What is
   missing: with a 16-byte address and n = 128 the clean-up reads a 17th byte (refuted below). *)
Theorem route6_failed_add_no_effect_partial : forall N B ops v m n nh s rs s',
  (1 <= N)%nat -> (B <= 128)%nat -> Forall (op6 B) ops -> op6 B (Add v m n nh) ->
  run6 (snd (init6 N)) (fst (init6 N)) ops = Ret (s, rs) ->
  exec6 s (fst (init6 N)) (Add v m n nh) = Ret (s', NoMemory) ->
  nalloc s' = nalloc s /\
  (forall vrf a fuel, buf6 B a -> (129 <= fuel)%nat ->
     ofp_get_next_hop6 fuel s' (fst (init6 N)) vrf a = ofp_get_next_hop6 fuel s (fst (init6 N)) vrf a) /\
  Z.of_nat N - nalloc s <= Z.of_nat n.
Proof. exact route6_failed_add. Qed.
Print Assumptions route6_failed_add_no_effect_partial.

(* C03 *)
Theorem route6_pool_partition : forall N B ops s rs, (1 <= N)%nat -> (B <= 128)%nat -> Forall (op6 B) ops ->
  run6 (snd (init6 N)) (fst (init6 N)) ops = Ret (s, rs) ->
  exists live free, Permutation (live ++ free) (seq 0 N) /\
    (forall q, reach (hp s) (fst (init6 N)) q <-> In q live) /\
    flist (hp s) (ffirst s) free /\ nalloc s = Z.of_nat (length live) /\
    (forall ts, rsteps addr6_bits true no_tables (map on_vrf0 ops) rs ts ->
       (forall q, ts 0%nat q = None) -> live = [0%nat]).
Proof. exact route6_pool. Qed.
Print Assumptions route6_pool_partition.

(* ---- IPv4 without MTRIE ---- *)
Lemma op4_meaning_add nvrf v a n nh : op4 nvrf (Add v a n nh) <-> (v < nvrf)%nat /\ (1 <= n <= 32)%nat.
Proof. reflexivity. Qed.

(* C04 *)
Theorem route4_history_lpm : forall N nvrf ops, (nvrf <= N)%nat -> Forall (op4 nvrf) ops ->
  exists s rs ts, run4 (snd (init4 N nvrf)) (fst (init4 N nvrf)) ops = Ret (s, rs) /\
    rsteps u32_bits false no_tables ops rs ts /\
    forall v a fuel, (v < nvrf)%nat -> (33 <= fuel)%nat ->
    exists r, ofp_get_next_hop4 fuel s (fst (init4 N nvrf)) v a = Ret r /\ lpm (ts v) (u32_bits a) r.
Proof. exact route4_history. Qed.
Print Assumptions route4_history_lpm.

Theorem route4_add_succeeds_if_room : forall N nvrf ops v m n nh s rs ts (L : nat -> list (list bool)),
  (nvrf <= N)%nat -> Forall (op4 nvrf) ops -> op4 nvrf (Add v m n nh) ->
  run4 (snd (init4 N nvrf)) (fst (init4 N nvrf)) ops = Ret (s, rs) ->
  rsteps u32_bits false no_tables ops rs ts ->
  (forall w q, (w < nvrf)%nat -> ts w q <> None -> In q (L w)) ->
  (nvrf + list_sum (map (fun w => sumlen (L w)) (seq 0 nvrf)) + n < N)%nat ->
  exists s', exec4 s (fst (init4 N nvrf)) (Add v m n nh) = Ret (s', Added).
Proof. exact route4_add_succeeds. Qed.

(* C05 *)
Theorem route4_failed_add_no_effect : forall N nvrf ops v m n nh s rs s',
  (nvrf <= N)%nat -> Forall (op4 nvrf) ops -> op4 nvrf (Add v m n nh) ->
  run4 (snd (init4 N nvrf)) (fst (init4 N nvrf)) ops = Ret (s, rs) ->
  exec4 s (fst (init4 N nvrf)) (Add v m n nh) = Ret (s', NoMemory) ->
  nalloc s' = nalloc s /\
  (forall vrf a fuel, (vrf < nvrf)%nat -> (33 <= fuel)%nat ->
     ofp_get_next_hop4 fuel s' (fst (init4 N nvrf)) vrf a = ofp_get_next_hop4 fuel s (fst (init4 N nvrf)) vrf a) /\
  Z.of_nat N - nalloc s <= Z.of_nat n.
Proof. exact route4_failed_add. Qed.
Print Assumptions route4_failed_add_no_effect.

Theorem route4_pool_partition : forall N nvrf ops s rs, (nvrf <= N)%nat -> Forall (op4 nvrf) ops ->
  run4 (snd (init4 N nvrf)) (fst (init4 N nvrf)) ops = Ret (s, rs) ->
  exists live free, Permutation (live ++ free) (seq 0 N) /\
    (forall q, (exists v root, nth_error (fst (init4 N nvrf)) v = Some root /\ reach (hp s) root q) <-> In q live) /\
    flist (hp s) (ffirst s) free /\ nalloc s = Z.of_nat (length live) /\
    (forall ts, rsteps u32_bits false no_tables ops rs ts ->
       (forall v q, (v < nvrf)%nat -> ts v q = None) -> length live = nvrf).
Proof. exact route4_pool. Qed.
Print Assumptions route4_pool_partition.

(* C10, IPv4 *)
Theorem route4_vrfs_isolated : forall N nvrf ops o s rs s' r w,
  (nvrf <= N)%nat -> Forall (op4 nvrf) ops -> op4 nvrf o ->
  run4 (snd (init4 N nvrf)) (fst (init4 N nvrf)) ops = Ret (s, rs) ->
  exec4 s (fst (init4 N nvrf)) o = Ret (s', r) ->
  (w < nvrf)%nat -> w <> (match o with Add v _ _ _ => v | Del v _ _ => v end) ->
  forall a fuel, (33 <= fuel)%nat ->
     ofp_get_next_hop4 fuel s' (fst (init4 N nvrf)) w a = ofp_get_next_hop4 fuel s (fst (init4 N nvrf)) w a.
Proof. exact route4_vrf_isolation. Qed.
Print Assumptions route4_vrfs_isolated.

(* ---------------- non-vacuity and refutations ---------------- *)
Definition m16 (b : Z) : list Z := repeat b 16.
Lemma m16_ok b : is_byte b -> bytes_ok (m16 b).
Proof. intros H. apply Forall_forall. intros x Hx. apply repeat_spec in Hx. subst. exact H. Qed.

Definition ex_ops6 : list (rop (list Z)) :=
  [Add 0 (m16 32) 8 101; Add 0 (m16 32) 16 102; Add 0 (m16 32) 16 103; Add 0 (m16 33) 0 104;
   Del 0 (m16 32) 8; Del 0 (m16 32) 8].
Example ex6_hyp : Forall (op6 127) ex_ops6.
Proof. repeat (apply Forall_cons || apply Forall_nil); (split; [split; [apply m16_ok; unfold is_byte; lia|cbn; lia]|lia]). Qed.
Example ex6_run : match run6 (snd (init6 20)) (fst (init6 20)) ex_ops6 with
  | Ret (s, rs) => rs = [Added; Added; AlreadyThere; Added; Deleted 101; NotFound] /\
      ofp_get_next_hop6 129 s (fst (init6 20)) 0 (m16 32) = Ret (Some 102) /\
      ofp_get_next_hop6 129 s (fst (init6 20)) 0 (m16 7) = Ret (Some 104) /\ nalloc s = 17
  | _ => False end.
Proof. vm_compute. repeat split. Qed.
(* 20 nodes: a /24 beside a /16 does not fit, is refused and nothing changes *)
Example ex6_nomem : match run6 (snd (init6 20)) (fst (init6 20)) [Add 0 (m16 32) 16 1] with
  | Ret (s, _) => match exec6 s (fst (init6 20)) (Add 0 (m16 32) 24 2) with
                  | Ret (s', r) => r = NoMemory /\ nalloc s' = 17 | _ => False end
  | _ => False end.
Proof. vm_compute. repeat split. Qed.

Definition ex_ops4 : list (rop Z) :=
  [Add 0 0x0a000000 8 1; Add 1 0x0a000000 8 2; Add 0 0x0a010203 32 3; Add 0 0x0a000000 8 4; Del 0 0x0a010203 32].
Example ex4_hyp : Forall (op4 2) ex_ops4.
Proof. repeat (apply Forall_cons || apply Forall_nil); (split; lia). Qed.
Example ex4_run : match run4 (snd (init4 64 2)) (fst (init4 64 2)) ex_ops4 with
  | Ret (s, rs) => rs = [Added; Added; Added; Added; Deleted 3] /\
      ofp_get_next_hop4 33 s (fst (init4 64 2)) 0 0x0a010203 = Ret (Some 4) /\
      ofp_get_next_hop4 33 s (fst (init4 64 2)) 1 0x0a010203 = Ret (Some 2) /\ nalloc s = 18
  | _ => False end.
Proof. vm_compute. repeat split. Qed.
Example ex4_nomem : match run4 (snd (init4 30 2)) (fst (init4 30 2)) [Add 0 0x0a000000 8 1] with
  | Ret (s, _) => match exec4 s (fst (init4 30 2)) (Add 1 0x0a000000 24 2) with
                  | Ret (s', r) => r = NoMemory /\ nalloc s' = 10 | _ => False end
  | _ => False end.
Proof. vm_compute. repeat split. Qed.

(* C02 refuted: pool exhausted during a /128 add given exactly 16 address bytes: the clean-up
   loop (src/ofp_rt_lookup.c:467-481) reads address byte 16. *)
Theorem route6_failed_add_reads_past_address_refuted :
  exists N m, length m = 16%nat /\ bytes_ok m /\
    exec6 (snd (init6 N)) (fst (init6 N)) (Add 0 m 128 7) = UB.
Proof. exists 100%nat, (m16 32). split; [reflexivity|]. split; [apply m16_ok; unfold is_byte; lia|]. vm_compute. reflexivity. Qed.

(* C01, side remark: with an installed /128 the lookup of that very address reads byte 16 too
   (include/ofpi_rt_lookup.h:166-177). *)
Theorem route6_lookup_reads_past_address_refuted :
  exists m s, length m = 16%nat /\ bytes_ok m /\
    run6 (snd (init6 200)) (fst (init6 200)) [Add 0 m 128 7] = Ret (s, [Added]) /\
    ofp_get_next_hop6 200 s (fst (init6 200)) 0 m = UB.
Proof.
  exists (m16 32). 
  destruct (run6 (snd (init6 200)) (fst (init6 200)) [Add 0 (m16 32) 128 7]) as [[s rs]| |] eqn:E.
  - exists s. split; [reflexivity|]. split; [apply m16_ok; unfold is_byte; lia|].
    assert (H : match run6 (snd (init6 200)) (fst (init6 200)) [Add 0 (m16 32) 128 7] with
       | Ret (s, rs) => rs = [Added] /\ ofp_get_next_hop6 200 s (fst (init6 200)) 0 (m16 32) = UB
       | _ => False end) by (vm_compute; split; reflexivity).
    rewrite E in H. destruct H as [-> H]. auto.
  - exfalso. vm_compute in E. discriminate.
  - exfalso. vm_compute in E. discriminate.
Qed.

(* C10 refuted for IPv6: a route added "in VRF 1" answers lookups in VRF 0. *)
Theorem route6_vrfs_not_isolated_refuted :
  exists s, run6 (snd (init6 50)) (fst (init6 50)) [Add 1 (m16 32) 8 7] = Ret (s, [Added]) /\
    ofp_get_next_hop6 129 (snd (init6 50)) (fst (init6 50)) 0 (m16 32) = Ret None /\
    ofp_get_next_hop6 129 s (fst (init6 50)) 0 (m16 32) = Ret (Some 7).
Proof.
  destruct (run6 (snd (init6 50)) (fst (init6 50)) [Add 1 (m16 32) 8 7]) as [[s rs]| |] eqn:E.
  - exists s.
    assert (H : match run6 (snd (init6 50)) (fst (init6 50)) [Add 1 (m16 32) 8 7] with
       | Ret (s, rs) => rs = [Added] /\ ofp_get_next_hop6 129 (snd (init6 50)) (fst (init6 50)) 0 (m16 32) = Ret None /\
             ofp_get_next_hop6 129 s (fst (init6 50)) 0 (m16 32) = Ret (Some 7)
       | _ => False end) by (vm_compute; repeat split).
    rewrite E in H. destruct H as (-> & H1 & H2). auto.
  - exfalso. vm_compute in E. discriminate.
  - exfalso. vm_compute in E. discriminate.
Qed.

(* C04 at prefix length 0: the mask computation shifts a 32-bit value by 32 *)
Theorem route4_default_route_add_refuted : forall s root a nh, ofp_rtl_insert4 s root a 0 nh = UB.
Proof. reflexivity. Qed.

(* the exact search does not test whether the node carries a route: after adding 10.0.0.0/8,
   "10.0.0.0/7" is found although it was never added *)
Theorem route4_search_exact_finds_absent_route_refuted :
  exists s, run4 (snd (init4 64 1)) (fst (init4 64 1)) [Add 0 0x0a000000 8 1] = Ret (s, [Added]) /\
    ofp_rtl_search_exact s (Some 0%nat) 0x0a000000 7 <> None.
Proof.
  destruct (run4 (snd (init4 64 1)) (fst (init4 64 1)) [Add 0 0x0a000000 8 1]) as [[s rs]| |] eqn:E.
  - exists s. assert (H : match run4 (snd (init4 64 1)) (fst (init4 64 1)) [Add 0 0x0a000000 8 1] with
       | Ret (s, rs) => rs = [Added] /\ ofp_rtl_search_exact s (Some 0%nat) 0x0a000000 7 <> None
       | _ => False end) by (vm_compute; split; [reflexivity|discriminate]).
    rewrite E in H. destruct H as (-> & H1). auto.
  - exfalso. vm_compute in E. discriminate.
  - exfalso. vm_compute in E. discriminate.
Qed.
