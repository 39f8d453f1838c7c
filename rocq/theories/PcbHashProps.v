(* C117: the PCB hash tables. *)
From Verif Require Import Base PcbHashModel.
Ltac Zify.zify_post_hook ::= idtac.

(* a lookup or insertion for any connection stays inside both tables *)
Definition inside (be : bool) (i : pcbinfo) : Prop := forall faddr lport fport, 0 <= faddr -> 0 <= lport -> 0 <= fport ->
  0 <= INP_PCBHASH be faddr lport fport (hashmask i) < elems (hashbase i) /\
  0 <= INP_PCBPORTHASH be lport (porthashmask i) < elems (porthashbase i).
(* every chain of a table is used: any chain is the one of some remote address, any chain of the
   second table that of some port *)
Definition all_used (be : bool) (i : pcbinfo) : Prop :=
  (forall c, 0 <= c < elems (hashbase i) -> exists faddr, 0 <= faddr < 2 ^ 32 /\ INP_PCBHASH be faddr 0 0 (hashmask i) = c) /\
  (forall c, 0 <= c < elems (porthashbase i) -> exists lport, 0 <= lport < 2 ^ 16 /\ INP_PCBPORTHASH be lport (porthashmask i) = c).
(* no two tables share their memory *)
Definition separate (l : list pcbinfo) : Prop :=
  NoDup (map at_ (map hashbase l ++ map porthashbase l)).

(* ---- ofp_hashinit ---- *)
Lemma double_spec : forall fuel e k, 0 < e < 2 ^ 31 -> 0 <= k -> 2 ^ k <= 2 * e -> 32 - k < Z.of_nat fuel ->
  exists j, 0 <= j /\ double fuel e (2 ^ k) = Ret (2 ^ j) /\ e < 2 ^ j /\ (2 ^ j <= 2 * e).
Proof.
  induction fuel as [|f IH]; intros e k E K L F.
  - exfalso. assert (2 ^ 32 <= 2 ^ k) by (apply Z.pow_le_mono_r; lia). lia.
  - cbn [double]. destruct (Z.leb_spec (2 ^ k) e) as [Q|Q].
    + replace (2 ^ k * 2) with (2 ^ (k + 1)) by (rewrite Z.pow_add_r by lia; lia).
      assert (2 ^ (k + 1) <= 2 * e) by (rewrite Z.pow_add_r by lia; lia).
      destruct (Z.leb_spec (2 ^ 63) (2 ^ (k + 1))); [lia|].
      apply IH; lia.
    + exists k. auto.
Qed.
(* For any number of elements from 1 the table is made, has a power of two of elements, at most
   that many and more than half of them, and the mask selects exactly its elements: an index is
   the value modulo the size. *)
Theorem hashinit_power_of_two : forall elements n, 0 < elements < 2 ^ 31 ->
  exists t m j, ofp_hashinit elements n = Ret (t, m) /\ 0 <= j /\ elems t = 2 ^ j /\
    elems t <= elements < 2 * elems t /\ at_ t = heap n /\
    (forall x, 0 <= x -> Z.land x m = x mod elems t).
Proof.
  intros e n E. assert (E1 : 2 ^ 0 <= 2 * e) by (change (2 ^ 0) with 1; lia).
  destruct (double_spec 64 e 0 E ltac:(lia) E1 ltac:(lia)) as (j & J0 & D & L1 & L2).
  change (2 ^ 0) with 1 in D.
  assert (J : 0 < j) by (destruct (Z.eq_dec j 0) as [->|]; [cbn in L1; lia|lia]).
  assert (H2 : 2 ^ j = 2 * 2 ^ (j - 1)).
  { replace j with (j - 1 + 1) at 1 by lia. rewrite Z.pow_add_r by lia. lia. }
  assert (H : Z.shiftr (2 ^ j) 1 = 2 ^ (j - 1)).
  { rewrite Z.shiftr_div_pow2, H2, Z.mul_comm by lia. change (2 ^ 1) with 2. apply Z.div_mul. lia. }
  assert (0 < 2 ^ (j - 1)) by (apply Z.pow_pos_nonneg; lia).
  unfold ofp_hashinit. rewrite D. cbn [obind]. rewrite H.
  exists (mkTable (heap n) (2 ^ (j - 1))), (2 ^ (j - 1) - 1), (j - 1).
  cbn [elems at_]. split; [rewrite Z.mod_small by lia; reflexivity|]. repeat split; try lia.
  intros x X. replace (2 ^ (j - 1) - 1) with (Z.ones (j - 1)) by (rewrite Z.ones_equiv; lia).
  rewrite Z.land_ones by lia. reflexivity.
Qed.
Print Assumptions hashinit_power_of_two.

(* ---- the tables in use ---- *)
Lemma swap_nonneg be x : 0 <= x -> 0 <= be16_to_cpu be x.
Proof.
  intros X. unfold be16_to_cpu. destruct be; [exact X|]. apply Z.lor_nonneg. split.
  - apply Z.shiftr_nonneg, X.
  - apply Z.shiftl_nonneg, Z.land_nonneg. right. lia.
Qed.
Lemma inside_ones be a b k j : 0 <= k -> 0 <= j -> inside be (mkInfo (mkTable a (2 ^ k)) (Z.ones k) (mkTable b (2 ^ j)) (Z.ones j)).
Proof.
  intros K J f l p F L P. unfold INP_PCBHASH, INP_PCBPORTHASH. cbn [hashmask porthashmask hashbase porthashbase elems].
  rewrite !Z.land_ones by lia. split; apply Z.mod_pos_bound, Z.pow_pos_nonneg; lia.
Qed.
Lemma swap_small x : 0 <= x < 2 ^ 16 -> be16_to_cpu false (be16_to_cpu false x) = x /\ 0 <= be16_to_cpu false x < 2 ^ 16.
Proof.
  intros X. unfold be16_to_cpu.
  assert (B : forall y, 0 <= y < 2 ^ 16 -> Z.lor (Z.shiftr y 8) (Z.shiftl (Z.land y 255) 8) = y / 256 + 256 * (y mod 256)).
  { intros y Y. change 255 with (Z.ones 8). rewrite Z.land_ones by lia. rewrite Z.shiftr_div_pow2, Z.shiftl_mul_pow2 by lia.
    change (2 ^ 8) with 256. rewrite (Z.lor_comm _ _).
    assert (Dy : 0 <= y / 256 < 256) by (split; [apply Z.div_pos; lia|apply Z.div_lt_upper_bound; lia]).
    assert (N : Z.land (y mod 256 * 256) (y / 256) = 0).
    { change 256 with (2 ^ 8) at 2. rewrite <- Z.shiftl_mul_pow2 by lia. apply Z.bits_inj'. intros i I.
      rewrite Z.land_spec, Z.bits_0. destruct (Z.ltb_spec i 8).
      - rewrite Z.shiftl_spec_low by lia. reflexivity.
      - rewrite andb_comm. rewrite (Z.bits_above_log2 (y / 256)); [reflexivity|lia|].
        destruct (Z.eq_dec (y / 256) 0) as [->|]; [cbn; lia|]. apply Z.log2_lt_pow2; [lia|].
        assert (2 ^ 8 <= 2 ^ i) by (apply Z.pow_le_mono_r; lia). lia. }
    rewrite <- Z.lxor_lor, <- Z.add_nocarry_lxor by exact N. lia. }
  rewrite (B x X).
  assert (M : 0 <= x mod 256 < 256) by (apply Z.mod_pos_bound; lia).
  assert (D : 0 <= x / 256 < 256) by (split; [apply Z.div_pos; lia|apply Z.div_lt_upper_bound; lia]).
  split; [|lia]. rewrite B by lia.
  rewrite (Z.mul_comm 256), Z.div_add, Z.mod_add by lia. rewrite (Z.div_small (x / 256)), (Z.mod_small (x / 256)) by lia.
  pose proof (Z.div_mod x 256). lia.
Qed.
Lemma used_ones be a b k j : 0 <= k <= 16 -> 0 <= j <= 16 -> all_used be (mkInfo (mkTable a (2 ^ k)) (Z.ones k) (mkTable b (2 ^ j)) (Z.ones j)).
Proof.
  intros K J. assert (P : forall n, 0 <= n <= 16 -> 2 ^ n <= 2 ^ 16) by (intros; apply Z.pow_le_mono_r; lia).
  pose proof (P k K). pose proof (P j J). split; cbn [hashmask porthashmask hashbase porthashbase elems]; intros c C.
  - exists c. split; [lia|]. unfold INP_PCBHASH. change (Z.lxor 0 0) with 0.
    assert (Z0 : be16_to_cpu be 0 = 0) by (destruct be; reflexivity). rewrite Z0, Z.lxor_0_r.
    rewrite Z.shiftr_div_pow2 by lia. rewrite (Z.div_small c) by lia. rewrite Z.lxor_0_r, Z.land_ones by lia.
    apply Z.mod_small. exact C.
  - destruct be.
    + exists c. split; [lia|]. unfold INP_PCBPORTHASH, be16_to_cpu. rewrite Z.land_ones by lia. apply Z.mod_small. exact C.
    + destruct (swap_small c ltac:(lia)) as [S1 S2]. exists (be16_to_cpu false c). split; [exact S2|].
      unfold INP_PCBPORTHASH. rewrite S1, Z.land_ones by lia. apply Z.mod_small. exact C.
Qed.

(* The TCP and the UDP tables: no access outside them, no chain unused, no memory shared. *)
Theorem pcb_hash_tables : exists t u, tcp_info = Ret t /\ udp_info = Ret u /\
  (forall be, inside be t /\ inside be u /\ all_used be t /\ all_used be u) /\ separate [t; u].
Proof.
  exists (mkInfo (mkTable tcp_hashtbl (2 ^ 10)) (Z.ones 10) (mkTable tcp_porthashtbl (2 ^ 10)) (Z.ones 10)),
         (mkInfo (mkTable (heap 1) (2 ^ 7)) (Z.ones 7) (mkTable (heap 2) (2 ^ 7)) (Z.ones 7)).
  split; [reflexivity|]. split; [reflexivity|]. split.
  - intros be. split; [apply inside_ones; lia|]. split; [apply inside_ones; lia|]. split; apply used_ones; lia.
  - unfold separate. cbn. repeat constructor; cbn; intuition discriminate.
Qed.
Print Assumptions pcb_hash_tables.

(* With OFP_RSS no access leaves the tables either, *)
Theorem pcb_hash_rss_partial : forall ncpu, exists l, tcp_rss_infos ncpu = Ret l /\ length l = ncpu /\
  forall be i, In i l -> inside be i.
Proof.
  assert (E : tcp_rss_info1 = Ret (mkInfo (mkTable tcp_hashtbl (2 ^ 10)) (Z.ones 10) (mkTable tcp_porthashtbl (2 ^ 10)) (Z.ones 0))) by reflexivity.
  induction ncpu as [|n (l & IH & Ln & I)].
  - exists []. split; [reflexivity|]. split; [reflexivity|]. intros be i [].
  - cbn [tcp_rss_infos]. rewrite E, IH. cbn [obind]. eexists. split; [reflexivity|]. split; [cbn; lia|].
    intros be i [<-|H]; [|apply I, H]. intros f l' p F L P. unfold INP_PCBHASH, INP_PCBPORTHASH.
    cbn [hashmask porthashmask hashbase porthashbase elems]. rewrite !Z.land_ones by lia.
    change (2 ^ 0) with 1. rewrite Z.mod_1_r. split; [apply Z.mod_pos_bound; lia|lia].
Qed.
Print Assumptions pcb_hash_rss_partial.
(* but the CPUs, each with a lock of its own, share one pair of tables, and the mask of the
   port table is never set: all ports are in its first chain. *)
Theorem pcb_hash_rss_refuted : exists l, tcp_rss_infos 2 = Ret l /\ ~ separate l /\
  forall i, In i l -> (forall be lport, INP_PCBPORTHASH be lport (porthashmask i) = 0) /\ forall be, ~ all_used be i.
Proof.
  eexists. split; [vm_compute; reflexivity|]. split.
  - unfold separate. cbn. intros N. inversion N as [|x l H]. apply H. left. reflexivity.
  - intros i H. assert (M : porthashmask i = 0 /\ elems (porthashbase i) = 1024) by (destruct H as [<-|[<-|[]]]; split; reflexivity).
    destruct M as [M El]. assert (Z0 : forall be lport, INP_PCBPORTHASH be lport (porthashmask i) = 0).
    { intros be p. rewrite M. apply Z.land_0_r. }
    split; [exact Z0|]. intros be [_ U]. destruct (U 1 ltac:(lia)) as (p & _ & E). rewrite Z0 in E. discriminate.
Qed.
Print Assumptions pcb_hash_rss_refuted.

Example hashinit_ex : exists t m, ofp_hashinit 1000 1 = Ret (t, m) /\ elems t = 512 /\ Z.land 5000 m = 392.
Proof. eexists _, _. vm_compute. auto. Qed.
