(* C19-C23, C40-C42: IPv4 reassembly (src/ofp_reass.c). *)
From Coq Require Import Permutation.
From Verif Require Import Base CksumModel CksumSpec
  ReassModel ReassSpec ReassProof ReassInv ReassStep ReassRun ReassTile.
Ltac Zify.zify_post_hook ::= idtac.

(* A state reachable by fragments (with consistent lengths) and timeouts. *)
Definition reachable (st : reass) : Prop :=
  exists evs es, arrivals_wf evs /\ rrun reass_init evs = Ret (st, es).

Lemma reachable_inv st : reachable st -> exists hist, RInv hist st.
Proof.
  intros (evs & es & W & E). destruct (run_total evs [] reass_init RInv_init W) as (st' & es' & E' & O).
  rewrite E in E'. injection E' as <- <-. exists ([] ++ arrivals evs). exact (ro_inv _ _ _ _ _ O).
Qed.

(* ---------- C19 ---------- *)
(* Every history of fragments with consistent lengths (any order, duplicates,
   overlaps, interleavings, timeouts) runs without touching memory outside the
   packets, and every returned packet consists of received bytes. Partial: the
   receive path does not check the length field, see the two refutations. *)
Theorem reass_delivers_received_partial :
  forall evs, arrivals_wf evs ->
  exists st es, rrun reass_init evs = Ret (st, es) /\ length es = length evs /\
    (forall e1 be al junk pushed p e2 s1 e s2 d,
       evs = e1 ++ Arrive be al junk pushed p :: e2 -> es = s1 ++ e :: s2 -> length s1 = length e1 ->
       ef_ret e = Some d -> delivered_ok be (arrivals e1 ++ [p]) p d) /\
    (forall e1 e2 s1 e s2, evs = e1 ++ SlowTmo :: e2 -> es = s1 ++ e :: s2 -> length s1 = length e1 ->
       ef_ret e = None).
Proof.
  intros evs W. destruct (run_total evs [] reass_init RInv_init W) as (st & es & E & O).
  exists st, es. split; [exact E|]. split; [exact (ro_len _ _ _ _ _ O)|].
  split; [exact (ro_ret _ _ _ _ _ O)|exact (ro_tmo _ _ _ _ _ O)].
Qed.

Definition mkhdr (hl len id off p src dst : Z) : iphdr :=
  mkH hl 0 len id off 64 p 0 src dst (repeat 0 (Z.to_nat (4 * hl - 20))).
Definition mkpkt (uid hl id off len n : Z) : ippkt :=
  mkP uid (mkhdr hl (4 * hl + len) id off 17 16909060 84281096) (repeat uid (Z.to_nat n)).
Definition arr (p : ippkt) : revent := Arrive false 0 0 true p.

(* Two fragments of which the second claims 100 bytes and has 8: bytes outside
   the packet are read. *)
Theorem reass_short_packet_refuted :
  exists p1 p2, pkt_wf p1 /\ hdr_wf (p_hdr p2) /\ rrun reass_init [arr p1; arr p2] = UB.
Proof.
  exists (mkpkt 1 5 7 8192 16 16), (mkpkt 2 5 7 2 100 8).
  assert (forall uid off len n, 0 <= off < 65536 -> hdr_wf (p_hdr (mkpkt uid 5 7 off len n))).
  { intros. split; cbn [p_hdr mkpkt mkhdr h_hl h_tos h_ttl h_p h_id h_off h_src h_dst h_opt]; unfold is_byte; try lia.
    split; [constructor|reflexivity]. }
  split; [|split; [apply H; lia|reflexivity]].
  split; [apply H; lia|]. split; [cbn; lia|vm_compute; discriminate].
Qed.

Definition second_len (r : outcome (reass * list effect)) (n : Z) : bool :=
  match r with
  | Ret (_, [_; e]) => match ef_ret e with Some d => h_len (p_hdr d) =? n | None => false end
  | _ => false end.
Lemma two_effects r n : second_len r n = true ->
  exists st e1 e d, r = Ret (st, [e1; e]) /\ ef_ret e = Some d /\ h_len (p_hdr d) = n.
Proof.
  destruct r as [[st [|e1 [|e [|]]]]| |]; cbn [second_len]; try discriminate.
  destruct (ef_ret e) as [d|] eqn:ED; [|discriminate]. intros H. apply Z.eqb_eq in H. eauto 8.
Qed.

(* The size check uses the header length of the fragment that arrived last, the
   result has the header of the first one: the 16-bit length field wraps and is
   smaller than the payload. *)
Theorem reass_length_wraps_refuted :
  exists p1 p2 st es e d, pkt_wf p1 /\ pkt_wf p2 /\ tiles 0 [p1; p2] /\
    rrun reass_init [arr p1; arr p2] = Ret (st, es ++ [e]) /\ ef_ret e = Some d /\
    h_len (p_hdr d) < Z.of_nat (length (datagram [p1; p2])).
Proof.
  set (p1 := mkpkt 1 15 7 8192 32768 32768). set (p2 := mkpkt 2 5 7 4096 32732 32732).
  assert (CHK : second_len (rrun reass_init [arr p1; arr p2]) 24 = true) by (vm_compute; reflexivity).
  assert (CHK2 : Z.of_nat (length (datagram [p1; p2])) = 65500) by (vm_compute; reflexivity).
  assert (W1 : pkt_wf p1).
  { split; [split; cbn [p1 p_hdr mkpkt mkhdr h_hl h_tos h_ttl h_p h_id h_off h_src h_dst h_opt]; unfold is_byte; try lia|].
    - split; [|reflexivity]. apply Forall_forall. intros x Hx. apply repeat_spec in Hx. subst x. unfold is_byte. lia.
    - split; [cbn [p1 p_hdr mkpkt mkhdr h_len h_hl]; lia|]. apply Z.leb_le. vm_compute. reflexivity. }
  assert (W2 : pkt_wf p2).
  { split; [split; cbn [p2 p_hdr mkpkt mkhdr h_hl h_tos h_ttl h_p h_id h_off h_src h_dst h_opt]; unfold is_byte; try lia|].
    - split; [|reflexivity]. apply Forall_forall. intros x Hx. apply repeat_spec in Hx. subst x. unfold is_byte. lia.
    - split; [cbn [p2 p_hdr mkpkt mkhdr h_len h_hl]; lia|]. apply Z.leb_le. vm_compute. reflexivity. }
  assert (TL : tiles 0 [p1; p2]).
  { cbn [tiles]. repeat split; apply Z.eqb_eq || apply Z.ltb_lt || idtac; vm_compute; reflexivity. }
  destruct (two_effects _ _ CHK) as (st & e1 & e & d & ER & ED & H).
  exists p1, p2, st, [e1], e, d.
  split; [exact W1|]. split; [exact W2|]. split; [exact TL|]. split; [exact ER|]. split; [exact ED|].
  rewrite CHK2, H. reflexivity.
Qed.

(* ---------- C20 ---------- *)
Theorem reass_any_order :
  forall ps h evs be al junk p st,
  (* ps: between 2 and 17 fragments covering the datagram of header h *)
  tiles 0 ps -> (2 <= length ps <= 17)%nat -> Forall pkt_wf ps ->
  (forall q, In q ps -> same_datagram (p_hdr q) h) ->
  (forall q, In q ps -> 4 * h_hl (p_hdr q) + Z.of_nat (length (datagram ps)) <= 65535) ->
  (* they arrive in any order, p last, mixed with fragments of other datagrams,
     at a node that has no fragment of this datagram and is not near its limit *)
  reachable st -> queued st h = None -> arrivals_wf evs -> Forall (undisturbed h) evs ->
  Permutation (own h (arrivals evs) ++ [p]) ps ->
  r_nipq st + Z.of_nat (length evs) <= 1024 ->
  exists st' es e d,
    rrun st (evs ++ [Arrive be al junk true p]) = Ret (st', es ++ [e]) /\
    (forall x, In x (returned es) -> ~ same_datagram (p_hdr x) h) /\
    ef_ret e = Some d /\ whole be h ps d /\ queued st' h = None.
Proof.
  intros ps h evs be al junk p st HT HC HW HK HS HR HQ W U P N.
  destruct (reachable_inv st HR) as (hist & R).
  apply (own_whole ps h HT HW) with (hist := hist); try assumption.
  intros q Hq. destruct (HK q Hq) as (A & B & C & D). unfold key. congruence.
Qed.

(* the three fragments of a 20 byte datagram, last one first, and a fragment of
   another datagram in the same bucket between them *)
Example reass_any_order_met :
  let ps := [mkpkt 1 5 7 8192 8 8; mkpkt 2 5 7 8193 8 8; mkpkt 3 5 7 2 4 10] in
  let evs := [arr (mkpkt 3 5 7 2 4 10); arr (mkpkt 9 5 71 8192 8 8); arr (mkpkt 1 5 7 8192 8 8)] in
  tiles 0 ps /\ Forall pkt_wf ps /\ arrivals_wf evs /\
  Permutation (own (p_hdr (mkpkt 1 5 7 8192 8 8)) (arrivals evs) ++ [mkpkt 2 5 7 8193 8 8]) ps /\
  datagram ps = repeat 1 8 ++ repeat 2 8 ++ repeat 3 4 /\
  match rrun reass_init (evs ++ [arr (mkpkt 2 5 7 8193 8 8)]) with
  | Ret (_, es) => map p_uid (returned es) = [1] /\ freed es = [2; 3] | _ => False end.
Proof.
  assert (WF : forall uid id off len n, 0 <= id < 65536 -> 0 <= off < 65536 -> 0 <= len <= n -> n < 1000 ->
     pkt_wf (mkpkt uid 5 id off len n)).
  { intros. split; [split; cbn [p_hdr mkpkt mkhdr h_hl h_tos h_ttl h_p h_id h_off h_src h_dst h_opt]; unfold is_byte; try lia|].
    - split; [constructor|reflexivity].
    - split; [cbn [p_hdr mkpkt mkhdr h_len h_hl]; lia|]. unfold frag_len. cbn [p_hdr p_data mkpkt mkhdr h_len h_hl].
      rewrite repeat_length. lia. }
  cbv zeta. split; [cbn; repeat split; reflexivity|].
  split; [repeat constructor; apply WF; lia|].
  split; [repeat constructor; apply WF; lia|].
  split; [|split; [reflexivity|vm_compute; split; reflexivity]].
  set (a := mkpkt 1 5 7 8192 8 8). set (b := mkpkt 2 5 7 8193 8 8). set (c := mkpkt 3 5 7 2 4 10).
  transitivity [c; a; b]; [|exact (Permutation_sym (Permutation_trans (perm_skip a (perm_swap c b [])) (perm_swap c a [b])))].
  apply Permutation_refl'. vm_compute. reflexivity.
Qed.

(* ---------- C21 ---------- *)
Theorem reass_other_datagrams_untouched :
  forall st be al junk pushed p, reachable st -> pkt_wf p ->
  exists st' e, ip_reass be al junk pushed st p = Ret (st', e) /\
    forall h, ~ same_datagram h (p_hdr p) -> queued st' h = queued st h.
Proof.
  intros st be al junk pushed p HR W. destruct (reachable_inv st HR) as (hist & R).
  destruct (step_total be al junk pushed hist st p R W) as (st' & e & E & O).
  exists st', e. split; [exact E|]. intros h N. apply (step_other be hist st p st' e h O).
  intros K. apply N. apply key_same_datagram. congruence.
Qed.

(* ---------- C22 ---------- *)
(* The counter changes exactly by creations and deliveries, hence is never
   below the number of datagrams being reassembled; partial since datagrams
   that are abandoned stay counted. *)
Theorem reass_counter_partial :
  forall st, reachable st -> live st <= r_nipq st /\
  forall be al junk pushed p, pkt_wf p ->
  exists st' e, ip_reass be al junk pushed st p = Ret (st', e) /\
    r_nipq st' = r_nipq st + Z.max 0 (live st' - live st) - (match ef_ret e with Some _ => 1 | None => 0 end).
Proof.
  intros st HR. split.
  - destruct HR as (evs & es & W & E). destruct (run_total evs [] reass_init RInv_init W) as (st' & es' & E' & O).
    rewrite E in E'. injection E' as <- <-. pose proof (ro_nipq _ _ _ _ _ O) as X.
    assert (L0 : live reass_init = 0) by (vm_compute; reflexivity). rewrite L0 in X.
    cbn [reass_init r_nipq] in X. lia.
  - intros be al junk pushed p W. destruct (reachable_inv st HR) as (hist & R).
    destruct (step_total be al junk pushed hist st p R W) as (st' & e & E & O).
    exists st', e. split; [exact E|].
    pose proof (so_dn _ _ _ _ _ _ O) as DN. pose proof (so_bucket _ _ _ _ _ _ O) as SB.
    assert (LL : live st' = live st + (qlen st' (hash_of p) - qlen st (hash_of p))).
    { rewrite !live_zsum. apply (zsum_update (qlen st) (qlen st') (hash_of p)); [apply buckets_nodup|apply hash_in|].
      intros i N. unfold qlen. rewrite (so_frame _ _ _ _ _ _ O i N). reflexivity. }
    unfold qlen in LL.
    assert (NR : ef_ret e = None -> r_nipq st' - r_nipq st <> -1).
    { intros X Y. apply DN in Y. congruence. }
    assert (YR : forall d, ef_ret e = Some d -> r_nipq st' - r_nipq st = -1).
    { intros d X. apply DN. congruence. }
    destruct SB as [EE D|c EE D _ _|a c c' b E1 E2 D _ _|a c b E1 E2 _ D];
      (destruct (ef_ret e) as [d|]; [specialize (YR d eq_refl)|specialize (NR eq_refl)]);
      rewrite ?E1, ?E2, ?EE, ?app_length in LL; cbn [length] in LL; lia.
Qed.

Lemma over_limit_stuck : forall evs st, maxnipq < r_nipq st ->
  exists st' es, rrun st evs = Ret (st', es) /\ returned es = [].
Proof.
  induction evs as [|ev evs IH]; intros st H; [exists st, []; auto|].
  cbn [rrun]. destruct ev as [be al junk pushed p|]; cbn [rstep].
  - unfold ip_reass. destruct (Z.gtb_spec (r_nipq st) maxnipq) as [_|X]; [|lia]. cbn [obind].
    destruct (IH st H) as (st' & es & -> & R). cbn [obind]. eexists _, _. split; [reflexivity|].
    unfold returned in *. cbn [flat_map ef_ret app]. exact R.
  - destruct (slow_tmo st) as [st1 e1] eqn:E. cbn [obind].
    assert (N1 : r_nipq st1 = r_nipq st) by (change st1 with (fst (st1, e1)); rewrite <- E; reflexivity).
    assert (ER : ef_ret e1 = None) by (change e1 with (snd (st1, e1)); rewrite <- E; reflexivity).
    assert (H1 : maxnipq < r_nipq st1) by lia.
    destruct (IH st1 H1) as (st' & es & E' & R).
    rewrite E'. cbn [obind]. eexists _, _. split; [reflexivity|].
    unfold returned in *. cbn [flat_map]. rewrite ER. exact R.
Qed.

Definition flood : list revent :=
  map (fun i => arr (mkpkt (Z.of_nat i) 5 (Z.of_nat i) 8192 8 8)) (seq 0 (Z.to_nat 1025)) ++
  repeat SlowTmo 64.

Lemma mkpkt_wf uid id off len n : 0 <= id < 65536 -> 0 <= off < 65536 -> 0 <= len <= n -> n < 1000 ->
  pkt_wf (mkpkt uid 5 id off len n).
Proof.
  intros. split; [split; cbn [p_hdr mkpkt mkhdr h_hl h_tos h_ttl h_p h_id h_off h_src h_dst h_opt]; unfold is_byte; try lia|].
  - split; [constructor|reflexivity].
  - split; [cbn [p_hdr mkpkt mkhdr h_len h_hl]; lia|]. unfold frag_len. cbn [p_hdr p_data mkpkt mkhdr h_len h_hl].
    rewrite repeat_length. lia.
Qed.

Lemma flood_wf : arrivals_wf flood.
Proof.
  unfold arrivals_wf, flood. rewrite arrivals_app. apply Forall_app. split.
  - apply Forall_forall. intros p Hp.
    assert (X : forall l, In p (arrivals (map (fun i => arr (mkpkt (Z.of_nat i) 5 (Z.of_nat i) 8192 8 8)) l)) ->
       exists i, In i l /\ p = mkpkt (Z.of_nat i) 5 (Z.of_nat i) 8192 8 8).
    { induction l as [|i l IH]; cbn [map arrivals]; [intros []|]. unfold arr at 1. cbn [arrivals]. intros [<-|H].
      - exists i. split; [left; reflexivity|reflexivity].
      - destruct (IH H) as (j & A & B). exists j. split; [right; exact A|exact B]. }
    destruct (X _ Hp) as (i & Hi & ->). apply in_seq in Hi. apply mkpkt_wf; lia.
  - cbn. constructor.
Qed.

(* 1025 incomplete datagrams that time out make the node refuse every fragment
   for ever although it holds none. *)
Theorem reass_limit_permanent_refuted :
  exists st, reachable st /\ live st = 0 /\ held st = [] /\
  forall evs, exists st' es, rrun st evs = Ret (st', es) /\ returned es = [].
Proof.
  destruct (run_total flood [] reass_init RInv_init flood_wf) as (st & es & E & _).
  assert (CHK : match rrun reass_init flood with
    | Ret (st, _) => (r_nipq st =? 1025) && (live st =? 0) && (match held st with [] => true | _ => false end)
    | _ => false end = true) by (vm_compute; reflexivity).
  rewrite E in CHK. apply andb_true_iff in CHK. destruct CHK as [C1 C3]. apply andb_true_iff in C1. destruct C1 as [C1 C2].
  exists st. split; [exists flood, es; split; [exact flood_wf|exact E]|].
  split; [apply Z.eqb_eq; exact C2|]. split; [destruct (held st); [reflexivity|discriminate]|].
  intros evs. apply over_limit_stuck. unfold maxnipq. lia.
Qed.

(* ---------- C23 ---------- *)
(* Every call takes and releases the lock once, provided the limit was not
   exceeded when it started; whatever the packet contains. *)
Theorem reass_lock_balanced_partial :
  forall be al junk pushed st p st' e, ip_reass be al junk pushed st p = Ret (st', e) ->
  r_nipq st <= maxnipq -> ef_locks e = [true; false].
Proof.
  intros be al junk pushed st p st' e E N. unfold ip_reass in E.
  destruct (Z.gtb_spec (r_nipq st) maxnipq) as [X|_]; [lia|].
  repeat match type of E with
  | (if ?b then _ else _) = _ => destruct b
  | match ?x with _ => _ end = _ => destruct x
  | (let '(_, _) := ?x in _) = _ => destruct x
  | obind ?x _ = _ => destruct x; cbn [obind] in E
  | Ret _ = Ret _ => injection E as <- <-
  end; try discriminate; reflexivity.
Qed.

(* Over the limit the lock is released without having been taken. *)
Theorem reass_unlock_unlocked_refuted :
  exists st p st' e, reachable st /\ pkt_wf p /\
    ip_reass false 0 0 true st p = Ret (st', e) /\ ef_locks e = [false].
Proof.
  destruct (run_total flood [] reass_init RInv_init flood_wf) as (st & es & E & _).
  assert (CHK : match rrun reass_init flood with
    | Ret (st, _) => (r_nipq st =? 1025) | _ => false end = true) by (vm_compute; reflexivity).
  rewrite E in CHK. apply Z.eqb_eq in CHK.
  exists st, (mkpkt 1 5 7 8192 8 8). eexists _, _. split; [exists flood, es; split; [exact flood_wf|exact E]|].
  split; [apply mkpkt_wf; lia|]. unfold ip_reass. rewrite CHK. split; reflexivity.
Qed.

(* ---------- C40 ---------- *)
(* As long as no malformed fragment arrives, the fragment count of every queue
   is the number of its fragments, at most 16. *)
Lemma cnt_run : forall evs hist st, RInv hist st -> arrivals_wf evs ->
  (forall p, In p (arrivals evs) -> ~ malformed p) ->
  (forall ix c, In c (r_q st ix) -> cnt_ok c) ->
  forall st' es, rrun st evs = Ret (st', es) -> forall ix c, In c (r_q st' ix) -> cnt_ok c.
Proof.
  induction evs as [|ev evs IH]; intros hist st R W NM C st' es E.
  { injection E as <- <-. exact C. }
  cbn [rrun] in E. destruct ev as [be al junk pushed p|]; cbn [rstep] in E.
  - unfold arrivals_wf in W. cbn [arrivals] in W, NM. inversion W as [|? ? W1 W2]; subst.
    destruct (step_total be al junk pushed hist st p R W1) as (st1 & e & E1 & O). rewrite E1 in E. cbn [obind] in E.
    destruct (rrun st1 evs) as [[st2 es2]| |] eqn:E2; try discriminate. cbn [obind] in E. injection E as <- <-.
    apply (IH (hist ++ [p]) st1 (so_inv _ _ _ _ _ _ O) W2) with (es := es2); [intros q Hq; apply NM; right; exact Hq| |exact E2].
    intros ix c. destruct (Z.eq_dec ix (hash_of p)) as [->|N].
    + apply (so_cnt _ _ _ _ _ _ O); [apply NM; left; reflexivity|intros x; apply C].
    + rewrite (so_frame _ _ _ _ _ _ O ix N). apply C.
  - destruct (slow_tmo st) as [st1 e1] eqn:ES. cbn [obind] in E.
    destruct (rrun st1 evs) as [[st2 es2]| |] eqn:E2; try discriminate. cbn [obind] in E. injection E as <- <-.
    assert (EF : st1 = fst (slow_tmo st)) by (rewrite ES; reflexivity).
    apply (IH hist st1) with (es := es2); [rewrite EF; apply RInv_slow; exact R|exact W|exact NM| |exact E2].
    rewrite EF. intros ix. unfold slow_tmo. cbn [fst r_q]. specialize (C ix). revert C. generalize (r_q st ix).
    clear. induction l as [|x l IH]; cbn [expire_bucket]; intros C c H; [destruct H|].
    destruct (expire_bucket l) as [r' fd]. cbn [fst] in IH.
    assert (C' : forall c, In c l -> cnt_ok c) by (intros y Hy; apply C; right; exact Hy).
    destruct (u8 (c_ttl x - 1) =? 0); cbn [fst] in H; [exact (IH C' c H)|].
    destruct H as [<-|H]; [exact (C x (or_introl eq_refl))|exact (IH C' c H)].
Qed.

Theorem reass_fragment_count_partial :
  forall evs st es, arrivals_wf evs -> (forall p, In p (arrivals evs) -> ~ malformed p) ->
  rrun reass_init evs = Ret (st, es) ->
  forall h c, queued st h = Some c ->
    c_nfrags c = Z.of_nat (length (c_frags c)) /\ (length (c_frags c) <= 16)%nat.
Proof.
  intros evs st es W NM E h c Q. unfold queued in Q.
  pose proof (find_chain_spec h (r_q st (reass_hash (h_src h) (h_id h)))) as FS.
  destruct (find_chain h (r_q st (reass_hash (h_src h) (h_id h)))) as [[[a x] b]|]; [|discriminate].
  injection Q as ->. destruct FS as [EQ _].
  apply (cnt_run evs [] reass_init RInv_init W NM (fun _ _ F => match F with end) st es E (reass_hash (h_src h) (h_id h)) c).
  rewrite EQ. apply in_app_iff. right. left. reflexivity.
Qed.

(* A malformed fragment is not stored but decrements the count. With one
   malformed fragment after each good one the limit never applies. *)
Definition undercount : list revent :=
  flat_map (fun i => [arr (mkpkt (Z.of_nat i) 5 7 (8192 + 1 + Z.of_nat i) 8 8); arr (mkpkt 500 5 7 8192 4 4)]) (seq 0 100).

Lemma undercount_wf : arrivals_wf undercount.
Proof.
  unfold arrivals_wf, undercount.
  assert (X : forall l, (forall i, In i l -> (i < 100)%nat) ->
    Forall pkt_wf (arrivals (flat_map (fun i => [arr (mkpkt (Z.of_nat i) 5 7 (8192 + 1 + Z.of_nat i) 8 8); arr (mkpkt 500 5 7 8192 4 4)]) l))).
  { induction l as [|i l IH]; intros H; [constructor|]. cbn [flat_map app]. unfold arr at 1 2. cbn [arrivals].
    pose proof (H i (or_introl eq_refl)).
    constructor; [apply mkpkt_wf; lia|]. constructor; [apply mkpkt_wf; lia|].
    apply IH. intros j Hj. apply H. right. exact Hj. }
  apply X. intros i Hi. apply in_seq in Hi. lia.
Qed.

Theorem reass_fragment_limit_refuted :
  exists evs st es h c, arrivals_wf evs /\ rrun reass_init evs = Ret (st, es) /\
    queued st h = Some c /\ (100 <= length (c_frags c))%nat /\ c_nfrags c = 0.
Proof.
  destruct (run_total undercount [] reass_init RInv_init undercount_wf) as (st & es & E & _).
  set (h := p_hdr (mkpkt 1 5 7 0 8 8)).
  assert (CHK : match rrun reass_init undercount with
    | Ret (st, _) => match queued st h with Some c => (100 <=? length (c_frags c))%nat && (c_nfrags c =? 0) | None => false end
    | _ => false end = true) by (vm_compute; reflexivity).
  rewrite E in CHK. destruct (queued st h) as [c|] eqn:Q; [|discriminate].
  apply andb_true_iff in CHK. destruct CHK as [C1 C2].
  exists undercount, st, es, h, c. split; [exact undercount_wf|]. split; [exact E|]. split; [exact Q|].
  split; [apply Nat.leb_le; exact C1|apply Z.eqb_eq; exact C2].
Qed.

(* ---------- C41 ---------- *)
Lemma timeouts_look : forall n st h c, r_q st (reass_hash (h_src h) (h_id h)) = [c] ->
  chain_matches h c = true -> Z.of_nat n < c_ttl c <= 255 ->
  r_q (timeouts n st) (reass_hash (h_src h) (h_id h)) = [mkC (c_frags c) (c_nfrags c) (c_ttl c - Z.of_nat n)].
Proof.
  induction n as [|n IH]; intros st h c E M T; cbn [timeouts].
  - rewrite E. destruct c. cbn. f_equal. f_equal. lia.
  - rewrite (IH (fst (slow_tmo st)) h (mkC (c_frags c) (c_nfrags c) (c_ttl c - 1))).
    + cbn [c_frags c_nfrags c_ttl]. do 2 f_equal. lia.
    + unfold slow_tmo. cbn [fst r_q]. rewrite E. cbn [expire_bucket].
      assert (X : u8 (c_ttl c - 1) = c_ttl c - 1) by (unfold u8; apply Z.mod_small; lia).
      rewrite X. destruct (Z.eqb_spec (c_ttl c - 1) 0); [lia|]. reflexivity.
    + exact M.
    + cbn [c_ttl]. lia.
Qed.

(* A datagram of which one fragment arrived (first in an empty bucket) is kept
   for at least max(15, ttl) - 1 timeouts. Partial: only for datagrams of which
   no second fragment arrived and with no other datagram in the bucket. *)
Theorem reass_lifetime_partial :
  forall st be al junk p n, r_nipq st <= maxnipq -> pkt_wf p -> ~ malformed p ->
  r_q st (reass_hash (h_src (p_hdr p)) (h_id (p_hdr p))) = [] ->
  Z.of_nat n < Z.max 15 (h_ttl (p_hdr p)) ->
  exists st' e c, ip_reass be al junk true st p = Ret (st', e) /\
    queued (timeouts n st') (p_hdr p) = Some c /\ map fr_uid (c_frags c) = [p_uid p].
Proof.
  intros st be al junk p n N W NM E HN. unfold ip_reass.
  destruct (Z.gtb_spec (r_nipq st) maxnipq) as [X|_]; [lia|]. cbn [negb]. rewrite E. cbn [find_chain].
  destruct (negb _ && _) eqn:G; [destruct (NM (guard_malformed p W G))|].
  fold (new_frag p). set (c0 := mkC [new_frag p] 1 (if h_ttl (p_hdr p) <? 15 then 15 else h_ttl (p_hdr p))).
  pose proof (hw_ttl _ (proj1 W)) as HT. unfold is_byte in HT.
  assert (M : forall k t, chain_matches (p_hdr p) (mkC [new_frag p] k t) = true) by (intros; apply matches_iff; reflexivity).
  eexists _, _, _. split; [reflexivity|].
  unfold queued. rewrite (timeouts_look n _ (p_hdr p) c0); cbn [r_q].
  - cbn [find_chain c0 c_frags c_nfrags c_ttl]. rewrite M. split; reflexivity.
  - rewrite rupd_same. reflexivity.
  - apply M.
  - cbn [c0 c_ttl]. destruct (Z.ltb_spec (h_ttl (p_hdr p)) 15); lia.
Qed.

(* The remaining time of a datagram becomes an uninitialised byte when a
   fragment arrives that precedes all others: it may be dropped after one
   second although its fragments allow 64. *)
Theorem reass_lifetime_refuted :
  exists evs st es c h, arrivals_wf evs /\ rrun reass_init evs = Ret (st, es) /\
    queued st h = Some c /\ Forall (fun f => h_ttl (fr_hdr f) = 64) (c_frags c) /\
    queued (timeouts 1 st) h = None.
Proof.
  set (evs := [arr (mkpkt 1 5 7 8194 8 8); Arrive false 0 1 true (mkpkt 2 5 7 8192 8 8)]).
  set (h := p_hdr (mkpkt 1 5 7 0 8 8)).
  assert (W : arrivals_wf evs) by (repeat constructor; apply mkpkt_wf; lia).
  destruct (run_total evs [] reass_init RInv_init W) as (st & es & E & _).
  assert (CHK : match rrun reass_init evs with
    | Ret (st, _) => match queued st h, queued (timeouts 1 st) h with
        | Some c, None => forallb (fun f => h_ttl (fr_hdr f) =? 64) (c_frags c) | _, _ => false end
    | _ => false end = true) by (vm_compute; reflexivity).
  rewrite E in CHK. destruct (queued st h) as [c|] eqn:Q; [|discriminate].
  destruct (queued (timeouts 1 st) h) eqn:Q2; [discriminate|].
  exists evs, st, es, c, h. split; [exact W|]. split; [exact E|]. split; [exact Q|]. split; [|exact Q2].
  apply Forall_forall. intros f Hf. rewrite forallb_forall in CHK. apply Z.eqb_eq, CHK, Hf.
Qed.

(* ---------- C42 ---------- *)
(* Every fragment given to reassembly is held, freed or returned exactly once. *)
Theorem reass_packets_conserved :
  forall evs st es, arrivals_wf evs -> rrun reass_init evs = Ret (st, es) ->
  Permutation (held st ++ freed es ++ map p_uid (returned es)) (map p_uid (arrivals evs)).
Proof.
  intros evs st es W E. destruct (run_total evs [] reass_init RInv_init W) as (st' & es' & E' & O).
  rewrite E in E'. injection E' as <- <-. pose proof (ro_perm _ _ _ _ _ O) as P.
  replace (held reass_init) with (@nil Z) in P by (vm_compute; reflexivity).
  rewrite app_nil_r in P. exact P.
Qed.

Print Assumptions reass_delivers_received_partial.
Print Assumptions reass_short_packet_refuted.
Print Assumptions reass_length_wraps_refuted.
Print Assumptions reass_any_order.
Print Assumptions reass_other_datagrams_untouched.
Print Assumptions reass_counter_partial.
Print Assumptions reass_limit_permanent_refuted.
Print Assumptions reass_lock_balanced_partial.
Print Assumptions reass_unlock_unlocked_refuted.
Print Assumptions reass_fragment_count_partial.
Print Assumptions reass_fragment_limit_refuted.
Print Assumptions reass_lifetime_partial.
Print Assumptions reass_lifetime_refuted.
Print Assumptions reass_packets_conserved.
