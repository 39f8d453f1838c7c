(* C47-C50: socket buffers, receiving and sending. *)
From Verif Require Import Base SockModel SockSpec SockProof SockRecv SockSend.
Ltac Zify.zify_post_hook ::= idtac.
Transparent SOCKBUF_LEN.

(* ---------- C47: the buffer is a queue of at most 63 packets read as one stream ---------- *)
Theorem sockbuf_is_a_byte_queue : forall takes bs ops,
  Forall legal ops -> exists sb, bruns takes bs sb_empty ops = Ret (sb, snd (bspecs takes bs [] ops)).
Proof.
  intros takes bs ops L.
  assert (G : forall ops sb l, Forall legal ops -> Q sb l -> exists sb', bruns takes bs sb ops = Ret (sb', snd (bspecs takes bs l ops))).
  { clear ops L. induction ops as [|op ops IH]; intros sb l L H; [exists sb; reflexivity|]. inversion L as [|x y L1 L2]; subst.
    assert (ST : exists sb1, brun1 takes bs sb op = Ret (sb1, snd (bspec takes bs l op)) /\ Q sb1 (fst (bspec takes bs l op))).
    { destruct op; cbn [brun1 legal] in *.
      - destruct (put_last_ok takes sb l m H L1) as (sb1 & f & -> & H1 & E). exists sb1. cbn [bspec] in *. split; [rewrite E; reflexivity|exact H1].
      - destruct (append_addr_ok sb l m H L1) as (sb1 & f & -> & H1 & E). exists sb1. cbn [bspec] in *. split; [rewrite E; reflexivity|exact H1].
      - exists sb. rewrite (get_first_ok _ _ H). split; [reflexivity|exact H].
      - exists sb. assert (LN := q_len _ _ H). rewrite (copy_out_ok sb l off len FUEL H); [split; [reflexivity|exact H]|unfold FUEL; lia|lia|lia].
      - assert (LN := q_len _ _ H). destruct (sbdrop_ok l sb n FUEL H) as (sb1 & fr & -> & H1); [unfold FUEL; lia|]. exists sb1. split; [reflexivity|exact H1].
      - exists (fst (sbdroprecord sb)). split; [reflexivity|]. exact (sbdroprecord_ok _ _ H).
      - exists sb. rewrite (q_cc _ _ H). split; [reflexivity|exact H].
      - exists sb. rewrite (sbspace_ok _ _ _ H). split; [reflexivity|exact H]. }
    destruct ST as (sb1 & E & H1). cbn [bruns bspecs]. rewrite E. cbn [obind]. destruct (bspec takes bs l op) as [l1 r1]. cbn [fst snd] in *.
    destruct (IH sb1 l1 L2 H1) as (sb2 & E2). rewrite E2. cbn [obind]. destruct (bspecs takes bs l1 ops) as [l2 rs]. exists sb2. reflexivity. }
  apply (G ops sb_empty [] L Q_empty).
Qed.
Print Assumptions sockbuf_is_a_byte_queue.
(* dropping n bytes leaves exactly the rest of the stream *)
Theorem sockbuf_drop_is_a_suffix : forall n l, bytes (drop_bytes n l) = skipn (Z.to_nat n) (bytes l).
Proof. intros n l. apply drop_bytes_stream. Qed.
Example sockbuf_history :
  let p := mkPk 1 [1; 2; 3] in let q := mkPk 2 [4; 5] in
  snd (bspecs (fun _ => false) 100 [] [BPut p; BPut q; BCount; BDrop 4; BFirst; BCopy 0 9; BSpace; BDropRec; BCount]) =
    [BFate Queued; BFate Queued; BRc 5; BNone; BPkt (Some (mkPk 2 [5])); BBytes [5]; BRc 6200; BNone; BRc 0] /\
  Forall legal [BPut p; BPut q; BCount; BDrop 4; BFirst; BCopy 0 9; BSpace; BDropRec; BCount].
Proof. split; [vm_compute; reflexivity|]. repeat constructor; cbn; lia. Qed.

(* flushing frees everything ... *)
Theorem flush_frees_everything : forall sb l, Q sb l -> exists sb', flush FUEL sb = Ret (sb', l) /\ get_first sb' = None.
Proof.
  assert (G : forall l f sb, (length l < f)%nat -> (sb_get sb < 64)%nat -> (length l <= 63)%nat -> sb_put sb = steps (length l) (sb_get sb) -> seg (sb_mb sb) (sb_get sb) l -> exists sb', flush f sb = Ret (sb', l) /\ get_first sb' = None).
  { induction l as [|m l IH]; intros f sb HF HG HL HP HS; (destruct f as [|f]; [lia|]); cbn [flush].
    - cbn [length steps] in HP. rewrite HP, Nat.eqb_refl. eexists. split; [reflexivity|]. unfold get_first. rewrite HP, Nat.eqb_refl. reflexivity.
    - assert (NE : Nat.eqb (sb_get sb) (sb_put sb) = false). { apply Nat.eqb_neq. intros E. rewrite HP in E. apply (steps_inj 0 (length (m :: l)) _ HG) in E; [discriminate|lia|lia]. }
      rewrite NE. cbn [seg length] in *. destruct HS as (S1 & S2). destruct (IH f (mkSb (sb_mb sb) (sb_put sb) (bump (sb_get sb)) (sb_cc sb))) as (sb' & -> & E); cbn [sb_mb sb_put sb_get]; try lia; try assumption; [apply bump_lt, HG|].
      cbn [obind]. exists sb'. rewrite S1. split; [reflexivity|exact E]. }
  intros sb l H. destruct H as [H1 H2 H3 H4 H5 H6]. apply G; try assumption. unfold FUEL. lia.
Qed.
Print Assumptions flush_frees_everything.
(* ... but does not reset the byte count: an empty buffer then claims to hold bytes *)
Theorem flush_resets_the_count_refuted : ~ (forall sb l sb' fr, Q sb l -> flush FUEL sb = Ret (sb', fr) -> sb_cc sb' = 0).
Proof.
  intros X. set (sb := fst (put_last (fun _ => false) sb_empty (mkPk 1 [7]))).
  assert (H : Q sb [mkPk 1 [7]]). { destruct (put_last_ok (fun _ => false) sb_empty [] (mkPk 1 [7]) Q_empty) as (sb' & f & E & H & _); [cbn; lia|]. unfold sb. rewrite E. exact H. }
  destruct (flush_frees_everything sb _ H) as (sb' & E & _). assert (Y := X _ _ _ _ H E). vm_compute in E. inversion E; subst sb'. vm_compute in Y. discriminate.
Qed.
Print Assumptions flush_resets_the_count_refuted.

(* ---------- C48: receiving from a stream ---------- *)
(* For every content of the buffer, whatever arrives (or closes, or fails) in the windows where
   the lock is released, with any out-of-band mark and any flags but MSG_PEEK: the call never
   misbehaves, and when it returns, the bytes handed out followed by the bytes still buffered
   are the bytes buffered before followed by the packets accepted meanwhile, in arrival order. *)
Theorem recv_conserves_the_stream : forall takes env F fuel r l len,
  (forall k, Forall (fun m => Z.of_nat (length (pk_data m)) <= 65535) (v_pkts (env k))) -> f_peek F = false ->
  Q (r_sb r) l -> 0 <= len -> 0 <= r_oob r < 2147483648 ->
  match recv_stream takes env F fuel 0 r len with
  | Diverge => True
  | UB => False
  | Ret q => exists windows l' acc,
      Q (r_sb (q_sock q)) l' /\ sub acc (arrivals env 0 windows) /\
      bytes l ++ bytes acc = q_out q ++ bytes l' /\
      ((forall m, takes m = false) -> (length l + length (arrivals env 0 windows) <= 63)%nat -> acc = arrivals env 0 windows) /\
      Z.of_nat (length (q_out q)) = len - q_resid q /\ 0 <= q_resid q
  end.
Proof.
  intros takes env F fuel r l len SM NP H HL HO. assert (X := recv_ok takes env F SM NP fuel 0 r l len H HL HO).
  destruct (recv_stream takes env F fuel 0 r len) as [q| |]; [|exact X|exact X].
  destruct X as (k & l' & acc & M & X2 & X3 & _). exists k, l', acc. destruct (mv_acc _ _ _ _ _ _ _ _ _ _ M) as (A1 & A2). rewrite Nat.sub_0_r in *.
  split; [exact (mv_Q _ _ _ _ _ _ _ _ _ _ M)|]. split; [exact A1|]. split; [exact (mv_bytes _ _ _ _ _ _ _ _ _ _ M)|]. split; [exact A2|]. split; [lia|exact X3].
Qed.
Print Assumptions recv_conserves_the_stream.
(* Success is short only for a reason: the request is filled, or the read stopped at the
   out-of-band mark (never past it), or everything buffered at the start was handed out; with
   MSG_WAITALL, or with nothing handed out, only end of stream or an error remains. *)
Theorem recv_short_only_for_a_reason : forall takes env F fuel r l len q,
  (forall k, Forall (fun m => Z.of_nat (length (pk_data m)) <= 65535) (v_pkts (env k))) -> f_peek F = false ->
  Q (r_sb r) l -> 0 <= len -> 0 <= r_oob r < 2147483648 ->
  recv_stream takes env F fuel 0 r len = Ret q -> q_err q = 0 ->
  let at_mark := r_oob r <> 0 /\ Z.of_nat (length (q_out q)) = r_oob r in
  (r_oob r <> 0 -> Z.of_nat (length (q_out q)) <= r_oob r) /\
  (q_resid q = 0 \/ at_mark \/ exists t, q_out q = bytes l ++ t) /\
  (f_waitall F = true -> q_resid q = 0 \/ at_mark \/ r_cant (q_sock q) = true \/ r_err (q_sock q) <> 0) /\
  (0 < len -> q_out q = [] -> r_cant (q_sock q) = true).
Proof.
  intros takes env F fuel r l len q SM NP H HL HO E E0. assert (X := recv_ok takes env F SM NP fuel 0 r l len H HL HO). rewrite E in X.
  destruct X as (k & l' & acc & M & X2 & X3 & X4 & X5 & X6 & X7). cbv zeta. auto.
Qed.
Print Assumptions recv_short_only_for_a_reason.
(* With data buffered (no empty packets) and without MSG_WAITALL the call returns data: it
   neither waits nor loops, whatever arrives meanwhile. *)
Theorem recv_with_data_returns : forall takes env F fuel r l len,
  (forall k, Forall (fun m => Z.of_nat (length (pk_data m)) <= 65535) (v_pkts (env k))) -> f_peek F = false -> f_waitall F = false ->
  (forall k, Forall (fun m => pk_data m <> []) (v_pkts (env k))) ->
  Q (r_sb r) l -> l <> [] -> Forall (fun m => pk_data m <> []) l -> 0 < len -> 0 <= r_oob r < 2147483648 -> (Z.to_nat len < fuel)%nat ->
  exists q, recv_stream takes env F fuel 0 r len = Ret q /\ q_err q = 0 /\ q_out q <> [].
Proof.
  intros takes env F fuel r l len SM NP NW SD H NE SL HL HO HF.
  destruct (recv_returns takes env F SM NP SD NW fuel 0 r l len H NE SL HL HO HF) as (q & E & E0 & R). exists q. split; [exact E|]. split; [exact E0|].
  assert (X := recv_ok takes env F SM NP fuel 0 r l len H ltac:(lia) HO). rewrite E in X. destruct X as (k & l' & acc & M & X2 & _). intros Z0. rewrite Z0 in X2. cbn [length] in X2. lia.
Qed.
Print Assumptions recv_with_data_returns.
(* With nothing buffered the answer is determined: a pending error (reported once), end of
   stream, ENOTCONN, or EWOULDBLOCK; nothing is taken. *)
Theorem recv_of_nothing : forall takes env F fuel r len,
  Q (r_sb r) [] -> 0 < len -> f_peek F = false ->
  recv_stream takes env F (S fuel) 0 r len =
    if negb (r_err r =? 0) then Ret (mkRes (r_err r) [] len (mkR (r_sb r) (r_cant r) 0 (r_oob r)))
    else if r_cant r then Ret (mkRes 0 [] len r)
    else if negb (f_conn F) then Ret (mkRes ENOTCONN [] len r)
    else if f_nowait F then Ret (mkRes EWOULDBLOCK [] len r)
    else let r' := others takes r (env 0%nat) in
         if negb (v_wait (env 0%nat) =? 0) then Ret (mkRes (v_wait (env 0%nat)) [] len r') else recv_stream takes env F fuel 1 r' len.
Proof.
  intros takes env F fuel r len H HL NP. cbn [recv_stream]. rewrite (get_first_ok _ _ H), NP. cbn [hd_error]. replace (len =? 0) with false by (symmetry; apply Z.eqb_neq; lia). reflexivity.
Qed.
Print Assumptions recv_of_nothing.

(* a buffer holding the packets l *)
Definition holding (l : list pkt) : sbuf := fold_left (fun sb m => fst (put_last (fun _ => false) sb m)) l sb_empty.
Lemma holding_ok l : (length l <= 63)%nat -> Forall (fun m => Z.of_nat (length (pk_data m)) <= 65535) l -> Q (holding l) l.
Proof.
  unfold holding. assert (G : forall l l0 sb, Q sb l0 -> (length l0 + length l <= 63)%nat -> Forall (fun m => Z.of_nat (length (pk_data m)) <= 65535) l -> Q (fold_left (fun sb m => fst (put_last (fun _ => false) sb m)) l sb) (l0 ++ l)).
  { clear l. induction l as [|m l IH]; intros l0 sb H L F; cbn [fold_left]; [rewrite app_nil_r; exact H|]. inversion F as [|x y F1 F2]; subst. cbn [length] in L.
    destruct (put_last_ok (fun _ => false) sb l0 m H F1) as (sb1 & f & -> & H1 & _). cbn [bspec fst] in H1. unfold ROOM in H1. replace (length l0 <? 63)%nat with true in H1 by (symmetry; apply Nat.ltb_lt; lia). cbn [fst] in *.
    assert (X := IH (l0 ++ [m]) sb1 H1). rewrite <- app_assoc in X. apply X; [rewrite app_length; cbn [length]; lia|exact F2]. }
  intros L F. apply (G l [] sb_empty Q_empty); [cbn [length]; lia|exact F].
Qed.
Definition quiet : nat -> event := fun _ => mkE [] false 0 0.
Definition plain : rflags := mkF false false true true.
Example recv_example :
  let r := mkR (holding [mkPk 1 [1; 2; 3]; mkPk 2 [4; 5; 6]]) false 0 0 in
  let env := fun k => mkE (if Nat.eqb k 0 then [mkPk 3 [7; 8]] else []) false 0 0 in
  exists q, recv_stream (fun _ => false) env plain 9 0 r 5 = Ret q /\ q_out q = [1; 2; 3; 4; 5] /\
            get_first (r_sb (q_sock q)) = Some (mkPk 2 [6]) /\ sb_cc (r_sb (q_sock q)) = 3 /\ Q (r_sb r) [mkPk 1 [1; 2; 3]; mkPk 2 [4; 5; 6]].
Proof. cbv zeta. eexists. split; [vm_compute; reflexivity|]. split; [reflexivity|]. split; [reflexivity|]. split; [reflexivity|]. apply holding_ok; [cbn; lia|repeat constructor; cbn; lia]. Qed.

(* MSG_PEEK for more than the first packet repeats it instead of showing the stream *)
Theorem recv_peek_shows_the_stream_refuted :
  ~ (forall r l len q, Q (r_sb r) l -> 0 <= len -> recv_stream (fun _ => false) quiet (mkF true false true true) 99 0 r len = Ret q ->
       q_out q = firstn (length (q_out q)) (bytes l)).
Proof.
  intros X. set (l := [mkPk 1 [1; 2]; mkPk 2 [3; 4]]). assert (H : Q (holding l) l) by (apply holding_ok; [cbn; lia|repeat constructor; cbn; lia]).
  assert (Y := fun q => X (mkR (holding l) false 0 0) l 4 q H ltac:(lia)). clear X.
  assert (E : exists q, recv_stream (fun _ => false) quiet (mkF true false true true) 99 0 (mkR (holding l) false 0 0) 4 = Ret q /\ q_out q = [1; 2; 1; 2]) by (eexists; split; [vm_compute; reflexivity|reflexivity]).
  destruct E as (q & E & O). specialize (Y q E). rewrite O in Y. cbn in Y. discriminate.
Qed.
Print Assumptions recv_peek_shows_the_stream_refuted.
(* and never returns if the first packet is empty (as after a FIN without data) *)
Theorem recv_peek_returns_refuted : forall fuel, recv_stream (fun _ => false) quiet (mkF true false true true) fuel 0 (mkR (holding [mkPk 1 []; mkPk 2 [5]]) false 0 0) 1 = Diverge.
Proof.
  set (r := mkR (holding [mkPk 1 []; mkPk 2 [5]]) false 0 0).
  assert (G : forall f k, rloop (fun _ => false) quiet (mkF true false true true) f k r (Some (mkPk 1 [])) 0 0 1 [] = Diverge).
  { induction f as [|f IH]; intros k; [reflexivity|].
    change (obind (waitall (fun _ => false) quiet (mkF true false true true) (S f) (S k) r (Some (mkPk 1 [])) 1) (fun '(k, err, r, m) =>
      if negb (err =? 0) then Ret (LFail k err r 1 []) else rloop (fun _ => false) quiet (mkF true false true true) f k r m 0 0 1 []) = Diverge).
    cbn [waitall f_waitall andb obind Z.eqb negb]. apply IH. }
  intros fuel. destruct fuel as [|f]; [reflexivity|]. cbn [recv_stream]. change (get_first (r_sb r)) with (Some (mkPk 1 [])). cbv iota beta. rewrite G. reflexivity.
Qed.
Print Assumptions recv_peek_returns_refuted.
(* MSG_WAITALL: when the wait times out, bytes already taken off the stream are not reported *)
Theorem recvfrom_error_takes_nothing_refuted :
  ~ (forall takes env F fuel r l len e r', Q (r_sb r) l -> f_peek F = false -> recvfrom takes env F fuel r len = Ret (None, e, r') -> exists t, Q (r_sb r') (l ++ t)).
Proof.
  intros X. set (l := [mkPk 1 [1; 2]]). assert (H : Q (holding l) l) by (apply holding_ok; [cbn; lia|repeat constructor; cbn; lia]).
  set (env := fun _ : nat => mkE [] false 0 EWOULDBLOCK). set (F := mkF false true false true). set (r := mkR (holding l) false 0 0).
  assert (E : exists r', recvfrom (fun _ => false) env F 9 r 4 = Ret (None, EWOULDBLOCK, r') /\ get_first (r_sb r') = None) by (eexists; split; [vm_compute; reflexivity|reflexivity]).
  destruct E as (r' & E & G). destruct (X (fun _ => false) env F 9%nat r l 4 EWOULDBLOCK r' H eq_refl E) as (t & Y). rewrite (get_first_ok _ _ Y) in G. discriminate.
Qed.
Print Assumptions recvfrom_error_takes_nothing_refuted.
(* ofp_sblock with SBL_WAIT takes no lock (ofp_uipc_sockbuf.c:419-428), so two readers can both
   look at the first packet before either of them removes it. A reader is the two locked
   sections around its copy. *)
Definition reader_begin (r : rsock) : option pkt := get_first (r_sb r).
Definition reader_end (r : rsock) (m : pkt) : rsock := fst (fst (consume plain r m 0 (plen m))).
Theorem two_readers_share_the_stream_refuted :
  ~ (forall r l m1 m2, Q (r_sb r) l -> reader_begin r = Some m1 -> reader_begin r = Some m2 ->
       exists l', Q (r_sb (reader_end (reader_end r m1) m2)) l' /\
         (pk_data m1 ++ pk_data m2 ++ bytes l' = bytes l \/ pk_data m2 ++ pk_data m1 ++ bytes l' = bytes l)).
Proof.
  intros X. set (l := [mkPk 1 [1]; mkPk 2 [2]]). assert (H : Q (holding l) l) by (apply holding_ok; [cbn; lia|repeat constructor; cbn; lia]).
  set (r := mkR (holding l) false 0 0). destruct (X r l (mkPk 1 [1]) (mkPk 1 [1]) H eq_refl eq_refl) as (l' & Y & [Z1|Z1]); cbn in Z1; discriminate.
Qed.
Print Assumptions two_readers_share_the_stream_refuted.

(* ---------- C49: datagrams ---------- *)
(* For every history of arrivals and (non-blocking) receives of well-formed datagrams, receives
   return exactly the datagrams queued, one per call, in order, cut to the caller's buffer. *)
Theorem datagrams_come_out_in_order : forall body ulen ops,
  (forall m, 8 <= ulen m <= 65535 /\ ulen m - 8 <= Z.of_nat (length (body m))) ->
  Forall (fun op => match op with DArrive m => Z.of_nat (length (pk_data m)) <= 65535 | DRecv room => 0 < room end) ops ->
  druns body ulen (mkR sb_empty false 0 0) ops = Ret (dspec (fun m => firstn (Z.to_nat (ulen m - 8)) (body m)) [] ops).
Proof.
  intros body ulen ops W. assert (G : forall ops sb l, Q sb l -> Forall (fun op => match op with DArrive m => Z.of_nat (length (pk_data m)) <= 65535 | DRecv room => 0 < room end) ops ->
     druns body ulen (mkR sb false 0 0) ops = Ret (dspec (fun m => firstn (Z.to_nat (ulen m - 8)) (body m)) l ops)).
  { clear ops. induction ops as [|op ops IH]; intros sb l H F; [reflexivity|]. inversion F as [|x y F1 F2]; subst. destruct op as [m|room]; cbn [druns dspec r_sb].
    - destruct (append_addr_ok sb l m H F1) as (sb1 & z & -> & H1 & E). cbn [bspec r_cant r_err r_oob] in *. unfold ROOM in *.
      destruct (length l <? 63)%nat; cbn [fst snd] in *; inversion E; subst z; rewrite (IH _ _ H1 F2); reflexivity.
    - unfold recv_dgram. cbn [r_sb r_err r_cant r_oob]. rewrite (get_first_ok _ _ H). destruct l as [|m l]; cbn [hd_error].
      + cbn [Z.eqb negb orb]. replace (room =? 0) with false by (symmetry; apply Z.eqb_neq; lia). cbn [obind]. rewrite (IH _ _ H F2). reflexivity.
      + destruct (W m) as (W1 & W2). assert (U : u64 (ulen m - 8) = ulen m - 8) by (unfold u64; apply Z.mod_small; lia). rewrite U.
        set (pay := firstn (Z.to_nat (ulen m - 8)) (body m)). assert (LP : Z.of_nat (length pay) = ulen m - 8) by (unfold pay; rewrite firstn_length; lia). rewrite LP.
        assert (B : (if ulen m - 8 >? room then room else ulen m - 8) <= ulen m - 8) by (destruct (Z.gtb_spec (ulen m - 8) room); lia).
        replace ((if ulen m - 8 >? room then room else ulen m - 8) <=? Z.of_nat (length (body m))) with true by (symmetry; apply Z.leb_le; lia). cbn [obind].
        assert (P := Q_pop _ _ _ H). unfold sbfree. cbn [sb_mb sb_put sb_get sb_cc]. rewrite (IH _ _ P F2). cbn [obind]. f_equal. f_equal. f_equal.
        unfold pay. rewrite firstn_firstn. f_equal. destruct (Z.gtb_spec (ulen m - 8) room); lia. }
  intros F. apply G; [exact Q_empty|exact F].
Qed.
Print Assumptions datagrams_come_out_in_order.
Example datagrams_example :
  druns (fun m => skipn 8 (pk_data m)) (fun m => plen m) (mkR sb_empty false 0 0)
    [DArrive (mkPk 1 [0;0;0;0;0;0;0;0;1;2;3]); DArrive (mkPk 2 [0;0;0;0;0;0;0;0;9]); DRecv 2; DRecv 9; DRecv 9] =
  Ret [DQueued true; DQueued true; DGot [1; 2] true; DGot [9] false; DNothing].
Proof. vm_compute. reflexivity. Qed.
(* a datagram whose UDP length field is below 8 is copied past its end (the length wraps) *)
Theorem datagram_length_is_trusted_refuted : ~ (forall body ulen r l room, Q (r_sb r) l -> (forall m, 0 <= ulen m <= Z.of_nat (length (body m)) + 8) -> recv_dgram true body ulen r room <> UB).
Proof.
  intros X. set (l := [mkPk 1 [0;0;0;0;0;0;0;0;1]]). assert (H : Q (holding l) l) by (apply holding_ok; [cbn; lia|repeat constructor; cbn; lia]).
  refine (X (fun m => skipn 8 (pk_data m)) (fun _ => 4) (mkR (holding l) false 0 0) l 100 H _ _); [intros m; lia|]. vm_compute. reflexivity.
Qed.
Print Assumptions datagram_length_is_trusted_refuted.

(* ---------- C50: sending on a stream ---------- *)
(* One sender, no MSG_OOB, no event callback, and a protocol that reports an error only for a
   packet it did not queue: whatever is acknowledged meanwhile, whichever allocations fail, the
   bytes counted as sent are exactly the bytes queued, the first ones of the caller's buffer, in
   order, after everything queued before; nothing is dropped for want of a slot. *)
Theorem send_counts_what_it_queues : forall bs lowat takes env nowait fuel sb l buf,
  0 < bs <= 65535 -> 0 < lowat -> (forall m, takes m = false) ->
  (forall k, w_err (env k) <> 0 -> w_queue (env k) = false) -> (forall k, w_err (env k) = 0 -> w_queue (env k) = true) ->
  Q sb l ->
  match sendto bs lowat takes env nowait false fuel sb buf with
  | Diverge => True
  | UB => False
  | Ret (ret, s) => exists n l' acked,
      s_queued s = firstn n buf /\ (n <= length buf)%nat /\ s_lost s = [] /\
      Q (s_sb s) l' /\ bytes l' = skipn acked (bytes l ++ firstn n buf) /\
      (ret = Some (Z.of_nat n) \/ (ret = None /\ n = 0%nat /\ s_err s <> 0)) /\
      (s_err s = 0 -> n = length buf)
  end.
Proof.
  intros bs lowat takes env nowait fuel sb l buf BS LW NT ER OK H. unfold sendto.
  assert (ST : sent buf l sb l 0 []). { split; [exact H|]. split; [lia|]. split; [reflexivity|]. exists 0%nat. rewrite app_nil_r. reflexivity. }
  assert (X := send_outer_ok bs lowat takes env nowait BS LW NT ER OK buf l fuel 0 sb l 0 [] ST). rewrite Z.sub_0_r in X. change (skipn (Z.to_nat 0) buf) with buf in X.
  destruct (send_outer bs lowat takes env nowait false fuel 0 sb buf (Z.of_nat (length buf)) [] []) as [s| |]; [|exact X|exact X]. cbn [obind].
  destruct X as (X0 & l' & n & (Y1 & Y2 & Y3 & d & Y4) & X2 & X3 & X4). exists (Z.to_nat n), l', d. rewrite X3. replace (Z.of_nat (length buf) - (Z.of_nat (length buf) - n)) with n by lia.
  split; [exact Y3|]. split; [lia|]. split; [exact X0|]. split; [exact Y1|]. split; [rewrite <- Y3; exact Y4|]. split; [|intros E; specialize (X4 E); lia].
  destruct (Z.eqb_spec (Z.of_nat (length buf)) (Z.of_nat (length buf) - n)) as [E|E].
  - destruct (Z.eqb_spec (s_err s) 0) as [E0|E0]; cbn [negb].
    + left. f_equal. lia.
    + right. split; [reflexivity|]. split; [lia|exact E0].
  - cbn [Z.eqb negb]. left. f_equal. lia.
Qed.
Print Assumptions send_counts_what_it_queues.
Definition fine : nat -> sevent := fun _ => mkSE 0 true true 0 0 false.
Example send_example : exists s, sendto 2 1 (fun _ => false) fine true false 20 (holding [mkPk 9 [8]]) [1; 2; 3; 4; 5] = Ret (Some 5, s) /\ s_queued s = [1; 2; 3; 4; 5] /\
  copy_out FUEL (s_sb s) 0 100 = Ret [8; 1; 2; 3; 4; 5].
Proof. eexists. split; [vm_compute; reflexivity|]. split; vm_compute; reflexivity. Qed.

Definition full : list pkt := repeat (mkPk 1 [7]) 63.
Lemma full_ok : Q (holding full) full.
Proof. apply holding_ok; [vm_compute; lia|]. apply Forall_forall. intros m Hm. apply repeat_spec in Hm. subst m. cbn. lia. Qed.
(* MSG_OOB adds 1024 bytes of room to a buffer without a free slot: the bytes are counted and dropped *)
Theorem send_oob_counts_what_it_queues_refuted :
  ~ (forall bs lowat env nowait fuel sb l buf ret s, 0 < bs -> 0 < lowat -> (forall k, env k = mkSE 0 true true 0 0 false) -> Q sb l ->
       sendto bs lowat (fun _ => false) env nowait true fuel sb buf = Ret (ret, s) -> s_lost s = []).
Proof.
  intros X. assert (E : exists s, sendto 2048 1 (fun _ => false) fine true true 3 (holding full) [1; 2; 3] = Ret (Some 3, s) /\ s_lost s = [1; 2; 3] /\ s_queued s = []) by (eexists; split; [vm_compute; reflexivity|split; reflexivity]).
  destruct E as (s & E & L & _). assert (Y := X 2048 1 fine true 3%nat (holding full) full [1; 2; 3] (Some 3) s ltac:(lia) ltac:(lia) (fun k => eq_refl) full_ok E). rewrite L in Y. discriminate.
Qed.
Print Assumptions send_oob_counts_what_it_queues_refuted.
(* tcp_usr_send queues the packet before it calls tcp_output, and returns tcp_output's error:
   the call then returns -1 although the bytes are queued and will be sent *)
Theorem send_error_means_nothing_queued_refuted :
  ~ (forall bs lowat env fuel sb l buf s, 0 < bs -> 0 < lowat -> (forall k, w_queue (env k) = true) -> Q sb l ->
       sendto bs lowat (fun _ => false) env true false fuel sb buf = Ret (None, s) -> s_queued s = []).
Proof.
  intros X. set (env := fun _ : nat => mkSE 0 true true ENOBUFS 0 false).
  assert (E : exists s, sendto 2048 1 (fun _ => false) env true false 3 sb_empty [1; 2; 3] = Ret (None, s) /\ s_queued s = [1; 2; 3]) by (eexists; split; [vm_compute; reflexivity|reflexivity]).
  destruct E as (s & E & L). assert (Y := X 2048 1 env 3%nat sb_empty [] [1; 2; 3] s ltac:(lia) ltac:(lia) (fun k => eq_refl) Q_empty E). rewrite L in Y. discriminate.
Qed.
Print Assumptions send_error_means_nothing_queued_refuted.
(* ofp_socket_sigevent (ofp_syscalls.c:512-513) gives the send buffer the receive callback: a
   callback that accepts what it is given takes packets being sent, which are counted as sent *)
Theorem send_with_callback_queues_refuted :
  ~ (forall takes fuel sb l buf ret s, Q sb l -> sendto 2048 1 takes fine true false fuel sb buf = Ret (Some ret, s) -> s_queued s = firstn (Z.to_nat ret) buf).
Proof.
  intros X. assert (E : exists s, sendto 2048 1 (fun _ => true) fine true false 3 sb_empty [1; 2; 3] = Ret (Some 3, s) /\ s_queued s = []) by (eexists; split; [vm_compute; reflexivity|reflexivity]).
  destruct E as (s & E & L). assert (Y := X (fun _ => true) 3%nat sb_empty [] [1; 2; 3] 3 s Q_empty E). rewrite L in Y. discriminate.
Qed.
Print Assumptions send_with_callback_queues_refuted.
