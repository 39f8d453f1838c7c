(* C24-C26, C43, C44: TCP segment reassembly (src/ofp_tcp_reass.c). *)
From Coq Require Import Permutation.
From Verif Require Import Base TcpSeqModel TcpReassModel TcpReassSpec TcpReassProof TcpReassRun.
Ltac Zify.zify_post_hook ::= idtac.

(* ---------- C24 ---------- *)
(* All segments carry bytes of one stream f, in any order, duplicated, cut and
   overlapping in any way: what is handed over is f from the start to the
   current rcv_nxt. *)
Theorem tcp_reass_stream :
  forall f n0 est0 acc drp st N es,
  conn (fun x b => b = f x) n0 est0 acc drp st N es ->
  n0 <= N /\ delivered es = stream_from f n0 (N - n0) /\ rcv_nxt st = seqno N.
Proof.
  intros f n0 est0 acc drp st N es C. destruct (conn_inv _ _ _ _ _ _ _ _ C) as (I1 & I2 & I3 & _).
  split; [lia|]. split; [|exact (iv_nxt _ _ _ _ I1)].
  rewrite (at_pos_stream f n0 _ I3) at 1. f_equal. lia.
Qed.

(* Segments that contradict one another: still exactly N - n0 bytes, each a
   byte received for its position. *)
Theorem tcp_reass_bytes :
  forall B n0 est0 acc drp st N es,
  conn B n0 est0 acc drp st N es ->
  Z.of_nat (length (delivered es)) = N - n0 /\ at_pos B n0 (delivered es).
Proof.
  intros B n0 est0 acc drp st N es C. destruct (conn_inv _ _ _ _ _ _ _ _ C) as (I1 & I2 & I3 & _).
  split; [lia|exact I3].
Qed.

(* the call always returns *)
Theorem tcp_reass_total :
  forall hw ms al cr st g, ms <> 0 -> exists st' e, tcp_data hw ms al cr st g = Ret (st', e).
Proof.
  assert (P : forall hw ms al cr st g, ms <> 0 -> exists st' e, tcp_reass hw ms al cr st (Some g) = Ret (st', e)).
  { intros hw ms al cr st g H. unfold tcp_reass. destruct (Z.eqb_spec ms 0); [lia|].
    destruct (_ && _); [eauto|]. destruct (_ && _); [eauto|].
    destruct (split_at _ _) as [pre post]. destruct (_ && _).
    - destruct (present _ _ _ _ _ _). eauto.
    - destruct (trim_succ _ _) as [[? ?] ?]. destruct (present _ _ _ _ _ _). eauto. }
  intros hw ms al cr st g H. unfold tcp_data. destruct (segq st); [destruct (_ && _)|]; eauto.
Qed.

(* a packet longer than its segment (link-layer padding of a short frame, which
   is not removed on input): the padding reaches the reader *)
Theorem tcp_reass_padding_refuted :
  exists f g1 g2 st1 st2 e1 e2,
    i_seq g1 = 100 /\ i_len g1 = 2 /\ (forall i b, (i < 2)%nat -> nth_error (i_data g1) i = Some b -> b = f (100 + Z.of_nat i)) /\
    i_seq g2 = 102 /\ i_len g2 = 2 /\ at_pos (fun x b => b = f x) 102 (i_data g2) /\
    tcp_data 65536 1460 true false (tcb_init 100 true) g1 = Ret (st1, e1) /\
    tcp_data 65536 1460 true false st1 g2 = Ret (st2, e2) /\
    rcv_nxt st2 = 104 /\ delivered [e1; e2] <> stream_from f 100 4.
Proof.
  exists (fun x => x - 99), (mkIn 1 100 2 false [1; 2; 0; 0]), (mkIn 2 102 2 false [3; 4]).
  do 4 eexists. cbn [i_seq i_len i_data].
  split; [reflexivity|]. split; [reflexivity|]. split.
  { intros [|[|i]] b H E; [injection E as <-; reflexivity|injection E as <-; reflexivity|lia]. }
  split; [reflexivity|]. split; [reflexivity|]. split.
  { intros [|[|[|i]]] b E; try discriminate; injection E as <-; reflexivity. }
  split; [reflexivity|]. split; [reflexivity|]. split; [reflexivity|]. vm_compute. discriminate.
Qed.

(* ---------- C25 ---------- *)
Theorem tcp_reass_queue_sorted :
  forall B n0 est0 acc drp st N es,
  conn B n0 est0 acc drp st N es ->
  ranges N (N + 2147483647) (segq st) /\ segqlen st = Z.of_nat (length (segq st)).
Proof.
  intros B n0 est0 acc drp st N es C. destruct (conn_inv _ _ _ _ _ _ _ _ C) as (I1 & _).
  split; [exact (inv_ranges _ _ _ _ I1)|exact (iv_len _ _ _ _ I1)].
Qed.

(* The queue grows only below the limit hiwat / maxseg + 1 *)
Theorem tcp_reass_queue_bounded :
  forall B n0 est0 acc drp st N es A g hw ms al cr st' e,
  conn B n0 est0 acc drp st N es -> acceptable N A g -> at_pos B A (i_data g) -> 0 < ms -> 0 <= hw ->
  tcp_data hw ms al cr st g = Ret (st', e) ->
  Z.of_nat (length (segq st')) <= Z.max (Z.of_nat (length (segq st))) (hw / ms + 1).
Proof.
  intros B n0 est0 acc drp st N es A g hw ms al cr st' e C HA HB Hms Hhw HD.
  destruct (conn_inv _ _ _ _ _ _ _ _ C) as (I1 & _).
  destruct (data_step _ _ _ _ _ _ _ _ _ _ _ _ I1 HA HB Hms Hhw HD) as (_ & L & _). exact L.
Qed.

(* every packet is queued, freed or handed over, exactly once *)
Theorem tcp_reass_packets_conserved :
  forall B n0 est0 acc drp st N es,
  conn B n0 est0 acc drp st N es ->
  Permutation (uids_q st ++ concat (map te_freed es) ++ concat (map uids_out es))
              (map (fun x => i_uid (snd x)) acc ++ map i_uid drp).
Proof. intros B n0 est0 acc drp st N es C. destruct (conn_inv _ _ _ _ _ _ _ _ C) as (_ & _ & _ & I4 & _). exact I4. Qed.

(* ---------- C44 ---------- *)
(* Queue entries allocated minus entries given back is the queue length, and
   no entry in the queue lives on the stack of a call that returned. *)
Theorem tcp_reass_entries_conserved :
  forall B n0 est0 acc drp st N es,
  conn B n0 est0 acc drp st N es ->
  zsum (map te_alloc es) - zsum (map te_zfree es) = Z.of_nat (length (segq st)) /\
  Forall (fun q => s_stack q = false) (segq st).
Proof.
  intros B n0 est0 acc drp st N es C. destruct (conn_inv _ _ _ _ _ _ _ _ C) as (I1 & _ & _ & _ & I5).
  split; [exact I5|exact (stack_free _ _ _ _ I1)].
Qed.

(* ---------- C43 ---------- *)
(* After an accepted segment on an established connection rcv_nxt is the first
   position that no accepted segment contains. *)
Theorem tcp_reass_first_gap :
  forall B n0 est0 acc drp st N es A g hw ms al cr st' e,
  conn B n0 est0 acc drp st N es -> acceptable N A g -> at_pos B A (i_data g) -> 0 < ms -> 0 <= hw ->
  tcp_data hw ms al cr st g = Ret (st', e) -> estab st = true -> te_drop e = false ->
  ~ received_at ((A, g) :: acc) (N + nbytes e).
Proof.
  intros B n0 est0 acc drp st N es A g hw ms al cr st' e C HA HB Hms Hhw HD HE HDr.
  destruct (conn_inv _ _ _ _ _ _ _ _ C) as (I1 & _).
  destruct (data_step _ _ _ _ _ _ _ _ _ _ _ _ I1 HA HB Hms Hhw HD) as ([S1 _ _ _ _ S6 _] & _).
  unfold acc_of in S1. rewrite HDr in S1. exact (settled_gap _ _ _ _ S1 (S6 HE HDr)).
Qed.
(* the same after the call made when the handshake completes *)
Theorem tcp_reass_first_gap_established :
  forall B n0 est0 acc drp st N es cr st' e,
  conn B n0 est0 acc drp st N es -> tstep st (Establish true cr) = Ret (st', e) ->
  ~ received_at acc (N + nbytes e).
Proof.
  intros B n0 est0 acc drp st N es cr st' e C HD.
  destruct (conn_inv _ _ _ _ _ _ _ _ C) as (I1 & _).
  destruct (est_step _ _ _ _ _ _ _ _ I1 HD) as (S1 & _ & _ & _ & _ & S6 & _).
  exact (settled_gap _ _ _ _ S1 (S6 eq_refl)).
Qed.
(* a segment is refused only when the queue is at its limit or there is no
   queue entry, never when it is the next one expected on an established
   connection, and then nothing changes *)
Theorem tcp_reass_drop_only :
  forall B n0 est0 acc drp st N es A g hw ms al cr st' e,
  conn B n0 est0 acc drp st N es -> acceptable N A g -> at_pos B A (i_data g) -> 0 < ms -> 0 <= hw ->
  tcp_data hw ms al cr st g = Ret (st', e) -> te_drop e = true ->
  st' = st /\ (Z.of_nat (length (segq st)) >= hw / ms + 1 \/ al = false) /\ (A <> N \/ estab st = false).
Proof.
  intros B n0 est0 acc drp st N es A g hw ms al cr st' e C HA HB Hms Hhw HD HDr.
  destruct (conn_inv _ _ _ _ _ _ _ _ C) as (I1 & _).
  destruct (data_step _ _ _ _ _ _ _ _ _ _ _ _ I1 HA HB Hms Hhw HD) as (_ & _ & X).
  destruct (X HDr) as (X1 & X2 & X3). rewrite (iv_len _ _ _ _ I1) in X2. split; [exact X1|]. split; [exact X2|].
  destruct X3 as [X3|X3]; [left|auto]. intros ->. apply X3. rewrite (iv_nxt _ _ _ _ I1). destruct HA as (G & _). exact G.
Qed.

(* ---------- C26 ---------- *)
Theorem tcp_reass_flush_empties_partial :
  forall B n0 est0 acc drp st N es,
  conn B n0 est0 acc drp st N es ->
  let '(st', freed, zf) := tcp_reass_flush st in
  segq st' = [] /\ segqlen st' = 0 /\ rcv_nxt st' = rcv_nxt st /\ zf = Z.of_nat (length (segq st)).
Proof.
  intros B n0 est0 acc drp st N es C. destruct (conn_inv _ _ _ _ _ _ _ _ C) as (I1 & _).
  unfold tcp_reass_flush. cbn [segq segqlen rcv_nxt]. rewrite (iv_len _ _ _ _ I1). repeat split. lia.
Qed.
(* an executable way to build connections, for the examples *)
Definition acceptb (f : Z -> Z) (N A : Z) (g : inseg) : bool :=
  (i_seq g =? seqno A) && (N <=? A) && (A + i_len g <? N + 2147483648) && (i_len g =? Z.of_nat (length (i_data g))) &&
  (if list_eq_dec Z.eq_dec (i_data g) (stream_from f A (i_len g)) then true else false).
Fixpoint crun (f : Z -> Z) acc drp st N es (l : list (Z * (bool * inseg))) :=
  match l with
  | [] => Some (acc, drp, st, N, es)
  | (A, (al, g)) :: r =>
    if acceptb f N A g then
      match tcp_data 65536 1460 al false st g with
      | Ret (st', e) => crun f (if te_drop e then acc else (A, g) :: acc) (if te_drop e then g :: drp else drp)
                             st' (N + nbytes e) (es ++ [e]) r
      | _ => None end
    else None
  end.
Lemma crun_conn f n0 est0 : forall l acc drp st N es acc' drp' st' N' es',
  conn (fun x b => b = f x) n0 est0 acc drp st N es ->
  crun f acc drp st N es l = Some (acc', drp', st', N', es') ->
  conn (fun x b => b = f x) n0 est0 acc' drp' st' N' es'.
Proof.
  induction l as [|[A [al g]] l IH]; intros acc drp st N es acc' drp' st' N' es' C E; cbn [crun] in E.
  - injection E as <- <- <- <- <-. exact C.
  - destruct (acceptb f N A g) eqn:EA; [|discriminate].
    destruct (tcp_data 65536 1460 al false st g) as [[st1 e]| |] eqn:ED; try discriminate.
    unfold acceptb in EA. rewrite !andb_true_iff in EA. destruct EA as ((((A1 & A2) & A3) & A4) & A5).
    destruct (list_eq_dec _ _ _) as [A6|]; [|discriminate].
    refine (IH _ _ _ _ _ _ _ _ _ _ (conn_data _ _ _ _ _ _ _ _ A g 65536 1460 al false st1 e C _ _ _ _ ED) E).
    + split; [lia|]. split; [lia|]. split; lia.
    + rewrite A6. intros i b Hb. unfold stream_from in Hb. rewrite nth_error_map in Hb.
      destruct (nth_error (List.seq 0 (Z.to_nat (i_len g))) i) as [k|] eqn:EK; [|discriminate]. cbn in Hb. injection Hb as <-.
      assert (i < length (List.seq 0 (Z.to_nat (i_len g))))%nat by (apply nth_error_Some; congruence).
      pose proof (nth_error_nth _ _ 0%nat EK) as X. rewrite seq_length in H. rewrite seq_nth in X by exact H. subst k. reflexivity.
    + lia.
    + lia.
Qed.

(* missing: the queued packets are not freed *)
Theorem tcp_reass_flush_frees_refuted :
  exists acc st N es, conn (fun x b => b = x) 0 true acc [] st N es /\ uids_q st = [7] /\
  snd (fst (tcp_reass_flush st)) = [] /\ uids_q (fst (fst (tcp_reass_flush st))) = [].
Proof.
  assert (E : crun (fun x => x) [] [] (tcb_init 0 true) 0 [] [(10, (true, mkIn 7 10 2 false [10; 11]))] =
    Some ([(10, mkIn 7 10 2 false [10; 11])], [], mkTcb 0 [mkS 7 10 2 false [10; 11] false] 1 true, 0,
          [mkTE [] [] 1 0 false 2 false])) by reflexivity.
  do 4 eexists. split; [exact (crun_conn _ _ _ _ _ _ _ _ _ _ _ _ _ _ (conn_init _ 0 true) E)|]. repeat split.
Qed.

(* ---------- non-vacuity ---------- *)
(* stream f x = x mod 256 starting just before the wrap: three segments out of
   order, overlapping, one refused *)
Definition seg (u A n : Z) : inseg := mkIn u (seqno A) n false (stream_from (fun x => x mod 256) A n).
Definition W := 4294967290.
Definition tcp_demo := trun (tcb_init W true)
  [Data 65536 1460 true false (seg 1 (W + 8) 6); Data 65536 1460 true false (seg 2 (W + 4) 8);
   Data 65536 1460 false false (seg 3 (W + 20) 4); Data 65536 1460 false false (seg 4 W 5)].
Example tcp_demo_runs :
  match tcp_demo with
  | Ret (st, es) => rcv_nxt st = 8 /\ segq st = [] /\ delivered es = stream_from (fun x => x mod 256) W 14 /\
                    map te_drop es = [false; false; true; false]
  | _ => False end.
Proof. vm_compute. repeat split. Qed.
Example tcp_conn_example : exists acc drp st es,
  conn (fun x b => b = x mod 256) W true acc drp st (W + 14) es /\ length acc = 3%nat /\ length drp = 1%nat.
Proof.
  destruct (crun (fun x => x mod 256) [] [] (tcb_init W true) W []
    [(W + 8, (true, seg 1 (W + 8) 6)); (W + 4, (true, seg 2 (W + 4) 8)); (W + 20, (false, seg 3 (W + 20) 4)); (W, (false, seg 4 W 5))])
    as [[[[[acc drp] st] N] es]|] eqn:E; [|vm_compute in E; discriminate].
  exists acc, drp, st, es.
  pose proof (crun_conn _ _ _ _ _ _ _ _ _ _ _ _ _ _ (conn_init _ W true) E) as C.
  vm_compute in E. injection E as <- <- <- <- <-. split; [exact C|split; reflexivity].
Qed.

Print Assumptions tcp_reass_stream.
Print Assumptions tcp_reass_bytes.
Print Assumptions tcp_reass_total.
Print Assumptions tcp_reass_padding_refuted.
Print Assumptions tcp_reass_queue_sorted.
Print Assumptions tcp_reass_queue_bounded.
Print Assumptions tcp_reass_packets_conserved.
Print Assumptions tcp_reass_entries_conserved.
Print Assumptions tcp_reass_first_gap.
Print Assumptions tcp_reass_first_gap_established.
Print Assumptions tcp_reass_drop_only.
Print Assumptions tcp_reass_flush_empties_partial.
Print Assumptions tcp_reass_flush_frees_refuted.
