(* Both ends of one direction of a connection: what one end's ofp_tcp_output makes out of what its user writes, carried by a
   network that may lose, reorder, repeat and delay segments, arrives at the other end's ofp_tcp_do_segment. *)
From Verif Require Import Base TcpSeqModel TcpSeqProps TcpOptModel TcpReassModel TcpReassSpec TcpInModel TcpInSpec TcpInProps SockModel SockSpec SackModel SackSpec SackProof SackProof2 TcpOutModel TcpOutSpec TcpOutProof TcpOutProof2 TcpOutProof3 TcpOutProof4 TcpOutProof5 TcpOutProof6.
Ltac Zify.zify_post_hook ::= idtac.

(* Where a segment lies in the user's bytes: the position its sequence number stands for *)
Definition placed (b : Z) (w : list Z) (U : Z) (p : Z) (q : oseg * pres) : Prop := U <= p <= zlen w + 1 /\ q_seq (fst q) = wire (b + p).
(* w: all the sending user has written; cl: he has closed; sent: segments made so far, with their positions; t: the receiving
   control block, N: what it expects next, d: what its user has got, eof: he has seen the end of the stream.
   A delivered segment may have any acknowledgement, window and options; it is not older or newer than half the sequence space
   and a FIN lies in the receive window (see C70). *)
Inductive net (out : tcp -> tcp) (b : Z) : list Z -> bool -> list (Z * oseg) -> tcp -> Z -> list Z -> bool -> Prop :=
| n_start t : synchronized t -> rnxt t = wire b -> tsegq t = [] -> tsegqlen t = 0 -> net out b [] false [] t b [] false
| n_write w sent t N d eof x : net out b w false sent t N d eof -> net out b (w ++ x) false sent t N d eof
| n_close w sent t N d eof : net out b w false sent t N d eof -> net out b w true sent t N d eof
| n_output w cl sent t N d eof U s v fuel s' l ps : net out b w cl sent t N d eof ->
    hist b w cl U s -> calm s -> env_ok v s -> output fuel v s = Ret (s', l) -> Forall2 (placed b w U) ps l ->
    net out b w cl (sent ++ combine ps (map fst l)) t N d eof
| n_deliver w cl sent t N d eof p q e g t' r : net out b w cl sent t N d eof -> In (p, q) sent -> synchronized t ->
    g_seq g = q_seq q -> g_data g = q_data q -> g_ffin g = q_fin q -> g_fsyn g = q_syn q -> (g_furg g = false \/ oobinline t = true) ->
    N - 2147483648 < b + p - 1 -> b + p + zlen (q_data q) + 1 < N + 2147483648 -> (q_fin q = true -> b + p + zlen (q_data q) <= N + window e t) ->
    0 < e_maxseg e /\ 0 <= e_hiwat e /\ e_space e < 2147483648 -> wf g t ->
    do_segment e out g t = Ret (t', r) ->
    net out b w cl sent t' (N + Z.of_nat (length (ev_bytes r)) + (if v_eof r then 1 else 0)) (d ++ ev_bytes r) (eof || v_eof r)
| n_other w cl sent t N d eof t1 : net out b w cl sent t N d eof -> synchronized t -> synchronized t1 -> rview t1 = rview t -> net out b w cl sent t1 N d eof.

(* what the segments sent are: parts of what the user had written then, and so of whatever he writes in all *)
Definition from (b : Z) (w : list Z) (cl : bool) (pq : Z * oseg) : Prop :=
  let '(p, q) := pq in let n := zlen (q_data q) in
  0 <= p /\ q_seq q = wire (b + p) /\ q_data q = part w p n /\ (0 < n -> p + n <= zlen w) /\ (q_fin q = true -> cl = true /\ p + n = zlen w) /\ q_syn q = false.
Lemma part_app w x p n : 0 <= p -> p + n <= zlen w -> part (w ++ x) p n = part w p n.
Proof.
  intros H0 H. unfold part. rewrite skipn_app, firstn_app. assert (Z.to_nat n - length (skipn (Z.to_nat p) w) = 0)%nat as ->; [|cbn [firstn]; apply app_nil_r].
  rewrite skipn_length. unfold zlen in H. lia.
Qed.
Lemma from_write b w x pq : from b w false pq -> from b (w ++ x) false pq.
Proof.
  destruct pq as [p q]. unfold from. cbv zeta. intros (H1 & H2 & H3 & H4 & H5 & H6). assert (zlen w <= zlen (w ++ x)) by (unfold zlen; rewrite app_length; lia).
  split; [exact H1|]. split; [exact H2|]. split.
  - destruct (Z.eq_dec (zlen (q_data q)) 0) as [E|E]; [rewrite E; destruct (q_data q); [reflexivity|discriminate]|]. rewrite part_app; [exact H3|exact H1|]. apply H4. pose proof (zlen_nonneg (q_data q)). lia.
  - split; [intros K; specialize (H4 K); lia|]. split; [intros K; destruct (H5 K); discriminate|exact H6].
Qed.
Lemma from_close b w pq : from b w false pq -> from b w true pq.
Proof. destruct pq as [p q]. unfold from. cbv zeta. intuition congruence. Qed.
Lemma from_good b w cl U f v s p q r : hist b w cl U s -> good b w cl U f v s q -> placed b w U p (q, r) -> from b w cl (p, q).
Proof.
  intros Hh (p' & G1 & G2 & G3 & G4 & G5 & G6 & _) [P1 P2]. cbn [fst] in P2. destruct (hist_inv _ _ _ _ _ Hh) as (N & M & l & f' & H). pose proof (inv_range _ _ _ _ _ _ _ _ _ H) as R.
  rewrite G2 in P2. apply wire_inj in P2; [|lia]. assert (p' = p) by lia. subst p'. unfold from. cbv zeta. repeat (split; [assumption || lia|]). assumption.
Qed.
Lemma sent_from out b w cl sent t N d eof : net out b w cl sent t N d eof -> Forall (from b w cl) sent.
Proof.
  induction 1 as [|w sent t N d eof x _ IH|w sent t N d eof _ IH|w cl sent t N d eof U s v fuel s' l ps _ IH Hh Hc Hv Eo Hp| | ]; try assumption; [constructor| | |].
  - eapply Forall_impl; [|exact IH]. intros pq. apply from_write.
  - eapply Forall_impl; [|exact IH]. intros pq. apply from_close.
  - apply Forall_app. split; [exact IH|]. destruct (hist_inv _ _ _ _ _ Hh) as (N0 & M0 & l0 & f & H). pose proof (output_inv _ _ _ _ _ _ _ _ v fuel _ H Hc Hv) as J. rewrite Eo in J. destruct J as (_ & _ & J).
    clear - Hp J Hh. induction Hp as [|p [q r] ps l P _ IH]; [constructor|]. inversion J as [|? ? [_ J1] J2]; subst. cbn [map combine fst] in *. constructor; [apply (from_good _ _ _ _ _ _ _ _ _ r Hh J1 P)|exact (IH J2)].
Qed.
(* the stream of a receiver *)
(* x: what would follow if there were more *)
Definition as_stream (x b : Z) (w : list Z) (i : Z) : Z := nth (Z.to_nat (i - b)) w x.
Lemma nth_first x (l : list Z) : forall n i, (i < n)%nat -> nth i (firstn n l) x = nth i l x.
Proof. induction l as [|a l IH]; intros [|n] [|i] H; try lia; try reflexivity. cbn [firstn nth]. apply IH. lia. Qed.
Lemma nth_skip x (l : list Z) i : forall k, nth i (skipn k l) x = nth (k + i) l x.
Proof. intros k. revert l. induction k as [|k IH]; intros l; [reflexivity|]. destruct l as [|a l]; [cbn; destruct i; reflexivity|]. cbn [skipn plus nth]. apply IH. Qed.
Lemma part_stream x b w p n : 0 <= p -> 0 <= n -> p + n <= zlen w -> part w p n = stream_from (as_stream x b w) (b + p) n.
Proof.
  intros Hp Hn Hw. unfold zlen in Hw. apply (nth_ext _ _ x x); [unfold part, stream_from; rewrite firstn_length, skipn_length, map_length, seq_length; lia|].
  intros i Hi. unfold part in *. rewrite firstn_length, skipn_length in Hi. unfold stream_from. erewrite nth_indep with (l := map _ _); [|rewrite map_length, seq_length; lia]. rewrite (map_nth (fun i => as_stream x b w (b + p + Z.of_nat i)) _ 0%nat). rewrite seq_nth by lia. cbn [plus]. unfold as_stream.
  replace (Z.to_nat (b + p + Z.of_nat i - b)) with (Z.to_nat p + i)%nat by lia.
  rewrite nth_first by lia. apply nth_skip.
Qed.
Lemma seqno_wire x : seqno x = wire x.
Proof. reflexivity. Qed.
(* the receiver's side is a session (C70) with any stream the user may still come to write *)
Lemma net_session out b w cl sent t N d eof : net out b w cl sent t N d eof ->
  forall z wf, (exists x, wf = w ++ x) -> (cl = true -> wf = w) -> session out (as_stream z b wf) b (b + zlen wf) t N d eof.
Proof.
  induction 1 as [t S1 S2 S3 S4|w sent t N d eof x _ IH|w sent t N d eof _ IH|w cl sent t N d eof U s v fuel s' l ps _ IH _ _ _ _ _|w cl sent t N d eof p q e g t' r H IH Hi Hs E1 E2 E3 E4 Hu L1 L2 L3 He Hw Ed|w cl sent t N d eof t1 _ IH S1 S2 V]; intros z wf (y & Ef) Hc.
  - apply ses_start; assumption.
  - apply IH; [|discriminate]. exists (x ++ y). rewrite Ef, app_assoc. reflexivity.
  - apply IH; [exists y; exact Ef|discriminate].
  - apply IH; [exists y; exact Ef|exact Hc].
  - pose proof (sent_from _ _ _ _ _ _ _ _ _ H) as Fs. rewrite Forall_forall in Fs. specialize (Fs _ Hi). cbn [from] in Fs. destruct Fs as (F1 & F2 & F3 & F4 & F5 & F6).
    assert (Lw : zlen w <= zlen wf) by (rewrite Ef; unfold zlen; rewrite app_length; lia). pose proof (zlen_nonneg (q_data q)) as Lq.
    eapply ses_seg with (A := b + p); [apply IH; [exists y; exact Ef|exact Hc]|exact Hs| |exact Ed]. constructor; rewrite ?E1, ?E2, ?E3, ?E4, ?F6; try assumption.
    + rewrite F2, Z.sub_0_r. reflexivity.
    + fold (zlen (q_data q)). destruct (Z.eq_dec (zlen (q_data q)) 0) as [Z0|Z0]; [rewrite Z0; destruct (q_data q); [reflexivity|discriminate]|].
      rewrite <- part_stream by (try lia; specialize (F4 ltac:(lia)); lia). rewrite Ef, part_app by (try apply F4; lia). exact F3.
    + intros K. fold (zlen (q_data q)). destruct (Z.eq_dec (zlen (q_data q)) 0) as [Z0|Z0]; [destruct (q_data q); [congruence|discriminate]|]. specialize (F4 ltac:(lia)). lia.
    + intros K. destruct (F5 K) as [C F]. specialize (Hc C). subst wf. rewrite Hc. fold (zlen (q_data q)). split; [lia|]. specialize (L3 K). lia.
  - eapply ses_other; [apply IH; [exists y; exact Ef|exact Hc]|exact S1|exact S2|exact V].
Qed.
Lemma stream_whole x b w : stream_from (as_stream x b w) b (zlen w) = w.
Proof.
  rewrite <- (Z.add_0_r b) at 2. rewrite <- part_stream by (try lia; apply zlen_nonneg). unfold part, zlen. rewrite Nat2Z.id. cbn [Z.to_nat skipn]. apply firstn_all.
Qed.
(* no more than there is *)
Lemma stream_end b w k : stream_from (as_stream 0 b w) b k = stream_from (as_stream 1 b w) b k -> k <= zlen w.
Proof.
  intros E. destruct (Z.le_gt_cases k (zlen w)) as [L|L]; [exact L|]. exfalso. apply (f_equal (fun l => nth (length w) l 7)) in E. unfold zlen in L.
  assert (S : forall x, nth (length w) (stream_from (as_stream x b w) b k) 7 = x); [|rewrite !S in E; discriminate].
  intros x. unfold stream_from. rewrite (nth_indep _ 7 ((fun i => as_stream x b w (b + Z.of_nat i)) 0%nat)) by (rewrite map_length, seq_length; lia). rewrite (map_nth (fun i => as_stream x b w (b + Z.of_nat i)) _ 0%nat), seq_nth by lia.
  unfold as_stream. apply nth_overflow. lia.
Qed.
