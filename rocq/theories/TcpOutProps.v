(* C81-C88: what ofp_tcp_output sends (src/ofp_tcp_output.c). *)
From Verif Require Import Base TcpSeqModel TcpSeqProps TcpOptModel TcpReassModel TcpReassSpec TcpInModel TcpInSpec TcpInProps SockModel SockSpec SackModel SackSpec SackProof SackProof2 TcpOutModel TcpOutSpec TcpOutProof TcpOutProof2 TcpOutProof3 TcpOutProof4 TcpOutProof5 TcpOutProof6 TcpOutProof7 TcpOutProof8 TcpOutProof9 TcpOutNet.
Ltac Zify.zify_post_hook ::= idtac.

(* ---------- C81 ---------- *)
(* Whatever has been written, acknowledged, lost and retransmitted before, whatever fails during the call: every segment made
   carries the user's bytes at the place its sequence number says, a FIN only at their end and only once the user has closed,
   and no read of the send buffer leaves what is in it, nor does any panic of the function strike. *)
Theorem tcp_output_content :
  forall b w cl U s v fuel, hist b w cl U s -> calm s -> env_ok v s ->
  match output fuel v s with UB => False | Diverge => True | Ret (s', l) => Forall (fun q => carries b w cl U (fst q)) l end.
Proof.
  intros b w cl U s v fuel Hh Hc Hv. destruct (hist_inv _ _ _ _ _ Hh) as (N & M & l & f & H). pose proof (output_inv _ _ _ _ _ _ _ _ v fuel _ H Hc Hv) as J.
  destruct (output fuel v s) as [[s' qs]| |]; [|exact J|exact J]. destruct J as (_ & _ & J). eapply Forall_impl; [|exact J]. cbv beta. intros [q r] [_ G]. cbn [fst] in *. destruct G as (p & G1 & G2 & G3 & G4 & G5 & G6 & _).
  exists p. split; [exact G1|]. split; [exact G2|]. split; [|split; [exact G5|exact G6]]. intros Hd. split; [exact G3|]. apply G4. destruct (q_data q); [congruence|]. unfold zlen. cbn [length]. lia.
Qed.
(* The position is the only one for this sequence number. *)
Theorem tcp_output_position_unique :
  forall b w cl U s p p', hist b w cl U s -> U <= p <= zlen w + 1 -> U <= p' <= zlen w + 1 -> wire (b + p) = wire (b + p') -> p = p'.
Proof.
  intros b w cl U s p p' Hh H1 H2 E. destruct (hist_inv _ _ _ _ _ Hh) as (N & M & l & f & H). pose proof (inv_range _ _ _ _ _ _ _ _ _ H) as R. apply wire_inj in E; lia.
Qed.

(* ---------- C82 ---------- *)
(* No byte is sent past the peer's window or the congestion window, except one byte to probe a closed window when sending is
   forced, and during recovery with SACK: up to the peer's window, or what has been sent before. No segment is longer
   than the maximum, options included. *)
Theorem tcp_output_window :
  forall b w cl U s v fuel s' l q r p, hist b w cl U s -> calm s -> env_ok v s -> output fuel v s = Ret (s', l) -> In (q, r) l ->
  U <= p <= zlen w + 1 -> q_seq q = wire (b + p) -> let n := zlen (q_data q) in
  n + zlen (q_opts q) + w_ipopt v <= maxopd (ox s) /\
  (0 < n -> p + n <= U + swin s \/
     (force (ox s) = true /\ swin s = 0 /\ n = 1 /\ p = U) \/
     (sackp (tp s) = true /\ frec (tp s) = true /\ p + n <= U + Z.max (snd_wnd (tp s)) (u32 (snd_max (tp s) - snd_una (tp s))))).
Proof.
  intros b w cl U s v fuel s' qs q r p Hh Hc Hv E Hq Hp Eq n. destruct (hist_inv _ _ _ _ _ Hh) as (N & M & l & f & H). pose proof (output_inv _ _ _ _ _ _ _ _ v fuel _ H Hc Hv) as J. rewrite E in J. destruct J as (_ & _ & J).
  rewrite Forall_forall in J. destruct (J _ Hq) as [_ G]. cbn [fst] in G. destruct G as (p' & G1 & G2 & G3 & G4 & G5 & G6 & G7 & G8). rewrite Eq in G2. apply (tcp_output_position_unique b w cl U s) in G2; [|exact Hh|exact Hp|exact G1]. subst p'. fold n in G7, G8.
  split; [exact G7|]. intros Hn. destruct (G8 Hn) as [K|[K|[K1 K2]]]; [left; exact K|right; left; exact K|right; right]. apply andb_prop in K1. destruct K1 as [K0 K1]. split; [exact K0|]. split; [exact K1|].
  pose proof (inv_range _ _ _ _ _ _ _ _ _ H) as R. pose proof (a_f _ _ _ _ _ _ (i_a _ _ _ _ _ _ _ _ _ H)) as Lf. rewrite (i_m _ _ _ _ _ _ _ _ _ H), (i_u _ _ _ _ _ _ _ _ _ H), wire_sub. unfold wire. rewrite Z.mod_small by (change (2 ^ 32) with 4294967296; lia). destruct K2; lia.
Qed.

(* ---------- C83 ---------- *)
(* A call comes to an end unless packets keep being refused: k is the number of passes after which none is. *)
Theorem tcp_output_returns :
  forall b w cl U s v k, hist b w cl U s -> calm s -> env_ok v s -> (forall i, (k <= i)%nat -> w_res v i = PSent) ->
  exists fuel s' l, output fuel v s = Ret (s', l).
Proof.
  intros b w cl U s v k Hh Hc Hv Hk. destruct (hist_inv _ _ _ _ _ Hh) as (N & M & l & f & H). pose proof (inv_range _ _ _ _ _ _ _ _ _ H) as R.
  set (fuel := Z.to_nat (2 * snd_cc (tp s) + 4 + Z.of_nat k)). exists fuel. pose proof (output_inv _ _ _ _ _ _ _ _ v fuel _ H Hc Hv) as J.
  assert (D : output fuel v s <> Diverge).
  { unfold output. cbv zeta. set (s0 := mkOst (tp s) (set_lastidle _ (ox s))). assert (H0 : Inv b w cl U N M l f s0) by (destruct H; constructor; assumption).
    apply (passes_term b w cl U f v _ k Hk k 0%nat N M l s0 eq_refl H0 Hc Hv). change (snd_cc (tp s0)) with (snd_cc (tp s)). unfold fuel. lia. }
  destruct (output fuel v s) as [[s' qs]| |]; [eauto|destruct J|congruence].
Qed.

(* ---------- C84 ---------- *)
(* From any state: a call changes of the control block only what core leaves out (what has been sent, announced and
   acknowledged, the timers), and the send buffer not at all. Every segment acknowledges what has been received so far; ACK and RST
   are set as the state demands, SYN and FIN only if it allows them. *)
Theorem tcp_output_touches :
  forall fuel v s s' l, output fuel v s = Ret (s', l) ->
  core (tp s') = core (tp s) /\ sndb (ox s') = sndb (ox s) /\ cwnd (ox s') = cwnd (ox s) /\
  Forall (fun q => q_ack (fst q) = rnxt (tp s) /\
    q_rst (fst q) = (t_state (tp s) =? CLOSED) /\ q_fack (fst q) = ((t_state (tp s) =? CLOSED) || (t_state (tp s) >=? SYN_RECEIVED)) /\
    (q_fin (fst q) = true -> In (t_state (tp s)) [FIN_WAIT_1; CLOSING; LAST_ACK] \/ needfin (tp s) = true) /\
    (q_syn (fst q) = true -> In (t_state (tp s)) [SYN_SENT; SYN_RECEIVED] \/ needsyn (tp s) = true)) l.
Proof.
  intros fuel v s s' l E. destruct (output_any _ _ _ _ _ E) as [[F1 F2] Hl]. split; [exact F1|]. split; [exact (f_equal sndb F2)|]. split; [exact (f_equal cwnd F2)|].
  eapply Forall_impl; [|exact Hl]. cbv beta. intros q (A1 & A2 & A3 & A4 & A5). split; [exact A1|]. split; [exact A2|]. split; [exact A3|]. split.
  - intros K. specialize (A4 K). apply orb_prop in A4. destruct A4 as [A4|A4]; [left|right; exact A4]. unfold out_fin in A4. apply orb_prop in A4. destruct A4 as [A4|A4]; [apply orb_prop in A4; destruct A4 as [A4|A4]|]; apply Z.eqb_eq in A4; rewrite A4; cbn; auto.
  - intros K. specialize (A5 K). apply orb_prop in A5. destruct A5 as [A5|A5]; [left|right; exact A5]. unfold out_syn in A5. apply orb_prop in A5. destruct A5 as [A5|A5]; apply Z.eqb_eq in A5; rewrite A5; cbn; auto.
Qed.
(* This is what the theorems about input (C68-C74) ask of the calls of ofp_tcp_output made there. *)
Theorem tcp_output_discharges_input :
  forall fuel v x, output_ok (fun t => match output fuel v (mkOst t x) with Ret (s', _) => tp s' | _ => t end).
Proof.
  intros fuel v x t. destruct (output fuel v (mkOst t x)) as [[s' l]| |] eqn:E; [|reflexivity|reflexivity]. exact (proj1 (tcp_output_touches _ _ _ _ _ E)).
Qed.

(* ---------- C85 ---------- *)
(* The window offered: never more than there is room for unless it has been promised before; what is remembered as
   promised covers every offer made and never moves left; an offer takes back less than one unit of the window scale. *)
Theorem tcp_output_offers :
  forall fuel v s s' l, output fuel v s = Ret (s', l) -> 0 <= w_space v < 2 ^ 30 -> 0 <= rcv_scale (tp s) <= 14 -> - 2 ^ 30 <= edge s ->
  edge s <= edge s' <= Z.max (w_space v) (edge s) /\
  Forall (fun q => q_syn (fst q) = false -> let wnd := q_win (fst q) * 2 ^ rcv_scale (tp s) in
    0 <= q_win (fst q) <= 65535 /\ wnd <= Z.max (w_space v) (edge s) /\ wnd <= edge s' /\
    Z.min (edge s) (65535 * 2 ^ rcv_scale (tp s)) - 2 ^ rcv_scale (tp s) < wnd) l.
Proof. intros fuel v s s' l E H1 H2 H3. exact (output_offer fuel v s s' l E H1 H2 H3). Qed.

(* ---------- C86 ---------- *)
(* After a call a timer runs that will try again: if any data or FIN has been sent; or if nothing at all has been sent although
   there are bytes in the buffer, and no packet was missing. A timer that runs keeps running, except that a forced
   send into an open window stops the persist timer. Missing: see tcp_output_no_timer_refuted. *)
Theorem tcp_output_timer_partial :
  forall b w cl U s v fuel s' l, hist b w cl U s -> calm s -> env_ok v s -> output fuel v s = Ret (s', l) ->
  ((exists q, In q l /\ (q_data (fst q) <> [] \/ q_fin (fst q) = true)) \/
   (l = [] /\ snd_cc (tp s) <> 0 /\ forall i, w_res v i <> PNoMem) \/
   rexmt (tp s) = true \/ (persist (tp s) = true /\ (force (ox s) = true -> swin s = 0))) ->
  rexmt (tp s') = true \/ persist (tp s') = true.
Proof.
  intros b w cl U s v fuel s' l Hh Hc Hv E K. destruct (hist_inv _ _ _ _ _ Hh) as (N & M & l0 & f & H).
  unfold output in E. cbv zeta in E. set (s0 := mkOst (tp s) (set_lastidle _ (ox s))) in E. assert (H0 : Inv b w cl U N M l0 f s0) by (destruct H; constructor; assumption).
  assert (W : armed s' -> rexmt (tp s') = true \/ persist (tp s') = true) by (unfold armed; tauto).
  destruct K as [K|[(-> & K1 & K2)|K]].
  - apply W, (passes_runs _ _ _ _ _ _ _ _ _ _ _ _ _ _ _ H0 Hc Hv E K).
  - apply (passes_quiet _ _ K2 _ _ _ _ E K1).
  - apply W, (passes_armed _ _ _ _ _ _ _ E). exact K.
Qed.

(* ---------- C87 ---------- *)
(* With TCP_NODELAY and room in the windows, nothing lost and nothing refused, one call sends all that has not been sent yet. *)
Theorem tcp_output_nodelay_sends_all :
  forall b w cl U s v fuel s' l, hist b w cl U s -> env_ok v s -> (forall i, w_res v i = PSent) ->
  snd_nxt (tp s) = snd_max (tp s) -> frec (tp s) = false -> force (ox s) = false -> zlen w - U <= swin s ->
  nodelay (ox s) = true -> morecome (ox s) = false -> nopush (ox s) = false -> output fuel v s = Ret (s', l) ->
  exists N N', U <= N <= zlen w + 1 /\ snd_max (tp s) = wire (b + N) /\ all_data l = skipn (Z.to_nat N) w /\
    U <= N' <= zlen w + 1 /\ snd_max (tp s') = wire (b + N') /\ (N < zlen w -> zlen w <= N').
Proof.
  intros b w cl U s v fuel s' qs Hh Hv Hr Em C2 C3 C4 C5 C6 C7 E. destruct (hist_inv _ _ _ _ _ Hh) as (N & M & l & f & H). pose proof (inv_range _ _ _ _ _ _ _ _ _ H) as R.
  assert (NM : N = M). { rewrite (i_n _ _ _ _ _ _ _ _ _ H), (i_m _ _ _ _ _ _ _ _ _ H) in Em. apply wire_inj in Em; lia. }
  assert (Hc : calm s) by (intros K; congruence).
  unfold output in E. cbv zeta in E. set (s0 := mkOst (tp s) (set_lastidle _ (ox s))) in E. assert (H0 : Inv b w cl U N M l f s0) by (destruct H; constructor; assumption).
  destruct (passes_all b w cl U f v _ Hr fuel 0%nat N M l s0 s' qs H0 Hv (or_intror NM) ltac:(change (sackp (tp s) && frec (tp s) = false); rewrite C2; apply andb_false_r) C3 C4 C5 C6 C7 E) as (Da & N2 & M2 & l2 & f2 & H2 & L2).
  pose proof (inv_range _ _ _ _ _ _ _ _ _ H2) as R2.
  exists M, M2. split; [lia|]. split; [exact (i_m _ _ _ _ _ _ _ _ _ H)|]. split; [|split; [lia|split; [exact (i_m _ _ _ _ _ _ _ _ _ H2)|]]].
  - rewrite Da. subst M. unfold part. apply firstn_all2. rewrite skipn_length. unfold zlen. lia.
  - intros L. subst M. specialize (L2 L). lia.
Qed.

(* ---------- C88 ---------- *)
(* From one user to the other, whatever the network loses, reorders, repeats and delays: what is handed over is a prefix
   of what has been written, and the end of the stream is signalled only when the sender has closed and all of it has been
   handed over. Missing: as in C70 (a FIN cut off by the receive window); segments older than half the sequence space. *)
Theorem tcp_end_to_end_partial :
  forall out b w cl sent t N d eof, output_ok out -> net out b w cl sent t N d eof ->
  (exists k, d = firstn k w) /\ (eof = true -> cl = true /\ d = w).
Proof.
  intros out b w cl sent t N d eof Ho H.
  assert (S : forall z, session out (as_stream z b w) b (b + zlen w) t N d eof) by (intros z; apply (net_session _ _ _ _ _ _ _ _ _ H); [exists []; rewrite app_nil_r|]; reflexivity).
  pose proof (fun z => tcp_session_stream_partial _ _ _ _ _ _ _ _ Ho (S z)) as T. destruct (T 0) as (S1 & S2 & _ & S4).
  destruct eof.
  - assert (D : d = w) by (rewrite S1; replace (b + zlen w - b) with (zlen w) by lia; apply stream_whole). split; [exists (length w); rewrite D, firstn_all; reflexivity|]. intros _. split; [|exact D].
    destruct cl; [reflexivity|]. exfalso. pose proof (net_session _ _ _ _ _ _ _ _ _ H 0 (w ++ [0]) ltac:(exists [0]; reflexivity) ltac:(discriminate)) as S'. destruct (tcp_session_stream_partial _ _ _ _ _ _ _ _ Ho S') as (_ & _ & _ & S4'). specialize (S4 eq_refl). specialize (S4' eq_refl). unfold zlen in *. rewrite app_length in S4'. cbn [length] in S4'. lia.
  - split; [|discriminate]. exists (Z.to_nat (N - b)). destruct (T 1) as (S1' & _). assert (L : N - b <= zlen w) by (apply (stream_end b w); rewrite <- S1, <- S1'; reflexivity).
    rewrite S1. rewrite <- (Z.add_0_r b) at 2. rewrite <- part_stream by lia. reflexivity.
Qed.
