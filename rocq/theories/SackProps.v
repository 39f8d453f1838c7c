(* C64-C66: selective acknowledgement. See SackSpec.v for the vocabulary. *)
From Verif Require Import Base TcpSeqModel TcpSeqProps SackModel SackSpec SackProof SackProof2 SackProof3 SackProof4.
Ltac Zify.zify_post_hook ::= idtac.

(* C64. Through any history of acknowledgements (with arbitrary SACK blocks), sends,
   retransmissions and timeouts, and whatever allocations fail: every event is processed
   without touching freed or missing memory; the number of holes is the number kept and never
   above the limit; only bytes between snd_una and the highest byte reported are held missing;
   and a byte below snd_fack not held missing was reported by the peer. *)
Theorem sack_scoreboard_sound : forall maxh c, 0 <= maxh -> life maxh c ->
  (forall e, ev_ok c e -> ev_returns maxh c e) /\
  numholes (c_sb c) = Z.of_nat (length (holes (c_sb c))) /\ numholes (c_sb c) <= maxh /\
  (forall x, c_max c - 2 ^ 31 < x < c_una c + 2 ^ 31 -> missing (c_sb c) x -> c_una c <= x < c_max c /\ below_fack (c_sb c) x) /\
  (forall x, c_una c <= x < c_max c -> holes (c_sb c) <> [] -> below_fack (c_sb c) x -> ~ missing (c_sb c) x -> c_rep c x).
Proof.
  intros maxh c Hm L. change (2 ^ 31) with 2147483648. destruct (life_li maxh c Hm L) as (l & f & I). pose proof (li_a _ _ _ _ I) as Ha.
  split; [intros e Ok; apply (li_returns maxh c l f e I Ok)|]. split; [rewrite (a_n _ _ _ _ _ _ Ha), (a_h _ _ _ _ _ _ Ha), map_length; reflexivity|]. split; [apply (li_n _ _ _ _ I)|]. split.
  - intros x Hx Mx. rewrite (missing_inh _ _ _ _ _ _ x Ha Hx) in Mx. pose proof (inh_bound _ _ _ x (a_c _ _ _ _ _ _ Ha) Mx). pose proof (a_f _ _ _ _ _ _ Ha). split; [lia|].
    apply (below_lt maxh c l f x I); [intros ->; apply (inh_nil x Mx)|lia|lia].
  - intros x Hx Hh Bx Nx. pose proof (a_w _ _ _ _ _ _ Ha). rewrite (missing_inh _ _ _ _ _ _ x Ha) in Nx by lia. apply (li_rep _ _ _ _ I x); [|exact Nx].
    apply (below_lt maxh c l f x I) in Bx; [lia|intros K; apply Hh, (holes_nil _ _ _ _ _ _ Ha), K|exact Hx].
Qed.
Print Assumptions sack_scoreboard_sound.

(* An acknowledgement removes a byte from the missing set only if it covers it, cumulatively or
   by a block; a byte is added only between the old snd_fack and the end of an accepted block. *)
Theorem sack_ack_keeps_missing : forall maxh c av opt ack c', 0 <= maxh -> life maxh c -> ev_ok c (EAck av opt ack) -> ev_step maxh c (EAck av opt ack) c' ->
  forall x, c_una c <= x < c_max c ->
  (missing (c_sb c) x -> missing (c_sb c') x \/ x < una_after c ack \/ exists s e, accepted c opt ack s e /\ s <= x < e) /\
  (missing (c_sb c') x -> una_after c ack <= x /\ (missing (c_sb c) x \/ ((holes (c_sb c) = [] \/ ~ below_fack (c_sb c) x) /\ exists s e, accepted c opt ack s e /\ x < e))).
Proof.
  intros maxh c av opt ack c' Hm L Ok St x Hx. destruct (life_li maxh c Hm L) as (l & f & I). inversion St as [c0 av0 opt0 ack0 t E| | |]; subst. cbn [c_sb].
  destruct (ack_li maxh c l f av opt ack t I Ok E) as (l' & f' & I' & Cs). pose proof (li_a _ _ _ _ I) as Ha. pose proof (li_a _ _ _ _ I') as Ha'. cbn [c_sb c_una c_max] in Ha'.
  pose proof (a_w _ _ _ _ _ _ Ha). pose proof (a_w _ _ _ _ _ _ Ha') as W'. assert (Wx : c_una c <= una_after c ack) by (unfold una_after; destruct (too_new (c_sb c) ack || SEQ_LEQ ack (una (c_sb c))); [lia|]; unfold u32; pose proof (Z.mod_pos_bound (ack - una (c_sb c)) 4294967296 ltac:(lia)); lia).
  rewrite (missing_inh _ _ _ _ _ _ x Ha), (missing_inh _ _ _ _ _ _ x Ha') by lia. destruct Cs as [(T & -> & ->)|(bl & Sb & Sp & _)].
  - split; [auto|]. intros K. split; [|auto]. unfold una_after. rewrite T. cbn [orb]. lia.
  - split.
    + intros K. destruct (Z_lt_ge_dec x (una_after c ack)) as [Q|Q]; [auto|]. destruct (st_keep _ _ _ _ _ _ Sp x K ltac:(lia)) as [K2|(b & K2 & K3)]; [auto|]. right. right. exists (fst b), (snd b). split; [apply Sb; exact K2|exact K3].
    + intros K. split; [pose proof (inh_bound _ _ _ x (a_c _ _ _ _ _ _ Ha') K); lia|]. destruct (st_sub _ _ _ _ _ _ Sp x K) as [K2|(K2 & b & K3 & K4)]; [auto|]. right. split; [|exists (fst b), (snd b); split; [apply Sb; exact K3|exact K4]].
      destruct l as [|h0 l0]; [left; apply (holes_nil _ _ _ _ _ _ Ha); reflexivity|]. right. cbn [base] in K2. rewrite (below_lt maxh c (h0 :: l0) f x I) by (try discriminate; lia). lia.
Qed.
Print Assumptions sack_ack_keeps_missing.

(* With room for five more holes the missing set afterwards is exactly: what was missing, and
   everything from the old snd_fack up to the highest accepted block, less what the
   acknowledgement and the accepted blocks cover. *)
Theorem sack_ack_exact : forall maxh c av opt ack c', life maxh c -> ev_ok c (EAck av opt ack) -> ev_step maxh c (EAck av opt ack) c' ->
  too_new (c_sb c) ack = false -> numholes (c_sb c) + 5 <= maxh -> 5 <= av ->
  forall x, c_una c <= x < c_max c ->
  (missing (c_sb c') x <-> una_after c ack <= x /\ (forall s e, accepted c opt ack s e -> ~ (s <= x < e)) /\
     (missing (c_sb c) x \/ ((holes (c_sb c) = [] \/ ~ below_fack (c_sb c) x) /\ exists s e, accepted c opt ack s e /\ x < e))).
Proof.
  intros maxh c av opt ack c' L Ok St Tn Hr Hv x Hx.
  assert (Hm : 0 <= maxh). { destruct (Z_le_gt_dec 0 maxh) as [Q|Q]; [exact Q|]. exfalso. assert (K : forall c, life maxh c -> exists l f, A (c_sb c) l f (c_una c) (c_una c) (c_max c)).
    { clear - Q. intros c L. induction L as [x f|c e c' L (l & f & IH) Ok St].
      - exists [], x. constructor; cbn; try reflexivity; try lia; try congruence; constructor.
      - destruct St as [c av opt ack t E|c n t|c cwin recover mss sent t r E|c]; cbn [c_sb c_una c_max].
        + destruct Ok as [Hw Hop]. pose proof (a_u _ _ _ _ _ _ IH) as Hu. pose proof (a_m _ _ _ _ _ _ IH) as Hm. pose proof (a_w _ _ _ _ _ _ IH) as Hwd. destruct (ack_split (c_max c) ack Hw) as [T|(T & ak & -> & Lk)].
          * unfold on_ack in E. rewrite Hm, T in E. injection E as <-. exists l, f. unfold una_after, too_new. rewrite Hm, T. exact IH.
          * destruct (una_after_max c ak Hu Hm ltac:(lia) Lk) as [Ua _]. destruct (on_ack_ok maxh av (c_sb c) l f (c_una c) (c_max c) ak opt IH Lk Hop) as (t' & l' & f' & bl & E' & A' & _). rewrite E in E'. injection E' as <-. exists l', f'. rewrite Ua. exact A'.
        + destruct Ok as [O1 O2]. exists l, f. apply send_a; assumption.
        + destruct Ok as (O1 & O2 & rr & -> & O3). destruct (retransmit_ok _ _ _ _ _ _ cwin rr mss sent IH O1 O2 O3) as (t' & l' & res & E' & A' & _). rewrite E in E'. injection E' as <- <-. exists l', f. exact A'.
        + exists [], (c_una c). apply (free_ok _ _ _ _ _ _ IH). }
    destruct (K c L) as (l & f & Ha). pose proof (a_n _ _ _ _ _ _ Ha). lia. }
  destruct (life_li maxh c Hm L) as (l & f & I). inversion St as [c0 av0 opt0 ack0 t E| | |]; subst. cbn [c_sb].
  destruct (ack_li maxh c l f av opt ack t I Ok E) as (l' & f' & I' & Cs). pose proof (li_a _ _ _ _ I) as Ha. pose proof (li_a _ _ _ _ I') as Ha'. cbn [c_sb c_una c_max] in Ha'.
  pose proof (a_w _ _ _ _ _ _ Ha). pose proof (a_w _ _ _ _ _ _ Ha') as W'. assert (Wx : c_una c <= una_after c ack) by (unfold una_after; destruct (too_new (c_sb c) ack || SEQ_LEQ ack (una (c_sb c))); [lia|]; unfold u32; pose proof (Z.mod_pos_bound (ack - una (c_sb c)) 4294967296 ltac:(lia)); lia).
  rewrite (missing_inh _ _ _ _ _ _ x Ha), (missing_inh _ _ _ _ _ _ x Ha') by lia. destruct Cs as [(T & _)|(bl & Sb & _ & Ex)]; [congruence|].
  specialize (Ex Hr Hv x). rewrite Ex.
  assert (Q1 : (forall b, In b bl -> ~ cov b x) <-> forall s e, accepted c opt ack s e -> ~ (s <= x < e)).
  { split; [intros K s e As; apply (K (s, e)); apply Sb; exact As|intros K b Hb; apply (K (fst b) (snd b)); apply Sb; exact Hb]. }
  assert (Q2 : (exists b, In b bl /\ x < snd b) <-> exists s e, accepted c opt ack s e /\ x < e).
  { split; [intros (b & K1 & K2); exists (fst b), (snd b); split; [apply Sb; exact K1|exact K2]|intros (s & e & K1 & K2); exists (s, e); split; [apply Sb; exact K1|exact K2]]. }
  rewrite Q1, Q2. destruct l as [|h0 l0]; cbn [base].
  - pose proof (proj2 (holes_nil _ _ _ _ _ _ Ha) eq_refl) as Hn. split; intros (K1 & K2 & K3); (split; [exact K1|split; [exact K2|]]); destruct K3 as [K3|[_ K3]]; auto.
  - assert (Hn : holes (c_sb c) <> []) by (rewrite (holes_nil _ _ _ _ _ _ Ha); discriminate). pose proof (below_lt maxh c (h0 :: l0) f x I ltac:(discriminate) ltac:(lia)) as Bl.
    split; intros (K1 & K2 & K3); (split; [exact K1|split; [exact K2|]]); destruct K3 as [K3|[K4 K3]]; auto; right; (split; [|exact K3]); [right; rewrite Bl; lia|destruct K4 as [K4|K4]; [contradiction|rewrite Bl in K4; lia]].
Qed.
Print Assumptions sack_ack_exact.

(* What the peer has reported can be held missing again: when the last hole goes, snd_fack is
   forgotten although data above snd_una was reported (ofp_tcp_sack.c:392-400). *)
Definition mk_ack (opt : list (Z * Z)) (ack : Z) : ev := EAck 1000 (Some opt) ack.
Definition demo_send : conn := mkConn (mkSb [] None 0 0 0 100 1100 0) 100 1100 (fun y => y < 100).
Lemma demo_send_life : life 128 demo_send.
Proof. eapply lifeS with (e := ESend 1000); [apply (life0 128 100 0)| |apply (s_send 128 (conn0 100 0) 1000)]. cbn. split; lia. Qed.
Lemma step_life c opt ack t : life 128 c -> ev_ok c (mk_ack opt ack) -> on_ack 128 1000 (c_sb c) (Some opt) ack = Ret t -> life 128 (mkConn t (una_after c ack) (c_max c) (rep_after c (Some opt) ack)).
Proof. intros L Ok E. eapply lifeS; [exact L|exact Ok|]. apply s_ack. exact E. Qed.
Definition sb_of (o : outcome sb) : sb := match o with Ret t => t | _ => mkSb [] None 0 0 0 0 0 0 end.
Definition after_ack (c : conn) (opt : list (Z * Z)) (ack : Z) : conn := mkConn (sb_of (on_ack 128 1000 (c_sb c) (Some opt) ack)) (una_after c ack) (c_max c) (rep_after c (Some opt) ack).
Lemma after_life c opt ack : life 128 c -> ev_ok c (mk_ack opt ack) -> (exists t, on_ack 128 1000 (c_sb c) (Some opt) ack = Ret t) -> life 128 (after_ack c opt ack) /\ ev_step 128 c (mk_ack opt ack) (after_ack c opt ack).
Proof. intros L Ok (t & E). unfold after_ack. rewrite E. cbn [sb_of]. split; [apply step_life; assumption|apply s_ack; exact E]. Qed.
Definition g1 := after_ack demo_send [(200, 300); (400, 500)] 100.   (* 200-299 and 400-499 have arrived *)
Definition g2 := after_ack g1 [] 250.                                 (* acknowledged up to the middle of a block *)
Definition g3 := after_ack g2 [(300, 500)] 250.                       (* the last hole goes *)
Definition g4 := after_ack g3 [(700, 800)] 250.
Ltac words := unfold mk_ack; cbn [ev_ok]; split; [unfold word; lia|split; [cbn [length]; lia|repeat (apply Forall_cons; [cbn [fst snd]; unfold word; lia|]); apply Forall_nil]].
Lemma g_life : life 128 g1 /\ life 128 g2 /\ life 128 g3 /\ ev_step 128 g3 (mk_ack [(700, 800)] 250) g4.
Proof.
  assert (L1 : life 128 g1) by (apply after_life; [apply demo_send_life|words|eexists; vm_compute; reflexivity]).
  assert (L2 : life 128 g2) by (apply after_life; [exact L1|words|eexists; vm_compute; reflexivity]).
  assert (L3 : life 128 g3) by (apply after_life; [exact L2|words|eexists; vm_compute; reflexivity]).
  split; [exact L1|]. split; [exact L2|]. split; [exact L3|]. apply after_life; [exact L3|words|eexists; vm_compute; reflexivity].
Qed.
Lemma g1_sb : c_sb g1 = mkSb [mkHole 0 100 200 100; mkHole 1 300 400 300] (Some 0%nat) 2 0 500 100 1100 2.
Proof. vm_compute. reflexivity. Qed.
Lemma g3_sb : c_sb g3 = mkSb [] None 0 0 500 250 1100 2.
Proof. vm_compute. reflexivity. Qed.
Lemma g4_sb : c_sb g4 = mkSb [mkHole 2 250 700 250] (Some 2%nat) 1 0 800 250 1100 3.
Proof. vm_compute. reflexivity. Qed.
Theorem sack_reported_stays_reported_refuted : exists maxh c av opt ack c' x, life maxh c /\ ev_ok c (EAck av opt ack) /\ ev_step maxh c (EAck av opt ack) c' /\
  c_una c <= x < c_max c /\ c_rep c x /\ ~ missing (c_sb c) x /\ una_after c ack <= x /\ missing (c_sb c') x.
Proof.
  exists 128, g3, 1000, (Some [(700, 800)]), 250, g4, 450. destruct g_life as (L1 & L2 & L3 & S). split; [exact L3|]. split; [words|]. split; [exact S|].
  assert (E1 : c_una g3 = 250) by (vm_compute; reflexivity). assert (E2 : c_max g3 = 1100) by (vm_compute; reflexivity). assert (E3 : una_after g3 250 = 250) by (vm_compute; reflexivity).
  rewrite E1, E2, E3. split; [lia|]. split.
  - unfold g3, after_ack. cbn [c_rep]. left. unfold g2, after_ack. cbn [c_rep]. left. unfold g1, after_ack. cbn [c_rep]. right. right. split; [vm_compute; reflexivity|]. split; [cbn [demo_send c_una c_max]; lia|]. exists [(200, 300); (400, 500)], (400, 500). split; [reflexivity|]. split; [right; left; reflexivity|]. split; vm_compute; reflexivity.
  - unfold missing. rewrite g3_sb, g4_sb. cbn [holes]. split; [intros (h & K & _); destruct K|]. split; [lia|]. exists (mkHole 2 250 700 250). split; [left; reflexivity|]. split; vm_compute; reflexivity.
Qed.
Print Assumptions sack_reported_stays_reported_refuted.

(* C65. A retransmission starts at the first missing byte not yet retransmitted and covers only
   such bytes, within the window, the segment size and snd_recover; if it was sent exactly those bytes
   become retransmitted. Nothing is offered only if everything missing below snd_recover has
   been retransmitted (or the window is closed). *)
Theorem sack_retransmits_first_gap : forall maxh c cwin recover mss sent t' res, 0 <= maxh -> life maxh c -> ev_ok c (ERexmit cwin (wire recover) mss sent) -> c_una c <= recover <= c_max c ->
  retransmit (c_sb c) cwin (wire recover) mss sent = Ret (t', res) ->
  (forall x, c_una c <= x < c_max c -> missing t' x <-> missing (c_sb c) x) /\
  match res with
  | Some (q, n) => exists p, q = wire p /\ c_una c <= p /\ 0 < n <= Z.min cwin mss /\ p + n <= recover /\
      (forall x, p <= x < p + n -> missing (c_sb c) x /\ ~ resent (c_sb c) x) /\
      (forall x, c_una c <= x < p -> missing (c_sb c) x -> resent (c_sb c) x) /\
      (forall x, c_una c <= x < c_max c -> resent t' x <-> resent (c_sb c) x \/ (sent = true /\ p <= x < p + n))
  | None => (forall x, c_una c <= x < c_max c -> resent t' x <-> resent (c_sb c) x) /\
      (0 < cwin -> 0 < mss -> forall x, c_una c <= x < recover -> missing (c_sb c) x -> resent (c_sb c) x)
  end.
Proof.
  intros maxh c cwin recover mss sent t' res Hm L Ok Hr E. destruct (life_li maxh c Hm L) as (l & f & I). pose proof (li_a _ _ _ _ I) as Ha. pose proof (a_w _ _ _ _ _ _ Ha) as Hw. destruct Ok as (O1 & O2 & _).
  destruct (retransmit_ok _ _ _ _ _ _ cwin recover mss sent Ha O1 O2 Hr) as (t1 & l' & r1 & E' & A' & _ & Ih & Rs). rewrite E in E'. injection E' as <- <-.
  assert (M : forall x, c_una c <= x < c_max c -> (missing (c_sb c) x <-> inh x l) /\ (missing t' x <-> inh x l') /\ (resent (c_sb c) x <-> rtx x l) /\ (resent t' x <-> rtx x l')).
  { intros x Hx. split; [apply (missing_inh _ _ _ _ _ _ x Ha); lia|]. split; [apply (missing_inh _ _ _ _ _ _ x A'); lia|]. split; [apply (resent_rtx _ _ _ _ _ _ x Ha); lia|apply (resent_rtx _ _ _ _ _ _ x A'); lia]. }
  split. { intros x Hx. destruct (M x Hx) as (M1 & M2 & _). rewrite M1, M2. apply Ih. }
  destruct res as [[q n]|].
  - destruct Rs as (p & -> & R1 & R2 & R3 & R4 & R5 & R6 & R7 & R8). exists p. split; [reflexivity|]. split; [exact R5|]. split; [lia|]. split; [exact R4|]. split; [|split].
    + intros x Hx. destruct (M x ltac:(lia)) as (M1 & _ & M3 & _). rewrite M1, M3. apply R6. exact Hx.
    + intros x Hx. destruct (M x ltac:(lia)) as (M1 & _ & M3 & _). rewrite M1, M3. intros K. destruct (classic_rtx x l) as [Q|Q]; [exact Q|]. specialize (R7 x K Q). lia.
    + intros x Hx. destruct (M x Hx) as (_ & _ & M3 & M4). rewrite M3, M4. apply R8.
  - destruct Rs as [R1 R2]. split.
    + intros x Hx. destruct (M x Hx) as (_ & _ & M3 & M4). rewrite M3, M4. apply R1.
    + intros K1 K2 x Hx. destruct (M x ltac:(lia)) as (M1 & _ & M3 & _). rewrite M1, M3. intros K. apply (R2 K1 K2 x K). lia.
Qed.
Print Assumptions sack_retransmits_first_gap.

(* An acknowledgement never makes a retransmitted byte look unsent: while missing it stays
   retransmitted, and no other byte becomes so. The byte count sent again is that of the holes. *)
Theorem sack_resent_remembered : forall maxh c av opt ack c', 0 <= maxh -> life maxh c -> ev_ok c (EAck av opt ack) -> ev_step maxh c (EAck av opt ack) c' ->
  forall x, c_una c <= x < c_max c -> (resent (c_sb c') x <-> resent (c_sb c) x /\ missing (c_sb c') x).
Proof.
  intros maxh c av opt ack c' Hm L Ok St x Hx. destruct (life_li maxh c Hm L) as (l & f & I). inversion St as [c0 av0 opt0 ack0 t E| | |]; subst. cbn [c_sb].
  destruct (ack_li maxh c l f av opt ack t I Ok E) as (l' & f' & I' & Cs). pose proof (li_a _ _ _ _ I) as Ha. pose proof (li_a _ _ _ _ I') as Ha'. cbn [c_sb c_una c_max] in Ha'.
  pose proof (a_w _ _ _ _ _ _ Ha). pose proof (a_w _ _ _ _ _ _ Ha') as W'. assert (Wx : c_una c <= una_after c ack) by (unfold una_after; destruct (too_new (c_sb c) ack || SEQ_LEQ ack (una (c_sb c))); [lia|]; unfold u32; pose proof (Z.mod_pos_bound (ack - una (c_sb c)) 4294967296 ltac:(lia)); lia).
  rewrite (missing_inh _ _ _ _ _ _ x Ha'), (resent_rtx _ _ _ _ _ _ x Ha), (resent_rtx _ _ _ _ _ _ x Ha') by lia. destruct Cs as [(T & -> & ->)|(bl & Sb & Sp & _)].
  - split; [intros K; split; [exact K|apply (rtx_inh _ _ _ x (a_c _ _ _ _ _ _ Ha) K)]|tauto].
  - apply (st_rtx _ _ _ _ _ _ Sp).
Qed.
Print Assumptions sack_resent_remembered.
Theorem sack_resent_count : forall maxh c, 0 <= maxh -> life maxh c ->
  rexb (c_sb c) = fold_right (fun h a => u32 (hr h - hs h) + a) 0 (holes (c_sb c)) /\ 0 <= rexb (c_sb c) <= c_max c - c_una c.
Proof.
  intros maxh c Hm L. destruct (life_li maxh c Hm L) as (l & f & I). pose proof (li_a _ _ _ _ I) as Ha. rewrite (a_r _ _ _ _ _ _ Ha), (a_h _ _ _ _ _ _ Ha).
  pose proof (sumr_bound _ _ _ (a_c _ _ _ _ _ _ Ha)). pose proof (a_f _ _ _ _ _ _ Ha). pose proof (a_w _ _ _ _ _ _ Ha). split; [|lia].
  assert (K : forall l, Forall (fun h => 0 <= hr h - hs h < 4294967296) l -> sumr l = fold_right (fun h a => u32 (hr h - hs h) + a) 0 (map wh l)).
  { clear. induction l as [|h l IH]; intros K; [reflexivity|]. inversion K as [|? ? K1 K2]; subst. cbn [map fold_right]. cbn [wh hr hs]. rewrite q_sub by assumption. rewrite <- IH by assumption. reflexivity. }
  apply K. apply Forall_forall. intros h Hh. pose proof (chain_in _ _ _ h (a_c _ _ _ _ _ _ Ha) Hh). lia.
Qed.
Print Assumptions sack_resent_count.

(* After a timeout rewinds snd_nxt, the sender moves it forward only over bytes the peer has
   reported; if some byte at or below it is missing, it stops at a missing byte or at snd_fack. *)
Theorem sack_adjust_skips_reported : forall maxh c an, 0 <= maxh -> life maxh c -> c_una c <= an <= c_max c ->
  exists r, adjust (c_sb c) (wire an) = wire r /\ an <= r <= c_max c /\ (forall x, an <= x < r -> c_rep c x /\ ~ missing (c_sb c) x) /\
    (holes (c_sb c) <> [] -> an < c_max c -> below_fack (c_sb c) an -> (exists y, c_una c <= y <= an /\ missing (c_sb c) y) -> (r < c_max c /\ missing (c_sb c) r) \/ wire r = fack (c_sb c)).
Proof.
  intros maxh c an Hm L Hn. destruct (life_li maxh c Hm L) as (l & f & I). pose proof (li_a _ _ _ _ I) as Ha. pose proof (a_w _ _ _ _ _ _ Ha). pose proof (a_f _ _ _ _ _ _ Ha).
  destruct (adjust_ok _ _ _ _ _ _ an Ha Hn) as (r & E & R1 & R2 & R3 & R4). exists r. split; [exact E|]. split; [exact R1|]. split.
  - intros x Hx. destruct (R2 ltac:(lia)) as [Ne Lf]. specialize (R3 x Hx). split; [apply (li_rep _ _ _ _ I x); [lia|exact R3]|]. rewrite (missing_inh _ _ _ _ _ _ x Ha) by lia. exact R3.
  - intros Hh Hlt Bl (y & Hy & My). assert (Ne : l <> []) by (intros K; apply Hh, (holes_nil _ _ _ _ _ _ Ha), K). apply (below_lt maxh c l f an I Ne ltac:(lia)) in Bl. rewrite (missing_inh _ _ _ _ _ _ y Ha) in My by lia.
    destruct (R4 Bl ltac:(exists y; split; [exact My|lia])) as [K|K].
    + left. pose proof (inh_bound _ _ _ r (a_c _ _ _ _ _ _ Ha) K). split; [lia|]. rewrite (missing_inh _ _ _ _ _ _ r Ha) by lia. exact K.
    + right. rewrite K. symmetry. apply (a_k _ _ _ _ _ _ Ha Ne).
Qed.
Print Assumptions sack_adjust_skips_reported.

(* C66. What a receiver reports, in any history of segments: at most six blocks, only bytes
   received and beyond the next one expected; the blocks neither overlap nor touch. *)
Theorem sack_report_sound : forall n l segs, rlife n l segs ->
  (length l <= 6)%nat /\ (forall x, n - 2 ^ 30 < x <= n + 2 ^ 30 -> reported l x -> n < x /\ got segs x) /\
  exists al, l = map (fun b => (wire (fst b), wire (snd b))) al /\ Forall (fun b => n < fst b /\ fst b < snd b /\ snd b <= n + 2 ^ 30) al /\ ForallOrdPairs (fun b c => snd b < fst c \/ snd c < fst b) al.
Proof.
  intros n l segs R. change (2 ^ 30) with 1073741824. destruct (rlife_ri n l segs R) as (al & I). destruct I as [El Hw Hp Hn Hg]. split; [rewrite El, map_length; exact Hn|]. split; [|exists al; auto].
  intros x Hx (b & Hb & Hr). rewrite El in Hb. apply in_map_iff in Hb. destruct Hb as (a & <- & Ha). pose proof (proj1 (Forall_forall _ _) Hw a Ha) as Q. cbn in Q. unfold wb in Hr. cbn [fst snd] in Hr. apply in_range_wire in Hr; [|lia|lia]. split; [lia|]. apply (Hg a x Ha). exact Hr.
Qed.
Print Assumptions sack_report_sound.

(* Every segment is processed within bounds; the first block then contains the newest segment if
   it left a gap; a byte reported before and still out of order stays reported unless the list is full. *)
Theorem sack_report_newest_first : forall n l segs n' s e, rlife n l segs -> seg_ok n n' s e ->
  exists l', update_list (wire n') l (wire s) (wire e) = Ret l' /\
    (n' < s -> exists b, hd_error l' = Some b /\ forall x, s <= x < e -> in_range (fst b) (snd b) x) /\
    (forall b x, In b l -> SEQ_LT (wire n') (fst b) = true -> in_range (fst b) (snd b) x -> n < x <= n + 2 ^ 30 -> reported l' x \/ length l' = 6%nat).
Proof.
  intros n l segs n' s e R Ok. change (2 ^ 30) with 1073741824. destruct (rlife_ri n l segs R) as (al & I). destruct (update_ok n l segs al n' s e I Ok) as (l' & al' & E & I' & H1 & H2). exists l'. split; [exact E|].
  destruct Ok as (S1 & S2 & S3 & S4 & S5). change (2 ^ 30) with 1073741824 in *. destruct I as [El Hw Hp Hn Hg]. destruct I' as [El' Hw' Hp' Hn' Hg']. split.
  - intros Hs. specialize (H1 Hs). destruct al' as [|a al']; [destruct H1|]. exists (wb a). split; [rewrite El'; reflexivity|]. intros x Hx. inversion Hw' as [|? ? Q _]; subst. unfold wb. cbn [fst snd]. apply in_range_wire; lia.
  - intros b x Hb Hlt Hr Hx. rewrite El in Hb. apply in_map_iff in Hb. destruct Hb as (a & <- & Ha). pose proof (proj1 (Forall_forall _ _) Hw a Ha) as Q. cbn in Q. unfold wb in Hlt, Hr. cbn [fst snd] in Hlt, Hr. apply in_range_wire in Hr; [|lia|lia]. rewrite q_lt in Hlt by lia. apply Z.ltb_lt in Hlt.
    destruct (H2 a x Ha Hlt Hr) as [(d & D1 & D2)|K]; [left|right; rewrite El', map_length; exact K]. exists (wb d). split; [rewrite El'; apply in_map; exact D1|]. pose proof (proj1 (Forall_forall _ _) Hw' d D1) as Q'. cbn in Q'. unfold wb, cov in *. cbn [fst snd]. apply in_range_wire; lia.
Qed.
Print Assumptions sack_report_newest_first.

(* The option carries a prefix of the list, fits, and has room for a block after 28 bytes of
   other options and for three after twelve. *)
Theorem sack_option_fits : forall optlen l, 0 <= optlen <= 40 ->
  (exists k, option_blocks optlen l = firstn k l) /\
  (option_blocks optlen l <> [] -> optlen <= pad2 optlen /\ pad2 optlen + 2 + 8 * Z.of_nat (length (option_blocks optlen l)) <= 40) /\
  (optlen <= 28 -> l <> [] -> option_blocks optlen l <> []) /\ (optlen <= 12 -> (3 <= length l)%nat -> (3 <= length (option_blocks optlen l))%nat).
Proof.
  intros n l Hn. unfold option_blocks. assert (Ho : pad2 n = (if n =? 0 then 2 else n + (2 - n) mod 4)) by reflexivity. generalize dependent (pad2 n). intros o Ho. pose proof (Z.mod_pos_bound (2 - n) 4 ltac:(lia)) as M. assert (On : n <= o <= n + 3) by (destruct (Z.eqb_spec n 0); lia).
  assert (D : (40 - o - 2) = 8 * ((40 - o - 2) / 8) + (40 - o - 2) mod 8) by (apply Z.div_mod; lia). pose proof (Z.mod_pos_bound (40 - o - 2) 8 ltac:(lia)) as M8.
  assert (N28 : n <= 28 -> o <= 30). { intros K. assert (n = 28 \/ n = 27 \/ n = 26 \/ n <= 25) as [->|[->|[->|K2]]] by lia; [vm_compute in Ho; lia..|lia]. }
  assert (N12 : n <= 12 -> o <= 14). { intros K. assert (n = 12 \/ n = 11 \/ n = 10 \/ n <= 9) as [->|[->|[->|K2]]] by lia; [vm_compute in Ho; lia..|]. destruct (Z_le_gt_dec n 10) as [K3|K3]; [|lia]. assert (n = 9 \/ n = 8 \/ n = 7 \/ n <= 6) as [->|[->|[->|K4]]] by lia; [vm_compute in Ho; lia..|]. lia. }
  clear Ho. destruct (Z.ltb_spec (40 - o) 10) as [Q|Q].
  - split; [exists 0%nat; reflexivity|]. split; [congruence|]. split; [intros K; specialize (N28 K); lia|intros K; specialize (N12 K); lia].
  - split; [eexists; reflexivity|]. rewrite firstn_length. split; [intros _; split; lia|]. split.
    + intros K Hl K2. destruct l as [|b l]; [congruence|]. assert (Z.to_nat (Z.min (Z.of_nat (length (b :: l))) ((40 - o - 2) / 8)) <> 0%nat) by (cbn [length]; lia). destruct (Z.to_nat _); [congruence|discriminate].
    + intros K Hl. specialize (N12 K). lia.
Qed.
Print Assumptions sack_option_fits.

(* ---- the hypotheses are met ---- *)
Example sack_demo : life 128 g1 /\ missing (c_sb g1) 150 /\ missing (c_sb g1) 399 /\ ~ missing (c_sb g1) 250 /\ below_fack (c_sb g1) 250 /\ holes (c_sb g1) <> [] /\ numholes (c_sb g1) = 2.
Proof.
  split; [apply g_life|]. unfold missing, below_fack. rewrite g1_sb. cbn [holes fack numholes]. split; [exists (mkHole 0 100 200 100); split; [left; reflexivity|split; vm_compute; reflexivity]|]. split; [exists (mkHole 1 300 400 300); split; [right; left; reflexivity|split; vm_compute; reflexivity]|].
  split; [intros (h & [<-|[<-|[]]] & K1 & K2); vm_compute in K1, K2; congruence|]. split; [vm_compute; reflexivity|]. split; [discriminate|reflexivity].
Qed.
Example sack_demo_rexmit : match retransmit (c_sb g1) 60 1100 1000 true with Ret (t, r) => r = Some (100, 60) /\ resent t 159 /\ match retransmit t 1000 1100 1000 true with Ret (t, r) => r = Some (160, 40) /\ match retransmit t 1000 1100 1000 true with Ret (t, r) => r = Some (300, 100) | _ => False end | _ => False end | _ => False end.
Proof.
  rewrite g1_sb. match goal with |- context [retransmit ?t 60 1100 1000 true] => assert (E1 : retransmit t 60 1100 1000 true = Ret (mkSb [mkHole 0 100 200 160; mkHole 1 300 400 300] (Some 0%nat) 2 60 500 100 1100 2, Some (100, 60))) by (vm_compute; reflexivity) end.
  rewrite E1. split; [reflexivity|]. split; [exists (mkHole 0 100 200 160); split; [left; reflexivity|split; vm_compute; reflexivity]|]. vm_compute. auto.
Qed.
Example sack_demo_adjust : adjust (c_sb g1) 220 = 300 /\ adjust (c_sb g1) 450 = 500 /\ adjust (c_sb g1) 350 = 350.
Proof. vm_compute. auto. Qed.
Example sack_demo_accepted : accepted demo_send (Some [(200, 300); (400, 500)]) 100 400 500.
Proof. unfold accepted. split; [vm_compute; reflexivity|]. split; [lia|]. split; [vm_compute; congruence|]. eexists. split; [reflexivity|]. right. left. reflexivity. Qed.
Example sack_demo_receiver : rlife 4294967290 [(200, 300); (104, 154)] [(4294967496, 4294967596); (4294967400, 4294967450)].
Proof.
  eapply (r_seg 4294967290 [(104, 154)] [(4294967400, 4294967450)] 4294967290 4294967496 4294967596).
  - eapply (r_seg 4294967290 [] [] 4294967290 4294967400 4294967450); [apply r_new|unfold seg_ok; lia|vm_compute; reflexivity].
  - unfold seg_ok. lia.
  - vm_compute. reflexivity.
Qed.
