(* C100, C101: each call does to the memberships what the specification says. *)
From Verif Require Import Base McastModel McastSpec McastMerge McastGroup McastInv.
Ltac Zify.zify_post_hook ::= idtac.

Section I.
Variable U : list Z.
Variables maxsock maxgrp maxmem : nat.
Hypothesis HU : (length U <= maxgrp)%nat.
Variable fed : bool.
Notation settled := (settled U).
Notation pend := (pend U).
Notation GI := (GI U fed).
Notation R := (R U).
Notation Rst := (Rst U fed).
Notation okp := (okp U).

Lemma full_fed : forall y sl s m sm, (fed = true -> Forall (Forall full) y) -> nth_error y s = Some sl -> In sm sl -> R m sm ->
  fed = true -> f1 (m_f m) = Inc -> fs (m_f m) <> [].
Proof.
  intros y sl s m sm FF N I H FD M E. specialize (FF FD). rewrite Forall_forall in FF. specialize (FF sl (nth_error_In _ _ N)). rewrite Forall_forall in FF. specialize (FF sm I).
  apply FF; [destruct H as (_ & _ & _ & X & _); congruence|]. apply (R_nil U m sm H). exact E.
Qed.

Lemma change_R : forall x y s l sl j sm p c md ns, Rst x y -> (fed = true -> Forall (Forall full) y) ->
  nth_error (socks x) s = Some l -> nth_error y s = Some sl -> (j < length l)%nat -> R (nth j l dm) sm -> In sm sl -> 
  okp (m_f (nth j l dm)) p -> f1 p = md -> (forall a, view1 p a = if isin a ns then md else Und) ->
  ~ (s_mode sm = Exc /\ s_src sm = [] /\ md = Exc /\ ns = []) ->
  exists u, change maxgrp (key_of (nth j l dm)) p c (mus x) = Ret u /\ Rst (mkS (upd (socks x) s (set_f l j (reap (commit p)))) u) (upd y s (upd sl j (with_src sm md ns))).
Proof.
  intros x y s l sl j sm p c md ns [H1 H2] FF N1 N2 J HR IS O M V NA. pose proof HR as (R1 & R2 & R3 & R4 & R5 & R6).
  assert (RQ : R (mkM (m_if (nth j l dm)) (m_gr (nth j l dm)) (reap (commit p))) (with_src sm md ns)).
  { unfold McastInv.R. cbn [m_if m_gr m_f with_src s_if s_gr s_mode s_src]. split; [exact R1|]. split; [exact R2|]. split; [exact (okp_settled U _ p O)|]. split; [exact M|].
    split; [rewrite <- M; exact (o_1 U _ p O)|]. intros a. rewrite (okp_view U _ p a O). apply V. }
  destruct (change_ok U maxgrp HU fed (socks x) (mus x) s l j p (reap (commit p)) c H2 (conj N1 J)) as (u & E & G).
  - apply okp_pend; [exact R3|intros X; congruence|exact O].
  - intros (A & B & C & D). apply NA. rewrite <- R4. split; [exact A|]. split; [apply (R_nil U _ _ HR); exact B|]. split; [rewrite <- M; exact C|].
    apply (R_nil U _ _ RQ). exact D.
  - intros FD. exact (full_fed y sl s _ _ FF N2 IS HR FD).
  - exists u. split; [exact E|]. split; [|exact G]. cbn [socks]. apply f2_upd; [exact H1|]. apply f2_upd; [|exact RQ].
    pose proof (f2_nth _ _ _ _ _ s H1) as X. rewrite N1, N2 in X. exact X.
Qed.

Lemma free_all_ok : forall l L s g c, GI L g -> nth_error L s = Some l -> Forall (fun m => settled (m_f m) /\ f1 (m_f m) <> Und /\ (fed = true -> f1 (m_f m) = Inc -> fs (m_f m) <> [])) l ->
  exists g', free_all maxgrp l c g = Ret g' /\ GI (upd L s []) g'.
Proof.
  induction l as [|m l IH]; intros L s g c G N F; cbn [free_all].
  - exists g. split; [reflexivity|]. rewrite (f2_same _ _ _ _ N). exact G.
  - inversion F as [|? ? (F1' & F2 & F3) F4]; subst.
    destruct (leave_ok U maxgrp HU fed L g s (m :: l) 0%nat (imf_leave (m_f m)) c G) as (g1 & E & G1).
    + split; [exact N|cbn [length]; lia].
    + apply leave_pend; assumption.
    + exact F3.
    + cbn [nth] in E. rewrite E. cbn [obind]. change (remove (m :: l) 0) with l in G1.
      destruct (IH (upd L s l) s g1 c G1) as (g2 & E2 & G2); [eapply nth_upd; exact N|exact F4|]. exists g2. split; [exact E2|]. rewrite upd_upd in G2. exact G2.
Qed.

(* IGMP commits *)
Lemma igmp_R : forall x y i g, Rst x y -> Rst (match glook (i, g) (mus x) with Some u => mkS (socks x) (gput (i, g) (inm_commit u) (mus x)) | None => x end) y.
Proof.
  intros x y i g [H1 H2]. destruct (glook (i, g) (mus x)) as [u|] eqn:E; [|split; assumption]. split; [exact H1|]. cbn [socks mus]. intros k. rewrite glook_gput.
  destruct (keq k (i, g)) eqn:K; [|apply H2]. apply keq_eq in K. subst k. specialize (H2 (i, g)). rewrite E in H2. destruct H2 as (A & B & C). split; [|auto].
  change (inm_commit u) with (igmp true u). apply commit_good. exact A.
Qed.

Definition same (y : spec) (s : nat) (sl : list smem) (N : nth_error y s = Some sl) : upd y s sl = y := f2_same _ _ _ _ N.

Theorem step_ok : forall e x y, Rst x y -> (fed = true -> Forall (Forall full) y) -> clean maxsock e y -> incl (names e) U ->
  exists x', step maxsock maxgrp maxmem e x = Ret (x', snd (sstep maxsock maxmem e y)) /\ Rst x' (fst (sstep maxsock maxmem e y)).
Proof.
  intros e x y H FF CL IN. unfold sstep. destruct (sock_of e) as [s|] eqn:SK.
  2: { destruct e; try discriminate. cbn [step fst snd]. eexists. split; [reflexivity|]. apply igmp_R. exact H. }
  pose proof (f2_nth _ _ _ _ _ s (proj1 H)) as NS.
  destruct (nth_error (socks x) s) as [l|] eqn:N1, (nth_error y s) as [sl|] eqn:N2; try contradiction.
  2: { exists x. split; [|exact H]. destruct e; try discriminate SK; injection SK as ->; cbn [step snd]; unfold join, leave, block, set_filter, close; rewrite N1; reflexivity. }
  assert (SAME : forall r : res, exists x', Ret (x, r) = Ret (x', r) /\ Rst x' (upd y s sl)).
  { intros r. exists x. split; [reflexivity|]. rewrite (f2_same _ _ _ _ N2). exact H. }
  assert (LEN : length l = length sl) by (clear - NS; induction NS; cbn [length]; congruence).
  destruct e as [s' i g a c|s' i g a c|s' i g a c|s' i g a c|s' i g md srcs c|s' c|i g]; try discriminate SK; injection SK as ->; cbn [step scall names] in *.
  - (* join *)
    unfold join. rewrite N1. destruct (is_mc g); cbn [negb]; [|apply SAME].
    pose proof (find_member U l sl (Some i) g NS) as FM. destruct (find_group l (Some i) g) as [j|], (member sl (Some i) g) as [[j' sm]|]; try contradiction.
    + destruct FM as (-> & J & HR & IS). pose proof HR as (R1 & R2 & R3 & R4 & R5 & R6). destruct a as [b|]; [|rewrite R4; apply SAME].
      rewrite R4. destruct (s_mode sm) eqn:M; try congruence; cbn [meq negb]; [|apply SAME].
      destruct (R_look U _ _ b HR) as [LK LS]. destruct (look b (fs (m_f (nth j l dm)))) as [z|] eqn:L.
      * destruct (isin b (s_src sm)) eqn:Q; [apply SAME|]. exfalso. assert (X : Some z = None) by (apply LK; reflexivity). discriminate.
      * rewrite (proj1 LK eq_refl).
        destruct (graft_step U _ _ b (okp_self U _ R3 ltac:(congruence)) L (IN b ltac:(left; reflexivity))) as [O V]. rewrite R4 in O, V.
        set (p := graft (m_f (nth j l dm)) b Inc) in *.
        assert (RC : reap (commit p) = commit p).
        { unfold p, graft, commit, reap. cbn [f0 f1 fs]. f_equal. rewrite map_app, filter_app. f_equal. pose proof (proj2 (proj2 (proj2 R3))) as FA. rewrite R4 in FA.
          clear - FA. induction (fs (m_f (nth j l dm))) as [|[d [t0 t1]] q IH]; [reflexivity|]. inversion FA as [|? ? A B]; subst. cbn [snd] in A. injection A as -> ->.
          cbn [map filter meq andb negb]. rewrite IH by exact B. reflexivity. }
        destruct (change_R x y s l sl j sm p c Inc (s_src sm ++ [b]) H FF N1 N2 J HR IS O R4) as (u & E & G).
        -- intros d. rewrite V, R6, isin_app, ?M. destruct (d =? b), (isin d (s_src sm)); reflexivity.
        -- intros (X & _). congruence.
        -- rewrite E. cbn [obind]. rewrite RC in G. eexists. split; [reflexivity|]. exact G.
    + rewrite LEN. destruct (length sl =? maxmem)%nat; [apply SAME|].
      set (p := match a with Some b => graft (mkF Und Inc []) b Inc | None => mkF Und Exc [] end).
      set (ym := match a with None => mkSm i g Exc [] | Some b => mkSm i g Inc [b] end).
      assert (O : okp zf p).
      { unfold p, graft. destruct a as [b|]; constructor; cbn [f0 f1 fs app keys map fst].
        - constructor; [intros []|constructor].
        - intros d [<-|[]]. apply IN. left. reflexivity.
        - reflexivity.
        - discriminate.
        - intros d. unfold view0, view1, zf. cbn [fs app look]. destruct (d =? b); reflexivity.
        - constructor; [left; reflexivity|constructor].
        - constructor.
        - intros d [].
        - reflexivity.
        - discriminate.
        - reflexivity.
        - constructor. }
      assert (RC : reap (commit p) = commit p) by (unfold p; destruct a; reflexivity).
      assert (SZ : settled zf) by (unfold McastMerge.settled, zf; cbn [f0 f1 fs keys map]; split; [reflexivity|]; split; [constructor|]; split; [intros ? []|constructor]).
      assert (P : pend zf p (commit p)) by (rewrite <- RC; apply okp_pend; [exact SZ|reflexivity|exact O]).
      destruct (join_ok U maxgrp HU fed (socks x) (mus x) s l i g p (commit p) c (proj2 H) N1 P) as (u & E & G). rewrite E. cbn [obind]. eexists. split; [reflexivity|].
      split; [|exact G]. cbn [fst socks]. apply f2_upd; [exact (proj1 H)|]. apply Forall2_app; [exact NS|]. constructor; [|constructor].
      pose proof (okp_settled U _ _ O) as S'. rewrite RC in S'. unfold McastInv.R, ym. destruct a as [b|]; cbn [m_if m_gr m_f s_if s_gr s_mode s_src].
      * split; [reflexivity|]. split; [reflexivity|]. split; [exact S'|]. split; [reflexivity|]. split; [discriminate|]. intros d. unfold view1, isin, p. cbn [commit graft fs app map look existsb]. destruct (d =? b); reflexivity.
      * split; [reflexivity|]. split; [reflexivity|]. split; [exact S'|]. split; [reflexivity|]. split; [discriminate|]. intros d. reflexivity.
  - (* leave *)
    unfold leave. rewrite N1. destruct (is_mc g); cbn [negb]; [|apply SAME].
    pose proof (find_member U l sl i g NS) as FM. destruct (find_group l i g) as [j|], (member sl i g) as [[j' sm]|]; try contradiction; [|apply SAME].
    destruct FM as (-> & J & HR & IS). pose proof HR as (R1 & R2 & R3 & R4 & R5 & R6). destruct a as [b|].
    + replace (f0 (m_f (nth j l dm))) with (s_mode sm) by (destruct R3; congruence). destruct (R_look U _ _ b HR) as [LK LS].
      destruct (s_mode sm) eqn:M; try congruence; cbn [meq orb]; [|apply SAME]. unfold prune. destruct (look b (fs (m_f (nth j l dm)))) as [z|] eqn:L.
      * pose proof (LS z eq_refl) as Z0. subst z. destruct (isin b (s_src sm)) eqn:Q; cbn [negb].
        2: { exfalso. assert (X : Some (Inc, Inc) = None) by (apply LK; reflexivity). discriminate. }
        destruct (put_step U _ _ b Inc Inc Und (okp_self U _ R3 ltac:(congruence)) L (or_intror eq_refl)) as [O V].
        destruct (change_R x y s l sl j sm _ c Inc (filter (fun y0 => negb (y0 =? b)) (s_src sm)) H FF N1 N2 J HR IS O R4) as (u & E & G).
        -- intros d. rewrite V, R6, isin_del, ?M. destruct (d =? b), (isin d (s_src sm)); reflexivity.
        -- intros (X & _). congruence.
        -- rewrite E. cbn [obind]. eexists. split; [reflexivity|]. exact G.
      * rewrite (proj1 LK eq_refl). cbn [negb]. apply SAME.
    + destruct (leave_ok U maxgrp HU fed (socks x) (mus x) s l j (imf_leave (m_f (nth j l dm))) c (proj2 H) (conj N1 J)) as (u & E & G).
      * apply leave_pend; [exact R3|congruence].
      * intros FD. exact (full_fed y sl s _ _ FF N2 IS HR FD).
      * rewrite E. cbn [obind]. eexists. split; [reflexivity|]. split; [|exact G]. cbn [fst socks]. apply f2_upd; [exact (proj1 H)|]. apply f2_remove. exact NS.
  - (* block *)
    unfold block. rewrite N1. destruct (is_mc g); cbn [negb]; [|apply SAME].
    pose proof (find_member U l sl i g NS) as FM. destruct (find_group l i g) as [j|], (member sl i g) as [[j' sm]|]; try contradiction; [|apply SAME].
    destruct FM as (-> & J & HR & IS). pose proof HR as (R1 & R2 & R3 & R4 & R5 & R6).
    replace (f0 (m_f (nth j l dm))) with (s_mode sm) by (destruct R3; congruence). destruct (R_look U _ _ a HR) as [LK LS].
    destruct (s_mode sm) eqn:M; try congruence; cbn [meq negb]; [apply SAME|]. destruct (look a (fs (m_f (nth j l dm)))) as [z|] eqn:L.
    + destruct (isin a (s_src sm)) eqn:Q; [apply SAME|]. exfalso. assert (X : Some z = None) by (apply LK; reflexivity). discriminate.
    + rewrite (proj1 LK eq_refl). destruct (graft_step U _ _ a (okp_self U _ R3 ltac:(congruence)) L (IN a ltac:(left; reflexivity))) as [O V]. rewrite R4 in O, V.
      destruct (change_R x y s l sl j sm _ c Exc (s_src sm ++ [a]) H FF N1 N2 J HR IS O R4) as (u & E & G).
      * intros d. rewrite V, R6, isin_app, ?M. destruct (d =? a), (isin d (s_src sm)); reflexivity.
      * intros (_ & _ & _ & X). destruct (s_src sm); discriminate.
      * rewrite E. cbn [obind]. eexists. split; [reflexivity|]. exact G.
  - (* unblock *)
    unfold block. rewrite N1. destruct (is_mc g); cbn [negb]; [|apply SAME].
    pose proof (find_member U l sl i g NS) as FM. destruct (find_group l i g) as [j|], (member sl i g) as [[j' sm]|]; try contradiction; [|apply SAME].
    destruct FM as (-> & J & HR & IS). pose proof HR as (R1 & R2 & R3 & R4 & R5 & R6).
    replace (f0 (m_f (nth j l dm))) with (s_mode sm) by (destruct R3; congruence). destruct (R_look U _ _ a HR) as [LK LS].
    destruct (s_mode sm) eqn:M; try congruence; cbn [meq negb]; [apply SAME|]. unfold prune. destruct (look a (fs (m_f (nth j l dm)))) as [z|] eqn:L.
    + pose proof (LS z eq_refl) as Z0. subst z. destruct (isin a (s_src sm)) eqn:Q.
      2: { exfalso. assert (X : Some (Exc, Exc) = None) by (apply LK; reflexivity). discriminate. }
      destruct (put_step U _ _ a Exc Exc Und (okp_self U _ R3 ltac:(congruence)) L (or_intror eq_refl)) as [O V].
      destruct (change_R x y s l sl j sm _ c Exc (filter (fun y0 => negb (y0 =? a)) (s_src sm)) H FF N1 N2 J HR IS O R4) as (u & E & G).
      * intros d. rewrite V, R6, isin_del, ?M. destruct (d =? a), (isin d (s_src sm)); reflexivity.
      * intros (_ & X & _). rewrite X in Q. discriminate.
      * rewrite E. cbn [obind]. eexists. split; [reflexivity|]. exact G.
    + rewrite (proj1 LK eq_refl). apply SAME.
  - (* set *)
    unfold set_filter. rewrite N1. destruct (maxsock <? length srcs)%nat; [apply SAME|]. destruct (meq md Und || negb (is_mc g)) eqn:MD; [apply SAME|].
    apply orb_false_iff in MD. destruct MD as [MD _]. apply meq_neq in MD. cbn [clean] in CL. rewrite N2 in CL. destruct CL as [NE CL].
    pose proof (find_member U l sl (Some i) g NS) as FM. destruct (find_group l (Some i) g) as [j|], (member sl (Some i) g) as [[j' sm]|]; try contradiction; [|apply SAME].
    destruct FM as (-> & J & HR & IS). pose proof HR as (R1 & R2 & R3 & R4 & R5 & R6). set (f := m_f (nth j l dm)) in *.
    destruct (leave_step U f md R3 MD) as [O V]. set (p := mkF (f0 f) md (fs (imf_leave f))) in *.
    assert (LP : (length (fs p) + length srcs <= maxsock)%nat).
    { pose proof (R_len U _ _ HR) as X. unfold p. cbn [fs]. rewrite leave_fs, map_length. fold f in X. lia. }
    destruct (get_all_ok U maxsock srcs f p O IN LP) as (p' & E & O' & F' & V').
    destruct srcs as [|a0 q] eqn:SQ; [congruence|]. rewrite <- SQ in *. cbv zeta.
    match goal with |- context [get_all maxsock ?P ?L] => change (get_all maxsock P L) with (get_all maxsock p L); replace (get_all maxsock p L) with (p', true) end.
    cbv beta iota. destruct (change_R x y s l sl j sm p' c md (nodup Z.eq_dec srcs) H FF N1 N2 J HR IS O' F') as (u & E' & G).
    + intros d. rewrite V', V, isin_nodup. reflexivity.
    + intros (_ & _ & _ & X). assert (Y : In a0 (nodup Z.eq_dec srcs)) by (apply nodup_In; rewrite SQ; left; reflexivity). rewrite X in Y. destruct Y.
    + fold f in E'. rewrite E'. cbn [obind]. eexists. split; [reflexivity|]. exact G.
  - (* close *)
    unfold close. rewrite N1. destruct (free_all_ok l (socks x) s (mus x) c (proj2 H) N1) as (u & E & G).
    + apply Forall_forall. intros m X. assert (Y : exists sm, In sm sl /\ R m sm).
      { clear - NS X. induction NS as [|a b p q A B IH]; [destruct X|]. destruct X as [->|X]; [exists b; split; [left; reflexivity|exact A]|]. destruct (IH X) as (sm & P & Q). exists sm. split; [right; exact P|exact Q]. }
      destruct Y as (sm & IS & HR). pose proof HR as (R1 & R2 & R3 & R4 & R5 & R6). split; [exact R3|]. split; [congruence|]. intros FD. exact (full_fed y sl s _ _ FF N2 IS HR FD).
    + rewrite E. cbn [obind]. eexists. split; [reflexivity|]. split; [|exact G]. cbn [fst socks]. apply f2_upd; [exact (proj1 H)|constructor].
Qed.
End I.
