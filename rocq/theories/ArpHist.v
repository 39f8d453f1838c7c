From Verif Require Import Base ArpModel ArpSpec ArpProof ArpStep.
From Coq Require Import Permutation.
Ltac Zify.zify_post_hook ::= idtac.

Definition pend (c : acfg) (s : arp) (v ip : Z) : list (Z * Z) :=
  match arp_lookup s (hash c v ip) v ip with Some i => e_pkts (ents s i) | None => [] end.
Definition view c s v ip := (known c s v ip, pend c s v ip).

Lemma view_none c s v ip : inv c s -> (forall i, ~ names c s i v ip) -> view c s v ip = (None, []).
Proof.
  intros I N. unfold view. rewrite known_none by auto. unfold pend. destruct (arp_lookup _ _ _ _) eqn:L; [|auto].
  apply (lookup_some c s v ip n I) in L. now apply N in L.
Qed.
Lemma view_at c s v ip i : inv c s -> names c s i v ip ->
  view c s v ip = (if e_compl (ents s i) then Some (e_mac (ents s i)) else None, e_pkts (ents s i)).
Proof. intros I N. unfold view. rewrite (known_at c s v ip i I N). unfold pend. apply (lookup_some c s v ip i I) in N. now rewrite N. Qed.
Lemma names_dec c s v ip : inv c s -> (exists i, names c s i v ip) \/ (forall i, ~ names c s i v ip).
Proof.
  intros I. destruct (arp_lookup s (hash c v ip) v ip) as [i|] eqn:L.
  - left. exists i. now apply lookup_some.
  - right. now apply lookup_none.
Qed.
Lemma sim_names c s s' i v ip : sim (ents s i) (ents s' i) -> (names c s' i v ip <-> names c s i v ip).
Proof.
  intros (A1 & _ & _ & _ & A5 & _). unfold names. split.
  - intros (R & U & V & P). rewrite A1 in U. destruct (A5 U) as (B1 & B2 & _). rewrite <- B1, <- B2. auto.
  - intros (R & U & V & P). destruct (A5 U) as (B1 & B2 & _). rewrite A1, B1, B2. auto.
Qed.
Lemma view_sim c s s' v ip i : inv c s -> inv c s' -> names c s i v ip -> sim (ents s i) (ents s' i) -> view c s' v ip = view c s v ip.
Proof.
  intros I I' N S. rewrite (view_at c s v ip i I N), (view_at c s' v ip i I'); [|now apply (sim_names c s s' i v ip S)].
  destruct S as (_ & A2 & _ & A4 & _ & A6). rewrite A2, A4. destruct (e_compl (ents s i)); [|auto]. now rewrite A6.
Qed.
Lemma view_quiet c s s' v ip : inv c s -> inv c s' -> quiet s s' -> view c s' v ip = view c s v ip.
Proof.
  intros I I' Q. destruct (names_dec c s v ip I) as [(i & N)|N].
  - apply (view_sim c s s' v ip i); auto.
  - rewrite !view_none; auto. intros i Y. apply (N i). now apply (sim_names c s s' i v ip (Q i)).
Qed.
Lemma view_others c s s' v ip i : inv c s -> inv c s' -> others s s' i -> ~ names c s i v ip -> ~ names c s' i v ip ->
  view c s' v ip = view c s v ip.
Proof.
  intros I I' O N0 N1. destruct (names_dec c s v ip I) as [(j & N)|N].
  - apply (view_sim c s s' v ip j); auto. apply O. intros ->. contradiction.
  - rewrite !view_none; auto. intros j Y. destruct (Nat.eq_dec j i) as [->|Nj]; [contradiction|].
    apply (N j). now apply (sim_names c s s' j v ip (O j Nj)).
Qed.
Lemma view_gone c s s' v ip i : inv c s -> inv c s' -> others s s' i -> names c s i v ip -> isfree c s' i -> view c s' v ip = (None, []).
Proof.
  intros I I' O N [_ F]. apply view_none; auto. intros j Y. destruct (Nat.eq_dec j i) as [->|Nj].
  - destruct Y as (_ & U & _). congruence.
  - apply (sim_names c s s' j v ip (O j Nj)) in Y. apply Nj. apply (names_unq c s v ip); auto.
Qed.
Lemma free_names c s i v ip : isfree c s i -> ~ names c s i v ip.
Proof. intros [_ F] (_ & U & _). congruence. Qed.
Lemma names_key c s i v ip v' ip' : names c s i v ip -> names c s i v' ip' -> v = v' /\ ip = ip'.
Proof. intros (_ & _ & A & B) (_ & _ & A' & B'). split; congruence. Qed.

Lemma unref_true c s i n v ip : unref c s i n v ip = true <-> names c s i v ip /\ e_ref (ents s i) = n.
Proof. unfold unref. rewrite andb_true_iff, namesb_iff, Z.eqb_eq. tauto. Qed.

Definition after (c : acfg) (s : arp) (op : aop) (r : ares) (v ip : Z) : option Z * list (Z * Z) :=
  match learns op r v ip with
  | Some m => (Some m, [])
  | None => if removes c s op v ip then (None, []) else (known c s v ip, accepts c s op r v ip ++ pend c s v ip)
  end.

Lemma gone_view c s s' v ip i n : inv c s -> inv c s' -> others s s' i -> rng c i -> e_used (ents s i) = true ->
  e_ref (ents s i) = n -> isfree c s' i ->
  view c s' v ip = if unref c s i n v ip then (None, []) else view c s v ip.
Proof.
  intros I I' O R U E F. destruct (unref c s i n v ip) eqn:X.
  - apply unref_true in X. destruct X as [N _]. apply (view_gone c s s' v ip i); auto.
  - apply (view_others c s s' v ip i); auto; [|now apply free_names]. intros N.
    assert (unref c s i n v ip = true) by (apply unref_true; auto). congruence.
Qed.

Lemma step_view c s op s' r v ip : inv c s -> inv c s' -> op_ok c s op -> (forall a b, (hash c a b < nset c)%nat) ->
  eff c s op s' r -> view c s' v ip = after c s op r v ip.
Proof.
  intros I I' OK HH E. unfold after. fold (view c s v ip).
  destruct E as [v0 ip0 mac man now cok s' i N' X O C M P F
    |v0 ip0 mac man now cok s' Q F N
    |v0 ip0 now tok cok s' i N Q
    |v0 ip0 now tok cok s' i F N N' O C P RF
    |v0 ip0 now tok cok s' Q F N
    |i s' O N C M P F
    |i s' O N1 N C M P F
    |i s' O N1 F P RF
    |i s' Q X
    |i s' O RF R U F P RF'
    |v0 ip0 now tok s' Q
    |i s' Q
    |pkt nh lo v0 ip0 idx now tok cok tst mac s' Q K
    |pkt nh lo v0 ip0 idx now tok cok tst s' Q K
    |pkt nh v0 ip0 idx now tok cok tst s' i O N C P RF F P' RF' K
    |pkt nh lo v0 ip0 idx now tok cok tst s' i v' ip' O X Y N C C' P RF K
    |i s' Q
    |now s' X
    |s' X]; cbn [learns removes accepts r_rc app];
    try change (known c s v ip, pend c s v ip) with (view c s v ip).
  - destruct ((v0 =? v) && (ip0 =? ip)) eqn:B.
    + apply andb_true_iff in B. rewrite !Z.eqb_eq in B. destruct B as [-> ->].
      rewrite (view_at c s' v ip i I' N'), C, M, P. reflexivity.
    + assert (NK : forall s0, names c s0 i v0 ip0 -> ~ names c s0 i v ip).
      { intros s0 A B'. destruct (names_key _ _ _ _ _ _ _ A B') as [-> ->]. rewrite !Z.eqb_refl in B. discriminate. }
      apply (view_others c s s' v ip i); auto. destruct X as [X|[X _]]; [auto|now apply free_names].
  - apply view_quiet; auto.
  - apply view_quiet; auto.
  - destruct (names_dec c s' v ip I') as [(j & Nj)|Nj].
    + destruct (Nat.eq_dec j i) as [->|D].
      * destruct (names_key _ _ _ _ _ _ _ N' Nj) as [-> ->]. rewrite (view_at c s' v ip i I' N'), C, P.
        rewrite <- (view_none c s v ip); auto.
      * assert (~ names c s' i v ip). { intros Y. apply D. apply (names_unq c s' v ip); auto. }
        apply (view_others c s s' v ip i); auto. now apply free_names.
    + apply (view_others c s s' v ip i); auto. now apply free_names.
  - apply view_quiet; auto.
  - destruct OK as (R & U & _). assert (Ns : names c s i (e_vrf (ents s i)) (e_ip (ents s i))) by (split; auto).
    destruct (names_dec c s v ip I) as [(j & Nj)|Nj].
    + destruct (Nat.eq_dec j i) as [->|D].
      * destruct (names_key _ _ _ _ _ _ _ Ns Nj) as [<- <-]. rewrite (view_at _ _ _ _ _ I' N), C, M, P. now rewrite <- (view_at _ _ _ _ _ I Ns).
      * apply (view_sim c s s' v ip j); auto.
    + rewrite (view_none c s v ip I Nj). apply view_none; auto. intros j Y. destruct (Nat.eq_dec j i) as [->|D].
      * destruct (names_key _ _ _ _ _ _ _ N Y) as [<- <-]. now apply (Nj i).
      * apply (Nj j). now apply (sim_names c s s' j v ip (O j D)).
  - destruct OK as (R & NZ). pose proof (ref_used c s i I R NZ) as U.
    assert (Ns : names c s i (e_vrf (ents s i)) (e_ip (ents s i))) by (split; auto).
    replace (unref c s i 1 v ip) with false.
    2:{ symmetry. destruct (unref c s i 1 v ip) eqn:Y; [|auto]. apply unref_true in Y. tauto. }
    destruct (names_dec c s v ip I) as [(j & Nj)|Nj].
    + destruct (Nat.eq_dec j i) as [->|D].
      * destruct (names_key _ _ _ _ _ _ _ Ns Nj) as [<- <-]. rewrite (view_at _ _ _ _ _ I' N), C, M, P. now rewrite <- (view_at _ _ _ _ _ I Ns).
      * apply (view_sim c s s' v ip j); auto.
    + rewrite (view_none c s v ip I Nj). apply view_none; auto. intros j Y. destruct (Nat.eq_dec j i) as [->|D].
      * destruct (names_key _ _ _ _ _ _ _ N Y) as [<- <-]. now apply (Nj i).
      * apply (Nj j). now apply (sim_names c s s' j v ip (O j D)).
  - destruct OK as (R & NZ). pose proof (ref_used c s i I R NZ) as U. apply gone_view; auto.
  - rewrite X. apply view_quiet; auto.
  - apply gone_view; auto.
  - apply view_quiet; auto.
  - apply view_quiet; auto.
  - apply view_quiet; auto.
  - apply view_quiet; auto.
  - destruct (names_dec c s v ip I) as [(j & Nj)|Nj].
    + destruct (Nat.eq_dec j i) as [->|D].
      * rewrite (view_gone c s s' v ip i); auto. rewrite (view_at c s v ip i I Nj), C, P. reflexivity.
      * apply (view_sim c s s' v ip j); auto.
    + apply (view_others c s s' v ip i); auto. now apply free_names.
  - assert (A : (if (if lo then (v0 =? v) && (ip0 =? ip) else namesb c s v ip idx) then [(pkt, nh)] else []) =
                (if (v' =? v) && (ip' =? ip) then [(pkt, nh)] else [])).
    { destruct lo; [injection X as -> ->; reflexivity|]. destruct X as [-> X].
      destruct (namesb c s v ip i) eqn:B.
      - apply namesb_iff in B. destruct (names_key _ _ _ _ _ _ _ X B) as [-> ->]. now rewrite !Z.eqb_refl.
      - destruct ((v' =? v) && (ip' =? ip)) eqn:B2; [|auto]. apply andb_true_iff in B2. rewrite !Z.eqb_eq in B2. destruct B2 as [-> ->].
        apply namesb_iff in X. congruence. }
    rewrite A. destruct ((v' =? v) && (ip' =? ip)) eqn:B.
    + apply andb_true_iff in B. rewrite !Z.eqb_eq in B. destruct B as [-> ->]. rewrite (view_at c s' v ip i I' N), C', P.
      destruct Y as [Y|[Y1 Y2]].
      * pose proof (view_at c s v ip i I Y) as W. unfold view in W. injection W as -> ->. rewrite C. reflexivity.
      * pose proof (view_none c s v ip I Y2) as W. unfold view in W. injection W as -> ->.
        destruct (free_compl c s i I Y1) as (_ & -> & _). reflexivity.
    + cbn [app]. apply (view_others c s s' v ip i); auto.
      * destruct Y as [Y|[Y _]]; [|now apply free_names]. intros Z0. destruct (names_key _ _ _ _ _ _ _ Y Z0) as [-> ->].
        rewrite !Z.eqb_refl in B. discriminate.
      * intros Z0. destruct (names_key _ _ _ _ _ _ _ N Z0) as [-> ->]. rewrite !Z.eqb_refl in B. discriminate.
  - apply view_quiet; auto.
  - set (ex := existsb _ _). assert (EX : ex = true <-> exists i, names c s i v ip /\ agecond c (ents s i) now = true).
    { unfold ex. rewrite existsb_exists. split.
      - intros (i & H1 & H2). exists i. rewrite !andb_true_iff in H2. destruct H2 as (((H2 & H3) & H4) & H5). apply unref_true in H2. destruct H2 as [H2 H6].
        split; [auto|]. unfold agecond. rewrite H3, H4, H5, H6. destruct H2 as (_ & -> & _). reflexivity.
      - intros (i & H1 & H2). exists i. split; [apply in_seq; destruct H1; lia|]. unfold agecond in H2. rewrite !andb_true_iff in H2.
        destruct H2 as ((((H2 & _) & H3) & H4) & H5). rewrite H3, H4, H5, !andb_true_r. apply unref_true. apply Z.eqb_eq in H2. auto. }
    assert (XX : forall j, rng c j -> if agecond c (ents s j) now then isfree c s' j else sim (ents s j) (ents s' j)).
    { intros j R. specialize (X j R). replace (Nat.ltb _ _) with true in X by (symmetry; apply Nat.ltb_lt; apply HH). rewrite andb_true_r in X.
      destruct (agecond _ _ _); tauto. }
    destruct ex.
    + destruct EX as [EX _]. destruct (EX eq_refl) as (i & N & AC). pose proof (XX i (proj1 N)) as Xi. rewrite AC in Xi.
      apply view_none; auto. intros j Y. pose proof (XX j (proj1 Y)) as Xj. destruct (agecond c (ents s j) now) eqn:Aj.
      * now apply (free_names c s' j v ip) in Xj.
      * apply (sim_names c s s' j v ip Xj) in Y. assert (j = i) by (apply (names_unq c s v ip); auto). congruence.
    + destruct (names_dec c s v ip I) as [(j & Nj)|Nj].
      * apply (view_sim c s s' v ip j); auto. pose proof (XX j (proj1 Nj)) as Xj. destruct (agecond c (ents s j) now) eqn:Aj; [|auto].
        destruct EX as [_ EX]. discriminate EX. exists j. auto.
      * rewrite view_none; [symmetry; now apply view_none|auto|]. intros j Y. pose proof (XX j (proj1 Y)) as Xj. destruct (agecond c (ents s j) now) eqn:Aj.
        -- now apply (free_names c s' j v ip) in Xj.
        -- apply (Nj j). now apply (sim_names c s s' j v ip Xj).
  - apply view_none; auto. intros j Y. destruct (X j (proj1 Y)) as [F _]. now apply (free_names c s' j v ip) in F.
Qed.

(* --- packets waiting --- *)
Lemma wait_ext (f g : nat -> list (Z * Z)) l : (forall j, In j l -> g j = f j) -> flat_map g l = flat_map f l.
Proof. induction l; intros H; cbn; [auto|]. rewrite H by now left. f_equal. apply IHl. intros. apply H. now right. Qed.
Lemma wait_one (f g : nat -> list (Z * Z)) i l : NoDup l -> In i l -> (forall j, In j l -> j <> i -> g j = f j) ->
  exists a b, flat_map f l = a ++ f i ++ b /\ flat_map g l = a ++ g i ++ b.
Proof.
  induction l as [|x l IH]; intros ND HI H; [destruct HI|]. apply NoDup_cons_iff in ND. destruct ND as [NI ND].
  destruct (Nat.eq_dec x i) as [->|D].
  - exists [], (flat_map f l). cbn. split; [auto|]. f_equal. apply wait_ext. intros j Hj. apply H; [now right|]. intros ->. contradiction.
  - destruct HI as [?|HI]; [contradiction|]. destruct (IH ND HI) as (a & b & E1 & E2); [intros; apply H; [now right|auto]|].
    exists (f x ++ a), b. cbn. rewrite E1, E2, (H x); [|now left|auto]. now rewrite <- !app_assoc.
Qed.
Lemma rng_in c j : In j (seq 1 (nent c)) <-> rng c j.
Proof. rewrite in_seq. unfold rng. lia. Qed.
Lemma waiting_quiet c s s' : quiet s s' -> waiting c s' = waiting c s.
Proof. intros Q. unfold waiting. apply wait_ext. intros j _. destruct (Q j) as (_ & E & _). exact E. Qed.
Lemma waiting_swap c s s' i : rng c i -> others s s' i -> Permutation (waiting c s' ++ e_pkts (ents s i)) (e_pkts (ents s' i) ++ waiting c s).
Proof.
  intros R O. unfold waiting.
  destruct (wait_one (fun j => e_pkts (ents s j)) (fun j => e_pkts (ents s' j)) i (seq 1 (nent c))) as (a & b & -> & ->).
  - apply seq_NoDup.
  - now apply rng_in.
  - intros j _ D. now destruct (O j D) as (_ & E & _).
  - cbn beta. rewrite <- !app_assoc.
    rewrite (Permutation_app_comm a). rewrite <- !app_assoc. apply Permutation_app_head.
    rewrite (Permutation_app_comm a). rewrite <- app_assoc. rewrite (Permutation_app_comm b). rewrite <- !app_assoc.
    apply Permutation_refl || (rewrite (Permutation_app_comm a); apply Permutation_refl).
Qed.
Lemma waiting_nil c s : (forall j, rng c j -> e_pkts (ents s j) = []) -> waiting c s = [].
Proof.
  intros H. unfold waiting. assert (X : forall l, (forall j, In j l -> rng c j) -> flat_map (fun i => e_pkts (ents s i)) l = []).
  { induction l; intros Y; cbn; [auto|]. rewrite H by (apply Y; now left). apply IHl. intros. apply Y. now right. }
  apply X. intros j. apply rng_in.
Qed.

Lemma conserve c s op s' r : inv c s -> op_ok c s op -> eff c s op s' r ->
  Permutation (waiting c s' ++ r_sent r ++ r_lost r) (nacc op r ++ waiting c s).
Proof.
  intros I OK E.
  assert (SW : forall i s', rng c i -> others s s' i -> e_pkts (ents s' i) = [] -> Permutation (waiting c s' ++ e_pkts (ents s i)) (waiting c s)).
  { intros i s0 R O P. pose proof (waiting_swap c s s0 i R O) as W. now rewrite P in W. }
  assert (KEEP : forall i s', rng c i -> others s s' i -> e_pkts (ents s' i) = e_pkts (ents s i) -> waiting c s' = waiting c s).
  { intros i s0 R O P. unfold waiting. apply wait_ext. intros j _. destruct (Nat.eq_dec j i) as [->|D]; [auto|]. now destruct (O j D) as (_ & X & _). }
  destruct E; cbn [r_sent r_lost nacc r_rc app] in *; rewrite ?app_nil_r.
  - apply (SW i s'); auto. apply H.
  - now rewrite (waiting_quiet c s s').
  - now rewrite (waiting_quiet c s s').
  - rewrite (KEEP i s'); auto; [apply H1|]. destruct (free_compl c s i I H) as (_ & -> & _). auto.
  - now rewrite (waiting_quiet c s s').
  - rewrite (KEEP i s'); auto. apply H0.
  - rewrite (KEEP i s'); auto. apply H1.
  - apply (SW i s'); auto. apply H1.
  - now rewrite (waiting_quiet c s s').
  - apply (SW i s'); auto.
  - rewrite (waiting_quiet c s s' H). destruct (known c s v ip); reflexivity.
  - rewrite (waiting_quiet c s s' H). destruct (get_mac_by_idx s i); reflexivity.
  - now rewrite (waiting_quiet c s s').
  - now rewrite (waiting_quiet c s s').
  - rewrite (KEEP i s'); auto; [apply H0|]. congruence.
  - assert (R : rng c i) by apply H2. pose proof (waiting_swap c s s' i R H) as W. rewrite H5 in W.
    apply (Permutation_app_inv_r (e_pkts (ents s i))). rewrite W. cbn [app]. constructor. apply Permutation_app_comm.
  - now rewrite (waiting_quiet c s s').
  - unfold waiting. rewrite (wait_ext (fun i => e_pkts (ents s i)) (fun i => e_pkts (ents s' i))); [reflexivity|].
    intros j Hj. apply rng_in in Hj. specialize (H j Hj). destruct (agecond c (ents s j) now && _) eqn:AC; [|now destruct H as (_ & X & _)].
    destruct H as (_ & -> & _). unfold agecond in AC. destruct (e_pkts (ents s j)); [auto|]. rewrite andb_false_r in AC. discriminate.
  - rewrite (waiting_nil c s'); [reflexivity|]. intros j R. apply H. auto.
Qed.

(* --- histories --- *)
Lemma init_inv c : inv c (arp_init c) /\ pool c (arp_init c).
Proof.
  assert (X : forall j, rng c j -> e_used (ents (arp_init c) j) = false /\ entok (ents (arp_init c) j) /\ e_pkts (ents (arp_init c) j) = []).
  { intros j R. destruct j; [unfold rng in R; lia|]. cbn. unfold entok. cbn. auto 10. }
  split.
  - constructor.
    + apply seq_NoDup.
    + intros j. cbn [arp_init init_tables afree]. rewrite in_seq. split.
      * intros H. assert (rng c j) by (unfold rng; lia). split; [auto|now apply X].
      * intros [H _]. unfold rng in H. lia.
    + constructor.
    + intros st j. split; [intros []|]. intros (R & U & _). apply X in R. destruct R. congruence.
    + intros j k Rj _ U. apply X in Rj. destruct Rj. congruence.
    + now left.
    + intros j Rj. now apply X.
    + cbn. split; [auto|]. split; [auto|]. lia.
  - unfold pool. rewrite (waiting_nil c (arp_init c)); [change (pfree (arp_init c)) with NPKT; cbn; unfold NPKT; lia|]. intros j R. now apply X.
Qed.
Lemma hist_inv c t s : history c t s -> inv c s /\ pool c s.
Proof.
  induction 1 as [|t s op s' r H [I P] OK E]; [apply init_inv|].
  destruct (astep_good c s op I P OK) as (s1 & r1 & E1 & I1 & EF & P0 & PF). rewrite E in E1. injection E1 as <- <-.
  split; [auto|]. split; [|auto]. pose proof (conserve c s op s' r I OK EF) as C. apply Permutation_length in C. rewrite !app_length in C.
  destruct P as [P _]. unfold pool in *. lia.
Qed.
Lemma hist_eff c t s op s' r : history c t s -> op_ok c s op -> astep c s op = Ret (s', r) -> inv c s /\ inv c s' /\ eff c s op s' r.
Proof.
  intros H OK E. destruct (hist_inv c t s H) as [I P].
  destruct (astep_good c s op I P OK) as (s1 & r1 & E1 & I1 & EF & _). rewrite E in E1. injection E1 as <- <-. auto.
Qed.
Lemma hist_view c t s v ip : (forall a b, (hash c a b < nset c)%nat) -> history c t s -> view c s v ip = (last_mac c t v ip, pending c t v ip).
Proof.
  intros HH. induction 1 as [|t s op s' r H IH OK E].
  - destruct (init_inv c) as [I _]. rewrite view_none; auto. intros i N. destruct N as (R & U & _). destruct i; [lia|]. discriminate.
  - destruct (hist_eff c t s op s' r H OK E) as (I & I' & EF). rewrite (step_view c s op s' r v ip I I' OK HH EF). unfold after.
    unfold view in IH. injection IH as -> ->. cbn [last_mac pending]. destruct (learns op r v ip); [auto|]. destruct (removes c s op v ip); auto.
Qed.
Lemma hist_conserve c t s : history c t s -> Permutation (waiting c s ++ all_sent t ++ all_lost t) (all_accepted t).
Proof.
  induction 1 as [|t s op s' r H IH OK E].
  - cbn. rewrite app_nil_r. rewrite waiting_nil; [reflexivity|]. intros j R. destruct j; [unfold rng in R; lia|]. reflexivity.
  - destruct (hist_eff c t s op s' r H OK E) as (I & I' & EF). pose proof (conserve c s op s' r I OK EF) as C.
    unfold all_sent, all_lost in *. cbn [flat_map snd].
    assert (A : all_accepted ((s, op, r) :: t) = nacc op r ++ all_accepted t).
    { cbn [all_accepted]. unfold nacc. destruct op; try reflexivity. destruct r as [rc ? ? ? ?]. destruct rc; reflexivity. }
    rewrite A, <- IH. clear A IH. set (S1 := flat_map _ t). set (L1 := flat_map _ t).
    transitivity ((waiting c s' ++ r_sent r ++ r_lost r) ++ S1 ++ L1).
    + rewrite <- !app_assoc. apply Permutation_app_head, Permutation_app_head. rewrite !app_assoc. apply Permutation_app_tail, Permutation_app_comm.
    + rewrite C. rewrite <- !app_assoc. reflexivity.
Qed.

Lemma held_step c s op s' r i : inv c s -> op_ok c s op -> eff c s op s' r -> rng c i ->
  e_ref (ents s' i) = match op with
                      | OInc j => e_ref (ents s i) + (if Nat.eqb j i then 1 else 0)
                      | ODec j => e_ref (ents s i) - (if Nat.eqb j i then 1 else 0)
                      | OFlush => 0
                      | _ => e_ref (ents s i) end.
Proof.
  intros I OK E R.
  assert (SM : forall s', sim (ents s i) (ents s' i) -> e_ref (ents s' i) = e_ref (ents s i)) by (now intros s0 (_ & _ & ? & _)).
  assert (OT : forall j s', others s s' j -> e_ref (ents s' j) = e_ref (ents s j) -> e_ref (ents s' i) = e_ref (ents s i)).
  { intros j s0 O P. destruct (Nat.eq_dec i j) as [->|D]; [auto|]. now apply SM, O. }
  destruct E; try (now apply SM); try (now apply (OT i0 s'); [auto|congruence]).
  - apply (OT i0 s'); [auto|]. destruct (free_compl c s i0 I H) as (_ & _ & ->). auto.
  - destruct (Nat.eqb_spec i0 i) as [->|D]; [auto|]. rewrite SM; [lia|apply H; auto].
  - destruct (Nat.eqb_spec i0 i) as [->|D]; [auto|]. rewrite SM; [lia|apply H; auto].
  - destruct (Nat.eqb_spec i0 i) as [->|D]; [lia|]. rewrite SM; [lia|apply H; auto].
  - specialize (H i R). destruct (agecond c (ents s i) now && _) eqn:AC; [|now apply SM]. destruct H as (_ & _ & ->).
    unfold agecond in AC. destruct (e_ref (ents s i) =? 0) eqn:Z0; [lia|discriminate].
  - apply H. auto.
Qed.
Lemma hist_held c t s i : history c t s -> rng c i -> e_ref (ents s i) = held t i.
Proof.
  intros H R. induction H as [|t s op s' r H IH OK E].
  - destruct i; [unfold rng in R; lia|]. reflexivity.
  - destruct (hist_eff c t s op s' r H OK E) as (I & I' & EF). rewrite (held_step c s op s' r i I OK EF R). cbn [held]. rewrite IH. destruct op; reflexivity.
Qed.
Lemma keep_step c s op s' r i v ip : inv c s -> op_ok c s op -> eff c s op s' r ->
  names c s i v ip -> e_ref (ents s i) <> 0 -> op <> OFlush -> ~ (op = ODec i /\ e_ref (ents s i) = 1) -> names c s' i v ip.
Proof.
  intros I OK E N NZ NF ND.
  assert (SM : forall s', sim (ents s i) (ents s' i) -> names c s' i v ip) by (intros s0 X; now apply (sim_names c s s0 i v ip X)).
  assert (OT : forall j s', others s s' j -> (j = i -> names c s' i v ip) -> names c s' i v ip).
  { intros j s0 O P. destruct (Nat.eq_dec j i) as [D|D]; [auto|]. apply SM, O. auto. }
  destruct E; try (now apply SM); try congruence.
  - apply (OT i0 s' H1). intros ->. destruct H0 as [H0|[H0 _]]; [|now apply (free_names c s i v ip) in H0].
    destruct (names_key _ _ _ _ _ _ _ N H0) as [-> ->]. auto.
  - apply (OT i0 s' H2). intros ->. now apply (free_names c s i v ip) in H.
  - apply (OT i0 s' H). intros ->. destruct N as (? & ? & <- & <-). auto.
  - apply (OT i0 s' H). intros ->. destruct N as (? & ? & <- & <-). auto.
  - apply (OT i0 s' H). intros ->. exfalso. auto.
  - apply (OT i0 s' H). intros ->. exfalso. auto.
  - apply (OT i0 s' H). intros ->. exfalso. auto.
  - apply (OT i0 s' H). intros ->. destruct H1 as [H1|[H1 _]]; [|now apply (free_names c s i v ip) in H1].
    destruct (names_key _ _ _ _ _ _ _ N H1) as [-> ->]. auto.
  - pose proof (H i (proj1 N)) as X. destruct (agecond c (ents s i) now && _) eqn:AC; [|now apply SM].
    exfalso. unfold agecond in AC. destruct (e_ref (ents s i) =? 0) eqn:Z0; [lia|discriminate].
Qed.
