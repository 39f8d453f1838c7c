From Verif Require Import Base PcbModel PcbSpec PcbProof.
Ltac Zify.zify_post_hook ::= idtac.

(* ---- the invariant is kept ---- *)
Definition unhashed (x : option pcb) : Prop := match x with Some p => hashed p = false /\ pcb_ok p | None => True end.
Definition free_slot (x : option pcb) : Prop := match x with Some p => hashed p = false | None => True end.
Lemma holds_frame d d' i : (forall j, j <> i -> pcbs d' j = pcbs d j) -> forall j p, j <> i -> holds d' j p <-> holds d j p.
Proof. intros F j p N. unfold holds. rewrite (F j N). tauto. Qed.
Lemma holds_free d i p : free_slot (pcbs d i) -> ~ holds d i p.
Proof. intros H [E K]. rewrite E in H. cbn in H. congruence. Qed.
Lemma unhashed_free x : unhashed x -> free_slot x.
Proof. destruct x; cbn; tauto. Qed.

(* a PCB that is on no list changes *)
Lemma inv_frame c d d' i : Inv c d -> hash d' = hash d -> ports d' = ports d -> (forall j, j <> i -> pcbs d' j = pcbs d j) ->
  free_slot (pcbs d i) -> unhashed (pcbs d' i) -> Inv c d'.
Proof.
  intros I E1 E2 F U U'. pose proof (unhashed_free _ U') as U2.
  assert (H : forall j p, holds d' j p <-> holds d j p).
  { intros j p. destruct (Nat.eq_dec j i) as [->|N]; [split; intros K; [destruct (holds_free d' i p U2 K)|destruct (holds_free d i p U K)]|apply (holds_frame d d' i F j p N)]. }
  constructor; try rewrite E1; try rewrite E2.
  - intros b j. rewrite (v_hash c d I b j). split; intros (p & A & B); exists p; (split; [apply H; exact A|exact B]).
  - apply (v_hash1 c d I).
  - intros b l m K. destruct (v_phd c d I b l m K) as (A & B & C & D). split; [exact A|]. split; [exact B|]. split; [exact C|]. intros j Hj. destruct (D j Hj) as (p & D1 & D2). exists p. split; [apply H; exact D1|exact D2].
  - apply (v_phd1 c d I).
  - intros j p K. apply H in K. apply (v_port c d I j p K).
  - intros j p K. destruct (Nat.eq_dec j i) as [->|N]; [rewrite K in U'; apply U'|rewrite (F j N) in K; apply (v_ok c d I j p K)].
Qed.
(* a PCB on the lists changes nothing the lists depend on *)
Lemma inv_same c d d' i p p' : Inv c d -> hash d' = hash d -> ports d' = ports d -> (forall j, j <> i -> pcbs d' j = pcbs d j) ->
  pcbs d i = Some p -> pcbs d' i = Some p' -> hashed p' = hashed p -> lport p' = lport p -> faddr p' = faddr p -> fport p' = fport p -> pcb_ok p' -> Inv c d'.
Proof.
  intros I E1 E2 F U U' S1 S2 S3 S4 Ok.
  assert (H1 : forall j q, holds d j q -> exists q', holds d' j q' /\ lport q' = lport q /\ faddr q' = faddr q /\ fport q' = fport q).
  { intros j q [A B]. destruct (Nat.eq_dec j i) as [->|N]; [rewrite U in A; injection A as <-; exists p'; split; [split; [exact U'|congruence]|auto]|exists q; split; [split; [rewrite (F j N); exact A|exact B]|auto]]. }
  assert (H2 : forall j q, holds d' j q -> exists q', holds d j q' /\ lport q' = lport q /\ faddr q' = faddr q /\ fport q' = fport q).
  { intros j q [A B]. destruct (Nat.eq_dec j i) as [->|N]; [rewrite U' in A; injection A as <-; exists p; split; [split; [exact U|congruence]|auto]|exists q; split; [split; [rewrite <- (F j N); exact A|exact B]|auto]]. }
  constructor; try rewrite E1; try rewrite E2.
  - intros b j. rewrite (v_hash c d I b j). split; intros (q & A & B); [destruct (H1 j q A) as (q' & A' & L1 & L2 & L3)|destruct (H2 j q A) as (q' & A' & L1 & L2 & L3)]; exists q'; (split; [exact A'|]); rewrite L1, L2, L3; exact B.
  - apply (v_hash1 c d I).
  - intros b l m K. destruct (v_phd c d I b l m K) as (A & B & C & D). split; [exact A|]. split; [exact B|]. split; [exact C|]. intros j Hj. destruct (D j Hj) as (q & D1 & D2). destruct (H1 j q D1) as (q' & D3 & D4 & _). exists q'. split; [exact D3|congruence].
  - apply (v_phd1 c d I).
  - intros j q K. destruct (H2 j q K) as (q' & K1 & K2 & _). rewrite <- K2. apply (v_port c d I j q' K1).
  - intros j q K. destruct (Nat.eq_dec j i) as [->|N]; [rewrite U' in K; injection K as <-; exact Ok|rewrite (F j N) in K; apply (v_ok c d I j q K)].
Qed.
Lemma inv_last c d x : Inv c d -> Inv c (set_last d x).
Proof. intros I. destruct I. constructor; assumption. Qed.

Lemma upd_eq {A} (f : nat -> A) i x : upd f i x i = x.
Proof. unfold upd. rewrite Nat.eqb_refl. reflexivity. Qed.
Lemma upd_neq {A} (f : nat -> A) i x j : j <> i -> upd f i x j = f j.
Proof. intros N. unfold upd. apply Nat.eqb_neq in N. rewrite N. reflexivity. Qed.
Lemma updZ_eq {A} (f : Z -> A) i x : updZ f i x i = x.
Proof. unfold updZ. rewrite Z.eqb_refl. reflexivity. Qed.
Lemma updZ_neq {A} (f : Z -> A) i x j : j <> i -> updZ f i x j = f j.
Proof. intros N. unfold updZ. apply Z.eqb_neq in N. rewrite N. reflexivity. Qed.
Lemma unlink_in i l j : In j (unlink i l) <-> In j l /\ j <> i.
Proof. unfold unlink. rewrite filter_In, negb_true_iff, Nat.eqb_neq. tauto. Qed.
Lemma unlink_nodup i l : NoDup l -> NoDup (unlink i l).
Proof. apply NoDup_filter. Qed.

Lemma hash_free c d i b : Inv c d -> free_slot (pcbs d i) -> ~ In i (hash d b).
Proof. intros I U H. apply (v_hash c d I) in H. destruct H as (p & H & _). apply (holds_free d i p U H). Qed.

(* add_phd *)
Lemma add_phd_keys l lp i : map fst (add_phd l lp i) = map fst l.
Proof. induction l as [|[q m] l IH]; cbn; [reflexivity|]. destruct (q =? lp); cbn; [reflexivity|congruence]. Qed.
Lemma add_phd_in l lp i : NoDup (map fst l) -> forall m0, find_phd l lp = Some m0 ->
  forall q m, In (q, m) (add_phd l lp i) <-> (q <> lp /\ In (q, m) l) \/ (q = lp /\ m = i :: m0).
Proof.
  induction l as [|[q0 m1] l IH]; cbn [map fst find_phd add_phd]; intros N m0 F q m; [discriminate|]. inversion N as [|? ? N1 N2]; subst.
  destruct (Z.eqb_spec q0 lp) as [E|E].
  - injection F as <-. subst q0. cbn [In]. split.
    + intros [K|K]; [injection K as <- <-; right; auto|]. left. split; [|right; exact K]. intros ->. apply N1. apply (in_map fst) in K. exact K.
    + intros [[K1 [K2|K2]]|[-> ->]]; [injection K2 as <- <-; contradiction|right; exact K2|left; reflexivity].
  - cbn [In]. rewrite (IH N2 m0 F). split.
    + intros [K|[[K1 K2]|K]]; [injection K as <- <-; left; split; [exact E|left; reflexivity]|left; split; [exact K1|right; exact K2]|right; exact K].
    + intros [[K1 [K2|K2]]|K]; [left; exact K2|right; left; split; assumption|right; right; exact K].
Qed.

Lemma ins_lemma c d i p' mem : Inv c d -> free_slot (pcbs d i) -> hashed p' = false -> pcb_ok (with_hashed p' true) ->
  exists d', (inshash c (set_pcb d i p') i mem = Ret (d', true) /\ Inv c d' /\ pcbs d' i = Some (with_hashed p' true) /\ (forall j, j <> i -> pcbs d' j = pcbs d j) /\ last_port d' = last_port d) \/
  (inshash c (set_pcb d i p') i mem = Ret (set_pcb d i p', false) /\ mem = false).
Proof.
  intros I U Hh Ok. remember (inshash c (set_pcb d i p') i mem) as r eqn:Er. unfold inshash, get, set_pcb in Er. cbn [pcbs set_pcbs] in Er. rewrite upd_eq in Er. cbn [obind] in Er. rewrite Hh in Er.
  set (b := porthash c (lport p')) in *. cbn [ports hash pcbs set_pcbs set_hash set_ports] in Er. unfold set_pcb.
  set (k := pcbhash c (faddr p') (lport p') (fport p')) in *.
  pose proof (find_phd_in (ports d b) (lport p')) as Fi. pose proof (add_phd_in (ports d b) (lport p') i (v_phd1 c d I b)) as Ai.
  assert (Go : forall l, (forall q m, In (q, m) l <-> (q <> lport p' /\ In (q, m) (ports d b)) \/ (q = lport p' /\ m = i :: match find_phd (ports d b) (lport p') with Some m => m | None => [] end)) ->
     NoDup (map fst l) -> Inv c (mkDb (upd (upd (pcbs d) i (Some p')) i (Some (with_hashed p' true))) (updZ (hash d) k (i :: hash d k)) (updZ (ports d) b l) (last_port d))).
  { intros l Hl Nl. set (d' := mkDb _ _ _ _).
    assert (P1 : pcbs d' i = Some (with_hashed p' true)) by (cbn; apply upd_eq).
    assert (P2 : forall j, j <> i -> pcbs d' j = pcbs d j) by (intros j N; cbn; rewrite !upd_neq by exact N; reflexivity).
    assert (H1 : forall j q, holds d' j q <-> (j <> i /\ holds d j q) \/ (j = i /\ q = with_hashed p' true)).
    { intros j q. destruct (Nat.eq_dec j i) as [->|N].
      - split; [intros [A _]; rewrite P1 in A; injection A as <-; right; auto|intros [[K _]|[_ ->]]; [contradiction|split; [exact P1|reflexivity]]].
      - rewrite (holds_frame d d' i P2 j q N). split; [intros K; left; auto|intros [[_ K]|[K _]]; [exact K|contradiction]]. }
    constructor.
    - intros b' j. cbn [hash d']. split.
      + intros K. destruct (Z.eq_dec b' k) as [->|Nb]; [rewrite updZ_eq in K; destruct K as [<-|K]|rewrite updZ_neq in K by exact Nb].
        * exists (with_hashed p' true). split; [apply H1; right; auto|reflexivity].
        * pose proof K as K'. apply (v_hash c d I) in K. destruct K as (q & A & B). exists q. split; [|exact B]. apply H1. left. split; [|exact A]. intros ->. apply (hash_free c d i k I U K').
        * pose proof K as K'. apply (v_hash c d I) in K. destruct K as (q & A & B). exists q. split; [|exact B]. apply H1. left. split; [|exact A]. intros ->. apply (hash_free c d i b' I U K').
      + intros (q & A & B). apply H1 in A. destruct A as [[N A]|[-> ->]].
        * assert (K : In j (hash d b')) by (apply (v_hash c d I); exists q; auto). destruct (Z.eq_dec b' k) as [E|Nb]; [rewrite E, updZ_eq; right; rewrite <- E; exact K|rewrite updZ_neq by exact Nb; exact K].
        * cbn in B. fold k in B. rewrite B, updZ_eq. left. reflexivity.
    - intros b'. cbn [hash d']. destruct (Z.eq_dec b' k) as [->|Nb]; [rewrite updZ_eq; constructor; [apply (hash_free c d i k I U)|apply (v_hash1 c d I)]|rewrite updZ_neq by exact Nb; apply (v_hash1 c d I)].
    - assert (Old : forall b' q m, In (q, m) (ports d b') -> b' = porthash c q /\ m <> [] /\ NoDup m /\ forall j, In j m -> exists x, holds d' j x /\ lport x = q).
      { intros b' q m K. destruct (v_phd c d I b' q m K) as (A & B & C & D). split; [exact A|]. split; [exact B|]. split; [exact C|]. intros j Hj. destruct (D j Hj) as (x & X1 & X2). exists x. split; [|exact X2]. apply H1. left. split; [|exact X1]. intros ->. apply (holds_free d i x U X1). }
      intros b' q m K. cbn [ports d'] in K. destruct (Z.eq_dec b' b) as [->|Nb]; [rewrite updZ_eq in K|rewrite updZ_neq in K by exact Nb; apply Old; exact K].
      apply Hl in K. destruct K as [[Nq K]|[-> ->]]; [apply Old; exact K|]. split; [reflexivity|]. split; [discriminate|].
      assert (In i (i :: match find_phd (ports d b) (lport p') with Some m => m | None => [] end)) by (left; reflexivity).
      assert (New : exists x, holds d' i x /\ lport x = lport p') by (exists (with_hashed p' true); split; [apply H1; right; auto|reflexivity]).
      destruct (find_phd (ports d b) (lport p')) as [m0|].
      + destruct (Old b _ _ Fi) as (_ & _ & C & D). split.
        * constructor; [|exact C]. intros K. destruct (v_phd c d I b _ _ Fi) as (_ & _ & _ & D'). destruct (D' i K) as (x & X & _). apply (holds_free d i x U X).
        * intros j [<-|Hj]; [exact New|apply D; exact Hj].
      + split; [constructor; [intros []|constructor]|]. intros j [<-|[]]. exact New.
    - intros b'. cbn [ports d']. destruct (Z.eq_dec b' b) as [->|Nb]; [rewrite updZ_eq; exact Nl|rewrite updZ_neq by exact Nb; apply (v_phd1 c d I)].
    - intros j q K. apply H1 in K. cbn [ports d']. destruct K as [[N K]|[-> ->]].
      + destruct (v_port c d I j q K) as (m & M1 & M2). destruct (Z.eq_dec (porthash c (lport q)) b) as [Eb|Nb]; [|exists m; rewrite updZ_neq by exact Nb; auto].
        rewrite Eb, updZ_eq. destruct (Z.eq_dec (lport q) (lport p')) as [El|Nl'].
        * rewrite Eb, El in M1. destruct (find_phd (ports d b) (lport p')) as [m0|]; [|destruct (Fi m M1)]. exists (i :: m0). split; [apply Hl; right; split; [exact El|reflexivity]|]. right. rewrite <- (phd_unique c d b (lport p') m m0 I M1 Fi). exact M2.
        * exists m. split; [apply Hl; left; split; [exact Nl'|rewrite <- Eb; exact M1]|exact M2].
      + cbn [lport with_hashed]. fold b. rewrite updZ_eq. eexists. split; [apply Hl; right; split; reflexivity|left; reflexivity].
    - intros j q K. destruct (Nat.eq_dec j i) as [->|N]; [rewrite P1 in K; injection K as <-; exact Ok|rewrite (P2 j N) in K; apply (v_ok c d I j q K)]. }
  destruct (find_phd (ports d b) (lport p')) as [m0|].
  - eexists. left. split; [exact Er|]. split; [apply (Go (add_phd (ports d b) (lport p') i))|].
    + intros q m. apply Ai. reflexivity.
    + rewrite add_phd_keys. apply (v_phd1 c d I).
    + cbn. split; [apply upd_eq|]. split; [intros j N; rewrite !upd_neq by exact N; reflexivity|reflexivity].
  - destruct mem.
    + eexists. left. split; [exact Er|]. split; [apply (Go ((lport p', [i]) :: ports d b))|].
      * intros q m. cbn [In]. split; [intros [K|K]; [injection K as <- <-; right; auto|left; split; [intros ->; apply (Fi m K)|exact K]]|intros [[_ K]|[-> ->]]; [right; exact K|left; reflexivity]].
      * cbn. constructor; [|apply (v_phd1 c d I)]. intros K. apply in_map_iff in K. destruct K as ([q m] & A & B). cbn in A. subst q. apply (Fi m B).
      * cbn. split; [apply upd_eq|]. split; [intros j N; rewrite !upd_neq by exact N; reflexivity|reflexivity].
    + exists d. right. split; [exact Er|reflexivity].
Qed.

Lemma re_lemma c d i p p' : Inv c d -> holds d i p -> hashed p' = true -> lport p' = lport p -> pcb_ok p' ->
  exists d', rehash c (set_pcb d i p') i = Ret d' /\ Inv c d' /\ pcbs d' i = Some p' /\ (forall j, j <> i -> pcbs d' j = pcbs d j) /\ last_port d' = last_port d.
Proof.
  intros I Hp Hh Hl Ok. unfold rehash, get, set_pcb. cbn [pcbs set_pcbs]. rewrite upd_eq. cbn [obind]. rewrite Hh. cbn [negb].
  set (k := pcbhash c (faddr p') (lport p') (fport p')). eexists. split; [reflexivity|]. cbn [hash set_pcbs set_hash]. set (d' := set_hash _ _).
  assert (P1 : pcbs d' i = Some p') by (cbn; apply upd_eq).
  assert (P2 : forall j, j <> i -> pcbs d' j = pcbs d j) by (intros j N; cbn; rewrite !upd_neq by exact N; reflexivity).
  assert (H1 : forall j q, holds d' j q <-> (j <> i /\ holds d j q) \/ (j = i /\ q = p')).
  { intros j q. destruct (Nat.eq_dec j i) as [->|N].
    - split; [intros [A _]; rewrite P1 in A; injection A as <-; right; auto|intros [[K _]|[_ ->]]; [contradiction|split; [exact P1|exact Hh]]].
    - rewrite (holds_frame d d' i P2 j q N). split; [intros K; left; auto|intros [[_ K]|[K _]]; [exact K|contradiction]]. }
  split; [|split; [exact P1|split; [exact P2|reflexivity]]].
  assert (Hb : forall b j, In j (hash d' b) <-> (j <> i /\ In j (hash d b)) \/ (j = i /\ b = k)).
  { intros b j. cbn. destruct (Z.eq_dec b k) as [->|Nb]; [rewrite updZ_eq; cbn [In]|rewrite updZ_neq by exact Nb]; rewrite unlink_in; [destruct (Nat.eq_dec j i) as [->|N]; intuition congruence|intuition congruence]. }
  constructor.
  - intros b j. rewrite Hb. split.
    + intros [[N K]|[-> ->]]; [apply (v_hash c d I) in K; destruct K as (q & A & B); exists q; split; [apply H1; left; auto|exact B]|exists p'; split; [apply H1; right; auto|reflexivity]].
    + intros (q & A & B). apply H1 in A. destruct A as [[N A]|[-> ->]]; [left; split; [exact N|apply (v_hash c d I); exists q; auto]|right; auto].
  - intros b. cbn. destruct (Z.eq_dec b k) as [->|Nb]; [rewrite updZ_eq; constructor; [rewrite unlink_in; tauto|]|rewrite updZ_neq by exact Nb]; apply unlink_nodup, (v_hash1 c d I).
  - intros b l m K. destruct (v_phd c d I b l m K) as (A & B & C & D). split; [exact A|]. split; [exact B|]. split; [exact C|]. intros j Hj. destruct (D j Hj) as (q & D1 & D2).
    destruct (Nat.eq_dec j i) as [->|N]; [|exists q; split; [apply H1; left; auto|exact D2]]. exists p'. split; [apply H1; right; auto|]. destruct D1 as [E _], Hp as [E' _]. rewrite E' in E. injection E as <-. congruence.
  - apply (v_phd1 c d I).
  - intros j q K. apply H1 in K. destruct K as [[N K]|[-> ->]]; [apply (v_port c d I j q K)|]. rewrite Hl. apply (v_port c d I i p Hp).
  - intros j q K. destruct (Nat.eq_dec j i) as [->|N]; [rewrite P1 in K; injection K as <-; exact Ok|rewrite (P2 j N) in K; apply (v_ok c d I j q K)].
Qed.

Lemma del_phd_in lp i l q m : In (q, m) (del_phd lp i l) <-> m <> [] /\ ((q <> lp /\ In (q, m) l) \/ (q = lp /\ exists m0, In (lp, m0) l /\ m = unlink i m0)).
Proof.
  unfold del_phd. rewrite filter_In, in_map_iff. cbn [snd]. split.
  - intros [([q0 m0] & A & B) C]. cbn [fst snd] in A. split; [intros ->; discriminate|]. destruct (Z.eqb_spec q0 lp) as [->|N]; injection A as <- <-; [right; split; [reflexivity|exists m0; auto]|left; auto].
  - intros [C K]. split; [|destruct m; [contradiction|reflexivity]]. destruct K as [[N K]|[-> (m0 & K & ->)]].
    + exists (q, m). cbn. apply Z.eqb_neq in N. rewrite N. auto.
    + exists (lp, m0). cbn. rewrite Z.eqb_refl. auto.
Qed.
Lemma del_phd_keys lp i l : NoDup (map fst l) -> NoDup (map fst (del_phd lp i l)).
Proof.
  unfold del_phd. set (f := fun x : Z * list nat => _ : Z * list nat). set (g := fun x : Z * list nat => match snd x with [] => false | _ => true end).
  assert (Hf : forall x, fst (f x) = fst x) by (intros [q m]; unfold f; cbn [fst snd]; destruct (q =? lp); reflexivity).
  induction l as [|x l IH]; cbn [map filter]; [constructor|]. intros N. inversion N as [|? ? N1 N2]; subst. destruct (g (f x)); [|apply IH; exact N2].
  cbn [map]. constructor; [|apply IH; exact N2]. rewrite Hf. intros K. apply N1. apply in_map_iff in K. destruct K as (y & A & B). apply filter_In in B. destruct B as [B _]. apply in_map_iff in B. destruct B as (z & <- & B2). rewrite Hf in A. rewrite <- A. apply in_map. exact B2.
Qed.
Lemma un_lemma c d d' i p : Inv c d -> holds d i p -> unhashed (pcbs d' i) -> (forall j, j <> i -> pcbs d' j = pcbs d j) ->
  hash d' = (fun b => unlink i (hash d b)) ->
  ports d' = updZ (ports d) (porthash c (lport p)) (del_phd (lport p) i (ports d (porthash c (lport p)))) -> Inv c d'.
Proof.
  intros I Hp U P2 Eh Ep. pose proof (unhashed_free _ U) as U2. set (b0 := porthash c (lport p)) in *.
  assert (H1 : forall j q, holds d' j q <-> j <> i /\ holds d j q).
  { intros j q. destruct (Nat.eq_dec j i) as [->|N]; [split; [intros K; destruct (holds_free d' i q U2 K)|intros [K _]; contradiction]|]. rewrite (holds_frame d d' i P2 j q N). tauto. }
  assert (Old : forall b l m, In (l, m) (ports d b) -> forall j, In j m -> exists q, holds d j q /\ lport q = l) by (intros b l m K; apply (v_phd c d I b l m K)).
  constructor.
  - intros b j. rewrite Eh, unlink_in, (v_hash c d I b j). split; [intros [(q & A & B) N]; exists q; split; [apply H1; auto|exact B]|intros (q & A & B); apply H1 in A; destruct A as [N A]; split; [exists q; auto|exact N]].
  - intros b. rewrite Eh. apply unlink_nodup, (v_hash1 c d I).
  - intros b l m K. rewrite Ep in K.
    assert (Go : In (l, m) (ports d b) -> (l <> lport p \/ b <> b0) -> b = porthash c l /\ m <> [] /\ NoDup m /\ (forall j, In j m -> exists q, holds d' j q /\ lport q = l)).
    { intros K1 K2. destruct (v_phd c d I b l m K1) as (A & B & C & D). split; [exact A|]. split; [exact B|]. split; [exact C|]. intros j Hj. destruct (D j Hj) as (q & D1 & D2). exists q. split; [|exact D2]. apply H1. split; [|exact D1].
      intros ->. destruct D1 as [E _], Hp as [E' _]. rewrite E' in E. injection E as <-. destruct K2 as [K2|K2]; [congruence|apply K2; rewrite A, <- D2; reflexivity]. }
    destruct (Z.eq_dec b b0) as [->|Nb]; [rewrite updZ_eq in K|rewrite updZ_neq in K by exact Nb; apply Go; auto].
    apply del_phd_in in K. destruct K as [Ne [[N K]|[-> (m0 & K & ->)]]]; [apply Go; auto|].
    destruct (v_phd c d I b0 _ m0 K) as (A & B & C & D). split; [exact A|]. split; [exact Ne|]. split; [apply unlink_nodup; exact C|]. intros j Hj. apply unlink_in in Hj. destruct Hj as [Hj N]. destruct (D j Hj) as (q & D1 & D2). exists q. split; [apply H1; auto|exact D2].
  - intros b. rewrite Ep. destruct (Z.eq_dec b b0) as [->|Nb]; [rewrite updZ_eq; apply del_phd_keys|rewrite updZ_neq by exact Nb]; apply (v_phd1 c d I).
  - intros j q K. apply H1 in K. destruct K as [N K]. destruct (v_port c d I j q K) as (m & M1 & M2). rewrite Ep. destruct (Z.eq_dec (porthash c (lport q)) b0) as [Eb|Nb]; [rewrite Eb, updZ_eq|exists m; rewrite updZ_neq by exact Nb; auto].
    destruct (Z.eq_dec (lport q) (lport p)) as [El|Nl].
    + exists (unlink i m). assert (Hj : In j (unlink i m)) by (apply unlink_in; auto). split; [|exact Hj]. apply del_phd_in. split; [intros E; rewrite E in Hj; destruct Hj|]. right. split; [exact El|]. exists m. rewrite <- El, <- Eb. auto.
    + exists m. split; [|exact M2]. apply del_phd_in. split; [intros ->; destruct M2|]. left. split; [exact Nl|rewrite <- Eb; exact M1].
  - intros j q K. destruct (Nat.eq_dec j i) as [->|N]; [rewrite K in U; apply U|rewrite (P2 j N) in K; apply (v_ok c d I j q K)].
Qed.
