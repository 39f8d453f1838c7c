From Verif Require Import Base PcbModel PcbSpec PcbProof PcbProof2 PcbProof3.
Ltac Zify.zify_post_hook ::= idtac.

(* ---- connect ---- *)
Definition peer_addr (c : conf) (fa : Z) : Z := if fa =? 0 then match c_primary c with Some a => a | None => fa end else fa.
Definition source_addr (c : conf) (la fa : Z) : option Z := if la =? 0 then c_route c (peer_addr c fa) else Some la.
Definition setup_post (c : conf) (d : db) (p : pcb) (fa fp la lp : Z) (e : err) (t : Z * Z * Z * Z) : Prop :=
  (e = OK /\ fp <> 0 /\ exists a l, t = (a, l, peer_addr c fa, fp) /\ source_addr c la fa = Some a /\
     ((lp <> 0 /\ l = lp /\ forall j, ~ connected_as d j (peer_addr c fa) fp a lp) \/
      (lp = 0 /\ port_lo c <= l <= port_hi c /\ free_for d (wild_of p) a l))) \/
  (e = EADDRNOTAVAIL /\ (fp = 0 \/ (lp = 0 /\ exists a, source_addr c la fa = Some a /\ (c_primary c = None \/ forall l, port_lo c <= l <= port_hi c -> clash d (wild_of p) a l)))) \/
  (e = ENETUNREACH /\ source_addr c la fa = None) \/
  (e = EADDRINUSE /\ lp <> 0 /\ exists a j, source_addr c la fa = Some a /\ connected_as d j (peer_addr c fa) fp a lp).
Lemma connect_setup_ok c d i p fa fp la lp rnd : good_conf c -> Inv c d -> pcbs d i = Some p ->
  exists x e t, connect_setup c d i fa fp la lp rnd = Ret (set_last d x, e, t) /\ setup_post c d p fa fp la lp e t.
Proof.
  intros G I E. unfold connect_setup. assert (Sl : d = set_last d (last_port d)) by (destruct d; reflexivity).
  destruct (Z.eqb_spec fp 0) as [Ef|Nf]; [exists (last_port d), EADDRNOTAVAIL; eexists; split; [rewrite <- Sl; reflexivity|]; right; left; auto|].
  fold (peer_addr c fa). fold (source_addr c la fa). destruct (source_addr c la fa) as [a|] eqn:Es; [|exists (last_port d), ENETUNREACH; eexists; split; [rewrite <- Sl; reflexivity|]; right; right; left; auto].
  destruct (lookup_hash_exact c d (peer_addr c fa) fp a lp I) as (r & Er & K). rewrite Er. cbn [obind]. destruct r as [j|].
  - exists (last_port d), EADDRINUSE. eexists. split; [rewrite <- Sl; reflexivity|]. right. right. right. split; [reflexivity|]. split; [|exists a, j; auto]. destruct K as (q & [Eq Hq] & _ & _ & _ & <-). destruct (v_ok c d I j q Eq) as (_ & _ & O3 & _). apply O3. exact Hq.
  - destruct (Z.eqb_spec lp 0) as [->|Nl].
    + destruct (bind_setup_none c d i p a rnd G I E) as (x & e & a' & l' & K1 & K2). rewrite K1. cbn [obind]. destruct K2 as [[K2 ->]|(K2 & [(-> & Kl & Kf)|[-> Kf]] & Ka)].
      * exists x, EADDRNOTAVAIL. eexists. split; [reflexivity|]. right. left. split; [reflexivity|]. right. split; [reflexivity|]. exists a. auto.
      * exists x, OK. eexists. split; [reflexivity|]. left. split; [reflexivity|]. split; [exact Nf|]. exists a', l'. rewrite (Ka eq_refl). split; [reflexivity|]. split; [exact Es|]. right. auto.
      * exists x, EADDRNOTAVAIL. eexists. split; [reflexivity|]. right. left. split; [reflexivity|]. right. split; [reflexivity|]. exists a. auto.
    + exists (last_port d), OK. eexists. split; [rewrite <- Sl; reflexivity|]. left. split; [reflexivity|]. split; [exact Nf|]. exists a, lp. split; [reflexivity|]. split; [exact Es|]. left. auto.
Qed.
Lemma peer_ne c fa : good_conf c -> (fa = 0 -> c_primary c <> None) -> peer_addr c fa <> 0.
Proof. intros (_ & _ & G & _) H. unfold peer_addr. destruct (Z.eqb_spec fa 0) as [E|E]; [|exact E]. specialize (H E). destruct (c_primary c) as [a|]; [|contradiction]. intros ->. apply G. reflexivity. Qed.
Lemma source_ne c la fa a : good_conf c -> source_addr c la fa = Some a -> a <> 0.
Proof. intros (_ & _ & _ & G). unfold source_addr. destruct (Z.eqb_spec la 0) as [E|E]; intros H; [intros ->; apply (G _ H)|congruence]. Qed.

(* changing the foreign (and local) address of a bound socket *)
Lemma move_ok c d i p a fa fp : Inv c d -> holds d i p -> dropped p = false -> fa <> 0 ->
  exists d', rehash c (set_pcb d i (with_foreign (with_local p a (lport p)) fa fp)) i = Ret d' /\ Inv c d' /\ is_at d' i p a (lport p) fa fp /\ others_same d d' i.
Proof.
  intros I H D F. pose proof H as [Ep Hh]. destruct (v_ok c d I i p Ep) as (O1 & O2 & O3 & O4 & O5).
  destruct (re_lemma c d i p (with_foreign (with_local p a (lport p)) fa fp) I H Hh eq_refl) as (d' & K1 & K2 & K3 & K4 & _).
  - repeat split; cbn; auto; congruence.
  - exists d'. split; [exact K1|]. split; [exact K2|]. split; [|exact K4]. eexists. split; [split; [exact K3|exact Hh]|]. cbn. repeat split; auto.
Qed.

Lemma is_at_same d i p p' la lp fa fp : same_opts p p' -> is_at d i p' la lp fa fp -> is_at d i p la lp fa fp.
Proof. intros (S1 & S2 & S3) (x & H & A & B & C & E & (T1 & T2 & T3) & F). exists x. repeat split; try assumption; try apply H; congruence. Qed.

(* connect of a UDP socket, or of the PCB of an accepted connection *)
Definition conn_post (c : conf) (d d' : db) (i : nat) (p : pcb) (fa fp : Z) (e : err) (mem : bool) : Prop :=
  (e = OK /\ fp <> 0 /\ exists a l, source_addr c (laddr p) fa = Some a /\ is_at d' i p a l (peer_addr c fa) fp /\ others_same d d' i /\
     ((lport p <> 0 /\ l = lport p /\ forall j, ~ connected_as d j (peer_addr c fa) fp a l) \/
      (lport p = 0 /\ unbound p /\ port_lo c <= l <= port_hi c /\ free_for d (wild_of p) a l))) \/
  ((forall j, pcbs d' j = pcbs d j) /\
   ((e = EAGAIN /\ mem = false /\ lport p = 0) \/
    (e = EADDRNOTAVAIL /\ (fp = 0 \/ (lport p = 0 /\ exists a, source_addr c (laddr p) fa = Some a /\ (c_primary c = None \/ forall l, port_lo c <= l <= port_hi c -> clash d (wild_of p) a l)))) \/
    (e = ENETUNREACH /\ source_addr c (laddr p) fa = None) \/
    (e = EADDRINUSE /\ lport p <> 0 /\ exists a j, source_addr c (laddr p) fa = Some a /\ connected_as d j (peer_addr c fa) fp a (lport p)))).
Lemma pcbconnect_ok c d i p fa fp rnd mem : good_conf c -> Inv c d -> pcbs d i = Some p -> dropped p = false -> (fa = 0 -> c_primary c <> None) ->
  exists d' e, pcbconnect c d i fa fp rnd mem = Ret (d', e) /\ Inv c d' /\ conn_post c d d' i p fa fp e mem.
Proof.
  intros G I E D Hfa. unfold pcbconnect, get at 1. rewrite E. cbn [obind].
  destruct (connect_setup_ok c d i p fa fp (laddr p) (lport p) rnd G I E) as (x & e & t & K1 & K2). rewrite K1. cbn [obind]. destruct t as [[[a' l'] fa'] fp'].
  pose proof (inv_last c d x I) as I'.
  destruct K2 as [(-> & Nf & a & l & Et & Es & K)|K2].
  2: { assert (Ne : e <> OK) by (destruct K2 as [[-> _]|[[-> _]|[-> _]]]; discriminate).
       assert (Go : exists d' e0, Ret (set_last d x, e) = Ret (d', e0) /\ Inv c d' /\ conn_post c d d' i p fa fp e0 mem).
       { exists (set_last d x), e. split; [reflexivity|]. split; [exact I'|]. right. split; [reflexivity|]. right. exact K2. }
       destruct e; try contradiction; exact Go. }
  injection Et as -> -> -> ->. pose proof (peer_ne c fa G Hfa) as Pn. pose proof (source_ne c _ _ _ G Es) as An.
  destruct K as [(Nl & -> & Kf)|(El & Kl & Kf)].
  - apply Z.eqb_neq in Nl. rewrite Nl. rewrite Bool.andb_false_r. apply Z.eqb_neq in Nl. cbn [obind negb]. unfold get. cbn [pcbs set_last]. rewrite E. cbn [obind].
    assert (H : holds (set_last d x) i p) by (apply (live_bound c d i p I E D); auto).
    destruct (move_ok c (set_last d x) i p a (peer_addr c fa) fp I' H D Pn) as (d' & J1 & J2 & J3 & J4). rewrite J1. cbn [obind]. exists d', OK. split; [reflexivity|]. split; [exact J2|].
    left. split; [reflexivity|]. split; [exact Nf|]. exists a, (lport p). split; [exact Es|]. split; [exact J3|]. split; [exact J4|]. left. auto.
  - assert (La : laddr p = 0).
    { destruct (Z.eq_dec (laddr p) 0) as [Ez|Nz]; [exact Ez|]. pose proof (live_bound c d i p I E D (or_introl Nz)) as [_ Hh]. destruct (v_ok c d I i p E) as (_ & _ & O3 & _). destruct (O3 Hh El). }
    pose proof (live_unbound c d i p I E D La El) as U. rewrite La, El. cbn [Z.eqb andb].
    destruct G as (G1 & G2 & G3 & G4). assert (Nl : l <> 0) by (unfold port_lo in Kl; lia).
    destruct (insert_ok c (set_last d x) i p a l mem I' E U Nl) as [(d1 & J1 & J2 & J3 & J4)|[J1 J2]]; rewrite J1; cbn [obind negb].
    + destruct J3 as (p1 & H1 & A1 & A2 & A3 & A4 & A5 & A6). unfold get. rewrite (proj1 H1). cbn [obind].
      destruct (move_ok c d1 i p1 a (peer_addr c fa) fp J2 H1 A6 Pn) as (d' & M1 & M2 & M3 & M4). rewrite A2 in M1. rewrite M1. cbn [obind]. exists d', OK. split; [reflexivity|]. split; [exact M2|].
      left. split; [reflexivity|]. split; [exact Nf|]. exists a, l. split; [exact Es|]. rewrite A2 in M3. split; [apply (is_at_same _ _ p p1 _ _ _ _ A5 M3)|].
      split; [intros j Nj; rewrite (M4 j Nj); apply (J4 j Nj)|]. right. auto.
    + destruct (undo_ok c (set_last d x) (with_local p a l) i p I' E U) as [L1 L2]. eexists _, EAGAIN. split; [reflexivity|]. split; [exact L1|]. right. split; [exact L2|]. left. auto.
Qed.

(* ---- closing ---- *)
Lemma drop_ok c d i p : Inv c d -> pcbs d i = Some p -> exists d', pcbdrop c d i = Ret d' /\ Inv c d' /\ others_same d d' i /\
  exists p', pcbs d' i = Some p' /\ hashed p' = false /\ dropped p' = true /\ same_opts p p'.
Proof.
  intros I E. unfold pcbdrop, get. rewrite E. cbn [obind]. eexists. split; [reflexivity|]. unfold unhash. cbn [hashed with_dropped]. destruct (v_ok c d I i p E) as (O1 & O2 & O3 & O4 & O5).
  destruct (hashed p) eqn:Hh.
  - set (d' := set_pcb _ i _). assert (P1 : pcbs d' i = Some (with_hashed (with_dropped p) false)) by (cbn; apply upd_eq).
    assert (P2 : others_same d d' i) by (intros j N; cbn; rewrite !upd_neq by exact N; reflexivity).
    split; [|split; [exact P2|eexists; split; [exact P1|repeat split; auto]]].
    apply (un_lemma c d d' i p I (conj E Hh)); [rewrite P1|exact P2|reflexivity|reflexivity]. split; [reflexivity|]. repeat split; cbn; auto; discriminate.
  - set (d' := set_pcb d i _). assert (P1 : pcbs d' i = Some (with_dropped p)) by (cbn; apply upd_eq).
    assert (P2 : others_same d d' i) by (intros j N; cbn; rewrite !upd_neq by exact N; reflexivity).
    split; [|split; [exact P2|eexists; split; [exact P1|repeat split; auto]]].
    apply (inv_frame c d d' i I eq_refl eq_refl P2); [rewrite E; exact Hh|rewrite P1; split; [exact Hh|]]. repeat split; cbn; auto; congruence.
Qed.
Lemma free_ok c d i p : Inv c d -> pcbs d i = Some p -> exists d', pcbfree c d i = Ret d' /\ Inv c d' /\ others_same d d' i /\ pcbs d' i = None.
Proof.
  intros I E. unfold pcbfree, get. rewrite E. cbn [obind]. eexists. split; [reflexivity|]. unfold unhash. destruct (hashed p) eqn:Hh.
  - set (d' := set_pcbs _ _). assert (P1 : pcbs d' i = None) by (cbn; apply upd_eq).
    assert (P2 : others_same d d' i) by (intros j N; cbn; rewrite !upd_neq by exact N; reflexivity).
    split; [|split; [exact P2|exact P1]]. apply (un_lemma c d d' i p I (conj E Hh)); [rewrite P1; exact Logic.I|exact P2|reflexivity|reflexivity].
  - set (d' := set_pcbs _ _). assert (P1 : pcbs d' i = None) by (cbn; apply upd_eq).
    assert (P2 : others_same d d' i) by (intros j N; cbn; rewrite !upd_neq by exact N; reflexivity).
    split; [|split; [exact P2|exact P1]]. apply (inv_frame c d d' i I eq_refl eq_refl P2); [rewrite E; exact Hh|rewrite P1; exact Logic.I].
Qed.

(* ---- every call ---- *)
(* what a call may do to the socket it is made on *)
Definition eff (c : conf) (d d' : db) (o : op) (i : nat) : Prop :=
  (* nothing *) (forall j, pcbs d' j = pcbs d j) \/
  others_same d d' i /\
  ((* closed *) free_slot (pcbs d' i) /\ (forall p p', pcbs d i = Some p -> pcbs d' i = Some p' -> same_opts p p') /\ (pcbs d i = None -> forall p', pcbs d' i = Some p' -> o_addr p' = false /\ o_port p' = false) \/
   (* options *) (exists a b p, o = OOpts i a b /\ pcbs d i = Some p /\ pcbs d' i = Some (with_opts p a b)) \/
   exists p, pcbs d i = Some p /\
   ((* bound *) (exists a l, unbound p /\ is_at d' i p a l 0 0 /\ free_for d (wild_of p) a l) \/
    (* bound by sendto *) (exists a l fa fp rnd mem, o = OSend i fa fp rnd mem /\ a <> 0 /\ unbound p /\ is_at d' i p 0 l 0 0 /\ free_for d (wild_of p) a l) \/
    (* connected *) (exists a l fa fp, fa <> 0 /\ is_at d' i p a l fa fp /\ forall j, j <> i -> ~ connected_as d j fa fp a l) \/
    (* connected, port chosen *) (exists a l fa fp fa0 fp0 rnd mem, o = OConnU i fa0 fp0 rnd mem /\ fa <> 0 /\ unbound p /\ is_at d' i p a l fa fp /\ free_for d (wild_of p) a l) \/
    (* disconnected *) (o = ODisc i /\ exists l, is_at d' i p 0 l 0 0))).

Lemma step_ok c d o : good_conf c -> Inv c d -> legal c d o -> exists d' e, step c d o = Ret (d', e) /\ Inv c d' /\ exists i, eff c d d' o i.
Proof.
  intros G I L. assert (Nop : forall (o : op) (e : err), exists d' e', Ret (d, e) = Ret (d', e') /\ Inv c d' /\ exists i, eff c d d' o i) by (intros o' e; exists d, e; split; [reflexivity|split; [exact I|exists 0%nat; left; reflexivity]]).
  destruct o as [i f|i a b|i nam rnd mem|i fa fp rnd mem|i fa fp rnd mem|i fa fp rnd mem|i|i la lp fa fp rnd mem|i|i]; cbn [step legal] in *.
  - unfold pcballoc. rewrite L. cbn [obind]. set (p := mkPcb _ _ _ _ _ _ _ _ _ _). eexists _, OK. split; [reflexivity|].
    assert (P1 : pcbs (set_pcb d i p) i = Some p) by (cbn; apply upd_eq). assert (P2 : others_same d (set_pcb d i p) i) by (intros j N; cbn; rewrite upd_neq by exact N; reflexivity).
    split; [apply (inv_frame c d (set_pcb d i p) i I eq_refl eq_refl P2); [rewrite L; exact Logic.I|rewrite P1; split; [reflexivity|repeat split; cbn; auto; discriminate]]|].
    exists i. right. split; [exact P2|]. left. rewrite P1. split; [reflexivity|]. split; [congruence|]. intros _ p' Ep. injection Ep as <-. split; reflexivity.
  - unfold setopts, get. destruct (pcbs d i) as [p|] eqn:E; [|contradiction]. cbn [obind]. eexists _, OK. split; [reflexivity|].
    assert (P1 : pcbs (set_pcb d i (with_opts p a b)) i = Some (with_opts p a b)) by (cbn; apply upd_eq). assert (P2 : others_same d (set_pcb d i (with_opts p a b)) i) by (intros j N; cbn; rewrite upd_neq by exact N; reflexivity).
    split; [apply (inv_same c d (set_pcb d i (with_opts p a b)) i p (with_opts p a b) I eq_refl eq_refl P2 E P1); try reflexivity; exact (v_ok c d I i p E)|].
    exists i. right. split; [exact P2|]. right. left. exists a, b, p. auto.
  - unfold get. destruct (pcbs d i) as [p|] eqn:E; [|contradiction]. cbn [obind]. destruct (dropped p) eqn:D; [apply Nop|].
    destruct (Z.eq_dec (laddr p) 0) as [La|La]; [destruct (Z.eq_dec (lport p) 0) as [Lp|Lp]|].
    + destruct (bind_ok c d i p nam rnd mem G I E D La Lp) as (d' & e & K1 & K2 & K3). exists d', e. split; [exact K1|]. split; [exact K2|]. exists i.
      destruct K3 as [(-> & a & l & J1 & J2 & J3 & _)|[J _]]; [|left; exact J]. right. split; [exact J2|]. right. right. exists p. split; [exact E|]. left. exists a, l. split; [apply (live_unbound c d i p I E D La Lp)|auto].
    + unfold pcbbind, get. rewrite E. cbn [obind]. apply Z.eqb_neq in Lp. rewrite Lp. cbn [negb orb]. apply Nop.
    + unfold pcbbind, get. rewrite E. cbn [obind]. apply Z.eqb_neq in La. rewrite La. cbn [negb]. rewrite Bool.orb_true_r. apply Nop.
  - destruct L as [(p & E & D) Hfa]. unfold udp_connect, get. rewrite E. cbn [obind]. destruct (Z.eqb_spec (faddr p) 0) as [Fa|Fa]; cbn [negb]; [|apply Nop].
    destruct (pcbconnect_ok c d i p fa fp rnd mem G I E D Hfa) as (d' & e & K1 & K2 & K3). exists d', e. split; [exact K1|]. split; [exact K2|]. exists i.
    destruct K3 as [(-> & Nf & a & l & Es & J1 & J2 & J3)|[J _]]; [|left; exact J]. right. split; [exact J2|]. right. right. exists p. split; [exact E|]. pose proof (peer_ne c fa G Hfa) as Pn.
    destruct J3 as [(_ & _ & J3)|(_ & J3 & _ & J4)]; [right; right; left; exists a, l, (peer_addr c fa), fp; auto|right; right; right; left; exists a, l, (peer_addr c fa), fp, fa, fp, rnd, mem; auto].
  - destruct L as [L Hfa]. unfold tcp_connect, get at 1. destruct (pcbs d i) as [p|] eqn:E; [|contradiction]. cbn [obind]. destruct (dropped p) eqn:D; [apply Nop|].
    pose proof (peer_ne c fa G Hfa) as Pn.
    (* connecting from a state where the socket is bound *)
    assert (Con : forall d1 p1, Inv c d1 -> holds d1 i p1 -> dropped p1 = false -> same_opts p p1 -> others_same d d1 i ->
       exists d' e, obind (connect_setup c d1 i fa fp (laddr p1) (lport p1) rnd) (fun r => let '(d, e, (a, l, fa, fp)) := r in
         match e with OK => obind (rehash c (set_pcb d i (with_foreign (with_local p1 a (lport p1)) fa fp)) i) (fun d => Ret (d, OK)) | e => Ret (d, e) end) = Ret (d', e) /\ Inv c d' /\
         ((forall j, pcbs d' j = pcbs d1 j) \/ (others_same d d' i /\ exists a l fa fp, fa <> 0 /\ is_at d' i p a l fa fp /\ forall j, j <> i -> ~ connected_as d j fa fp a l))).
    { intros d1 p1 I1 H1 D1 S1 O1. destruct (connect_setup_ok c d1 i p1 fa fp (laddr p1) (lport p1) rnd G I1 (proj1 H1)) as (x & e & t & K1 & K2). rewrite K1. cbn [obind]. destruct t as [[[a' l'] fa'] fp'].
      pose proof (inv_last c d1 x I1) as I1'. destruct K2 as [(-> & Nf & a & l & Et & Es & K)|K2].
      - injection Et as -> -> -> ->. destruct (move_ok c (set_last d1 x) i p1 a (peer_addr c fa) fp I1' H1 D1 Pn) as (d' & J1 & J2 & J3 & J4). rewrite J1. cbn [obind]. exists d', OK. split; [reflexivity|]. split; [exact J2|].
        right. assert (J5 : others_same d d' i) by (intros j Nj; rewrite (J4 j Nj); apply (O1 j Nj)). split; [exact J5|]. exists a, (lport p1), (peer_addr c fa), fp. split; [exact Pn|]. split; [apply (is_at_same _ _ p p1 _ _ _ _ S1 J3)|].
        destruct (v_ok c d1 I1 i p1 (proj1 H1)) as (_ & _ & O3 & _). specialize (O3 (proj2 H1)). destruct K as [(_ & _ & K)|(K & _)]; [|contradiction].
        intros j Nj (q & [Q1 Q2] & Q3). apply (K j). exists q. split; [split; [rewrite (O1 j Nj); exact Q1|exact Q2]|exact Q3].
      - assert (Ne : e <> OK) by (destruct K2 as [[-> _]|[[-> _]|[-> _]]]; discriminate).
        assert (Go : exists d' e0, Ret (set_last d1 x, e) = Ret (d', e0) /\ Inv c d' /\ ((forall j, pcbs d' j = pcbs d1 j) \/ (others_same d d' i /\ exists a l fa fp, fa <> 0 /\ is_at d' i p a l fa fp /\ forall j, j <> i -> ~ connected_as d j fa fp a l))) by (exists (set_last d1 x), e; split; [reflexivity|split; [exact I1'|left; reflexivity]]).
        destruct e; try contradiction; exact Go. }
    destruct (Z.eqb_spec (lport p) 0) as [Lp|Lp].
    + assert (La : laddr p = 0).
      { destruct (Z.eq_dec (laddr p) 0) as [Ez|Nz]; [exact Ez|]. pose proof (live_bound c d i p I E D (or_introl Nz)) as [_ Hh]. destruct (v_ok c d I i p E) as (_ & _ & O3 & _). destruct (O3 Hh Lp). }
      destruct (bind_ok c d i p None rnd mem G I E D La Lp) as (d1 & e & K1 & K2 & K3). rewrite K1. cbn [obind]. destruct K3 as [(-> & a & l & J1 & J2 & J3 & J4)|[J Je]].
      * pose proof J1 as (p1 & H1 & A1 & A2 & A3 & A4 & A5 & A6). unfold get. rewrite (proj1 H1). cbn [obind].
        destruct (Con d1 p1 K2 H1 A6 A5 J2) as (d' & e & M1 & M2 & M3). exists d', e. split; [exact M1|]. split; [exact M2|]. exists i. right. destruct M3 as [M3|[M3 M4]].
        -- split; [intros j Nj; rewrite M3; apply (J2 j Nj)|]. right. right. exists p. split; [exact E|]. left. exists a, l. split; [apply (live_unbound c d i p I E D La Lp)|]. split; [|exact J3]. exists p1. split; [split; [rewrite M3; apply H1|apply H1]|]. auto 10.
        -- split; [exact M3|]. right. right. exists p. split; [exact E|]. right. right. left. exact M4.
      * assert (Ne : e <> OK) by (destruct Je as [[-> _]|[-> _]]; discriminate). assert (Go : exists d' e', Ret (d1, e) = Ret (d', e') /\ Inv c d' /\ exists i0, eff c d d' (OConnT i fa fp rnd mem) i0) by (exists d1, e; split; [reflexivity|split; [exact K2|exists i; left; exact J]]).
        destruct e; try contradiction; exact Go.
    + cbn [obind]. unfold get. rewrite E. cbn [obind].
      destruct (Con d p I (live_bound c d i p I E D (or_intror (or_introl Lp))) D ltac:(repeat split; reflexivity) ltac:(intros j _; reflexivity)) as (d' & e & M1 & M2 & M3). exists d', e. split; [exact M1|]. split; [exact M2|]. exists i.
      destruct M3 as [M3|[M3 M4]]; [left; exact M3|]. right. split; [exact M3|]. right. right. exists p. split; [exact E|]. right. right. left. exact M4.
  - destruct L as (p & E & D). unfold udp_sendto, get. rewrite E. cbn [obind]. destruct (negb (faddr p =? 0)); [apply Nop|]. destruct ((laddr p =? 0) || (lport p =? 0) || (fa =? 0)); [|apply Nop].
    destruct (connect_setup_ok c d i p fa fp (laddr p) (lport p) rnd G I E) as (x & e & t & K1 & K2). rewrite K1. cbn [obind]. destruct t as [[[a' l'] fa'] fp']. pose proof (inv_last c d x I) as I'.
    assert (Non : forall e : err, exists d' e0, Ret (set_last d x, e) = Ret (d', e0) /\ Inv c d' /\ exists i0, eff c d d' (OSend i fa fp rnd mem) i0) by (intros e1; exists (set_last d x), e1; split; [reflexivity|split; [exact I'|exists i; left; reflexivity]]).
    destruct K2 as [(-> & Nf & a & l & Et & Es & K)|K2]; [|assert (Ne : e <> OK) by (destruct K2 as [[-> _]|[[-> _]|[-> _]]]; discriminate); destruct e; try contradiction; apply Non].
    injection Et as -> -> -> ->. destruct (Z.eqb_spec (laddr p) 0) as [La|La]; cbn [andb]; [|apply Non]. destruct (Z.eqb_spec (lport p) 0) as [Lp|Lp]; [|apply Non].
    destruct K as [(K & _)|(_ & Kl & Kf)]; [contradiction|]. pose proof (live_unbound c d i p I E D La Lp) as U. pose proof G as (G1 & G2 & _). assert (Nl : l <> 0) by (unfold port_lo in Kl; lia).
    destruct (insert_ok c (set_last d x) i p 0 l mem I' E U Nl) as [(d1 & J1 & J2 & J3 & J4)|[J1 J2]]; rewrite J1; cbn [obind].
    + exists d1, OK. split; [reflexivity|]. split; [exact J2|]. exists i. right. split; [exact J4|]. right. right. exists p. split; [exact E|]. right. left. exists a, l, fa, fp, rnd, mem. split; [reflexivity|]. split; [apply (source_ne c _ _ _ G Es)|]. auto.
    + destruct (undo_ok c (set_last d x) (with_local p 0 l) i p I' E U) as [L1 L2]. eexists _, EAGAIN. split; [reflexivity|]. split; [exact L1|]. exists i. left. exact L2.
  - destruct L as (p & E & D). unfold udp_disconnect, get at 1. rewrite E. cbn [obind]. destruct (Z.eqb_spec (faddr p) 0) as [Fa|Fa]; [apply Nop|].
    pose proof (live_bound c d i p I E D (or_intror (or_intror Fa))) as H. destruct (v_ok c d I i p E) as (O1 & O2 & O3 & O4 & O5). pose proof (O3 (proj2 H)) as Lp.
    destruct (re_lemma c d i p (with_foreign p 0 0) I H (proj2 H) eq_refl) as (d1 & K1 & K2 & K3 & K4 & _).
    { repeat split; cbn; auto; destruct H; congruence. }
    rewrite K1. cbn [obind]. unfold get. rewrite K3. cbn [obind]. set (p' := with_local (with_foreign p 0 0) 0 _). set (d' := set_pcb d1 i p').
    assert (P1 : pcbs d' i = Some p') by (cbn; apply upd_eq). assert (P2 : others_same d1 d' i) by (intros j N; cbn; rewrite upd_neq by exact N; reflexivity).
    eexists _, OK. split; [reflexivity|]. split.
    + apply (inv_same c d1 d' i (with_foreign p 0 0) p' K2 eq_refl eq_refl P2 K3 P1); try reflexivity. destruct H as [_ Hh]. repeat split; cbn; auto; congruence.
    + exists i. right. split; [intros j N; rewrite (P2 j N); apply (K4 j N)|]. right. right. exists p. split; [exact E|]. right. right. right. right. split; [reflexivity|]. exists (lport p). exists p'. split; [split; [exact P1|apply H]|]. cbn. repeat split; auto.
  - destruct L as (Hla & Hlp & Hfa & Hfp & p & E & Hh & D & La & Lp). unfold accept, get. rewrite E. cbn [obind]. pose proof (live_unbound c d i p I E D La Lp) as U.
    destruct (insert_ok c d i p la lp mem I E U Hlp) as [(d1 & J1 & J2 & J3 & J4)|[J1 J2]]; rewrite J1; cbn [obind].
    + pose proof J3 as (p1 & H1 & A1 & A2 & A3 & A4 & A5 & A6). destruct (pcbconnect_ok c d1 i p1 fa fp rnd mem G J2 (proj1 H1) A6 ltac:(intros; contradiction)) as (d2 & e & K1 & K2 & K3). rewrite K1. cbn [obind].
      assert (Pa : peer_addr c fa = fa) by (unfold peer_addr; apply Z.eqb_neq in Hfa; rewrite Hfa; reflexivity).
      destruct K3 as [(-> & Nf & a & l & Es & M1 & M2 & M3)|[M Me]].
      * exists d2, OK. split; [reflexivity|]. split; [exact K2|]. exists i. right. split; [intros j N; rewrite (M2 j N); apply (J4 j N)|]. right. right. exists p. split; [exact E|]. right. right. left.
        exists a, l, fa, fp. split; [exact Hfa|]. rewrite Pa in *. split; [apply (is_at_same _ _ p p1 _ _ _ _ A5 M1)|]. destruct M3 as [(_ & _ & M3)|(M3 & _)]; [|congruence].
        intros j N (q & [Q1 Q2] & Q3). apply (M3 j). exists q. split; [split; [rewrite (J4 j N); exact Q1|exact Q2]|exact Q3].
      * assert (Ne : e <> OK) by (destruct Me as [[-> _]|[[-> _]|[[-> _]|[-> _]]]]; discriminate).
        assert (E2 : pcbs d2 i = Some p1) by (rewrite M; apply H1). destruct (free_ok c d2 i p1 K2 E2) as (d' & F1 & F2 & F3 & F4). rewrite F1.
        assert (Go : exists d'0 e', obind (Ret d') (fun d => Ret (d, e)) = Ret (d'0, e') /\ Inv c d'0 /\ exists i0, eff c d d'0 (OAccept i la lp fa fp rnd mem) i0).
        { exists d', e. split; [reflexivity|]. split; [exact F2|]. exists i. right. split; [intros j N; rewrite (F3 j N), M; apply (J4 j N)|]. left. rewrite F4. split; [exact Logic.I|]. split; discriminate. }
        destruct e; try contradiction; exact Go.
    + destruct (undo_ok c d (with_local p la lp) i p I E U) as [L1 L2]. eexists _, EAGAIN. split; [reflexivity|]. split; [exact L1|]. exists i. left. exact L2.
  - destruct (pcbs d i) as [p|] eqn:E; [|contradiction]. destruct (drop_ok c d i p I E) as (d' & K1 & K2 & K3 & p' & K4 & K5 & K6 & K7). rewrite K1. cbn [obind]. exists d', OK. split; [reflexivity|]. split; [exact K2|]. exists i. right. split; [exact K3|].
    left. rewrite K4. split; [exact K5|]. split; [intros q q' Eq Eq'; congruence|congruence].
  - destruct (pcbs d i) as [p|] eqn:E; [|contradiction]. destruct (free_ok c d i p I E) as (d' & K1 & K2 & K3 & K4). rewrite K1. cbn [obind]. exists d', OK. split; [reflexivity|]. split; [exact K2|]. exists i. right. split; [exact K3|].
    left. rewrite K4. split; [exact Logic.I|]. split; discriminate.
Qed.
Lemma reach_inv c ops d : good_conf c -> reach c ops d -> Inv c d.
Proof. intros G R. induction R as [|ops d o d' e R IH L S]; [apply inv0|]. destruct (step_ok c d o G IH L) as (d1 & e1 & K1 & K2 & _). congruence. Qed.
