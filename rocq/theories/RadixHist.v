(* One operation on a pool of tries, against the table specification; both address families. *)
From Verif Require Import Base RadixModel RadixTree RadixGen RadixForest RadixSpec RadixRun RadixInst RadixInst4.

(* freeing and unwinding do not touch next-hop data *)
Lemma NODEFREE6_data s p q : data (hp (NODEFREE6 s p) q) = data (hp s q).
Proof.
  unfold NODEFREE6. cbn [hp].
  assert (H1 : data (upd (hp s) p (mkNode (flags (hp s p)) (data (hp s p)) None (ffirst s)) q) = data (hp s q)).
  { unfold upd. destruct (Nat.eqb_spec q p) as [->|_]; reflexivity. }
  destruct (ffirst s) as [f|]; [|exact H1].
  unfold upd at 1. destruct (Nat.eqb_spec q f) as [->|_]; exact H1.
Qed.
Lemma NODEFREE4_data s p q : data (hp (NODEFREE4 s p) q) = data (hp s q).
Proof.
  unfold NODEFREE4.
  assert (H1 : data (upd (hp s) p (mkNode (flags (hp s p)) (data (hp s p)) (flast s) None) q) = data (hp s q)).
  { unfold upd. destruct (Nat.eqb_spec q p) as [->|_]; reflexivity. }
  destruct (flast s) as [f|]; [|exact H1]. cbn [hp].
  unfold upd at 1. destruct (Nat.eqb_spec q f) as [->|_]; exact H1.
Qed.

Section DataPres.
Variable free : pool -> nat -> pool.
Hypothesis free_data : forall s p q, data (hp (free s p) q) = data (hp s q).
Lemma gunwind_data stack : forall s rbs q, data (hp (gunwind free s stack rbs) q) = data (hp s q).
Proof.
  induction stack as [|p stack IH]; intros s rbs q; [reflexivity|]. destruct rbs as [|b rbs]; [reflexivity|].
  assert (H1 : data (upd (hp s) p (set_child (hp s p) b None) q) = data (hp s q)).
  { unfold upd. destruct (Nat.eqb_spec q p) as [->|_]; [destruct b|]; reflexivity. }
  cbn [gunwind].
  match goal with |- context [match ?c with Some _ => _ | None => _ end] => destruct c; [exact H1|] end.
  match goal with |- context [if ?c then _ else _] => destruct c; [exact H1|] end.
  destruct stack as [|p2 stack]; [exact H1|]. rewrite IH, free_data. exact H1.
Qed.
Lemma gremove_data s root bs q : data (hp (fst (gremove free s root bs)) q) = data (hp s q).
Proof.
  unfold gremove. destruct (gwalk (hp s) bs root []) as [[nd stack] rem].
  destruct nd as [p|]; [|reflexivity]. destruct (negb (is_valid (hp s p))); [reflexivity|].
  assert (H1 : data (upd (hp s) p (set_flags (hp s p) 0) q) = data (hp s q)).
  { unfold upd. destruct (Nat.eqb_spec q p) as [->|_]; reflexivity. }
  match goal with |- context [match ?c with Some _ => _ | None => _ end] => destruct c; [exact H1|] end.
  match goal with |- context [match ?c with Some _ => _ | None => _ end] => destruct c; [exact H1|] end.
  destruct bs as [|b bs]; [exact H1|]. cbn [fst]. rewrite gunwind_data, free_data. exact H1.
Qed.
End DataPres.

Lemma val_deep t : forall q, (height t <= length q)%nat -> val t q = None.
Proof.
  induction t as [|p v l IHl r IHr]; intros q H; [apply val_E|]. cbn in H.
  destruct q as [|b q]; [cbn in H; lia|]. cbn [length] in H.
  unfold val in *. cbn [sub tch]. destruct b; [apply IHr|apply IHl]; lia.
Qed.

(* number of nodes of a trimmed trie, bounded by the installed prefixes *)
Definition tails (b : bool) (L : list (list bool)) : list (list bool) :=
  flat_map (fun q => match q with c :: q' => if Bool.eqb c b then [q'] else [] | [] => [] end) L.

Lemma tails_sum L : (sumlen (tails false L) + length (tails false L) + sumlen (tails true L) + length (tails true L) <= sumlen L)%nat.
Proof.
  induction L as [|q L IH]; [reflexivity|]. destruct q as [|c q]; [exact IH|].
  assert (E0 : sumlen ((c :: q) :: L) = S (length q + sumlen L)) by reflexivity.
  assert (E1 : tails c ((c :: q) :: L) = q :: tails c L) by (destruct c; reflexivity).
  assert (E2 : tails (negb c) ((c :: q) :: L) = tails (negb c) L) by (destruct c; reflexivity).
  assert (E3 : sumlen (q :: tails c L) = (length q + sumlen (tails c L))%nat) by reflexivity.
  destruct c; cbn [negb] in E2; rewrite E1, E2, E0, E3; cbn [length]; lia.
Qed.
Lemma in_tails b L q : In (b :: q) L -> In q (tails b L).
Proof.
  intros H. apply in_flat_map. exists (b :: q). split; [exact H|]. rewrite Bool.eqb_reflx. left. reflexivity.
Qed.
Lemma trim_val t : trim t -> t <> E -> exists q, val t q <> None.
Proof.
  induction t as [|p v l IHl r IHr]; intros Ht Hn; [contradiction|]. cbn in Ht. destruct Ht as (H1 & H2 & H3).
  destruct v as [d|]; [exists []; discriminate|]. destruct (H1 eq_refl) as [Hl|Hr].
  - destruct (IHl H2 Hl) as (q & Hq). exists (false :: q). exact Hq.
  - destruct (IHr H3 Hr) as (q & Hq). exists (true :: q). exact Hq.
Qed.
Lemma trim_size t : forall L, trim t -> (forall q, val t q <> None -> In q L) -> t <> E ->
  (length (addrs t) <= 1 + sumlen L)%nat.
Proof.
  induction t as [|p v l IHl r IHr]; intros L Ht Hc Hn; [contradiction|]. cbn in Ht. destruct Ht as (H1 & H2 & H3).
  cbn [addrs length]. rewrite app_length.
  assert (Hl : (length (addrs l) <= sumlen (tails false L) + length (tails false L))%nat).
  { destruct l as [|pl vl ll rl] eqn:El; [cbn; lia|]. rewrite <- El in *.
    assert (Hne : l <> E) by (rewrite El; discriminate).
    assert (Hcl : forall q, val l q <> None -> In q (tails false L)) by (intros q Hq; apply in_tails, (Hc (false :: q)); exact Hq).
    destruct (trim_val l H2 Hne) as (q & Hq). apply Hcl in Hq.
    assert (length (tails false L) <> 0)%nat by (destruct (tails false L); [contradiction|discriminate]).
    specialize (IHl _ H2 Hcl Hne). lia. }
  assert (Hr : (length (addrs r) <= sumlen (tails true L) + length (tails true L))%nat).
  { destruct r as [|pl vl ll rl] eqn:El; [cbn; lia|]. rewrite <- El in *.
    assert (Hne : r <> E) by (rewrite El; discriminate).
    assert (Hcl : forall q, val r q <> None -> In q (tails true L)) by (intros q Hq; apply in_tails, (Hc (true :: q)); exact Hq).
    destruct (trim_val r H3 Hne) as (q & Hq). apply Hcl in Hq.
    assert (length (tails true L) <> 0)%nat by (destruct (tails true L); [contradiction|discriminate]).
    specialize (IHr _ H3 Hcl Hne). lia. }
  assert (X := tails_sum L). lia.
Qed.
Lemma rtrim_size t L : rtrim t -> (forall q, val t q <> None -> In q L) ->
  (length (addrs t) <= 1 + sumlen L)%nat.
Proof.
  destruct t as [|p v l r]; intros Ht Hc; [cbn; lia|]. cbn in Ht. destruct Ht as [H2 H3].
  cbn [addrs length]. rewrite app_length.
  assert (H : forall (b : bool) (c : tree), c = (if b then r else l) -> trim c ->
    (length (addrs c) <= sumlen (tails b L) + length (tails b L))%nat).
  { intros b c Ec Htc. destruct c as [|pl vl ll rl] eqn:El; [cbn; lia|]. rewrite <- El in *.
    assert (Hne : c <> E) by (rewrite El; discriminate).
    assert (Hcl : forall q, val c q <> None -> In q (tails b L)).
    { intros q Hq; apply in_tails, (Hc (b :: q)). unfold val in *. cbn [sub tch]. rewrite <- Ec. exact Hq. }
    destruct (trim_val c Htc Hne) as (q & Hq). apply Hcl in Hq.
    assert (length (tails b L) <> 0)%nat by (destruct (tails b L); [contradiction|discriminate]).
    assert (X := trim_size c _ Htc Hcl Hne). lia. }
  assert (Hl := H false l eq_refl H2). assert (Hr := H true r eq_refl H3). assert (X := tails_sum L). lia.
Qed.

(* ---------------- the forest after any history ---------------- *)
Section Hist.
Variable alloc : pool -> option nat * pool.
Variable free : pool -> nat -> pool.
Variable FreeRep : pool -> list nat -> Prop.
Hypothesis FR_frame : forall s fl h, FreeRep s fl -> (forall q, In q fl -> h q = hp s q) ->
  FreeRep (set_hp s h) fl.
Hypothesis FR_nil : forall s, FreeRep s [] -> alloc s = (None, s).
Hypothesis FR_alloc : forall s p fl, FreeRep s (p :: fl) -> NoDup (p :: fl) ->
  exists s', alloc s = (Some p, s') /\ FreeRep s' fl /\
    (forall q, ~ In q (p :: fl) -> hp s' q = hp s q) /\ nalloc s' = nalloc s + 1.
Hypothesis FR_free : forall s p fl, FreeRep s fl -> NoDup (p :: fl) ->
  exists fl', Permutation fl' (p :: fl) /\ FreeRep (free s p) fl' /\
    (forall q, ~ In q (p :: fl) -> hp (free s p) q = hp s q) /\
    nalloc (free s p) = nalloc s - 1.
Hypothesis free_data : forall s p q, data (hp (free s p) q) = data (hp s q).

Definition Good (N H : nat) (s : pool) (roots : list (option nat)) (fs : list (nat * tree)) (fl : list nat) : Prop :=
  Forest FreeRep s fs fl /\ roots = map (fun rt => Some (fst rt)) fs /\
  Forall (fun rt => rtrim (snd rt) /\ (height (snd rt) <= S H)%nat) fs /\
  Permutation (fnodes fs ++ fl) (seq 0 N).
Definition Rel (ts : tables) (fs : list (nat * tree)) : Prop :=
  forall v root t, nth_error fs v = Some (root, t) -> forall q, ts v q = val t q.

Lemma nth_error_mid {A} (l1 : list A) x l2 : nth_error (l1 ++ x :: l2) (length l1) = Some x.
Proof. rewrite nth_error_app2, Nat.sub_diag by lia. reflexivity. Qed.
Lemma nth_error_mid_other {A} (l1 : list A) x y l2 v : v <> length l1 ->
  nth_error (l1 ++ x :: l2) v = nth_error (l1 ++ y :: l2) v.
Proof.
  intros H. destruct (lt_dec v (length l1)) as [Hl|Hl]; [rewrite !nth_error_app1 by lia; reflexivity|].
  rewrite !nth_error_app2 by lia. replace (v - length l1)%nat with (S (v - length l1 - 1)) by lia. reflexivity.
Qed.

Lemma Rel_set ts a root t t' b q0 x :
  Rel ts (a ++ (root, t) :: b) ->
  (forall q, val t' q = if list_eq_dec Bool.bool_dec q q0 then x else val t q) ->
  Rel (set_table ts (length a) (set_route (ts (length a)) q0 x)) (a ++ (root, t') :: b).
Proof.
  intros H Hv v r0 t0 Hn q. unfold set_table. destruct (Nat.eqb_spec v (length a)) as [->|Hne].
  - rewrite nth_error_mid in Hn. injection Hn as <- <-. unfold set_route. rewrite Hv.
    rewrite (H _ _ _ (nth_error_mid _ _ _)). reflexivity.
  - rewrite (nth_error_mid_other _ _ (root, t)) in Hn by exact Hne. exact (H _ _ _ Hn q).
Qed.

Lemma Good_step N H s s' a root t t' b fl fl' roots :
  Good N H s roots (a ++ (root, t) :: b) fl ->
  Step FreeRep s s' root t t' fl fl' -> rtrim t' -> (height t' <= S H)%nat ->
  Good N H s' roots (a ++ (root, t') :: b) fl'.
Proof.
  intros (G1 & G2 & G3 & G4) HS Ht Hh. destruct (Forest_step FreeRep _ _ _ _ _ _ _ _ _ G1 HS) as [F1 F2].
  split; [exact F1|]. split; [rewrite G2, !map_app; reflexivity|]. split.
  - apply Forall_app in G3. destruct G3 as [Ga Gb]. inversion Gb; subst. apply Forall_app. split; [exact Ga|].
    constructor; [cbn; auto|assumption].
  - rewrite F2. exact G4.
Qed.

Definition ans (r : ins_ret) : rres :=
  match r with InsNULL => Added | InsExisting _ => AlreadyThere | InsData => NoMemory end.

Lemma fnodes_len s fs fl N H roots : Good N H s roots fs fl -> (length (fnodes fs) + length fl = N)%nat.
Proof. intros (_ & _ & _ & P). apply Permutation_length in P. rewrite app_length, seq_length in P. exact P. Qed.

Lemma add_step ovw x N H s roots fs fl ts v root t (A : Type) (bits : A -> list bool) (a : A) n d :
  Good N H s roots fs fl -> Rel ts fs -> nth_error fs v = Some (root, t) ->
  (length (firstn n (bits a)) <= H)%nat ->
  exists s' r fs' fl' ts', ginsert alloc free ovw x s (Some root) (firstn n (bits a)) d = Ret (s', r) /\
    Good N H s' roots fs' fl' /\ Rel ts' fs' /\
    rstep bits (negb ovw) ts (Add v a n d) (ans r) ts' /\
    (ans r = NoMemory -> nalloc s' = nalloc s /\ fs' = fs /\ (length fl <= length (firstn n (bits a)))%nat).
Proof.
  intros G R Hv Hlen. destruct (nth_error_split _ _ Hv) as (a0 & b0 & -> & <-).
  assert (HI := Forest_Inv FreeRep _ _ _ _ _ _ (proj1 G)).
  destruct (ginsert_ok alloc free FreeRep FR_frame FR_nil FR_alloc FR_free ovw x s root t fl (firstn n (bits a)) d HI)
    as (s' & r & t' & fl' & E1 & HS & HP & Ht & Hh).
  assert (Gt := proj1 (proj2 (proj2 G))). apply Forall_app in Gt. destruct Gt as [_ Gt]. inversion Gt as [|? ? [Gt1 Gt2] _]; subst.
  cbn [snd] in *. assert (G' := Good_step _ _ _ _ _ _ _ _ _ _ _ _ G HS (Ht Gt1) (Hh _ Gt2 ltac:(lia))).
  exists s', r, (a0 ++ (root, t') :: b0), fl'. destruct r as [| |p]; cbn [ins_post ans] in *.
  - destruct HP as [HP1 HP2].
    eexists. split; [exact E1|]. split; [exact G'|]. split; [eapply Rel_set; eassumption|]. split; [|discriminate].
    apply rs_add. intros Hk. rewrite (R _ _ _ Hv). destruct HP1 as [->|HP1]; [discriminate|exact HP1].
  - destruct HP as [-> HP]. exists ts. split; [exact E1|]. split; [exact G'|]. split; [exact R|]. split; [apply rs_nomem|].
    intros _. split; [|split; [reflexivity|exact HP]]. destruct HS as (_ & _ & _ & HN). lia.
  - destruct HP as (-> & -> & HP & _). exists ts. split; [exact E1|]. split; [exact G'|]. split; [exact R|].
    split; [|discriminate]. apply rs_there; [reflexivity|]. rewrite (R _ _ _ Hv). exact HP.
Qed.

Lemma del_step keep N H s roots fs fl ts v root t (A : Type) (bits : A -> list bool) (a : A) n :
  Good N H s roots fs fl -> Rel ts fs -> nth_error fs v = Some (root, t) ->
  exists s' r fs' fl' ts', gremove free s (Some root) (firstn n (bits a)) = (s', r) /\
    Good N H s' roots fs' fl' /\ Rel ts' fs' /\
    rstep bits keep ts (Del v a n) (match r with Some p => Deleted (data (hp s' p)) | None => NotFound end) ts'.
Proof.
  intros G R Hv. destruct (nth_error_split _ _ Hv) as (a0 & b0 & -> & <-).
  assert (HI := Forest_Inv FreeRep _ _ _ _ _ _ (proj1 G)).
  assert (Gt := proj1 (proj2 (proj2 G))). apply Forall_app in Gt. destruct Gt as [_ Gt]. inversion Gt as [|? ? [Gt1 Gt2] _]; subst.
  cbn [snd] in *.
  destruct (gremove_ok alloc free FreeRep FR_frame FR_nil FR_alloc FR_free s root t fl (firstn n (bits a)) HI Gt1)
    as (s' & r & t' & fl' & E1 & HS & Ht & Hh & HP).
  assert (G' := Good_step _ _ _ _ _ _ _ _ _ _ _ _ G HS Ht (Hh _ Gt2)).
  exists s', r, (a0 ++ (root, t') :: b0), fl'.
  destruct (val t (firstn n (bits a))) as [d|] eqn:Ev.
  - destruct HP as (p & -> & HP1 & HP2). eexists. split; [exact E1|]. split; [exact G'|].
    split; [eapply Rel_set; eassumption|].
    assert (Hd := gremove_data free free_data s (Some root) (firstn n (bits a)) p). rewrite E1 in Hd. cbn [fst] in Hd.
    rewrite Hd, HP1. apply rs_del. rewrite (R _ _ _ Hv). exact Ev.
  - destruct HP as (-> & -> & ->). exists ts. split; [exact E1|]. split; [exact G'|]. split; [exact R|].
    apply rs_notfound. rewrite (R _ _ _ Hv). exact Ev.
Qed.
End Hist.
