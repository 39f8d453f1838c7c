(* C97: packets queued for transmission. *)
From Verif Require Import Base BurstModel.
Ltac Zify.zify_post_hook ::= idtac.

(* ---- specification ---- *)

(* the packets handed over for a port, in order *)
Definition given (port : nat) (l : list ev) : list Z :=
  flat_map (fun e => match e with Send q p _ => if (q =? port)%nat then [p] else [] | Pending _ => [] end) l.
(* the packets of a port that have left, accepted or freed, in order *)
Definition left (port : nat) (o : list out) : list Z :=
  flat_map (fun x => match x with Tx q p => if (q =? port)%nat then [p] else [] | Free q p => if (q =? port)%nat then [p] else [] end) o.
(* ports exist *)
Definition ports_ok (ports : nat) (l : list ev) : Prop := Forall (fun e => match e with Send q _ _ => (q < ports)%nat | Pending _ => True end) l.
(* the interface accepts everything it is offered *)
Definition accepts (b : nat) (l : list ev) : Prop := Forall (fun e => match e with Send _ _ r => Z.of_nat b <= r | Pending r => forall q, Z.of_nat b <= r q end) l.

(* ---- proofs ---- *)

Lemma rd_ok : forall A (l : list A) i d, (i < length l)%nat -> rd l i = Ret (nth i l d).
Proof. intros A l i d H. unfold rd. rewrite (nth_error_nth' l d H). reflexivity. Qed.
Lemma wr_ok : forall A (l : list A) i x, (i < length l)%nat -> exists l', wr l i x = Ret l' /\ length l' = length l /\
  forall j d, nth j l' d = if (j =? i)%nat then x else nth j l d.
Proof.
  intros A l. induction l as [|y l IH]; intros i x H; cbn [length] in H; [lia|]. destruct i as [|i]; cbn [wr].
  - exists (x :: l). split; [reflexivity|]. split; [reflexivity|]. intros [|j] d; reflexivity.
  - destruct (IH i x ltac:(lia)) as (l' & E & L & N). rewrite E. cbn [obind]. exists (y :: l').
    split; [reflexivity|]. split; [cbn [length]; lia|]. intros [|j] d; cbn [nth]; [reflexivity|]. rewrite N. reflexivity.
Qed.
Lemma wr_bad : forall A (l : list A) i x, (length l <= i)%nat -> wr l i x = UB.
Proof.
  intros A l. induction l as [|y l IH]; intros i x H; [destruct i; reflexivity|]. cbn [length] in H.
  destruct i as [|i]; [lia|]. cbn [wr]. rewrite IH by lia. reflexivity.
Qed.
Definition slots (l : list Z) (a n : nat) : list Z := map (fun k => nth (a + k) l 0) (seq 0 n).
Lemma rd_range_ok : forall l n a, (a + n <= length l)%nat -> rd_range l a n = Ret (slots l a n).
Proof.
  intros l n. induction n as [|n IH]; intros a H; [reflexivity|]. cbn [rd_range]. rewrite (rd_ok _ l a 0) by lia. cbn [obind].
  rewrite IH by lia. cbn [obind]. f_equal. unfold slots. cbn [seq map]. f_equal; [f_equal; lia|].
  rewrite <- seq_shift, map_map. apply map_ext. intros k. f_equal. lia.
Qed.

Lemma left_table : forall q p k l, left q (map (Tx p) (firstn k l) ++ map (Free p) (skipn k l)) = if (q =? p)%nat then l else [].
Proof.
  intros q p k l. rewrite <- (firstn_skipn k l) at 3. generalize (firstn k l) (skipn k l). intros a c. unfold left. rewrite flat_map_app, (Nat.eqb_sym q p).
  assert (A : forall x, flat_map (fun x => match x with Tx q0 p0 => if (q0 =? q)%nat then [p0] else [] | Free q0 p0 => if (q0 =? q)%nat then [p0] else [] end) (map (Tx p) x) = if (p =? q)%nat then x else []).
  { induction x as [|y x IH]; cbn [map flat_map]; [destruct (p =? q)%nat; reflexivity|]. rewrite IH. destruct (p =? q)%nat; reflexivity. }
  assert (B : forall x, flat_map (fun x => match x with Tx q0 p0 => if (q0 =? q)%nat then [p0] else [] | Free q0 p0 => if (q0 =? q)%nat then [p0] else [] end) (map (Free p) x) = if (p =? q)%nat then x else []).
  { induction x as [|y x IH]; cbn [map flat_map]; [destruct (p =? q)%nat; reflexivity|]. rewrite IH. destruct (p =? q)%nat; reflexivity. }
  rewrite A, B. destruct (p =? q)%nat; reflexivity.
Qed.

Record Inv (b ports : nat) (pend : nat -> list Z) (s : st) : Prop := {
  v_b : burst s = b;
  v_m : length (mem s) = (b * ports)%nat;
  v_c : length (cnt s) = ports;
  v_n : forall p, (p < ports)%nat -> nth p (cnt s) O = length (pend p);
  v_l : forall p, (p < ports)%nat -> (length (pend p) <= b)%nat;
  v_p : forall p, (p < ports)%nat -> slots (mem s) (b * p) (length (pend p)) = pend p }.

Lemma area : forall b ports p, (p < ports)%nat -> (b * p + b <= b * ports)%nat.
Proof. intros. nia. Qed.

Definition set (f : nat -> list Z) (p : nat) (l : list Z) : nat -> list Z := fun q => if (q =? p)%nat then l else f q.

Lemma send_table_ok : forall b ports pend s p r, Inv b ports pend s -> (p < ports)%nat ->
  exists s' k, send_table p r s = Ret (s', map (Tx p) (firstn k (pend p)) ++ map (Free p) (skipn k (pend p))) /\
    Inv b ports (set pend p []) s' /\ k = Z.to_nat (if r <? 0 then 0 else r).
Proof.
  intros b ports pend s p r I P. pose proof (v_l _ _ _ _ I p P) as B. destruct I as [I1 I2 I3 I4 I6 I5]. unfold send_table.
  rewrite (rd_ok _ (cnt s) p O) by lia. cbn [obind]. rewrite I4 by exact P. rewrite I1.
  pose proof (area b ports p P). rewrite rd_range_ok by lia. cbn [obind]. rewrite I5 by exact P.
  destruct (wr_ok _ (cnt s) p O ltac:(lia)) as (c & E & L & N). rewrite E. cbn [obind].
  eexists _, _. split; [reflexivity|]. split; [|reflexivity].
  constructor; cbn [burst mem cnt]; try assumption; try lia.
  - intros q Q. rewrite N. unfold set. destruct (q =? p)%nat eqn:G; [reflexivity|apply I4; exact Q].
  - intros q Q. unfold set. destruct (q =? p)%nat eqn:G; [cbn [length]; lia|apply I6; exact Q].
  - intros q Q. unfold set. destruct (q =? p)%nat eqn:G; [reflexivity|apply I5; exact Q].
Qed.

Lemma slots_ext : forall l l' a n, (forall k, (k < n)%nat -> nth (a + k) l' 0 = nth (a + k) l 0) -> slots l' a n = slots l a n.
Proof. intros l l' a n H. unfold slots. apply map_ext_in. intros k K. apply in_seq in K. apply H. lia. Qed.
Lemma slots_snoc : forall l a n, slots l a (S n) = slots l a n ++ [nth (a + n) l 0].
Proof. intros. unfold slots. rewrite seq_S, map_app. reflexivity. Qed.

Lemma put_ok : forall b ports pend s p x, Inv b ports pend s -> (p < ports)%nat -> (length (pend p) < b)%nat ->
  exists m c, wr (mem s) (burst s * p + length (pend p)) x = Ret m /\ wr (cnt s) p (S (length (pend p))) = Ret c /\
    Inv b ports (set pend p (pend p ++ [x])) (mkS (burst s) m c).
Proof.
  intros b ports pend s p x I P B. destruct I as [I1 I2 I3 I4 I6 I5]. rewrite I1. pose proof (area b ports p P).
  destruct (wr_ok _ (mem s) (b * p + length (pend p)) x ltac:(lia)) as (m & E1 & L1 & N1).
  destruct (wr_ok _ (cnt s) p (S (length (pend p))) ltac:(lia)) as (c & E2 & L2 & N2).
  exists m, c. split; [exact E1|]. split; [exact E2|]. constructor; cbn [burst mem cnt]; try assumption; try lia.
  - intros q Q. rewrite N2. unfold set. destruct (q =? p)%nat eqn:G; [rewrite app_length; cbn [length]; lia|apply I4; exact Q].
  - intros q Q. unfold set. destruct (q =? p)%nat eqn:G; [rewrite app_length; cbn [length]; lia|apply I6; exact Q].
  - intros q Q. unfold set. destruct (q =? p)%nat eqn:G.
    + assert (q = p) by lia. subst q. rewrite app_length. cbn [length]. rewrite Nat.add_1_r, slots_snoc, N1, Nat.eqb_refl.
      f_equal. rewrite <- (I5 p P) at 2. apply slots_ext. intros k K. rewrite N1.
      destruct (b * p + k =? b * p + length (pend p))%nat eqn:X; [exfalso; lia|reflexivity].
    + rewrite <- (I5 q Q) at 2. apply slots_ext. intros k K. rewrite N1. specialize (I6 q Q).
      destruct (b * q + k =? b * p + length (pend p))%nat eqn:X; [|reflexivity]. exfalso.
      assert (q <> p) by lia. assert ((q < p)%nat \/ (p < q)%nat) as [D|D] by lia; nia.
Qed.

Lemma flush_ok : forall b ports r n p pend s, Inv b ports pend s -> (p + n <= ports)%nat ->
  exists s' o, flush_from p n r s = Ret (s', o) /\
    Inv b ports (fun q => if (p <=? q)%nat && (q <? p + n)%nat then [] else pend q) s' /\
    (forall q, left q o = if (p <=? q)%nat && (q <? p + n)%nat then pend q else []) /\
    ((forall q, Z.of_nat b <= r q) -> forall q x, ~ In (Free q x) o).
Proof.
  intros b ports r n. induction n as [|n IH]; intros p pend s I B; cbn [flush_from].
  - exists s, []. split; [reflexivity|]. split.
    + destruct I as [I1 I2 I3 I4 I6 I5].
      assert (EQ : forall q, (if (p <=? q)%nat && (q <? p + 0)%nat then [] else pend q) = pend q).
      { intros q. replace (_ && _) with false by lia. reflexivity. }
      constructor; try assumption; intros q Q; rewrite !EQ; auto.
    + split; [intros q; replace (_ && _) with false by lia; reflexivity|]. intros _ q x [].
  - pose proof (v_n _ _ _ _ I p ltac:(lia)) as VN. rewrite (rd_ok _ (cnt s) p O) by (rewrite (v_c _ _ _ _ I); lia). cbn [obind]. rewrite VN.
    assert (SS : exists s1 o1, (if (length (pend p) =? 0)%nat then Ret (s, []) else send_table p (r p) s) = Ret (s1, o1) /\
      Inv b ports (set pend p []) s1 /\ (forall q, left q o1 = if (q =? p)%nat then pend p else []) /\
      (Z.of_nat b <= r p -> forall q x, ~ In (Free q x) o1)).
    { destruct (length (pend p) =? 0)%nat eqn:Z0.
      - assert (pend p = []) as PE by (destruct (pend p); [reflexivity|cbn [length] in Z0; lia]).
        exists s, []. split; [reflexivity|]. split.
        + destruct I as [I1 I2 I3 I4 I6 I5].
          assert (EQ : forall q, set pend p [] q = pend q) by (intros q; unfold set; destruct (q =? p)%nat eqn:G; [assert (q = p) by lia; subst q; auto|reflexivity]).
          constructor; try assumption; intros q Q; rewrite !EQ; auto.
        + split; [intros q; rewrite PE; destruct (q =? p)%nat; reflexivity|]. intros _ q x [].
      - destruct (send_table_ok b ports pend s p (r p) I ltac:(lia)) as (s1 & k & E & I1 & K). rewrite E.
        eexists _, _. split; [reflexivity|]. split; [exact I1|]. split.
        + intros q. apply left_table.
        + intros R q x. pose proof (v_l _ _ _ _ I p ltac:(lia)) as L. rewrite skipn_all2 by (subst k; destruct (r p <? 0) eqn:Y; lia).
          cbn [map]. rewrite app_nil_r. intros X. apply in_map_iff in X. destruct X as (y & X & _). discriminate X. }
    destruct SS as (s1 & o1 & E1 & I1 & L1 & F1). rewrite E1. cbn [obind].
    destruct (IH (S p) (set pend p []) s1 I1 ltac:(lia)) as (s2 & o2 & E2 & I2 & L2 & F2). rewrite E2. cbn [obind].
    exists s2, (o1 ++ o2). split; [reflexivity|]. split.
    + destruct I2 as [J1 J2 J3 J4 J6 J5].
      assert (EQ : forall q, (if (S p <=? q)%nat && (q <? S p + n)%nat then [] else set pend p [] q) = (if (p <=? q)%nat && (q <? p + S n)%nat then [] else pend q)).
      { intros q. unfold set. destruct (q =? p)%nat eqn:G.
        - replace ((p <=? q)%nat && (q <? p + S n)%nat) with true by lia. destruct (_ && _); reflexivity.
        - replace ((S p <=? q)%nat && (q <? S p + n)%nat) with ((p <=? q)%nat && (q <? p + S n)%nat) by lia. reflexivity. }
      constructor; try assumption; intros q Q; rewrite <- !EQ; auto.
    + split.
      * intros q. unfold left in *. rewrite flat_map_app, L1, L2. unfold set. destruct (q =? p)%nat eqn:G.
        { assert (q = p) by lia. subst q. replace ((S p <=? p)%nat && _) with false by lia. replace (_ && _) with true by lia. apply app_nil_r. }
        { replace ((S p <=? q)%nat && (q <? S p + n)%nat) with ((p <=? q)%nat && (q <? p + S n)%nat) by lia. reflexivity. }
      * intros R q x X. apply in_app_or in X. destruct X as [X|X]; [exact (F1 (R p) q x X)|exact (F2 R q x X)].
Qed.

Definition small (b ports : nat) (pend : nat -> list Z) : Prop := forall p, (p < ports)%nat -> (length (pend p) < b)%nat.

Lemma step_ok : forall b ports pend s e, Inv b ports pend s -> small b ports pend ->
  match e with Send q _ _ => (q < ports)%nat | Pending _ => True end ->
  exists s' o pend', step e s = Ret (s', o) /\ Inv b ports pend' s' /\ small b ports pend' /\
    (forall p, (p < ports)%nat -> pend p ++ given p [e] = left p o ++ pend' p) /\
    (match e with Send _ _ r => Z.of_nat b <= r | Pending r => forall q, Z.of_nat b <= r q end -> forall q x, ~ In (Free q x) o) /\
    match e with Pending _ => forall p, (p < ports)%nat -> pend' p = [] | _ => True end.
Proof.
  intros b ports pend s e I S P. destruct e as [q x r|r]; cbn [step].
  - unfold send_pkt_out. pose proof (S q P) as SQ. rewrite (rd_ok _ (cnt s) q O) by (rewrite (v_c _ _ _ _ I); lia). cbn [obind].
    rewrite (v_n _ _ _ _ I q P). destruct (put_ok b ports pend s q x I P SQ) as (m & c & E1 & E2 & I1). rewrite E1. cbn [obind]. rewrite E2. cbn [obind].
    rewrite (v_b _ _ _ _ I) in *. cbn [burst]. destruct (Datatypes.S (length (pend q)) =? b)%nat eqn:F.
    + destruct (send_table_ok b ports _ _ q r I1 P) as (s2 & k & E3 & I2 & K). rewrite E3.
      eexists _, _, _. split; [reflexivity|]. split; [exact I2|]. unfold set at 1. split.
      { intros p Hp. unfold set. destruct (p =? q)%nat eqn:G; [cbn [length]; lia|apply S; exact Hp]. }
      split.
      { intros p Hp. rewrite left_table. unfold given. cbn [flat_map]. rewrite app_nil_r. unfold set. rewrite Nat.eqb_refl.
        destruct (p =? q)%nat eqn:G.
        - assert (p = q) by lia. subst p. rewrite Nat.eqb_refl. symmetry. apply app_nil_r.
        - rewrite Nat.eqb_sym, G. apply app_nil_r. }
      split; [|exact Logic.I]. intros R p y X. apply in_app_or in X. destruct X as [X|X]; apply in_map_iff in X; destruct X as (z & X & Z0); [discriminate X|].
      rewrite skipn_all2 in Z0; [destruct Z0|]. unfold set. rewrite Nat.eqb_refl, app_length. cbn [length]. subst k. destruct (r <? 0) eqn:Y; lia.
    + eexists _, _, _. split; [reflexivity|]. split; [exact I1|]. split.
      { intros p Hp. unfold set. destruct (p =? q)%nat eqn:G; [rewrite app_length; cbn [length]; lia|apply S; exact Hp]. }
      split.
      { intros p Hp. unfold given, left. cbn [flat_map app]. rewrite app_nil_r. unfold set. rewrite (Nat.eqb_sym q p).
        destruct (p =? q)%nat eqn:G; [assert (p = q) by lia; subst p; reflexivity|apply app_nil_r]. }
      split; [intros _ p y []|exact Logic.I].
  - unfold flush. rewrite (v_b _ _ _ _ I), (v_c _ _ _ _ I). destruct (1 <? b)%nat eqn:B.
    + destruct (flush_ok b ports r ports 0 pend s I ltac:(lia)) as (s' & o & E & I1 & L & F). rewrite E.
      eexists _, _, _. split; [reflexivity|]. split; [exact I1|]. cbv beta. split.
      { intros p Hp. replace (_ && _) with true by lia. cbn [length]. specialize (S p Hp). lia. }
      split.
      { intros p Hp. rewrite L. replace (_ && _) with true by lia. unfold given. cbn [flat_map]. reflexivity. }
      split; [exact F|]. intros p Hp. replace (_ && _) with true by lia. reflexivity.
    + eexists _, _, _. split; [reflexivity|]. split; [exact I|]. split; [exact S|]. split.
      { intros p Hp. unfold given, left. cbn [flat_map app]. apply app_nil_r. }
      split; [intros _ p y []|]. intros p Hp. specialize (S p Hp). destruct (pend p); [reflexivity|cbn [length] in S; lia].
Qed.

Lemma run_ok : forall b ports l pend s, Inv b ports pend s -> small b ports pend -> ports_ok ports l ->
  exists s' o pend', run l s = Ret (s', o) /\ Inv b ports pend' s' /\ small b ports pend' /\
    (forall p, (p < ports)%nat -> pend p ++ given p l = left p o ++ pend' p) /\
    (accepts b l -> forall q x, ~ In (Free q x) o).
Proof.
  intros b ports l. induction l as [|e l IH]; intros pend s I S P; cbn [run].
  - exists s, [], pend. split; [reflexivity|]. split; [exact I|]. split; [exact S|]. split; [intros p _; apply app_nil_r|]. intros _ q x [].
  - inversion P as [|? ? P0 P1]; subst. destruct (step_ok b ports pend s e I S P0) as (s1 & o1 & pd1 & E1 & I1 & S1 & G1 & F1 & _).
    rewrite E1. cbn [obind]. destruct (IH pd1 s1 I1 S1 P1) as (s2 & o2 & pd2 & E2 & I2 & S2 & G2 & F2). rewrite E2. cbn [obind].
    exists s2, (o1 ++ o2), pd2. split; [reflexivity|]. split; [exact I2|]. split; [exact S2|]. split.
    + intros p Hp. specialize (G1 p Hp). specialize (G2 p Hp). unfold given, left in *. cbn [flat_map] in *. rewrite app_nil_r in G1.
      rewrite flat_map_app, <- app_assoc, <- G2, !app_assoc. f_equal. exact G1.
    + intros A. inversion A as [|? ? A0 A1]; subst. intros q x X. apply in_app_or in X. destruct X as [X|X]; [exact (F1 A0 q x X)|exact (F2 A1 q x X)].
Qed.

Lemma init_inv : forall b ports, Inv b ports (fun _ => []) (init b ports).
Proof.
  intros b ports. constructor; cbn [init burst mem cnt]; try reflexivity.
  - apply repeat_length.
  - apply repeat_length.
  - intros p _. rewrite nth_repeat. reflexivity.
  - intros p _. cbn [length]. lia.
Qed.

(* C97.  Whatever the interfaces accept, no slot outside a port's table is
   touched, and per port the packets leave in the order in which they were
   handed over, each exactly once (accepted by the interface or freed); fewer
   than a burst wait. *)
Theorem burst_exactly_once : forall b ports l, (b > 0)%nat -> ports_ok ports l ->
  exists s o, run l (init b ports) = Ret (s, o) /\
    forall p, (p < ports)%nat -> exists wait, given p l = left p o ++ wait /\ (length wait < b)%nat /\ nth p (cnt s) O = length wait.
Proof.
  intros b ports l B P. destruct (run_ok b ports l (fun _ => []) (init b ports) (init_inv b ports)) as (s & o & pd & E & I & S & G & _); [intros p _; cbn [length]; lia|exact P|].
  exists s, o. split; [exact E|]. intros p Hp. exists (pd p). split; [exact (G p Hp)|]. split; [apply S; exact Hp|apply (v_n _ _ _ _ I); exact Hp].
Qed.
Print Assumptions burst_exactly_once.

(* After ofp_send_pending_pkt nothing waits. *)
Theorem burst_pending : forall b ports l r, (b > 0)%nat -> ports_ok ports l ->
  exists s o, run (l ++ [Pending r]) (init b ports) = Ret (s, o) /\ forall p, (p < ports)%nat -> left p o = given p l.
Proof.
  intros b ports l r B P.
  destruct (run_ok b ports l (fun _ => []) (init b ports) (init_inv b ports)) as (s & o & pd & E & I & S & G & _); [intros p _; cbn [length]; lia|exact P|].
  destruct (step_ok b ports pd s (Pending r) I S Logic.I) as (s2 & o2 & pd2 & E2 & I2 & S2 & G2 & _ & N).
  exists s2, (o ++ o2). split.
  - clear - E E2. revert E. generalize (init b ports). revert o. induction l as [|e l IH]; intros o s0 E; cbn [app run] in *.
    + injection E as -> <-. rewrite E2. cbn [obind app]. rewrite app_nil_r. reflexivity.
    + destruct (step e s0) as [[s1 o1]| |]; cbn [obind] in *; try discriminate.
      destruct (run l s1) as [[s3 o3]| |] eqn:R; cbn [obind] in *; try discriminate. injection E as -> <-.
      rewrite (IH o3 s1 R). cbn [obind]. rewrite app_assoc. reflexivity.
  - intros p Hp. unfold left in *. rewrite flat_map_app. specialize (G p Hp). specialize (G2 p Hp). specialize (N p Hp).
    cbn [app] in G. rewrite G. rewrite N, app_nil_r in G2. change (given p [Pending r]) with (@nil Z) in G2. rewrite app_nil_r in G2. rewrite G2. reflexivity.
Qed.
Print Assumptions burst_pending.

(* A packet is freed unsent only when an interface accepts less than offered. *)
Theorem burst_no_drop : forall b ports l s o, (b > 0)%nat -> ports_ok ports l -> accepts b l ->
  run l (init b ports) = Ret (s, o) -> forall q x, ~ In (Free q x) o.
Proof.
  intros b ports l s o B P A R.
  destruct (run_ok b ports l (fun _ => []) (init b ports) (init_inv b ports)) as (s2 & o2 & pd & E & _ & _ & _ & F); [intros p _; cbn [length]; lia|exact P|].
  rewrite R in E. injection E as <- <-. exact (F A).
Qed.
Print Assumptions burst_no_drop.

(* Terminating frees what waits. *)
Lemma term_ok : forall b ports pend s n p, Inv b ports pend s -> (p + n <= ports)%nat ->
  exists o, term_from p n s = Ret o /\ forall q, left q o = if (p <=? q)%nat && (q <? p + n)%nat then pend q else [].
Proof.
  intros b ports pend s n. induction n as [|n IH]; intros p I B; cbn [term_from].
  - exists []. split; [reflexivity|]. intros q. replace (_ && _) with false by lia. reflexivity.
  - rewrite (rd_ok _ (cnt s) p O) by (rewrite (v_c _ _ _ _ I); lia). cbn [obind]. rewrite (v_n _ _ _ _ I p ltac:(lia)), (v_b _ _ _ _ I).
    pose proof (area b ports p ltac:(lia)). pose proof (v_l _ _ _ _ I p ltac:(lia)).
    rewrite rd_range_ok by (rewrite (v_m _ _ _ _ I); lia). cbn [obind]. rewrite (v_p _ _ _ _ I p ltac:(lia)).
    destruct (IH (S p) I ltac:(lia)) as (o & E & L). rewrite E. cbn [obind]. eexists. split; [reflexivity|].
    intros q. unfold left in *. rewrite flat_map_app, L.
    pose proof (left_table q p 0 (pend p)) as T. cbn [firstn skipn map app] in T. unfold left in T. rewrite T.
    destruct (q =? p)%nat eqn:G.
    + assert (q = p) by lia. subst q. replace ((S p <=? p)%nat && _) with false by lia. replace (_ && _) with true by lia. apply app_nil_r.
    + replace ((S p <=? q)%nat && (q <? S p + n)%nat) with ((p <=? q)%nat && (q <? p + S n)%nat) by lia. reflexivity.
Qed.
Theorem burst_term : forall b ports l, (b > 0)%nat -> ports_ok ports l ->
  exists s o o2, run l (init b ports) = Ret (s, o) /\ term s = Ret o2 /\ forall p, (p < ports)%nat -> left p o ++ left p o2 = given p l.
Proof.
  intros b ports l B P.
  destruct (run_ok b ports l (fun _ => []) (init b ports) (init_inv b ports)) as (s & o & pd & E & I & S & G & _); [intros p _; cbn [length]; lia|exact P|].
  destruct (term_ok b ports pd s ports 0 I ltac:(lia)) as (o2 & E2 & L).
  exists s, o, o2. split; [exact E|]. split; [unfold term; rewrite (v_c _ _ _ _ I); exact E2|]. intros p Hp. rewrite L. replace (_ && _) with true by lia.
  specialize (G p Hp). cbn [app] in G. symmetry. exact G.
Qed.
Print Assumptions burst_term.

(* A burst size of 0 can be configured; the first packets are never sent and
   then the memory is overrun. *)
Theorem burst_zero_refuted : forall ports q p r, (q < ports)%nat -> step (Send q p r) (init 0 ports) = UB.
Proof.
  intros ports q p r H. cbn [step]. unfold send_pkt_out. cbn [init cnt burst mem].
  rewrite (rd_ok _ _ q O) by (rewrite repeat_length; exact H). cbn [obind]. rewrite wr_bad by (rewrite repeat_length; lia). reflexivity.
Qed.
Print Assumptions burst_zero_refuted.

(* ---- a case that meets the hypotheses ---- *)
Definition story : list ev := [Send 0 11 2; Send 1 12 2; Send 0 13 2; Send 1 14 1; Send 2 15 9; Pending (fun _ => -1); Send 0 16 0].
Example story_ok : ports_ok 3 story /\ match run story (init 2 3) with Ret (s, o) => Some (cnt s, o) | _ => None end =
  Some ([1; 0; 0]%nat, [Tx 0 11; Tx 0 13; Tx 1 12; Free 1 14; Free 2 15]).
Proof. split; [repeat constructor; lia|vm_compute; reflexivity]. Qed.
