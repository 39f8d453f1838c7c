(* The rotations, pointer by pointer. *)
From Verif Require Import Base AvlModel AvlSpec AvlRep AvlIns.
Ltac Zify.zify_post_hook ::= idtac.

Lemma rep_upd h a n p t : cnt a t = 0%nat -> rep h p t -> rep (upd h a n) p t.
Proof. intros C R. apply (rep_frame h); [exact R|]. intros x Hx. apply upd_ne. intros ->. lia. Qed.
Lemma repc_upd h a n sent ch c : (cntc a c + one a sent = 0)%nat -> repc h sent ch c -> repc (upd h a n) sent ch c.
Proof. intros C R. apply (repc_frame h); [exact R|]. intros x Hx. apply upd_ne. intros ->. lia. Qed.

Lemma pnn_other h x t v : cnt x t = 0%nat -> set_parent_nn h (root t) v x = h x.
Proof.
  intros C. unfold set_parent_nn. destruct t as [|l a k rk b r]; [reflexivity|]. cbn [root].
  destruct (Nat.eqb a 0); [reflexivity|]. apply upd_ne. intros ->. cbn [cnt] in C. rewrite one_refl in C. lia.
Qed.
Lemma rep_pnn_other h p t u v : (forall x, cnt x t + cnt x u <= 1)%nat -> rep h p t -> rep (set_parent_nn h (root u) v) p t.
Proof. intros C R. apply (rep_frame h); [exact R|]. intros x Hx. apply pnn_other. specialize (C x). lia. Qed.
Lemma repc_pnn_other h sent ch c u v : (forall x, cntc x c + one x sent + cnt x u <= 1)%nat -> repc h sent ch c -> repc (set_parent_nn h (root u) v) sent ch c.
Proof. intros C R. apply (repc_frame h); [exact R|]. intros x Hx. apply pnn_other. specialize (C x). lia. Qed.
Lemma rep_pnn_self h p t v : (forall x, cnt x t <= 1)%nat -> rep h p t -> rep (set_parent_nn h (root t) v) v t.
Proof.
  intros C R. destruct t as [|l a k rk b r]; [exact I|]. cbn [root].
  assert (A0 : a <> 0%nat) by (cbn [rep] in R; tauto).
  unfold set_parent_nn. apply Nat.eqb_neq in A0. rewrite A0. eapply rep_reparent; [exact R| | |exact C].
  - intros x Hx NE. cbn [root] in NE. apply upd_ne. exact NE.
  - intros _. cbn [root]. apply upd_eq.
Qed.

(* pointing the parent at the new root of the subtree *)
Lemma link_ins h sent c s p : repc h sent s c -> s <> 0%nat -> (forall x, cntc x c + one x sent + one x s <= 1)%nat ->
  exists n, (if Nat.eqb s (n_right (h (par sent c))) then set_right h (par sent c) p else set_left h (par sent c) p) = upd h (par sent c) n /\
    repc (upd h (par sent c) n) sent p c.
Proof.
  intros R S0 U. destruct c as [|[a k rk b r|l a k rk b] c]; cbn [par faddr repc] in *.
  - destruct R as (R0 & R1). rewrite R1. cbn [n_right]. rewrite Nat.eqb_refl. eexists. split; [reflexivity|].
    split; [exact R0|]. rewrite upd_eq, R1. reflexivity.
  - destruct R as (R0 & R1 & R2 & R3). rewrite R1. cbn [n_right].
    assert (NE : s <> root r).
    { intros E. destruct r as [|rl ra rk2 rr rb rr2]; [cbn [root] in E; lia|]. cbn [root] in E. subst ra.
      specialize (U s). cbn [cntc fsib cnt] in U. rewrite !one_refl in U. lia. }
    apply Nat.eqb_neq in NE. rewrite NE. eexists. split; [reflexivity|].
    assert (UA := U a). cbn [cntc fsib faddr] in UA. rewrite one_refl in UA.
    split; [exact R0|]. split; [rewrite upd_eq, R1; reflexivity|]. split; [apply rep_upd; [lia|exact R2]|apply repc_upd; [lia|exact R3]].
  - destruct R as (R0 & R1 & R2 & R3). rewrite R1. cbn [n_right]. rewrite Nat.eqb_refl. eexists. split; [reflexivity|].
    assert (UA := U a). cbn [cntc fsib faddr] in UA. rewrite one_refl in UA.
    split; [exact R0|]. split; [rewrite upd_eq, R1; reflexivity|]. split; [apply rep_upd; [lia|exact R2]|apply repc_upd; [lia|exact R3]].
Qed.
Lemma link_del h sent c s p : repc h sent s c -> s <> 0%nat -> (forall x, cntc x c + one x sent + one x s <= 1)%nat ->
  exists n, (if Nat.eqb (n_left (h (par sent c))) s then set_left h (par sent c) p else set_right h (par sent c) p) = upd h (par sent c) n /\
    repc (upd h (par sent c) n) sent p c /\
    Nat.eqb (n_left (h (par sent c))) s = match c with FL _ _ _ _ _ :: _ => true | _ => false end.
Proof.
  intros R S0 U. destruct c as [|[a k rk b r|l a k rk b] c]; cbn [par faddr repc] in *.
  - destruct R as (R0 & R1). rewrite R1. cbn [n_left]. destruct s; [lia|]. cbn [Nat.eqb]. eexists. split; [reflexivity|].
    split; [|reflexivity]. split; [exact R0|]. rewrite upd_eq, R1. reflexivity.
  - destruct R as (R0 & R1 & R2 & R3). rewrite R1. cbn [n_left]. rewrite Nat.eqb_refl. eexists. split; [reflexivity|].
    assert (UA := U a). cbn [cntc fsib faddr] in UA. rewrite one_refl in UA. split; [|reflexivity].
    split; [exact R0|]. split; [rewrite upd_eq, R1; reflexivity|]. split; [apply rep_upd; [lia|exact R2]|apply repc_upd; [lia|exact R3]].
  - destruct R as (R0 & R1 & R2 & R3). rewrite R1. cbn [n_left].
    assert (NE : root l <> s).
    { intros E. destruct l as [|rl ra rk2 rr rb rr2]; [cbn [root] in E; lia|]. cbn [root] in E. subst ra.
      specialize (U s). cbn [cntc fsib cnt] in U. rewrite !one_refl in U. lia. }
    apply Nat.eqb_neq in NE. rewrite NE. eexists. split; [reflexivity|].
    assert (UA := U a). cbn [cntc fsib faddr] in UA. rewrite one_refl in UA. split; [|reflexivity].
    split; [exact R0|]. split; [rewrite upd_eq, R1; reflexivity|]. split; [apply rep_upd; [lia|exact R2]|apply repc_upd; [lia|exact R3]].
Qed.

Definition out (h0 h : heap) (V : nat -> nat) : Prop := forall x, V x = 0%nat -> h x = h0 x.
Lemma out_upd h0 h V a n : out h0 h V -> (1 <= V a)%nat -> out h0 (upd h a n) V.
Proof. intros O HV x Hx. rewrite upd_ne; [apply O, Hx|]. intros ->. lia. Qed.
Lemma out_pnn h0 h V t v : out h0 h V -> (forall x, cnt x t <= V x)%nat -> out h0 (set_parent_nn h (root t) v) V.
Proof. intros O HV x Hx. rewrite pnn_other; [apply O, Hx|]. specialize (HV x). lia. Qed.

(* address a is not b, not in a tree, ...: from U, which counts everything once *)
Ltac cnts U a := let E := fresh in pose proof (U a) as E; rewrite ?one_refl in E; lia.
Ltac ne U := let E := fresh in intros E; match type of E with ?a = ?b => first [subst a; cnts U b | subst b; cnts U a] end.

Ltac reads h := repeat match goal with F : h ?x = mkN _ _ _ _ _ _ |- context [h ?x] => rewrite F end;
  cbv beta iota delta [n_key n_left n_right n_parent n_rank n_bal w_key w_left w_right w_parent w_rank w_bal].
(* one statement of run *)
Ltac forward U h a n :=
  let h' := fresh "h" in let E := fresh "E" in
  remember (upd h a n) as h' eqn:E;
  pose proof (f_equal (fun g => g a) E) as FN; cbv beta in FN; rewrite upd_eq in FN;
  repeat match goal with F : h a = _ |- _ => clear F end;
  let Fa := fresh "F" in rename FN into Fa;
  repeat match goal with
  | F : h ?x = ?m |- _ => let F' := fresh "F" in
      assert (F' : h' x = m) by (rewrite E; rewrite upd_ne by ne U; exact F); clear F
  | R : rep h ?p ?t |- _ => let R' := fresh "R" in
      assert (R' : rep h' p t) by (rewrite E; apply rep_upd; [cnts U a|exact R]); clear R
  | K : repc h ?sent ?ch ?c |- _ => let K' := fresh "K" in
      assert (K' : repc h' sent ch c) by (rewrite E; apply repc_upd; [cnts U a|exact K]); clear K
  | O : out ?h0 h ?V |- _ => let O' := fresh "O" in
      assert (O' : out h0 h' V) by (rewrite E; apply out_upd; [exact O|match goal with VU : forall x, (_ <= V x)%nat |- _ => let X := fresh in pose proof (VU a) as X; rewrite ?one_refl in X; lia end]); clear O
  end; clear E; try clear h.
Ltac forwardp U h t v :=
  let h' := fresh "h" in let E := fresh "E" in
  remember (set_parent_nn h (root t) v) as h' eqn:E;
  repeat match goal with
  | F : h ?x = ?m |- _ => let F' := fresh "F" in
      assert (F' : h' x = m) by (rewrite E; rewrite pnn_other by cnts U x; exact F); clear F
  | R : rep h ?p t |- _ => let R' := fresh "R" in
      assert (R' : rep h' v t) by (rewrite E; apply (rep_pnn_self h p); [let x := fresh in intros x; cnts U x|exact R]); clear R
  | R : rep h ?p ?u |- _ => let R' := fresh "R" in
      assert (R' : rep h' p u) by (rewrite E; apply rep_pnn_other; [let x := fresh in intros x; cnts U x|exact R]); clear R
  | K : repc h ?sent ?ch ?c |- _ => let K' := fresh "K" in
      assert (K' : repc h' sent ch c) by (rewrite E; apply repc_pnn_other; [let x := fresh in intros x; cnts U x|exact K]); clear K
  | O : out ?h0 h ?V |- _ => let O' := fresh "O" in
      assert (O' : out h0 h' V) by (rewrite E; apply out_pnn; [exact O|let x := fresh in intros x; match goal with VU : forall x, (_ <= V x)%nat |- _ => specialize (VU x); lia end]); clear O
  end; clear E; try clear h.
Ltac step U :=
  match goal with |- context [run (?f :: ?fs) ?h] =>
    change (run (f :: fs) h) with (run fs (f h)); cbv beta;
    lazymatch goal with
    | |- context [run _ (set_key h ?a ?v)] => change (set_key h a v) with (upd h a (w_key (h a) v))
    | |- context [run _ (set_left h ?a ?v)] => change (set_left h a v) with (upd h a (w_left (h a) v))
    | |- context [run _ (set_right h ?a ?v)] => change (set_right h a v) with (upd h a (w_right (h a) v))
    | |- context [run _ (set_parent h ?a ?v)] => change (set_parent h a v) with (upd h a (w_parent (h a) v))
    | |- context [run _ (set_rank h ?a ?v)] => change (set_rank h a v) with (upd h a (w_rank (h a) v))
    | |- context [run _ (set_bal h ?a ?v)] => change (set_bal h a v) with (upd h a (w_bal (h a) v))
    | _ => idtac
    end; reads h;
    lazymatch goal with
    | |- context [run _ (upd h ?a ?n)] => forward U h a n
    | |- context [run _ (set_parent_nn h (root ?t) ?v)] => forwardp U h t v
    end
  end.

Section ROT.
Variables (h0 h : heap) (sent : nat) (c : ctx) (A B C D : tr) (s r p : nat) (ks rs bs kr rr br kp rp bp : Z) (tp : nat) (V : nat -> nat).

(* s's left child r goes up *)
Lemma ins_single_L :
  (forall x, cntc x c + one x sent + cnt x A + cnt x B + cnt x C + one x s + one x r <= 1)%nat ->
  (forall x, cnt x A + cnt x B + cnt x C + one x s + one x r <= V x)%nat ->
  h s = mkN ks r (root C) tp rs bs -> h r = mkN kr (root A) (root B) s rr br ->
  rep h r A -> rep h r B -> rep h s C -> repc h sent s c -> out h0 h V ->
  let h' := ins_single h (-1) s r in
  h' s = mkN ks (root B) (root C) r ((rs - rr) mod R30) 0 /\ h' r = mkN kr (root A) s s rr 0 /\
  rep h' r A /\ rep h' s B /\ rep h' s C /\ repc h' sent s c /\ out h0 h' V.
Proof.
  intros U VU HS HR RA RB RC K O. unfold ins_single. change (-1 =? -1) with true. cbv iota. cbn [app]. cbv zeta.
  step U. step U. step U. step U. step U. step U. step U. cbn [run].
  repeat (split; [assumption|]). assumption.
Qed.

Lemma ins_single_R :
  (forall x, cntc x c + one x sent + cnt x A + cnt x B + cnt x C + one x s + one x r <= 1)%nat ->
  (forall x, cnt x A + cnt x B + cnt x C + one x s + one x r <= V x)%nat ->
  h s = mkN ks (root A) r tp rs bs -> h r = mkN kr (root B) (root C) s rr br ->
  rep h s A -> rep h r B -> rep h r C -> repc h sent s c -> out h0 h V ->
  let h' := ins_single h 1 s r in
  h' s = mkN ks (root A) (root B) r rs 0 /\ h' r = mkN kr s (root C) s ((rr + rs) mod R30) 0 /\
  rep h' s A /\ rep h' s B /\ rep h' r C /\ repc h' sent s c /\ out h0 h' V.
Proof.
  intros U VU HS HR RA RB RC K O. unfold ins_single. change (1 =? -1) with false. cbv iota. cbn [app]. cbv zeta.
  step U. step U. step U. step U. step U. step U. step U. cbn [run].
  repeat (split; [assumption|]). assumption.
Qed.

Definition dbal (a b : Z) : Z * Z := if b =? a then (- a, 0) else if b =? - a then (0, a) else (0, 0).

(* s's left child r leans right: its right child p goes up *)
Lemma ins_double_L :
  (forall x, cntc x c + one x sent + cnt x A + cnt x B + cnt x C + cnt x D + one x s + one x r + one x p <= 1)%nat ->
  (forall x, cnt x A + cnt x B + cnt x C + cnt x D + one x s + one x r + one x p <= V x)%nat ->
  p <> 0%nat ->
  h s = mkN ks r (root D) tp rs bs -> h r = mkN kr (root A) p s rr br -> h p = mkN kp (root B) (root C) r rp bp ->
  rep h r A -> rep h p B -> rep h p C -> rep h s D -> repc h sent s c -> out h0 h V ->
  exists h', ins_double h (-1) s r = Ret (h', p) /\
  h' r = mkN kr (root A) (root B) p rr (snd (dbal (-1) bp)) /\
  h' s = mkN ks (root C) (root D) p ((rs - (rp + rr) mod R30) mod R30) (fst (dbal (-1) bp)) /\
  h' p = mkN kp r s r ((rp + rr) mod R30) 0 /\
  rep h' r A /\ rep h' r B /\ rep h' s C /\ rep h' s D /\ repc h' sent s c /\ out h0 h' V.
Proof.
  intros U VU P0 HS HR HP RA RB RC RD K O. unfold ins_double. change (-1 =? -1) with true. cbv zeta. cbv iota.
  rewrite HR. cbn [n_right]. apply Nat.eqb_neq in P0. rewrite P0.
  match goal with |- context [run ?l h] => let g := fresh "g" in let E := fresh "EG" in remember (run l h) as g eqn:E; revert E end.
  do 10 step U. intros EG; cbn [run] in EG; rewrite EG; clear EG.
  match goal with F : ?g p = mkN _ _ _ _ _ _ |- _ => rewrite F end. cbn [n_bal]. fold (dbal (-1) bp).
  destruct (dbal (-1) bp) as [sb rb]. cbn [fst snd].
  eexists. split; [reflexivity|]. do 3 step U. cbn [run]. repeat (split; [assumption|]). assumption.
Qed.

Lemma ins_double_R :
  (forall x, cntc x c + one x sent + cnt x A + cnt x B + cnt x C + cnt x D + one x s + one x r + one x p <= 1)%nat ->
  (forall x, cnt x A + cnt x B + cnt x C + cnt x D + one x s + one x r + one x p <= V x)%nat ->
  p <> 0%nat ->
  h s = mkN ks (root A) r tp rs bs -> h r = mkN kr p (root D) s rr br -> h p = mkN kp (root B) (root C) r rp bp ->
  rep h s A -> rep h p B -> rep h p C -> rep h r D -> repc h sent s c -> out h0 h V ->
  exists h', ins_double h 1 s r = Ret (h', p) /\
  h' r = mkN kr (root C) (root D) p ((rr - rp) mod R30) (snd (dbal 1 bp)) /\
  h' s = mkN ks (root A) (root B) p rs (fst (dbal 1 bp)) /\
  h' p = mkN kp s r r ((rp + rs) mod R30) 0 /\
  rep h' s A /\ rep h' s B /\ rep h' r C /\ rep h' r D /\ repc h' sent s c /\ out h0 h' V.
Proof.
  intros U VU P0 HS HR HP RA RB RC RD K O. unfold ins_double. change (1 =? -1) with false. cbv zeta. cbv iota.
  rewrite HR. cbn [n_left]. apply Nat.eqb_neq in P0. rewrite P0.
  match goal with |- context [run ?l h] => let g := fresh "g" in let E := fresh "EG" in remember (run l h) as g eqn:E; revert E end.
  do 10 step U. intros EG; cbn [run] in EG; rewrite EG; clear EG.
  match goal with F : ?g p = mkN _ _ _ _ _ _ |- _ => rewrite F end. cbn [n_bal]. fold (dbal 1 bp).
  destruct (dbal 1 bp) as [sb rb]. cbn [fst snd].
  eexists. split; [reflexivity|]. do 3 step U. cbn [run]. repeat (split; [assumption|]). assumption.
Qed.

(* deletion: s stands for p of the code, r for q *)
Lemma del_single_R :
  (forall x, cntc x c + one x sent + cnt x A + cnt x B + cnt x C + one x s + one x r <= 1)%nat ->
  (forall x, cnt x A + cnt x B + cnt x C + one x s + one x r <= V x)%nat ->
  h s = mkN ks r (root C) tp rs bs -> h r = mkN kr (root A) (root B) s rr br ->
  rep h r A -> rep h r B -> rep h s C -> repc h sent s c -> out h0 h V ->
  let h' := del_single h 1 s r in
  h' s = mkN ks (root B) (root C) r ((rs - rr) mod R30) bs /\ h' r = mkN kr (root A) s tp rr br /\
  rep h' r A /\ rep h' s B /\ rep h' s C /\ repc h' sent s c /\ out h0 h' V.
Proof.
  intros U VU HS HR RA RB RC K O. unfold del_single. change (1 =? -1) with false. cbv iota. cbv zeta.
  step U. step U. step U. step U. step U. step U. cbn [run].
  repeat (split; [assumption|]). assumption.
Qed.

Lemma del_single_L :
  (forall x, cntc x c + one x sent + cnt x A + cnt x B + cnt x C + one x s + one x r <= 1)%nat ->
  (forall x, cnt x A + cnt x B + cnt x C + one x s + one x r <= V x)%nat ->
  h s = mkN ks (root A) r tp rs bs -> h r = mkN kr (root B) (root C) s rr br ->
  rep h s A -> rep h r B -> rep h r C -> repc h sent s c -> out h0 h V ->
  let h' := del_single h (-1) s r in
  h' s = mkN ks (root A) (root B) r rs bs /\ h' r = mkN kr s (root C) tp ((rr + rs) mod R30) br /\
  rep h' s A /\ rep h' s B /\ rep h' r C /\ repc h' sent s c /\ out h0 h' V.
Proof.
  intros U VU HS HR RA RB RC K O. unfold del_single. change (-1 =? -1) with true. cbv iota. cbv zeta.
  step U. step U. step U. step U. step U. step U. cbn [run].
  repeat (split; [assumption|]). assumption.
Qed.

Lemma del_double_R :
  (forall x, cntc x c + one x sent + cnt x A + cnt x B + cnt x C + cnt x D + one x s + one x r + one x p <= 1)%nat ->
  (forall x, cnt x A + cnt x B + cnt x C + cnt x D + one x s + one x r + one x p <= V x)%nat ->
  p <> 0%nat ->
  h s = mkN ks r (root D) tp rs bs -> h r = mkN kr (root A) p s rr br -> h p = mkN kp (root B) (root C) r rp bp ->
  rep h r A -> rep h p B -> rep h p C -> rep h s D -> repc h sent s c -> out h0 h V ->
  exists h', del_double h 1 s r = Ret (h', p) /\
  h' r = mkN kr (root A) (root B) p rr (fst (dbal 1 bp)) /\
  h' s = mkN ks (root C) (root D) p ((rs - (rp + rr) mod R30) mod R30) (snd (dbal 1 bp)) /\
  h' p = mkN kp r s tp ((rp + rr) mod R30) 0 /\
  rep h' r A /\ rep h' r B /\ rep h' s C /\ rep h' s D /\ repc h' sent s c /\ out h0 h' V.
Proof.
  intros U VU P0 HS HR HP RA RB RC RD K O. unfold del_double. change (1 =? 1) with true. cbv zeta. cbv iota.
  rewrite HR. cbn [n_right]. apply Nat.eqb_neq in P0. rewrite P0.
  match goal with |- context [run ?l h] => let g := fresh "g" in let E := fresh "EG" in remember (run l h) as g eqn:E; revert E end.
  do 11 step U. intros EG; cbn [run] in EG; rewrite EG; clear EG.
  match goal with F : ?g p = mkN _ _ _ _ _ _ |- _ => rewrite F end. cbn [n_bal]. fold (dbal 1 bp).
  destruct (dbal 1 bp) as [sb rb]. cbn [fst snd].
  eexists. split; [reflexivity|]. do 3 step U. cbn [run]. repeat (split; [assumption|]). assumption.
Qed.

Lemma del_double_L :
  (forall x, cntc x c + one x sent + cnt x A + cnt x B + cnt x C + cnt x D + one x s + one x r + one x p <= 1)%nat ->
  (forall x, cnt x A + cnt x B + cnt x C + cnt x D + one x s + one x r + one x p <= V x)%nat ->
  p <> 0%nat ->
  h s = mkN ks (root A) r tp rs bs -> h r = mkN kr p (root D) s rr br -> h p = mkN kp (root B) (root C) r rp bp ->
  rep h s A -> rep h p B -> rep h p C -> rep h r D -> repc h sent s c -> out h0 h V ->
  exists h', del_double h (-1) s r = Ret (h', p) /\
  h' r = mkN kr (root C) (root D) p ((rr - rp) mod R30) (fst (dbal (-1) bp)) /\
  h' s = mkN ks (root A) (root B) p rs (snd (dbal (-1) bp)) /\
  h' p = mkN kp s r tp ((rp + rs) mod R30) 0 /\
  rep h' s A /\ rep h' s B /\ rep h' r C /\ rep h' r D /\ repc h' sent s c /\ out h0 h' V.
Proof.
  intros U VU P0 HS HR HP RA RB RC RD K O. unfold del_double. change (-1 =? 1) with false. cbv zeta. cbv iota.
  rewrite HR. cbn [n_left]. apply Nat.eqb_neq in P0. rewrite P0.
  match goal with |- context [run ?l h] => let g := fresh "g" in let E := fresh "EG" in remember (run l h) as g eqn:E; revert E end.
  do 11 step U. intros EG; cbn [run] in EG; rewrite EG; clear EG.
  match goal with F : ?g p = mkN _ _ _ _ _ _ |- _ => rewrite F end. cbn [n_bal]. fold (dbal (-1) bp).
  destruct (dbal (-1) bp) as [sb rb]. cbn [fst snd].
  eexists. split; [reflexivity|]. do 3 step U. cbn [run]. repeat (split; [assumption|]). assumption.
Qed.
End ROT.
