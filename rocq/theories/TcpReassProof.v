(* Reassembly on unwrapped positions. *)
From Coq Require Import Permutation Sorted.
From Verif Require Import Base TcpSeqModel TcpReassModel TcpReassSpec.
Ltac Zify.zify_post_hook ::= idtac.

Lemma s32_small z : -2147483648 <= z < 2147483648 -> s32 (u32 z) = z.
Proof.
  intros H. unfold s32, u32. rewrite Z.mod_mod by lia.
  destruct (Z.le_gt_cases 0 z).
  - rewrite Z.mod_small by lia. destruct (Z.ltb_spec z 2147483648); lia.
  - assert (E : z mod 4294967296 = z + 4294967296).
    { replace z with (z + 4294967296 + (-1) * 4294967296) at 1 by lia. rewrite Z.mod_add by lia. apply Z.mod_small. lia. }
    rewrite E. destruct (Z.ltb_spec (z + 4294967296) 2147483648); lia.
Qed.
Lemma u32_seqno a b k : u32 (a - b) = u32 (k) -> u32 (a - b) = u32 k. Proof. auto. Qed.
Lemma u32_sub_seq a A y : u32 a = seqno A -> u32 (a - seqno y) = u32 (A - y).
Proof.
  unfold u32, seqno. intros H. rewrite Zminus_mod, H, <- !Zminus_mod.
  rewrite Zminus_mod_idemp_r. reflexivity.
Qed.
Lemma seqno_u32 x : u32 (seqno x) = seqno x.
Proof. unfold u32, seqno. apply Z.mod_mod. lia. Qed.
Lemma seqno_add x k : u32 (seqno x + k) = seqno (x + k).
Proof. unfold u32, seqno. apply Z.add_mod_idemp_l. lia. Qed.
Lemma seqno_eq P N : N <= P < N + 4294967296 -> (seqno P =? seqno N) = (P =? N).
Proof.
  intros H. destruct (Z.eqb_spec P N) as [->|E]; [apply Z.eqb_refl|].
  apply Z.eqb_neq. unfold seqno. intros X. apply E.
  assert (Y : (P - N) mod 4294967296 = 0) by (rewrite Zminus_mod, X, Z.sub_diag; reflexivity).
  rewrite Z.mod_small in Y by lia. lia.
Qed.
Lemma gt_seqno P A : Z.abs (P - A) < 2147483648 -> SEQ_GT (seqno P) (seqno A) = (P >? A).
Proof.
  intros H. unfold SEQ_GT. rewrite (u32_sub_seq (seqno P) P A (seqno_u32 P)), s32_small by lia.
  destruct (Z.gtb_spec (P - A) 0), (Z.gtb_spec P A); lia || reflexivity.
Qed.

Local Notation ent := (Z * tseg)%type.
Definition en (x : ent) : Z := fst x + s_len (snd x).

Section P.
Variable B : Z -> Z -> Prop.

Definition ok (N : Z) (x : ent) : Prop :=
  s_seq (snd x) = seqno (fst x) /\ s_len (snd x) = Z.of_nat (length (s_data (snd x))) /\
  N <= fst x /\ en x < N + 2147483648 /\ at_pos B (fst x) (s_data (snd x)).
Definition heap (x : ent) : Prop := s_stack (snd x) = false.
Definition chained := StronglySorted (fun a b : ent => en a <= fst b).
Definition cov (l : list ent) (x : Z) : Prop := exists a, In a l /\ fst a <= x < en a.

Lemma ok_len N x : ok N x -> 0 <= s_len (snd x).
Proof. intros (_ & -> & _). lia. Qed.

(* ---- lists ---- *)
Lemma chained_app a b : chained (a ++ b) <-> chained a /\ chained b /\ (forall x y, In x a -> In y b -> en x <= fst y).
Proof.
  unfold chained. induction a as [|x a IH]; cbn [app].
  - split; [intros H; split; [constructor|split; [exact H|intros ? ? []]]|tauto].
  - split.
    + intros H. inversion H as [|? ? H1 H2]; subst. apply IH in H1. destruct H1 as (A1 & A2 & A3).
      rewrite Forall_app in H2. destruct H2 as [F1 F2]. split; [constructor; assumption|]. split; [exact A2|].
      intros u y [<-|Hu] Hy; [|auto]. rewrite Forall_forall in F2. auto.
    + intros (A1 & A2 & A3). inversion A1 as [|? ? H1 H2]; subst. constructor.
      * apply IH. split; [exact H1|]. split; [exact A2|]. intros u y Hu Hy. apply A3; [right; exact Hu|exact Hy].
      * apply Forall_app. split; [exact H2|]. apply Forall_forall. intros y Hy. apply A3; [left; reflexivity|exact Hy].
Qed.

Lemma split_abs N A : N <= A < N + 2147483648 -> forall l, Forall (ok N) l -> chained l ->
  exists pre post, l = pre ++ post /\ split_at (seqno A) (map snd l) = (map snd pre, map snd post) /\
    Forall (fun x => fst x <= A) pre /\ Forall (fun x => A < fst x) post.
Proof.
  intros HA. induction l as [|x l IH]; intros HO HC.
  { exists [], []. repeat split; constructor. }
  inversion HO as [|? ? O1 O2]; subst. inversion HC as [|? ? C1 C2]; subst.
  cbn [map split_at]. pose proof O1 as (ES & EL & H1 & H2 & _). pose proof (ok_len _ _ O1). unfold en in *.
  rewrite ES, gt_seqno by lia.
  destruct (Z.gtb_spec (fst x) A) as [G|G].
  - exists [], (x :: l). cbn [app map]. split; [reflexivity|]. split; [reflexivity|]. split; [constructor|].
    constructor; [exact G|]. apply Forall_forall. intros y Hy. rewrite Forall_forall in C2. specialize (C2 y Hy). cbn beta in C2. unfold en in C2. lia.
  - destruct (IH O2 C1) as (pre & post & -> & E & F1 & F2). exists (x :: pre), post. cbn [app map].
    rewrite E. split; [reflexivity|]. split; [reflexivity|]. split; [constructor; assumption|exact F2].
Qed.

Lemma at_pos_skip A d k : at_pos B A d -> at_pos B (A + Z.of_nat k) (skipn k d).
Proof.
  intros H i b Hb. replace (A + Z.of_nat k + Z.of_nat i) with (A + Z.of_nat (k + i)) by lia.
  apply H. rewrite <- Hb. clear. revert d. induction k; intros [|y d]; cbn; try reflexivity; [destruct i; reflexivity|apply IHk].
Qed.
Lemma at_pos_app A a b : at_pos B A a -> at_pos B (A + Z.of_nat (length a)) b -> at_pos B A (a ++ b).
Proof.
  intros H1 H2 i x Hx. destruct (Nat.lt_ge_cases i (length a)) as [L|L].
  - rewrite nth_error_app1 in Hx by lia. auto.
  - rewrite nth_error_app2 in Hx by lia. specialize (H2 _ _ Hx).
    replace (A + Z.of_nat i) with (A + Z.of_nat (length a) + Z.of_nat (i - length a)) by lia. exact H2.
Qed.
Lemma pull_ok i d : 0 <= i <= Z.of_nat (length d) -> pull i d = skipn (Z.to_nat i) d.
Proof. intros H. unfold pull. destruct (Z.leb_spec i (Z.of_nat (length d))); [reflexivity|lia]. Qed.
Lemma pull_at A i d : 0 <= i <= Z.of_nat (length d) -> at_pos B A d -> at_pos B (A + i) (pull i d).
Proof.
  intros H HA. rewrite pull_ok by exact H. pose proof (at_pos_skip A d (Z.to_nat i) HA) as X.
  replace (A + Z.of_nat (Z.to_nat i)) with (A + i) in X by lia. exact X.
Qed.
Lemma pull_len i d : 0 <= i <= Z.of_nat (length d) -> Z.of_nat (length (pull i d)) = Z.of_nat (length d) - i.
Proof. intros H. rewrite pull_ok by exact H. rewrite skipn_length. lia. Qed.

Definition euids (l : list ent) : list Z := map (fun x => s_uid (snd x)) l.

Lemma trim_abs N E e : u32 e = seqno E -> N <= E < N + 2147483648 -> forall l, Forall (ok N) l -> Forall heap l -> chained l ->
  exists l' n fd, trim_succ e (map snd l) = (map snd l', n, fd) /\ Forall (ok N) l' /\ Forall heap l' /\ chained l' /\
    Forall (fun x => E <= fst x) l' /\ (forall x, cov l x -> x < E \/ cov l' x) /\
    Permutation (euids l' ++ fd) (euids l) /\ n = Z.of_nat (length fd) /\ (length l' + length fd = length l)%nat.
Proof.
  intros He HE. induction l as [|x l IH]; intros HO HH HC.
  { exists [], 0, []. split; [reflexivity|]. split; [constructor|]. split; [constructor|]. split; [constructor|].
    split; [constructor|]. split; [intros y (a & [] & _)|]. split; [constructor|]. split; reflexivity. }
  inversion HO as [|? ? O1 O2]; subst. inversion HC as [|? ? C1 C2]; subst. inversion HH as [|? ? H1 H2]; subst.
  pose proof O1 as (ES & EL & B1 & B2 & BB). pose proof (ok_len _ _ O1) as LP.
  cbn [map trim_succ]. rewrite ES, (u32_sub_seq e E (fst x) He), s32_small by (unfold en in B2; lia).
  rewrite Forall_forall in C2.
  destruct (Z.leb_spec (E - fst x) 0) as [G|G].
  - exists (x :: l), 0, []. split; [reflexivity|]. split; [exact HO|]. split; [exact HH|]. split; [exact HC|].
    split; [constructor; [lia|apply Forall_forall; intros y Hy; specialize (C2 y Hy); cbn beta in C2; unfold en in C2; lia]|].
    split; [auto|]. rewrite app_nil_r. split; [reflexivity|]. split; [reflexivity|apply Nat.add_0_r].
  - destruct (Z.ltb_spec (E - fst x) (s_len (snd x))) as [T|T].
    + set (i := E - fst x) in *.
      set (q := mkS (s_uid (snd x)) (u32 (seqno (fst x) + i)) (s_len (snd x) - i) (s_fin (snd x)) (pull i (s_data (snd x))) (s_stack (snd x))).
      assert (HI : 0 <= i <= Z.of_nat (length (s_data (snd x)))) by lia.
      assert (EN : en (E, q) = en x) by (unfold en, q, i; cbn [fst snd s_len]; lia).
      assert (OQ : ok N (E, q)).
      { unfold ok. rewrite EN. cbn [fst snd q s_seq s_len s_data].
        split; [rewrite seqno_add; f_equal; unfold i; lia|]. split; [rewrite pull_len by exact HI; lia|].
        split; [lia|]. split; [exact B2|]. replace E with (fst x + i) by (unfold i; lia). apply pull_at; assumption. }
      exists ((E, q) :: l), 0, []. split; [reflexivity|]. split; [constructor; assumption|].
      split; [constructor; [exact H1|exact H2]|].
      split; [constructor; [exact C1|apply Forall_forall; intros y Hy; rewrite EN; auto]|].
      split; [constructor; [cbn; lia|apply Forall_forall; intros y Hy; specialize (C2 y Hy); cbn beta in C2; unfold en in C2; lia]|].
      split.
      { intros y (a & [<-|Ha] & R).
        - destruct (Z.lt_ge_cases y E); [auto|right]. exists (E, q). split; [left; reflexivity|]. rewrite EN. cbn [fst]. lia.
        - right. exists a. split; [right; exact Ha|exact R]. }
      rewrite app_nil_r. split; [reflexivity|]. split; [reflexivity|apply Nat.add_0_r].
    + destruct (IH O2 H2 C1) as (l' & n & fd & E1 & P1 & P2 & P3 & P4 & P5 & P6 & P7 & P8). rewrite E1.
      exists l', (n + 1), (s_uid (snd x) :: fd). split; [reflexivity|]. split; [exact P1|]. split; [exact P2|].
      split; [exact P3|]. split; [exact P4|].
      split.
      { intros y (a & [<-|Ha] & R); [left; unfold en in R; lia|]. apply P5. exists a. auto. }
      split; [cbn [euids map]; fold (euids l); rewrite <- P6; symmetry; apply Permutation_middle|].
      cbn [length]. lia.
Qed.

(* ---- presenting ---- *)
Definition dat (l : list ent) : list Z := concat (map (fun x => s_data (snd x)) l).

Lemma present_abs : forall l N M, N <= M -> M < N + 2147483648 -> Forall (ok N) l -> Forall (fun x => M <= fst x) l -> chained l ->
  exists out rest fl, l = out ++ rest /\
    present_loop (seqno M) (map snd l) = (seqno (M + Z.of_nat (length (dat out))), map snd rest, map snd out, fl) /\
    at_pos B M (dat out) /\
    Forall (fun x => M + Z.of_nat (length (dat out)) <= fst x) rest /\
    match rest with [] => True | x :: _ => fst x <> M + Z.of_nat (length (dat out)) end /\
    (forall x, cov out x -> x < M + Z.of_nat (length (dat out))) /\
    M + Z.of_nat (length (dat out)) < N + 2147483648.
Proof.
  induction l as [|x l IH]; intros N M HM HB HO HF HC.
  { exists [], [], false. cbn [app map present_loop dat concat length]. rewrite Z.add_0_r.
    split; [reflexivity|]. split; [reflexivity|]. split; [intros [|i] b H; discriminate|]. split; [constructor|].
    split; [exact I|]. split; [intros y (a & [] & _)|exact HB]. }
  inversion HO as [|? ? O1 O2]; subst. inversion HC as [|? ? C1 C2]; subst. inversion HF as [|? ? F1 F2]; subst.
  pose proof O1 as (ES & EL & B1 & B2 & BB). pose proof (ok_len _ _ O1) as LP.
  cbn [map present_loop]. rewrite ES, seqno_eq by (unfold en in B2; lia).
  destruct (Z.eqb_spec (fst x) M) as [EM|NE].
  - rewrite seqno_add. 
    assert (FM : Forall (fun y : ent => M + s_len (snd x) <= fst y) l).
    { rewrite Forall_forall in C2 |- *. intros y Hy. specialize (C2 y Hy). cbn beta in C2. unfold en in C2. lia. }
    destruct (IH N (M + s_len (snd x))) as (out & rest & fl & E & EP & A1 & A2 & A3 & A4 & A5);
      [lia|unfold en in B2; lia|exact O2|exact FM|exact C1|].
    subst l. rewrite EP.
    assert (ED : dat (x :: out) = s_data (snd x) ++ dat out) by reflexivity.
    assert (LD : Z.of_nat (length (dat (x :: out))) = s_len (snd x) + Z.of_nat (length (dat out))).
    { rewrite ED, app_length. lia. }
    exists (x :: out), rest. eexists. split; [reflexivity|]. rewrite LD, !Z.add_assoc.
    split; [reflexivity|]. split.
    { rewrite ED. apply at_pos_app; [rewrite <- EM; exact BB|]. rewrite <- EL. exact A1. }
    split; [exact A2|]. split; [exact A3|]. split; [|exact A5].
    intros y (a & [<-|Ha] & R); [unfold en in R; lia|]. apply A4. exists a. auto.
  - exists [], (x :: l), false. cbn [app map dat concat length]. rewrite Z.add_0_r.
    split; [reflexivity|]. split; [reflexivity|]. split; [intros [|i] b H; discriminate|]. split; [exact HF|].
    split; [exact NE|]. split; [intros y (a & [] & _)|exact HB].
Qed.

(* ---- the connection invariant ---- *)
Definition covs (acc : list (Z * inseg)) (N : Z) (l : list ent) : Prop :=
  forall x, received_at acc x -> x < N \/ cov l x.

Record Inv (acc : list (Z * inseg)) (N : Z) (st : tcb) : Prop := {
  iv_nxt : rcv_nxt st = seqno N;
  iv_len : segqlen st = Z.of_nat (length (segq st));
  iv_q : exists l, segq st = map snd l /\ Forall (ok N) l /\ Forall heap l /\ chained l /\ covs acc N l
}.

Definition settled (N : Z) (st : tcb) : Prop :=
  match segq st with [] => True | q :: _ => s_seq q <> seqno N end.

Lemma ok_mono N N' l : N <= N' -> Forall (ok N) l -> Forall (fun x => N' <= fst x) l -> Forall (ok N') l.
Proof.
  intros H O F. rewrite Forall_forall in *. intros x Hx. specialize (F x Hx). destruct (O x Hx) as (A & C & D & E & G).
  unfold ok. repeat (split; [assumption || lia|]). exact G.
Qed.
Lemma fst_ge_ok N l : Forall (ok N) l -> Forall (fun x => N <= fst x) l.
Proof. rewrite !Forall_forall. intros H x Hx. destruct (H x Hx) as (_ & _ & D & _). exact D. Qed.

Lemma heap_count_all l : Forall heap l -> heap_count (map snd l) = Z.of_nat (length l).
Proof.
  unfold heap_count. intros H. induction H as [|x l Hx H IH]; [reflexivity|].
  cbn [map filter]. unfold heap in Hx. rewrite Hx. cbn [negb length]. lia.
Qed.
Lemma map_uid l : map s_uid (map snd l) = euids l.
Proof. unfold euids. rewrite map_map. reflexivity. Qed.
Lemma out_bytes cr (l : list ent) : concat (map (fun o : bool * tseg => s_data (snd o)) (map (fun q => (negb cr, q)) (map snd l))) = dat l.
Proof. unfold dat. rewrite !map_map. reflexivity. Qed.
Lemma out_uids cr (l : list ent) : map (fun o : bool * tseg => s_uid (snd o)) (map (fun q => (negb cr, q)) (map snd l)) = euids l.
Proof. unfold euids. rewrite !map_map. reflexivity. Qed.

Record step_ok (acc : list (Z * inseg)) (N : Z) (st : tcb) (us : list Z) (st' : tcb) (e : teff) : Prop := {
  so_inv : Inv acc (N + nbytes e) st';
  so_bytes : at_pos B N (bytes_of e);
  so_est : estab st' = estab st;
  so_perm : Permutation (uids_q st' ++ te_freed e ++ uids_out e) (us ++ uids_q st);
  so_zone : te_alloc e - te_zfree e = Z.of_nat (length (segq st')) - Z.of_nat (length (segq st));
  so_settled : estab st = true -> te_drop e = false -> settled (N + nbytes e) st';
  so_grow : N + nbytes e < N + 2147483648
}.

Definition acc_of (e : teff) (A : Z) (g : inseg) acc : list (Z * inseg) := if te_drop e then acc else (A, g) :: acc.


(* in a ++ t :: b, with a at N and t at the end of a, presenting takes t *)
Definition certain (N : Z) (l : list ent) : Prop :=
  exists a t b, l = a ++ t :: b /\ Forall heap a /\ Forall heap b /\
       Forall (fun x => fst x = N) a /\ fst t = fold_left (fun m x => Z.max m (en x)) a N.

Lemma t_presented a t b out rest N :
  a ++ t :: b = out ++ rest -> Forall (ok N) (a ++ t :: b) -> chained (a ++ t :: b) ->
  Forall (fun x => fst x = N) a -> fst t = fold_left (fun m x => Z.max m (en x)) a N ->
  Forall (fun x => N + Z.of_nat (length (dat out)) <= fst x) rest ->
  match rest with [] => True | x :: _ => fst x <> N + Z.of_nat (length (dat out)) end ->
  exists o2, out = a ++ t :: o2.
Proof.
  intros El HO HC Fa Ft A2 A3. 
  revert out N El HO HC Fa Ft A2 A3. 
        induction a as [|y a IH]; intros out N El HO HC Fa Ft A2 A3.
        - cbn [fold_left app] in *. destruct out as [|o out].
          + cbn [app] in El. subst rest. exfalso. apply A3. cbn [dat map concat length]. lia.
          + cbn [app] in El. injection El as -> ->. exists out. reflexivity.
        - cbn [app] in El. inversion Fa as [|? ? F1 F2]; subst.
          destruct out as [|o out].
          { cbn [app] in El. subst rest. exfalso. apply A3. cbn [dat map concat length]. lia. }
          cbn [app] in El. injection El as -> El.
          inversion HO as [|? ? O1 O2]; subst. pose proof (ok_len _ _ O1) as LP. pose proof O1 as (ES & EL & _).
          inversion HC as [|? ? C1 C2]; subst.
          assert (LD : Z.of_nat (length (dat (o :: out))) = s_len (snd o) + Z.of_nat (length (dat out))).
          { unfold dat. cbn [map concat]. rewrite app_length. lia. }
          rewrite LD in A2, A3. 
          assert (G : exists o2, out = a ++ t :: o2).
          { destruct a as [|z a].
            - cbn [app] in El. cbn [fold_left] in Ft. unfold en in Ft. rewrite Z.max_r in Ft by lia.
              destruct out as [|o' out].
              + cbn [app] in El. subst rest. exfalso. apply A3. cbn [dat map concat length]. lia.
              + cbn [app] in El. injection El as -> ->. exists out. reflexivity.
            - assert (LZ : s_len (snd o) = 0).
              { inversion F2 as [|? ? F3 F4]; subst. inversion C2 as [|? ? C3 C4]; subst.
                unfold en in C3. rewrite F3 in C3. lia. }
              apply (IH out (fst o)); try assumption.
              + cbn [fold_left] in Ft. unfold en in Ft at 2. rewrite LZ in Ft. rewrite Z.add_0_r, Z.max_id in Ft. exact Ft.
              + rewrite LZ in A2. exact A2.
              + rewrite LZ in A3. exact A3. }
          destruct G as (o2 & ->). exists o2. reflexivity. 
Qed.

(* presenting from a queue described by l; te may be a stack entry that is
   certainly presented *)
Lemma present_ok cr acc N st l fd al zf tlen us q0 :
  rcv_nxt st = seqno N -> segq st = map snd l -> segqlen st = Z.of_nat (length l) ->
  Forall (ok N) l -> chained l -> covs acc N l ->
  (Forall heap l \/ (estab st = true /\ certain N l)) ->
  Permutation (euids l ++ fd) (us ++ q0) ->
  let st0 := mkTcb (rcv_nxt st) [] 0 (estab st) in
  forall n0, al - zf = heap_count (map snd l) - n0 ->
  let '(st', e) := present cr st fd al zf tlen in
    Inv acc (N + nbytes e) st' /\ at_pos B N (bytes_of e) /\ estab st' = estab st /\
    Permutation (uids_q st' ++ te_freed e ++ uids_out e) (us ++ q0) /\
    te_alloc e - te_zfree e = Z.of_nat (length (segq st')) - n0 /\
    (estab st = true -> settled (N + nbytes e) st') /\ N + nbytes e < N + 2147483648 /\
    te_tlen e = tlen /\ te_drop e = false /\
    (length (segq st') <= length l)%nat /\ (estab st = true -> certain N l -> (length (segq st') < length l)%nat).
Proof.
  intros HN HQ HL HO HC HCV HS HP st0 n0 HZ. unfold present.
  destruct (estab st) eqn:EE; cbn [negb].
  2:{ assert (HH : Forall heap l) by (destruct HS as [HS|[HS _]]; [exact HS|discriminate]).
      unfold nbytes, bytes_of, uids_out. cbn [te_out te_freed te_alloc te_zfree te_tlen te_drop map concat length].
      rewrite Z.add_0_r. split; [|split; [|split; [|split; [|split; [|split; [|split; [|split; [|split; [|split]]]]]]]]].
      - split; [exact HN|rewrite HQ, map_length; exact HL|]. exists l. auto.
      - intros [|i] b H; discriminate.
      - exact EE.
      - unfold uids_q. rewrite HQ, map_uid, app_nil_r. exact HP.
      - rewrite HQ, map_length. rewrite heap_count_all in HZ by exact HH. exact HZ.
      - discriminate.
      - lia.
      - reflexivity.
      - reflexivity.
      - rewrite HQ, map_length. lia.
      - discriminate. }
  destruct (present_abs l N N) as (out & rest & fl & E & EP & A1 & A2 & A3 & A4 & A5);
    [lia|lia|exact HO|apply fst_ge_ok; exact HO|exact HC|].
  rewrite HN, HQ, EP. unfold nbytes, bytes_of, uids_out, uids_q.
  cbn [te_out te_freed te_alloc te_zfree te_tlen te_drop segq].
  rewrite out_bytes, out_uids, map_uid, !map_length.
  assert (HOr : Forall (ok N) rest) by (rewrite E in HO; apply Forall_app in HO; tauto).
  assert (HCr : chained rest) by (rewrite E in HC; apply chained_app in HC; tauto).
  assert (HHr : Forall heap rest).
  { destruct HS as [HS|(_ & a & t & b & El & Ha & Hb & Fa & Ft)].
    - rewrite E in HS. apply Forall_app in HS. tauto.
    - (* the stack entry has been presented *)
      destruct (t_presented a t b out rest N) as (o2 & ->); try assumption; try (rewrite <- El; assumption).
      rewrite El in E. rewrite <- app_assoc in E. cbn [app] in E.
      apply app_inv_head in E. injection E as ->. apply Forall_app in Hb. tauto. }
  split; [|split; [|split; [|split; [|split; [|split; [|split; [|split; [|split; [|split]]]]]]]]].
  - split; cbn [rcv_nxt segqlen segq].
    + reflexivity.
    + rewrite map_length, HL, E, app_length. lia.
    + exists rest. split; [reflexivity|]. split; [apply (ok_mono N); [lia|exact HOr|exact A2]|]. split; [exact HHr|].
      split; [exact HCr|]. intros x Hx. destruct (HCV x Hx) as [H|H]; [left; lia|].
      destruct H as (a & Ha & R). rewrite E in Ha. apply in_app_iff in Ha. destruct Ha as [Ha|Ha].
      * left. apply A4. exists a. auto.
      * right. exists a. auto.
  - exact A1.
  - reflexivity.
  - rewrite <- HP, E. unfold euids. rewrite map_app. fold (euids out) (euids rest).
    rewrite (Permutation_app_comm (euids out)), <- app_assoc. apply Permutation_app_head, Permutation_app_comm.
  - rewrite E, map_app in HZ. unfold heap_count in *. rewrite filter_app, app_length in HZ.
    pose proof (heap_count_all rest HHr) as X. unfold heap_count in X. lia.
  - intros _. unfold settled. cbn [segq]. destruct rest as [|r rest]; [exact I|]. cbn [map].
    inversion HOr as [|? ? O1 O2]; subst. destruct O1 as (ES & EL & B1 & B2 & _). rewrite ES.
    inversion A2 as [|? ? A6 A7]; subst.
    pose proof (seqno_eq (fst r) (N + Z.of_nat (length (dat out)))) as X.
    intros Y. apply A3.
    assert (0 <= s_len (snd r)) by (rewrite EL; lia). unfold en in B2.
    rewrite Y, Z.eqb_refl in X. symmetry in X. apply Z.eqb_eq. apply X. lia.
  - exact A5.
  - reflexivity.
  - reflexivity.
  - rewrite E, app_length. lia.
  - intros _ (a & t & b & El & Ha & Hb & Fa & Ft).
    destruct (t_presented a t b out rest N) as (o2 & ->); try assumption; try (rewrite <- El; assumption).
    rewrite E, !app_length. cbn [length]. lia.
Qed.

(* ---- the step ---- *)
Lemma fold_max_last (l : list ent) N : chained l -> Forall (ok N) l ->
  fold_left (fun m x => Z.max m (en x)) l N = match rev l with [] => N | y :: _ => en y end.
Proof.
  destruct l as [|z l] using rev_ind; [reflexivity|]. intros HC HO.
  rewrite fold_left_app, rev_app_distr. cbn [rev app fold_left].
  apply Z.max_r.
  apply chained_app in HC. destruct HC as (C1 & _ & C3). apply Forall_app in HO. destruct HO as [O1 O2].
  inversion O2 as [|? ? O3 _]; subst. pose proof (ok_len _ _ O3). destruct O3 as (_ & _ & L & _).
  clear IHl. assert (K : forall m, m <= en z -> fold_left (fun m x => Z.max m (en x)) l m <= en z).
  { clear O1 C1. induction l as [|y l IH]; cbn [fold_left]; intros m Hm; [exact Hm|]. apply IH.
    - intros u v Hu Hv. apply C3; [right; exact Hu|exact Hv].
    - apply Z.max_lub; [exact Hm|]. specialize (C3 y z (or_introl eq_refl) (or_introl eq_refl)). unfold en in *. lia. }
  apply K. unfold en. lia.
Qed.

Lemma at_pos_nil A : at_pos B A [].
Proof. intros [|i] b H; discriminate. Qed.

Lemma reass_step hw ms al cr acc N A g st st' e :
  Inv acc N st -> acceptable N A g -> at_pos B A (i_data g) -> 0 < ms ->
  tcp_reass hw ms al cr st (Some g) = Ret (st', e) ->
  step_ok (acc_of e A g acc) N st [i_uid g] st' e /\
  Z.of_nat (length (segq st')) <= Z.max (Z.of_nat (length (segq st))) (hw / ms + 1) /\
  (te_drop e = true -> st' = st /\ ((segqlen st >= hw / ms + 1 \/ al = false) /\ (i_seq g <> rcv_nxt st \/ estab st = false))).
Proof.
  intros [HN HL (l & HQ & HO & HH & HC & HCV)] (GS & GA & GE & GL) GB Hms. unfold tcp_reass.
  destruct (Z.eqb_spec ms 0) as [?|_]; [lia|].
  set (missing := negb (negb (i_seq g =? rcv_nxt st) || negb (estab st))).
  assert (MS : missing = (i_seq g =? rcv_nxt st) && estab st).
  { unfold missing. destruct (i_seq g =? rcv_nxt st), (estab st); reflexivity. }
  assert (HM : missing = true -> A = N /\ estab st = true).
  { rewrite MS, andb_true_iff, Z.eqb_eq. intros [M1 M2]. split; [|exact M2].
    rewrite GS, HN in M1. pose proof (seqno_eq A N) as X. rewrite M1, Z.eqb_refl in X. symmetry in X.
    apply Z.eqb_eq. apply X. lia. }
  assert (HNM : negb missing = true -> i_seq g <> rcv_nxt st \/ estab st = false).
  { rewrite MS. destruct (Z.eqb_spec (i_seq g) (rcv_nxt st)); [|auto]. destruct (estab st); [discriminate|auto]. }
  clearbody missing.
  assert (DROP : forall (W : segqlen st >= hw / ms + 1 \/ al = false), negb missing = true -> Ret (st, mkTE [] [i_uid g] 0 0 false 0 true) = Ret (st', e) ->
    step_ok (acc_of e A g acc) N st [i_uid g] st' e /\
    Z.of_nat (length (segq st')) <= Z.max (Z.of_nat (length (segq st))) (hw / ms + 1) /\
    (te_drop e = true -> st' = st /\ ((segqlen st >= hw / ms + 1 \/ al = false) /\ (i_seq g <> rcv_nxt st \/ estab st = false)))).
  { intros W W2 Q. injection Q as <- <-. split; [|split; [lia|]].
    - assert (Z0 : N + nbytes (mkTE [] [i_uid g] 0 0 false 0 true) = N) by (unfold nbytes, bytes_of; cbn [te_out map concat length]; lia).
      split; rewrite ?Z0.
      + split; [exact HN|exact HL|]. exists l. auto.
      + apply at_pos_nil.
      + reflexivity.
      + unfold uids_out. cbn [te_freed te_out map app]. rewrite Permutation_app_comm. reflexivity.
      + cbn [te_alloc te_zfree]. lia.
      + intros _ X. discriminate X.
      + lia.
    - intros _. split; [reflexivity|]. split; [exact W|exact (HNM W2)]. }
  destruct (negb missing && (segqlen st >=? hw / ms + 1)) eqn:C1.
  { apply andb_true_iff in C1. destruct C1 as [C1 C2]. apply DROP; [left; lia|exact C1]. }
  destruct (negb al && negb missing) eqn:C2.
  { apply andb_true_iff in C2. destruct C2 as [C2 C3]. apply DROP; [right; destruct al; [discriminate|reflexivity]|exact C3]. }
  clear DROP HNM.
  assert (LIM : missing = true \/ segqlen st + 1 <= hw / ms + 1).
  { destruct missing; [auto|right]. cbn [negb andb] in C1. destruct (Z.geb_spec (segqlen st) (hw / ms + 1)); [discriminate|lia]. }
  assert (ALM : al = true \/ missing = true).
  { destruct al, missing; try discriminate; auto. }
  clear C1 C2.
  rewrite GS, HQ. destruct (split_abs N A ltac:(lia) l HO HC) as (pre & post & El & ES & Fpre & Fpost).
  rewrite ES, <- map_rev.
  rewrite El in HO, HH, HC, HCV. apply Forall_app in HO. destruct HO as [Opre Opost].
  apply Forall_app in HH. destruct HH as [Hpre Hpost]. apply chained_app in HC. destruct HC as (Cpre & Cpost & Cx).
  set (M := match rev pre with [] => N | y :: _ => en y end).
  set (i := match map snd (rev pre) with [] => 0 | p :: _ => s32 (u32 (s_seq p + s_len p - seqno A)) end).
  assert (HI : (rev pre = [] /\ i = 0) \/ (i = M - A)).
  { unfold i, M. destruct (rev pre) as [|y r] eqn:ER; [auto|right]. cbn [map].
    assert (Hy : In y pre) by (apply in_rev; rewrite ER; left; reflexivity).
    rewrite Forall_forall in Opre. pose proof (Opre y Hy) as Oy. pose proof (ok_len _ _ Oy) as Ly.
    destruct Oy as (S1 & S2 & S3 & S4 & _). rewrite S1.
    rewrite (u32_sub_seq _ (en y)) by apply seqno_add. apply s32_small. unfold en in *. lia. }
  assert (Mge : forall x, In x pre -> en x <= M).
  { intros x Hx. unfold M. destruct (rev pre) as [|y r] eqn:ER.
    - apply (f_equal (@rev _)) in ER. rewrite rev_involutive in ER. subst pre. destruct Hx.
    - apply (f_equal (@rev _)) in ER. rewrite rev_involutive in ER. cbn [rev] in ER. rewrite ER in Hx, Cpre, Opre.
      apply chained_app in Cpre. destruct Cpre as (_ & _ & C3). apply in_app_iff in Hx. destruct Hx as [Hx|[<-|[]]]; [|lia].
      specialize (C3 x y Hx (or_introl eq_refl)). apply Forall_app in Opre. destruct Opre as [_ O2].
      inversion O2 as [|? ? O3 _]; subst. pose proof (ok_len _ _ O3). unfold en in *. lia. }
  assert (Mcov : forall x, 0 < i -> A <= x < A + i -> cov pre x).
  { intros x Hi Hx. destruct HI as [[_ HI]|HI]; [lia|]. unfold M in HI. destruct (rev pre) as [|y r] eqn:ER.
    - lia.
    - assert (Hy : In y pre) by (apply in_rev; rewrite ER; left; reflexivity). exists y. split; [exact Hy|].
      rewrite Forall_forall in Fpre. specialize (Fpre y Hy). cbn beta in Fpre. lia. }
  clearbody i.
  destruct ((i >? 0) && (i >=? i_len g)) eqn:DUP.
  - apply andb_true_iff in DUP. destruct DUP as [D1 D2]. intros Q. 
    assert (Hi : 0 < i) by lia. assert (Hi2 : i_len g <= i) by lia. clear D1 D2.
    set (st1 := mkTcb (rcv_nxt st) (map snd l) (segqlen st + 1 - 1) (estab st)) in Q.
    pose proof (present_ok cr ((A, g) :: acc) N st1 l [i_uid g] (if al then 1 else 0) (if al then 1 else 0) (i_len g) [i_uid g] (euids l)) as P.
    cbv zeta in P. specialize (P HN eq_refl).
    injection Q as Q. rewrite Q in P.
    assert (P' := fun a b c d f x y => P a b c d f x (Z.of_nat (length l)) y). clear P.
    destruct P' as (P1 & P2 & P3 & P4 & P5 & P6 & P7 & P8 & P9 & P10 & P11).
    + cbn [segqlen st1]. rewrite HL, HQ, map_length. lia.
    + rewrite El. apply Forall_app. split; assumption.
    + rewrite El. apply chained_app. split; [exact Cpre|]. split; [exact Cpost|exact Cx].
    + intros x (A0 & g0 & [E0|I0] & R0).
      * injection E0 as <- <-. right. rewrite El. destruct (Mcov x Hi ltac:(lia)) as (y & Hy & R). exists y. split; [apply in_app_iff; auto|exact R].
      * rewrite El. apply HCV. exists A0, g0. auto.
    + left. rewrite El. apply Forall_app. split; assumption.
    + apply Permutation_app_comm.
    + rewrite heap_count_all; [lia|]. rewrite El. apply Forall_app. split; assumption.
    + unfold acc_of. rewrite P9. split; [|split; [|discriminate]].
      * split; try assumption.
        -- unfold uids_q at 2. rewrite HQ, map_uid. exact P4.
        -- rewrite HQ, map_length. exact P5.
        -- intros X _. apply P6. exact X.
      * rewrite map_length. lia.
  - set (j := Z.max i 0).
    set (seq := if i >? 0 then u32 (seqno A + i) else seqno A).
    set (len := if i >? 0 then i_len g - i else i_len g).
    set (data := if i >? 0 then pull i (i_data g) else i_data g).
    assert (Hj : 0 <= j /\ j <= i_len g).
    { unfold j. apply andb_false_iff in DUP. destruct DUP; lia. }
    assert (HS : seq = seqno (A + j) /\ len = i_len g - j /\ len = Z.of_nat (length data) /\ at_pos B (A + j) data).
    { unfold seq, len, data, j. destruct (Z.gtb_spec i 0) as [G|G].
      - rewrite Z.max_l by lia. split; [apply seqno_add|]. split; [reflexivity|].
        apply andb_false_iff in DUP. rewrite pull_len by lia. split; [lia|]. apply pull_at; [lia|exact GB].
      - rewrite Z.max_r, Z.add_0_r, Z.sub_0_r by lia. auto. }
    clearbody seq len data. destruct HS as (HS1 & HS2 & HS3 & HS4).
    assert (HE : u32 (seq + len) = seqno (A + i_len g)).
    { rewrite HS1, seqno_add. f_equal. lia. }
    destruct (trim_abs N (A + i_len g) (seq + len) HE ltac:(lia) post Opost Hpost Cpost)
      as (post' & n & fd & T1 & T2 & T3 & T4 & T5 & T6 & T7 & T8 & T9).
    rewrite T1. set (te := mkS (i_uid g) seq len (i_fin g) data (negb al)).
    intros Q. set (st1 := mkTcb (rcv_nxt st) (map snd pre ++ te :: map snd post') (segqlen st + 1 - n) (estab st)) in Q.
    set (x0 := (A + j, te)). set (l' := pre ++ x0 :: post').
    assert (ENx : en x0 = A + i_len g) by (unfold en, x0, te; cbn [fst snd s_len]; lia).
    assert (Ox : ok N x0).
    { unfold ok. rewrite ENx. cbn [x0 te fst snd s_seq s_len s_data]. split; [exact HS1|]. split; [exact HS3|]. split; [lia|]. split; [lia|exact HS4]. }
    assert (HML : forall x, In x pre -> en x <= A + j).
    { intros x Hx. specialize (Mge x Hx). destruct HI as [[HR _]|HI]; [|unfold j; lia].
      apply (f_equal (@rev _)) in HR. rewrite rev_involutive in HR. subst pre. destruct Hx. }
    assert (EQl : map snd pre ++ te :: map snd post' = map snd l') by (unfold l'; rewrite map_app; reflexivity).
    assert (Ol : Forall (ok N) l') by (apply Forall_app; split; [exact Opre|constructor; assumption]).
    assert (Cl : chained l').
    { apply chained_app. split; [exact Cpre|]. split.
      - constructor; [exact T4|]. rewrite ENx. exact T5.
      - intros x y Hx [<-|Hy]; [exact (HML x Hx)|]. rewrite Forall_forall in T5. specialize (T5 y Hy). cbn beta in T5.
        specialize (HML x Hx). lia. }
    assert (CVl : covs ((A, g) :: acc) N l').
    { assert (Cin : forall x, A <= x < A + i_len g -> cov l' x).
      { intros x Hx. destruct (Z.lt_ge_cases x (A + j)) as [L|L].
        - destruct (Mcov x ltac:(lia) ltac:(lia)) as (y & Hy & R). exists y. split; [apply in_app_iff; auto|exact R].
        - exists x0. split; [apply in_app_iff; right; left; reflexivity|]. rewrite ENx. cbn [x0 fst]. lia. }
      intros x (A0 & g0 & [E0|I0] & R0).
      - injection E0 as <- <-. right. apply Cin. exact R0.
      - destruct (HCV x) as [H|(y & Hy & R)]; [exists A0, g0; auto|auto|]. apply in_app_iff in Hy. destruct Hy as [Hy|Hy].
        + right. exists y. split; [apply in_app_iff; auto|exact R].
        + destruct (T6 x) as [H|(z & Hz & Rz)]; [exists y; auto| |].
          * right. apply Cin. rewrite Forall_forall in Fpost. specialize (Fpost y Hy). cbn beta in Fpost. lia.
          * right. exists z. split; [apply in_app_iff; right; right; exact Hz|exact Rz]. }
    assert (CER : missing = true -> estab st = true /\ certain N l').
    { intros HMi. destruct (HM HMi) as [-> HEs]. split; [exact HEs|]. exists pre, x0, post'.
      split; [reflexivity|]. split; [exact Hpre|]. split; [exact T3|].
      split. { rewrite Forall_forall in *. intros x Hx. specialize (Fpre x Hx). destruct (Opre x Hx) as (_ & _ & L & _). cbn beta in Fpre. lia. }
      rewrite (fold_max_last pre N Cpre Opre). fold M. cbn [x0 fst].
      assert (MN : N <= M).
      { unfold M. destruct (rev pre) as [|y r] eqn:ER; [lia|].
        assert (Hy : In y pre) by (apply in_rev; rewrite ER; left; reflexivity). rewrite Forall_forall in Opre.
        pose proof (ok_len _ _ (Opre y Hy)). destruct (Opre y Hy) as (_ & _ & L & _). unfold en. lia. }
      destruct HI as [[HR HI]|HI]; [|unfold j; lia]. unfold M. rewrite HR. unfold j. lia. }
    assert (LP : length l' = (length pre + S (length post'))%nat) by (unfold l'; rewrite app_length; reflexivity).
    assert (LL : length l = (length pre + length post)%nat) by (rewrite El; apply app_length).
    assert (HC1 : heap_count (map snd l') = (if al then 1 else 0) + Z.of_nat (length pre) + Z.of_nat (length post')).
    { pose proof (heap_count_all _ Hpre) as X1. pose proof (heap_count_all _ T3) as X2.
      unfold heap_count in *. unfold l'. rewrite map_app, filter_app, app_length. cbn [map filter x0 snd te s_stack].
      rewrite negb_involutive. destruct al; cbn [length]; lia. }
    pose proof (present_ok cr ((A, g) :: acc) N st1 l' fd (if al then 1 else 0) n len [i_uid g] (euids l)) as P.
    cbv zeta in P. specialize (P HN EQl). injection Q as Q. rewrite Q in P.
    assert (P' := fun a b c d f x y => P a b c d f x (Z.of_nat (length l)) y). clear P.
    destruct P' as (P1 & P2 & P3 & P4 & P5 & P6 & P7 & P8 & P9 & P10 & P11).
    + cbn [segqlen st1]. rewrite HL, HQ, map_length. lia.
    + exact Ol.
    + exact Cl.
    + exact CVl.
    + destruct ALM as [->|HMi]; [left|right; exact (CER HMi)].
      apply Forall_app. split; [exact Hpre|]. constructor; [reflexivity|exact T3].
    + unfold l', euids. rewrite El, !map_app. cbn [map x0 snd te s_uid app]. fold (euids pre) (euids post) (euids post').
      rewrite <- T7, <- app_assoc. cbn [app]. symmetry. apply Permutation_middle.
    + rewrite HC1. destruct al; lia.
    + unfold acc_of. rewrite P9. split; [|split; [|discriminate]].
      * split; try assumption.
        -- unfold uids_q at 2. rewrite HQ, map_uid. exact P4.
        -- rewrite HQ, map_length. exact P5.
        -- intros X _. apply P6. exact X.
      * rewrite map_length. rewrite HL, HQ, map_length in LIM.
        destruct LIM as [HMi|LIM]; [|lia]. destruct (CER HMi) as [HEs CE]. specialize (P11 HEs CE). lia.
Qed.
End P.
