(* The trie operations with the address given as a list of bits and the allocator abstract;
   shared proof for the IPv4 and IPv6 functions, which are shown equal to instances of these. *)
From Verif Require Import Base RadixModel RadixTree.

Section Gen.
Variable alloc : pool -> option nat * pool.
Variable free : pool -> nat -> pool.
Variable FreeRep : pool -> list nat -> Prop.
Hypothesis FR_frame : forall s fl h, FreeRep s fl -> (forall q, In q fl -> h q = hp s q) ->
  FreeRep (set_hp s h) fl.
Hypothesis FR_nil : forall s, FreeRep s [] -> alloc s = (None, s).
Hypothesis FR_alloc : forall s p fl, FreeRep s (p :: fl) -> NoDup (p :: fl) ->
  exists s', alloc s = (Some p, s') /\ FreeRep s' fl /\
    (forall q, ~ In q (p :: fl) -> hp s' q = hp s q) /\ nalloc s' = nalloc s + 1.
Hypothesis FR_free : forall s p fl, FreeRep s fl -> NoDup (p :: fl) ->
  exists fl', Permutation fl' (p :: fl) /\ FreeRep (free s p) fl' /\
    (forall q, ~ In q (p :: fl) -> hp (free s p) q = hp s q) /\
    nalloc (free s p) = nalloc s - 1.

Fixpoint gwalk (h : heap) (bs : list bool) (nd : option nat) (stack : list nat)
  : option nat * list nat * list bool :=
  match bs, nd with
  | b :: bs', Some p => gwalk h bs' (child (h p) b) (p :: stack)
  | _, _ => (nd, stack, bs)
  end.

Fixpoint gchain (s : pool) (rbs : list bool) (nd : nat) (done : list bool)
  : pool * nat * list bool * bool :=
  match rbs with
  | [] => (s, nd, done, true)
  | b :: rbs' =>
    match alloc s with
    | (None, s) => (s, nd, done, false)
    | (Some t, s) => gchain (set_hp s (upd (hp s) t (set_child zero_node b (Some nd)))) rbs' t (b :: done)
    end
  end.

Fixpoint gnomem (s : pool) (nd : option nat) (bits : list bool) : pool * option nat :=
  match nd, bits with
  | Some p, b :: bits' => gnomem (free s p) (child (hp s p) b) bits'
  | _, _ => (s, nd)
  end.

Definition ginsert (ovw : bool) (x : bool) (s : pool) (root : option nat) (bs : list bool) (d : Z) : outcome (pool * ins_ret) :=
  let '(nd, stack, rem) := gwalk (hp s) bs root [] in
  match nd with
  | Some p =>
      if negb ovw && (flags (hp s p) =? VALID) then Ret (s, InsExisting p)
      else Ret (set_hp s (upd (hp s) p (mkNode VALID d (left (hp s p)) (right (hp s p)))), InsNULL)
  | None =>
    match alloc s with
    | (None, s) => Ret (s, InsData)
    | (Some p, s) =>
      let s := set_hp s (upd (hp s) p (mkNode VALID d None None)) in
      let '(s, nd, done, ok) := gchain s (rev rem) p [] in
      if ok then
        match stack with
        | [] => Ret (s, InsData)
        | last :: _ =>
          Ret (set_hp s (upd (hp s) last
             (set_child (hp s last) (nth (length stack - 1) bs false) (Some nd))), InsNULL)
        end
      else match gnomem s (Some nd) (done ++ [x]) with
           | (s, None) => Ret (s, InsData)
           | (_, Some _) => Diverge
           end
    end
  end.

Fixpoint gunwind (s : pool) (stack : list nat) (rbs : list bool) : pool :=
  match stack, rbs with
  | p :: rest, b :: rbs' =>
    let h := upd (hp s) p (set_child (hp s p) b None) in
    let s := set_hp s h in
    match child (h p) (negb b), is_valid (h p), rest with
    | Some _, _, _ => s
    | None, true, _ => s
    | None, false, [] => s
    | None, false, _ => gunwind (free s p) rest rbs'
    end
  | _, _ => s
  end.

Definition gremove (s : pool) (root : option nat) (bs : list bool) : pool * option nat :=
  let '(nd, stack, rem) := gwalk (hp s) bs root [] in
  match nd with
  | None => (s, None)
  | Some p =>
    if negb (is_valid (hp s p)) then (s, None)
    else
      let s := set_hp s (upd (hp s) p (set_flags (hp s p) 0)) in
      match left (hp s p), right (hp s p) with
      | None, None =>
        match bs with
        | [] => (s, Some p)
        | _ => (gunwind (free s p) stack (rev bs), Some p)
        end
      | _, _ => (s, Some p)
      end
  end.

(* ---------------- walk ---------------- *)
Lemma gwalk_spec h bs : forall t o st, rep h t o ->
  exists pre rem, bs = pre ++ rem /\
    gwalk h bs o st = (tptr (sub t pre), rev (pathn t pre) ++ st, rem) /\
    ((sub t bs <> E /\ rem = []) \/ sub t pre = E) /\
    (forall a b w, pre = a ++ b :: w -> sub t a <> E) .
Proof.
  induction bs as [|b bs IH]; intros t o st Hr.
  - exists [], []. cbn. rewrite (rep_ptr _ _ _ Hr).
    split; [reflexivity|]. split; [reflexivity|].
    split; [destruct t; [right; reflexivity|left; split; [discriminate|reflexivity]]|].
    intros a b w H. destruct a; discriminate.
  - destruct t as [|p v l r].
    + exists [], (b :: bs). cbn in *. subst o. split; [reflexivity|]. split; [reflexivity|].
      split; [right; reflexivity|]. intros a c w H. destruct a; discriminate.
    + assert (Hr' := Hr). cbn in Hr. destruct Hr as (-> & H2 & H3 & H4).
      assert (Hc : rep h (tch (T p v l r) b) (child (h p) b)) by (destruct b; assumption).
      destruct (IH _ _ (p :: st) Hc) as (pre & rem & E1 & E2 & E3 & E4).
      exists (b :: pre), rem. split; [cbn; now rewrite E1|]. split.
      * cbn [gwalk]. rewrite E2. cbn [sub pathn]. cbn [rev]. rewrite <- app_assoc. reflexivity.
      * split; [exact E3|]. intros a c w H. destruct a as [|a0 a]; [discriminate|].
        injection H as <- H. cbn. eapply E4. exact H.
Qed.

Definition Inv (s : pool) (root : nat) (t : tree) (fl : list nat) : Prop :=
  rep (hp s) t (Some root) /\ FreeRep s fl /\ NoDup (addrs t ++ fl).

(* [s'] with tree t' is reached from [s] with tree t by touching only nodes of t and fl *)
Definition Step (s s' : pool) (root : nat) (t t' : tree) (fl fl' : list nat) : Prop :=
  Inv s' root t' fl' /\ Permutation (addrs t' ++ fl') (addrs t ++ fl) /\
  (forall q, ~ In q (addrs t ++ fl) -> hp s' q = hp s q) /\
  nalloc s' - Z.of_nat (length (addrs t')) = nalloc s - Z.of_nat (length (addrs t)).

Lemma Step_refl s root t fl : Inv s root t fl -> Step s s root t t fl fl.
Proof. intros H. split; [exact H|]. split; [reflexivity|]. split; [reflexivity|lia]. Qed.

(* in-place change of the value of an existing node *)
Lemma setval_step s root t fl bs p v l r v' n' :
  Inv s root t fl -> sub t bs = T p v l r -> nval n' v' ->
  left n' = left (hp s p) -> right n' = right (hp s p) ->
  Step s (set_hp s (upd (hp s) p n')) root t (graft t bs (T p v' l r)) fl fl.
Proof.
  intros (Hr & Hf & Hn) Hs Hv Hl Hrt.
  assert (Hne : sub t bs <> E) by (rewrite Hs; discriminate).
  assert (Hpin : In p (addrs t)).
  { apply addrs_sub with bs. rewrite Hs. left. reflexivity. }
  apply NoDup_app_iff in Hn. destruct Hn as (Hn1 & Hn2 & Hn3).
  destruct (graft_perm t bs Hne) as (R & P1 & P2).
  assert (PP : Permutation (addrs (graft t bs (T p v' l r))) (addrs t)).
  { rewrite P2, P1, Hs. reflexivity. }
  assert (Hn' : NoDup (addrs (graft t bs (T p v' l r)) ++ fl)).
  { eapply Permutation_NoDup; [apply Permutation_sym, Permutation_app_tail, PP|].
    apply NoDup_app_iff. auto. }
  assert (Hsub := rep_sub _ _ _ bs Hr). rewrite Hs in Hsub. cbn in Hsub.
  destruct Hsub as (_ & Hv0 & Hrl & Hrr).
  assert (Hps : ~ In p (addrs l ++ addrs r)).
  { rewrite Hs in P1. cbn in P1. apply (Permutation_NoDup P1) in Hn1.
    apply NoDup_cons_iff in Hn1. destruct Hn1 as [Hn1 _]. intros Hi. apply Hn1, in_or_app. auto. }
  split; [|split; [apply Permutation_app_tail, PP|split]].
  - split; [|split; [|exact Hn']].
    + eapply rep_graft; try eassumption.
      * rewrite Hs. reflexivity.
      * cbn. rewrite upd_same. rewrite in_app_iff in Hps. split; [reflexivity|]. split; [exact Hv|].
        rewrite Hl, Hrt.
        split; [eapply rep_ext; [|exact Hrl]|eapply rep_ext; [|exact Hrr]];
          intros q Hq; apply upd_other; intros ->; tauto.
      * cbn. intros q Hq Hq'. apply upd_other. intros ->. apply Hq'. rewrite Hs. left. reflexivity.
    + apply FR_frame; [exact Hf|]. intros q Hq. apply upd_other. intros ->. exact (Hn3 p Hpin Hq).
  - intros q Hq. cbn. apply upd_other. intros ->. apply Hq. apply in_or_app. auto.
  - cbn. rewrite (Permutation_length PP). lia.
Qed.

(* ---------------- chain ---------------- *)
Fixpoint mk_ok (c : tree) (bits : list bool) (d : Z) : Prop :=   (* a bare chain ending in value d *)
  match bits with
  | [] => exists p, c = T p (Some d) E E
  | b :: bits' => exists p c', c = (if b then T p None E c' else T p None c' E) /\ mk_ok c' bits' d
  end.

Lemma mk_ok_val c bits d : mk_ok c bits d -> forall q, val c q = if list_eq_dec Bool.bool_dec q bits then Some d else None.
Proof.
  revert c; induction bits as [|b bits IH]; intros c H q; cbn in H.
  - destruct H as (p & ->). unfold val. destruct q as [|x q]; [reflexivity|].
    destruct (list_eq_dec Bool.bool_dec (x :: q) []); [discriminate|].
    cbn. destruct x; rewrite sub_E; reflexivity.
  - destruct H as (p & c' & -> & H). specialize (IH _ H).
    destruct q as [|x q]; [destruct b; reflexivity|].
    destruct (Bool.bool_dec x b) as [->|Hx].
    + transitivity (val c' q); [destruct b; reflexivity|]. rewrite IH.
      destruct (list_eq_dec Bool.bool_dec q bits) as [->|Hq];
        destruct (list_eq_dec Bool.bool_dec (b :: _) (b :: bits)); congruence.
    + transitivity (@None Z).
      * unfold val. destruct b, x; cbn; try congruence; now rewrite sub_E.
      * destruct (list_eq_dec Bool.bool_dec (x :: q) (b :: bits)); congruence.
Qed.

Lemma mk_ok_trim c bits d : mk_ok c bits d -> trim c /\ c <> E /\ height c = S (length bits) /\ length (addrs c) = S (length bits).
Proof.
  revert c; induction bits as [|b bits IH]; intros c H; cbn in H.
  - destruct H as (p & ->). cbn. split; [split; [discriminate|auto]|]. split; [discriminate|auto].
  - destruct H as (p & c' & -> & H). destruct (IH _ H) as (H1 & H2 & H3 & H4).
    destruct b; cbn; rewrite ?app_nil_r, ?H3, ?H4; (split; [split; [auto|auto]|]); (split; [discriminate|lia]).
Qed.

(* what gchain builds: c is the tree so far *)
Lemma gchain_spec rbs : forall s nd done fl c d,
  rep (hp s) c (Some nd) -> mk_ok c done d -> FreeRep s fl -> NoDup (addrs c ++ fl) ->
  exists s' nd' done' ok fl' c',
    gchain s rbs nd done = (s', nd', done', ok) /\
    rep (hp s') c' (Some nd') /\ mk_ok c' done' d /\ FreeRep s' fl' /\
    Permutation (addrs c' ++ fl') (addrs c ++ fl) /\
    (forall q, ~ In q (addrs c ++ fl) -> hp s' q = hp s q) /\
    nalloc s' - Z.of_nat (length (addrs c')) = nalloc s - Z.of_nat (length (addrs c)) /\
    (if ok then done' = rev rbs ++ done else (length fl < length rbs)%nat /\ fl' = []).
Proof.
  induction rbs as [|b rbs IH]; intros s nd done fl c d Hr Hm Hf Hn.
  - exists s, nd, done, true, fl, c. cbn. do 5 (split; [auto; fail|]). split; [reflexivity|]. split; [lia|reflexivity].
  - destruct fl as [|t fl].
    + cbn. rewrite FR_nil by exact Hf. exists s, nd, done, false, [], c.
      do 5 (split; [auto; fail|]). split; [reflexivity|]. split; [lia|split; [lia|reflexivity]].
    + assert (Hn' := Hn). apply NoDup_app_iff in Hn'. destruct Hn' as (Hnc & Hnf & Hd).
      destruct (FR_alloc s t fl Hf Hnf) as (s1 & Ea & F1 & Fr1 & N1).
      cbn [gchain]. rewrite Ea.
      set (s2 := set_hp s1 (upd (hp s1) t (set_child zero_node b (Some nd)))).
      set (c2 := if b then T t None E c else T t None c E).
      assert (Htc : ~ In t (addrs c)) by (intros Hi; apply (Hd t Hi); left; reflexivity).
      assert (Htf : ~ In t fl) by (apply NoDup_cons_iff in Hnf; tauto).
      assert (Hr2 : rep (hp s2) c2 (Some t)).
      { assert (Hrc : rep (hp s2) c (Some nd)).
        { eapply rep_ext; [|exact Hr]. intros q Hq. unfold s2. cbn. rewrite upd_other by (intros ->; tauto).
          apply Fr1. intros Hi. exact (Hd q Hq Hi). }
        assert (Hs2t : hp s2 t = set_child zero_node b (Some nd)) by (unfold s2; cbn; apply upd_same).
        unfold c2. destruct b; cbn [rep]; rewrite Hs2t; cbn [set_child set_left set_right zero_node left right flags nval];
          (split; [reflexivity|]); (split; [reflexivity|]); (split; [|]); auto. }
      assert (Hm2 : mk_ok c2 (b :: done) d).
      { cbn. exists t, c. split; [reflexivity|exact Hm]. }
      assert (Hf2 : FreeRep s2 fl).
      { apply FR_frame; [exact F1|]. intros q Hq. apply upd_other. intros ->. tauto. }
      assert (Pc : Permutation (addrs c2) (t :: addrs c)).
      { unfold c2. destruct b; cbn; [reflexivity|rewrite app_nil_r; reflexivity]. }
      assert (PP : Permutation (addrs c2 ++ fl) (addrs c ++ t :: fl)).
      { rewrite Pc. cbn. apply Permutation_middle. }
      assert (Hn2 : NoDup (addrs c2 ++ fl)) by (eapply Permutation_NoDup; [apply Permutation_sym, PP|exact Hn]).
      destruct (IH s2 t (b :: done) fl c2 d Hr2 Hm2 Hf2 Hn2)
        as (s' & nd' & done' & ok & fl' & c' & G1 & G2 & G3 & G4 & G5 & G6 & G7 & G8).
      exists s', nd', done', ok, fl', c'. split; [exact G1|]. split; [exact G2|]. split; [exact G3|].
      split; [exact G4|]. split; [rewrite G5; exact PP|]. split.
      * intros q Hq. rewrite G6.
        -- unfold s2. cbn. rewrite upd_other.
           ++ apply Fr1. intros Hi. apply Hq. apply in_or_app. auto.
           ++ intros ->. apply Hq. apply in_or_app. right. left. reflexivity.
        -- intros Hi. apply Hq. eapply Permutation_in; [exact PP|exact Hi].
      * split.
        -- rewrite G7. rewrite (Permutation_length Pc). unfold s2. cbn [set_hp nalloc length]. rewrite N1. lia.
        -- destruct ok; [rewrite G8; cbn; rewrite <- app_assoc; reflexivity|cbn; destruct G8; split; [lia|assumption]].
Qed.

Lemma gnomem_spec bits : forall s nd c d x fl,
  rep (hp s) c (Some nd) -> mk_ok c bits d -> FreeRep s fl -> NoDup (addrs c ++ fl) ->
  exists fl' s', gnomem s (Some nd) (bits ++ [x]) = (s', None) /\ FreeRep s' fl' /\
    Permutation fl' (addrs c ++ fl) /\
    (forall q, ~ In q (addrs c ++ fl) -> hp s' q = hp s q) /\
    nalloc s' = nalloc s - Z.of_nat (length (addrs c)).
Proof.
  induction bits as [|b bits IH]; intros s nd c d x fl Hr Hm Hf Hn.
  - destruct Hm as (p & ->). cbn in Hr. destruct Hr as (Hp & _ & Hl & Hrr). injection Hp as ->.
    cbn [app gnomem]. assert (Ec : child (hp s p) x = None) by (destruct x; assumption).
    cbn in Hn. destruct (FR_free s p fl Hf Hn) as (fl' & P & F & Fr & N).
    rewrite Ec. exists fl', (free s p). cbn. auto.
  - destruct Hm as (p & c' & -> & Hm). cbn [app gnomem].
    assert (Hp : nd = p).
    { destruct b; cbn in Hr; destruct Hr as (Hr & _); congruence. }
    subst nd.
    set (c := if b then T p None E c' else T p None c' E) in *.
    assert (Pc : Permutation (addrs c) (p :: addrs c')).
    { unfold c. destruct b; cbn; [reflexivity|rewrite app_nil_r; reflexivity]. }
    assert (PP : Permutation (addrs c ++ fl) (addrs c' ++ p :: fl)).
    { rewrite Pc. cbn. apply Permutation_middle. }
    assert (Hn1 : NoDup (addrs c' ++ p :: fl)) by (eapply Permutation_NoDup; eassumption).
    assert (Hn2 := Hn1). apply NoDup_app_iff in Hn2. destruct Hn2 as (Hnc & Hnf & Hd).
    assert (Hc : rep (hp s) c' (child (hp s p) b)).
    { unfold c in Hr. destruct b; cbn in *; tauto. }
    assert (Hcp := rep_ptr _ _ _ Hc).
    destruct (mk_ok_trim _ _ _ Hm) as (_ & Hne & _).
    destruct c' as [|p' v' l' r'] eqn:Ec'; [contradiction|]. rewrite <- Ec' in *. cbn in Hcp.
    assert (Hcp' : child (hp s p) b = Some p') by (rewrite Hcp, Ec'; reflexivity).
    rewrite Hcp' in *.
    destruct (FR_free s p fl Hf Hnf) as (fl1 & P1 & F1 & Fr1 & N1).
    assert (Hr1 : rep (hp (free s p)) c' (Some p')).
    { eapply rep_ext; [|exact Hc]. intros q Hq. apply Fr1. intros Hi. exact (Hd q Hq Hi). }
    assert (PP1 : Permutation (addrs c' ++ fl1) (addrs c ++ fl)).
    { rewrite P1. symmetry. exact PP. }
    assert (Hn3 : NoDup (addrs c' ++ fl1)) by (eapply Permutation_NoDup; [symmetry; exact PP1|exact Hn]).
    destruct (IH (free s p) p' c' d x fl1 Hr1 Hm F1 Hn3) as (fl' & s' & G0 & G1 & G2 & G3 & G4).
    exists fl', s'. split; [exact G0|]. split; [exact G1|]. split; [rewrite G2; exact PP1|]. split.
    + intros q Hq. rewrite G3.
      * apply Fr1. intros Hi. apply Hq. eapply Permutation_in; [symmetry; exact PP|]. apply in_or_app. auto.
      * intros Hi. apply Hq. eapply Permutation_in; [exact PP1|exact Hi].
    + rewrite G4, N1, (Permutation_length Pc). cbn [length]. lia.
Qed.
Definition ins_post (ovw : bool) (t t' : tree) (bs : list bool) (d : Z) (fl : list nat) (r : ins_ret) : Prop :=
  match r with
  | InsNULL => (ovw = true \/ val t bs = None) /\
      forall q, val t' q = if list_eq_dec Bool.bool_dec q bs then Some d else val t q
  | InsExisting p => ovw = false /\ t' = t /\ val t bs <> None /\ (exists v l r, sub t bs = T p v l r)
  | InsData => t' = t /\ (length fl <= length bs)%nat
  end.

Lemma ginsert_ok ovw x s root t fl bs d :
  Inv s root t fl ->
  exists s' r t' fl', ginsert ovw x s (Some root) bs d = Ret (s', r) /\
    Step s s' root t t' fl fl' /\ ins_post ovw t t' bs d fl r /\
    (rtrim t -> rtrim t') /\
    (forall n, (height t <= n)%nat -> (S (length bs) <= n)%nat -> (height t' <= n)%nat).
Proof.
  intros HI. assert (HI' := HI). destruct HI' as (Hr & Hf & Hn).
  assert (Ht : t <> E) by (destruct t; [discriminate Hr|discriminate]).
  destruct (gwalk_spec (hp s) bs t (Some root) [] Hr) as (pre & rem & E1 & E2 & E3 & E4).
  unfold ginsert. rewrite E2.
  destruct (sub t pre) as [|p v l r] eqn:Es.
  - (* fell off the tree *)
    cbn [tptr]. destruct fl as [|p fl].
    { rewrite FR_nil by exact Hf. exists s, InsData, t, []. split; [reflexivity|].
      split; [apply Step_refl; exact HI|]. split; [split; [reflexivity|cbn; lia]|]. auto. }
    assert (Hn' := Hn). apply NoDup_app_iff in Hn'. destruct Hn' as (Hnt & Hnf & Hd).
    destruct (FR_alloc s p fl Hf Hnf) as (s1 & Ea & F1 & Fr1 & N1). rewrite Ea.
    assert (Hpf : ~ In p fl) by (apply NoDup_cons_iff in Hnf; tauto).
    set (s2 := set_hp s1 (upd (hp s1) p (mkNode VALID d None None))).
    assert (Hr2 : rep (hp s2) (T p (Some d) E E) (Some p)).
    { cbn [rep]. unfold s2. cbn [set_hp hp]. rewrite upd_same. cbn. auto. }
    assert (Hf2 : FreeRep s2 fl) by (apply FR_frame; [exact F1|]; intros q Hq; apply upd_other; intros ->; tauto).
    assert (Hn2 : NoDup (addrs (T p (Some d) E E) ++ fl)) by exact Hnf.
    destruct (gchain_spec (rev rem) s2 p [] fl (T p (Some d) E E) d Hr2 (ex_intro _ p eq_refl) Hf2 Hn2)
      as (s3 & nd & done & ok & fl3 & c & G1 & G2 & G3 & G4 & G5 & G6 & G7 & G8).
    rewrite G1. rewrite rev_involutive, rev_length, app_nil_r in G8.
    assert (Hfr3 : forall q, ~ In q (p :: fl) -> hp s3 q = hp s q).
    { intros q Hq. rewrite G6 by exact Hq. unfold s2. cbn. rewrite upd_other by (intros ->; apply Hq; left; reflexivity).
      apply Fr1. exact Hq. }
    assert (Hrt3 : rep (hp s3) t (Some root)).
    { eapply rep_ext; [|exact Hr]. intros q Hq. apply Hfr3. intros Hi. exact (Hd q Hq Hi). }
    assert (Hn3 : NoDup (addrs t ++ addrs c ++ fl3)).
    { eapply Permutation_NoDup; [apply Permutation_app_head; symmetry; exact G5|exact Hn]. }
    assert (Nal3 : nalloc s3 - Z.of_nat (length (addrs c)) = nalloc s).
    { rewrite G7. unfold s2. cbn [set_hp nalloc length addrs app]. rewrite N1. lia. }
    destruct ok.
    + (* chain complete: link it below last *)
      subst done.
      destruct (exists_last (l := pre)) as (pre0 & b & ->).
      { intros ->. cbn in Es. congruence. }
      assert (Hpre0 : sub t pre0 <> E) by (eapply E4; reflexivity).
      destruct (pathn_snoc t pre0 b Hpre0) as (lp & lv & ll & lr & Ls & Lp).
      rewrite Lp, rev_app_distr. cbn [rev app].
      assert (Hlen : length (pathn t pre0) = length pre0).
      { clear - Hpre0. revert t Hpre0. induction pre0 as [|c pre0 IH]; intros t H; [reflexivity|].
        destruct t; [cbn in H; now rewrite sub_E in H|]. cbn. f_equal. apply IH. exact H. }
      assert (Hb : nth (length (lp :: rev (pathn t pre0) ++ []) - 1) bs false = b).
      { rewrite E1, <- app_assoc. cbn [length app]. rewrite app_nil_r, rev_length, Hlen.
        replace (S (length pre0) - 1)%nat with (length pre0) by lia.
        rewrite app_nth2 by lia. rewrite Nat.sub_diag. reflexivity. }
      rewrite Hb.
      assert (Hchild : tch (T lp lv ll lr) b = E).
      { rewrite sub_app, Ls in Es. exact Es. }
      set (n' := set_child (hp s3 lp) b (Some nd)).
      set (s4 := set_hp s3 (upd (hp s3) lp n')).
      set (sn := if b then T lp lv ll c else T lp lv c lr).
      set (t' := graft t pre0 sn).
      assert (Hlpt : In lp (addrs t)) by (apply addrs_sub with pre0; rewrite Ls; left; reflexivity).
      apply NoDup_app_iff in Hn3. destruct Hn3 as (_ & Hn3c & Hd3).
      apply NoDup_app_iff in Hn3c. destruct Hn3c as (Hncc & Hnf3 & Hdc).
      destruct (graft_perm t pre0 Hpre0) as (R & P1 & P2).
      assert (Psn : Permutation (addrs sn) (addrs (sub t pre0) ++ addrs c)).
      { rewrite Ls. unfold sn. destruct b; cbn in Hchild; subst; cbn; rewrite ?app_nil_r; [reflexivity|].
        apply perm_skip. apply Permutation_app_comm. }
      assert (Pt' : Permutation (addrs t') (addrs t ++ addrs c)).
      { unfold t'. rewrite P2, Psn, P1. rewrite <- !app_assoc. apply Permutation_app_head, Permutation_app_comm. }
      assert (PP : Permutation (addrs t' ++ fl3) (addrs t ++ p :: fl)).
      { rewrite Pt', <- app_assoc. apply Permutation_app_head. exact G5. }
      assert (Hsub := rep_sub _ _ _ pre0 Hrt3). rewrite Ls in Hsub. cbn in Hsub.
      destruct Hsub as (_ & Hv0 & Hrl & Hrr).
      assert (Hlps : ~ In lp (addrs ll ++ addrs lr)).
      { rewrite Ls in P1. cbn in P1. apply (Permutation_NoDup P1) in Hnt.
        apply NoDup_cons_iff in Hnt. intros Hi. apply (proj1 Hnt), in_or_app. auto. }
      assert (Hlpc : ~ In lp (addrs c)) by (intros Hi; apply (Hd3 lp Hlpt); apply in_or_app; auto).
      assert (Hcr : rep (hp s4) c (Some nd)).
      { eapply rep_ext; [|exact G2]. intros q Hq. unfold s4. cbn. apply upd_other. intros ->. tauto. }
      assert (Hrs4 : rep (hp s4) t' (Some root)).
      { unfold t'. eapply rep_graft; [exact Hrt3|exact Hnt|exact Hpre0| | |].
        - rewrite Ls. unfold sn. destruct b; reflexivity.
        - assert (E4l : rep (hp s4) ll (left (hp s3 lp))).
          { eapply rep_ext; [|exact Hrl]. intros q Hq. unfold s4. cbn. apply upd_other. intros ->. apply Hlps, in_or_app; auto. }
          assert (E4r : rep (hp s4) lr (right (hp s3 lp))).
          { eapply rep_ext; [|exact Hrr]. intros q Hq. unfold s4. cbn. apply upd_other. intros ->. apply Hlps, in_or_app; auto. }
          assert (Hs4 : hp s4 lp = n') by (unfold s4; cbn; apply upd_same).
          unfold sn. destruct b; cbn [rep tptr]; rewrite Hs4; unfold n'; cbn [set_child set_left set_right left right];
            (split; [reflexivity|]); (split; [|auto]).
          + destruct lv; cbn in *; exact Hv0.
          + destruct lv; cbn in *; exact Hv0.
        - intros q Hq Hq'. unfold s4. cbn. apply upd_other. intros ->. apply Hq'. rewrite Ls. left. reflexivity. }
      exists s4, InsNULL, t', fl3. split; [reflexivity|].
      destruct (mk_ok_trim _ _ _ G3) as (M1 & M2 & M3 & M4).
      assert (Hsnne : sn <> E) by (unfold sn; destruct b; discriminate).
      split; [|split; [|split]].
      * split; [split; [exact Hrs4|split]|split; [exact PP|split]].
        -- apply FR_frame; [exact G4|]. intros q Hq. apply upd_other. intros ->.
           apply (Hd3 lp Hlpt). apply in_or_app. auto.
        -- eapply Permutation_NoDup; [symmetry; exact PP|exact Hn].
        -- intros q Hq. unfold s4. cbn. rewrite upd_other.
           ++ apply Hfr3. intros Hi. apply Hq, in_or_app. auto.
           ++ intros ->. apply Hq, in_or_app. auto.
        -- unfold s4. cbn [set_hp nalloc]. rewrite (Permutation_length Pt'), app_length. lia.
      * cbn. split.
        -- right. rewrite E1, val_app, Es. apply val_E.
        -- intros q. subst bs. destruct (prefix_dec pre0 q) as [[w ->]|Hout].
           ++ unfold t'. rewrite val_graft_in by exact Hpre0.
              destruct w as [|b' w].
              ** destruct (list_eq_dec Bool.bool_dec (pre0 ++ []) ((pre0 ++ [b]) ++ rem)) as [X|X].
                 { rewrite <- app_assoc in X. apply app_inv_head in X. discriminate. }
                 rewrite val_app, Ls. unfold sn. destruct b; reflexivity.
              ** destruct (Bool.bool_dec b' b) as [->|Hbb].
                 --- transitivity (val c w); [unfold sn; destruct b; reflexivity|].
                     rewrite (mk_ok_val _ _ _ G3).
                     replace (pre0 ++ b :: w) with ((pre0 ++ [b]) ++ w) by (rewrite <- app_assoc; reflexivity).
                     destruct (list_eq_dec Bool.bool_dec w rem) as [->|Hw].
                     { destruct (list_eq_dec Bool.bool_dec ((pre0 ++ [b]) ++ rem) ((pre0 ++ [b]) ++ rem)); congruence. }
                     destruct (list_eq_dec Bool.bool_dec ((pre0 ++ [b]) ++ w) ((pre0 ++ [b]) ++ rem)) as [X|X].
                     { apply app_inv_head in X. congruence. }
                     rewrite val_app, Es, val_E. reflexivity.
                 --- destruct (list_eq_dec Bool.bool_dec (pre0 ++ b' :: w) ((pre0 ++ [b]) ++ rem)) as [X|X].
                     { rewrite <- app_assoc in X. apply app_inv_head in X. cbn in X. congruence. }
                     rewrite val_app, Ls. unfold sn. unfold val. destruct b, b'; cbn; congruence.
           ++ unfold t'. rewrite val_graft_out by assumption.
              destruct (list_eq_dec Bool.bool_dec q ((pre0 ++ [b]) ++ rem)) as [->|X]; [|reflexivity].
              exfalso. apply (Hout ([b] ++ rem)). now rewrite <- app_assoc.
      * intros Hrt. unfold t'.
        assert (Htr : (pre0 <> [] -> trim (T lp lv ll lr))).
        { intros Hne. rewrite <- Ls. apply rtrim_sub; assumption. }
        assert (Hrtr : rtrim (T lp lv ll lr)).
        { destruct pre0; [cbn in Ls; subst t; exact Hrt|apply trim_rtrim, Htr; discriminate]. }
        apply rtrim_graft; auto.
        -- unfold sn. destruct b; cbn in *; tauto.
        -- intros Hne. specialize (Htr Hne). unfold sn. destruct b; cbn in *; intuition auto.
      * intros n Hh1 Hh2. unfold t'. apply height_graft; [exact Hh1|].
        destruct (height_sub t pre0) as [Hs|Hs]; [|congruence]. rewrite Ls in Hs.
        rewrite E1, !app_length in Hh2. cbn [length] in Hh2.
        unfold sn. destruct b; cbn in *; rewrite ?M3; lia.
    + (* out of nodes: undo *)
      destruct G8 as [G8 ->].
      destruct (gnomem_spec done s3 nd c d x [] G2 G3 G4) as (fl' & s4 & U0 & U1 & U2 & U3 & U4).
      { rewrite app_nil_r in Hn3 |- *. apply NoDup_app_iff in Hn3. tauto. }
      rewrite app_nil_r in U2, U3, Hn3, G5.
      rewrite U0.
      exists s4, InsData, t, fl'. split; [reflexivity|].
      assert (PP : Permutation (addrs t ++ fl') (addrs t ++ p :: fl)).
      { apply Permutation_app_head. rewrite U2. exact G5. }
      assert (Hcf : forall q, In q (addrs c) -> In q (p :: fl)).
      { intros q Hq. eapply Permutation_in; [exact G5|exact Hq]. }
      split; [|split; [|split]].
      * split; [split; [|split]|split; [exact PP|split]].
        -- eapply rep_ext; [|exact Hrt3]. intros q Hq. apply U3. intros Hi. apply Hcf in Hi. exact (Hd q Hq Hi).
        -- exact U1.
        -- eapply Permutation_NoDup; [symmetry; exact PP|exact Hn].
        -- intros q Hq. rewrite U3.
           ++ apply Hfr3. intros Hi. apply Hq, in_or_app. auto.
           ++ intros Hi. apply Hq, in_or_app. right. apply Hcf, Hi.
        -- lia.
      * split; [reflexivity|]. rewrite E1, app_length.
        assert (1 <= length pre)%nat; [|cbn [length]; lia].
        destruct pre; [cbn in Es; congruence|cbn; lia].
      * auto.
      * auto.
  - (* the node exists *)
    assert (Hrem : rem = []) by (destruct E3 as [[_ ?]|?]; [assumption|discriminate]).
    subst rem. rewrite app_nil_r in E1. subst pre. cbn [tptr].
    assert (Hsub := rep_sub _ _ _ bs Hr). rewrite Es in Hsub. cbn in Hsub.
    destruct Hsub as (_ & Hv0 & Hrl & Hrr).
    assert (Hvs : val t bs = v) by (unfold val; rewrite Es; reflexivity).
    destruct (negb ovw && (flags (hp s p) =? VALID)) eqn:Ev.
    + exists s, (InsExisting p), t, fl. split; [reflexivity|]. split; [apply Step_refl; exact HI|].
      split; [|auto]. cbn. apply andb_prop in Ev. destruct Ev as [Ev1 Ev2].
      split; [destruct ovw; [discriminate|reflexivity]|]. split; [reflexivity|].
      split; [|eauto]. rewrite Hvs. intros ->. cbn in Hv0. rewrite Hv0 in Ev2. discriminate.
    + exists (set_hp s (upd (hp s) p (mkNode VALID d (left (hp s p)) (right (hp s p))))), InsNULL,
        (graft t bs (T p (Some d) l r)), fl.
      split; [reflexivity|]. split; [eapply setval_step; eauto; cbn; auto|].
      assert (Hne : sub t bs <> E) by (rewrite Es; discriminate).
      split; [|split].
      * cbn. split.
        -- rewrite Hvs. destruct ovw; [auto|right]. destruct v; [|reflexivity].
           cbn in Hv0. destruct Hv0 as [Hv0 _]. rewrite Hv0 in Ev. discriminate.
        -- intros q. destruct (prefix_dec bs q) as [[w ->]|Hout].
           ++ rewrite val_graft_in by exact Hne. destruct w as [|b' w].
              ** rewrite app_nil_r. destruct (list_eq_dec Bool.bool_dec bs bs); [reflexivity|congruence].
              ** destruct (list_eq_dec Bool.bool_dec (bs ++ b' :: w) bs) as [X|X].
                 { rewrite <- (app_nil_r bs) in X at 2. apply app_inv_head in X. discriminate. }
                 rewrite val_app, Es. reflexivity.
           ++ rewrite val_graft_out by assumption.
              destruct (list_eq_dec Bool.bool_dec q bs) as [->|X]; [|reflexivity].
              exfalso. apply (Hout []). now rewrite app_nil_r.
      * intros Hrt.
        assert (Htr : (bs <> [] -> trim (T p v l r))) by (intros Hb; rewrite <- Es; apply rtrim_sub; assumption).
        assert (Hrtr : rtrim (T p v l r)).
        { destruct bs; [cbn in Es; subst t; exact Hrt|apply trim_rtrim, Htr; discriminate]. }
        apply rtrim_graft; auto; [|discriminate].
        intros Hb. specialize (Htr Hb). cbn in *. split; [discriminate|tauto].
      * intros n Hh1 Hh2. apply height_graft; [exact Hh1|].
        destruct (height_sub t bs) as [Hs|Hs]; [|congruence]. rewrite Es in Hs. cbn in *. lia.
Qed.

(* ---------------- remove ---------------- *)
(* While unwinding: [s0] is a state representing t; in the current [s] the nodes of the child
   subtree c (at pre++[b]) are already free and p still points to it. *)
Lemma gunwind_ok : forall pre b s t root fl h0 bs,
  rep h0 t (Some root) -> NoDup (addrs t) -> rtrim t ->
  sub t pre <> E -> sub t (pre ++ [b]) <> E ->
  (forall q, val (sub t (pre ++ [b])) q <> None -> pre ++ [b] ++ q = bs) ->
  (exists w, bs = pre ++ [b] ++ w) ->
  (forall q, In q (addrs t) -> ~ In q (addrs (sub t (pre ++ [b]))) -> hp s q = h0 q) ->
  FreeRep s fl ->
  (exists R, Permutation (addrs t) (addrs (sub t (pre ++ [b])) ++ R) /\ NoDup (R ++ fl)) ->
  exists t' fl', let s' := gunwind s (rev (pathn t (pre ++ [b]))) (rev (pre ++ [b])) in
    rep (hp s') t' (Some root) /\ FreeRep s' fl' /\ rtrim t' /\
    (forall n, (height t <= n)%nat -> (height t' <= n)%nat) /\
    (forall q, val t' q = if list_eq_dec Bool.bool_dec q bs then None else val t q) /\
    (forall R, Permutation (addrs t) (addrs (sub t (pre ++ [b])) ++ R) ->
       Permutation (addrs t' ++ fl') (R ++ fl) /\
       (forall q, ~ In q (R ++ fl) -> hp s' q = hp s q) /\
       nalloc s' - Z.of_nat (length (addrs t')) = nalloc s - Z.of_nat (length R)).
Proof.
  induction pre as [pre IH] using (well_founded_ind (Wf_nat.well_founded_ltof _ (@length bool))).
  intros b s t root fl h0 bs Hr Hn Htrim Hpre Hsub Hval Hbs Hagree Hf (R0 & HR0 & HNR0).
  destruct (pathn_snoc t pre b Hpre) as (p & v & l & r & Es & Ep).
  rewrite Ep, !rev_app_distr. cbn [rev app].
  cbv zeta. cbn [gunwind].
  set (h := upd (hp s) p (set_child (hp s p) b None)).
  assert (Ec : sub t (pre ++ [b]) = tch (T p v l r) b) by (rewrite sub_app, Es; reflexivity).
  set (c := tch (T p v l r) b) in *.
  set (oc := tch (T p v l r) (negb b)).
  assert (Hpt : In p (addrs t)) by (apply addrs_sub with pre; rewrite Es; left; reflexivity).
  destruct (graft_perm t pre Hpre) as (R & P1 & P2). rewrite Es in P1.
  assert (Pp : Permutation (addrs (T p v l r)) (addrs c ++ p :: addrs oc)).
  { unfold c, oc. cbn. rewrite <- Permutation_middle. destruct b; cbn.
    - apply perm_skip, Permutation_app_comm.
    - reflexivity. }
  assert (PR0 : Permutation R0 (p :: addrs oc ++ R)).
  { rewrite Ec in HR0. rewrite P1, Pp, <- app_assoc in HR0. apply Permutation_app_inv_l in HR0.
    symmetry. exact HR0. }
  assert (Hpc : ~ In p (addrs c)).
  { intros Hi. apply (Permutation_NoDup P1) in Hn. cbn in Hn. apply NoDup_cons_iff in Hn. destruct Hn as [Hn _].
    apply Hn. apply in_or_app. left. apply in_or_app. unfold c in Hi. cbn in Hi. destruct b; auto. }
  assert (Hsp : hp s p = h0 p) by (apply Hagree; [exact Hpt|rewrite Ec; exact Hpc]).
  assert (HNR : NoDup ((p :: addrs oc ++ R) ++ fl)) by (eapply Permutation_NoDup; [apply Permutation_app_tail, PR0|exact HNR0]).
  assert (Hocin : forall q, In q (addrs oc) -> In q (addrs t) /\ ~ In q (addrs c) /\ q <> p).
  { intros q Hq. split; [|split].
    - apply addrs_sub with (pre ++ [negb b]). rewrite sub_app, Es. exact Hq.
    - intros Hi. apply (Permutation_NoDup P1) in Hn. cbn in Hn. apply NoDup_cons_iff in Hn. destruct Hn as [_ Hn].
      apply NoDup_app_iff in Hn. destruct Hn as [Hn _]. apply NoDup_app_iff in Hn. destruct Hn as (_ & _ & Hn).
      unfold c, oc in Hi, Hq. destruct b; cbn [tch negb] in Hi, Hq; [exact (Hn q Hq Hi)|exact (Hn q Hi Hq)].
    - intros ->. cbn in HNR. apply NoDup_cons_iff in HNR. destruct HNR as [HNR _]. apply HNR.
      apply in_or_app. left. apply in_or_app. auto. }
  assert (Hrp := rep_sub _ _ _ pre Hr). rewrite Es in Hrp. cbn [rep tptr] in Hrp.
  destruct Hrp as (_ & Hv0 & Hrl & Hrr).
  assert (Hoc0 : rep h0 oc (child (h0 p) (negb b))) by (unfold oc; destruct b; cbn; assumption).
  assert (Hhp : h p = set_child (h0 p) b None) by (unfold h; rewrite upd_same, Hsp; reflexivity).
  assert (Hchild : child (h p) (negb b) = child (h0 p) (negb b)) by (rewrite Hhp; destruct b; reflexivity).
  assert (Hvalid : is_valid (h p) = match v with Some _ => true | None => false end).
  { rewrite Hhp. rewrite <- (nval_valid _ _ Hv0). destruct b; reflexivity. }
  assert (Hoc1 : rep h oc (child (h0 p) (negb b))).
  { eapply rep_ext; [|exact Hoc0]. intros q Hq. destruct (Hocin q Hq) as (H1 & H2 & H3).
    unfold h. rewrite upd_other by exact H3. apply Hagree; [exact H1|rewrite Ec; exact H2]. }
  set (sn := if b then T p v l E else T p v E r).
  assert (Psn : Permutation (addrs sn) (p :: addrs oc)).
  { unfold sn, oc. destruct b; cbn; rewrite ?app_nil_r; reflexivity. }
  (* common part of the three stopping cases *)
  assert (Hstop : (pre = [] \/ v <> None \/ oc <> E) ->
     exists t' fl', let s' := set_hp s h in
      rep (hp s') t' (Some root) /\ FreeRep s' fl' /\ rtrim t' /\
      (forall n, (height t <= n)%nat -> (height t' <= n)%nat) /\
      (forall q, val t' q = if list_eq_dec Bool.bool_dec q bs then None else val t q) /\
      (forall R, Permutation (addrs t) (addrs (sub t (pre ++ [b])) ++ R) ->
         Permutation (addrs t' ++ fl') (R ++ fl) /\
         (forall q, ~ In q (R ++ fl) -> hp s' q = hp s q) /\
         nalloc s' - Z.of_nat (length (addrs t')) = nalloc s - Z.of_nat (length R))).
  { intros Hst. exists (graft t pre sn), fl. cbv zeta. cbn [set_hp hp nalloc].
    split; [|split; [|split; [|split; [|split]]]].
    - eapply rep_graft; [exact Hr|exact Hn|exact Hpre| | |].
      + rewrite Es. unfold sn. destruct b; reflexivity.
      + unfold sn. unfold oc in Hoc1. cbn [tch] in Hoc1.
        destruct b; cbn [rep tptr negb child] in *; rewrite Hhp; cbn [set_child set_left set_right left right] in *;
          (split; [reflexivity|]); (split; [destruct v; cbn in *; exact Hv0|]); auto.
      + intros q Hq Hq'. rewrite Es in Hq'. unfold h.
        assert (q <> p) by (intros ->; apply Hq'; left; reflexivity).
        rewrite upd_other by assumption. apply Hagree; [exact Hq|]. rewrite Ec. intros Hi. apply Hq'.
        unfold c in Hi. cbn in *. right. apply in_or_app. destruct b; auto.
    - apply FR_frame; [exact Hf|]. intros q Hq. unfold h. apply upd_other. intros ->.
      cbn in HNR. apply NoDup_cons_iff in HNR. apply (proj1 HNR). apply in_or_app. auto.
    - assert (Htr : (pre <> [] -> trim (T p v l r))) by (intros Hb; rewrite <- Es; apply rtrim_sub; assumption).
      assert (Hrtr : rtrim (T p v l r)).
      { destruct pre; [cbn in Es; subst t; exact Htrim|apply trim_rtrim, Htr; discriminate]. }
      apply rtrim_graft; auto; [| |unfold sn; destruct b; discriminate].
      + unfold sn. destruct b; cbn in *; tauto.
      + intros Hb. specialize (Htr Hb). destruct Hst as [Hst|Hst]; [contradiction|].
        unfold sn. unfold oc in Hst. destruct b; cbn in *; (split; [intros Hvn; destruct Hst; [contradiction|auto]|tauto]).
    - intros n Hh. apply height_graft; [exact Hh|].
      destruct (height_sub t pre) as [Hs|Hs]; [|congruence]. rewrite Es in Hs.
      unfold sn. destruct b; cbn in *; lia.
    - intros q. destruct (prefix_dec pre q) as [[w ->]|Hout].
      + rewrite val_graft_in by exact Hpre. rewrite val_app, Es.
        destruct Hbs as (wb & ->).
        destruct w as [|b' w].
        * destruct (list_eq_dec Bool.bool_dec (pre ++ []) (pre ++ [b] ++ wb)) as [X|X].
          { apply app_inv_head in X. discriminate. }
          unfold sn. destruct b; reflexivity.
        * destruct (Bool.bool_dec b' b) as [->|Hbb].
          -- assert (Hl : val sn (b :: w) = None) by (unfold sn, val; destruct b; cbn; now rewrite sub_E).
             rewrite Hl. change (val (T p v l r) (b :: w)) with (val c w).
             destruct (list_eq_dec Bool.bool_dec (pre ++ b :: w) (pre ++ [b] ++ wb)) as [X|X]; [reflexivity|].
             specialize (Hval w). rewrite Ec in Hval.
             destruct (val c w) eqn:Ev; [|reflexivity].
             exfalso. apply X. apply Hval. discriminate.
          -- destruct (list_eq_dec Bool.bool_dec (pre ++ b' :: w) (pre ++ [b] ++ wb)) as [X|X].
             { apply app_inv_head in X. cbn in X. congruence. }
             unfold sn, val. destruct b, b'; cbn; congruence.
      + rewrite val_graft_out by assumption.
        destruct (list_eq_dec Bool.bool_dec q bs) as [->|X]; [|reflexivity].
        exfalso. destruct Hbs as (wb & ->). apply (Hout ([b] ++ wb)). reflexivity.
    - intros R' HR'. rewrite Ec, P1, Pp, <- app_assoc in HR'. apply Permutation_app_inv_l in HR'.
      assert (Pg : Permutation (addrs (graft t pre sn)) R') by (rewrite P2, Psn; exact HR').
      split; [apply Permutation_app_tail, Pg|]. split.
      + intros q Hq. unfold h. apply upd_other. intros ->. apply Hq, in_or_app. left.
        eapply Permutation_in; [exact HR'|]. left. reflexivity.
      + rewrite (Permutation_length Pg). lia. }
  rewrite Hchild, Hvalid. rewrite (rep_ptr _ _ _ Hoc0).
  destruct oc as [|op ov ol orr] eqn:Eoc; cbn [tptr]; [|apply Hstop; right; right; discriminate].
  destruct v as [vd|]; [apply Hstop; right; left; discriminate|].
  destruct (rev (pathn t pre)) as [|p2 rest] eqn:Erev.
  { apply Hstop. left. destruct pre as [|b0 pre']; [reflexivity|].
    exfalso. destruct (exists_last (l := b0 :: pre')) as (a & x & Ea); [discriminate|].
    rewrite Ea in *. destruct (pathn_snoc t a x) as (? & ? & ? & ? & _ & Hp).
    { eapply sub_prefix_nonE. exact Hpre. }
    rewrite Hp, rev_app_distr in Erev. discriminate. }
  (* continue one level up *)
  destruct (exists_last (l := pre)) as (pre0 & b0 & ->).
  { intros ->. cbn in Erev. discriminate. }
  assert (Hpre0 : sub t pre0 <> E) by (eapply sub_prefix_nonE; exact Hpre).
  assert (HNp : NoDup (p :: fl)).
  { cbn in HNR. rewrite NoDup_cons_iff in HNR. destruct HNR as [A B]. apply NoDup_app_iff in B.
    apply NoDup_cons_iff. split; [|tauto]. intros Hi. apply A, in_or_app. auto. }
  set (s1 := set_hp s h).
  assert (Hf1 : FreeRep s1 fl).
  { apply FR_frame; [exact Hf|]. intros q Hq. unfold h. apply upd_other. intros ->.
    apply NoDup_cons_iff in HNp. tauto. }
  destruct (FR_free s1 p fl Hf1 HNp) as (fl1 & PF & F1 & Fr1 & N1).
  destruct (IH pre0) with (b := b0) (s := free s1 p) (t := t) (root := root) (fl := fl1) (h0 := h0) (bs := bs)
    as (t' & fl' & G1 & G2 & G3 & G4 & G5 & G6); auto.
  - unfold ltof. rewrite app_length. cbn. lia.
  - (* values in the removed subtree *)
    intros q Hq. rewrite Es in Hq. destruct q as [|b' q]; [cbn in Hq; congruence|].
    destruct (Bool.bool_dec b' b) as [->|Hbb].
    + change (val (T p None l r) (b :: q)) with (val c q) in Hq.
      assert (X := Hval q). rewrite Ec in X. specialize (X Hq). rewrite <- X.
      rewrite <- !app_assoc. reflexivity.
    + exfalso. apply Hq. assert (val (T p None l r) (b' :: q) = val (tch (T p None l r) (negb b)) q)
        by (destruct b, b'; try congruence; reflexivity).
      rewrite H. change (tch (T p None l r) (negb b)) with oc. rewrite Eoc. apply val_E.
  - destruct Hbs as (wb & ->). exists ([b] ++ wb). rewrite <- !app_assoc. reflexivity.
  - intros q Hq Hq'. rewrite Es in Hq'.
    assert (q <> p) by (intros ->; apply Hq'; left; reflexivity).
    assert (~ In q fl).
    { intros Hi. assert (In q (R0 ++ fl)) by (apply in_or_app; auto).
      assert (In q R0).
      { eapply Permutation_in in Hq; [|exact HR0]. apply in_app_or in Hq. destruct Hq as [Hq|Hq]; [|exact Hq].
        exfalso. apply Hq'. rewrite Ec in Hq. unfold c in Hq. cbn in *. right. apply in_or_app. destruct b; auto. }
      apply NoDup_app_iff in HNR0. destruct HNR0 as (_ & _ & HN). exact (HN q H1 Hi). }
    rewrite Fr1 by (intros [Hi|Hi]; [congruence|tauto]).
    unfold s1, h. cbn. rewrite upd_other by assumption. apply Hagree; [exact Hq|].
    rewrite Ec. intros Hi. apply Hq'. unfold c in Hi. cbn in *. right. apply in_or_app. destruct b; auto.
  - exists R. rewrite Es. split; [exact P1|].
    cbn [addrs app] in HNR. eapply Permutation_NoDup; [|exact HNR].
    rewrite PF. rewrite <- Permutation_middle. reflexivity.
  - assert (Ear : (p2 :: rest, rev (pre0 ++ [b0])) = (rev (pathn t (pre0 ++ [b0])), rev (pre0 ++ [b0]))) by (rewrite Erev; reflexivity).
    rewrite <- Erev. rewrite rev_app_distr in G1, G2, G6 |- *. cbn [rev app] in *.
    exists t', fl'. cbv zeta. split; [exact G1|]. split; [exact G2|]. split; [exact G3|]. split; [exact G4|]. split; [exact G5|].
    intros R' HR'. rewrite Ec, P1, Pp, <- app_assoc in HR'. apply Permutation_app_inv_l in HR'. cbn [addrs app] in HR'.
    destruct (G6 R) as (K1 & K2 & K3); [rewrite Es; exact P1|].
    split; [|split].
    + rewrite K1, PF. rewrite <- HR'. rewrite <- Permutation_middle. reflexivity.
    + intros q Hq. rewrite K2.
      * rewrite Fr1.
        -- unfold s1, h. cbn. apply upd_other. intros ->. apply Hq, in_or_app. left. eapply Permutation_in; [exact HR'|]. left. reflexivity.
        -- intros [<-|Hi]; apply Hq, in_or_app; [left; eapply Permutation_in; [exact HR'|]; left; reflexivity|auto].
      * intros Hi. apply Hq. apply in_app_or in Hi. apply in_or_app. destruct Hi as [Hi|Hi].
        -- left. eapply Permutation_in; [exact HR'|]. right. exact Hi.
        -- eapply Permutation_in in Hi; [|exact PF]. destruct Hi as [<-|Hi]; [|auto].
           left. eapply Permutation_in; [exact HR'|]. left. reflexivity.
    + rewrite K3, N1. unfold s1. cbn [set_hp nalloc]. rewrite <- (Permutation_length HR'). cbn [length]. lia.
Qed.

Lemma gremove_ok s root t fl bs :
  Inv s root t fl -> rtrim t ->
  exists s' r t' fl', gremove s (Some root) bs = (s', r) /\
    Step s s' root t t' fl fl' /\ rtrim t' /\
    (forall n, (height t <= n)%nat -> (height t' <= n)%nat) /\
    match val t bs with
    | None => r = None /\ t' = t /\ s' = s
    | Some d => exists p, r = Some p /\ data (hp s p) = d /\
        (forall q, val t' q = if list_eq_dec Bool.bool_dec q bs then None else val t q)
    end.
Proof.
  intros HI Htrim. assert (HI' := HI). destruct HI' as (Hr & Hf & Hn).
  destruct (gwalk_spec (hp s) bs t (Some root) [] Hr) as (pre & rem & E1 & E2 & E3 & E4).
  unfold gremove. rewrite E2.
  destruct (sub t pre) as [|p v l r] eqn:Es.
  - cbn [tptr]. exists s, None, t, fl. split; [reflexivity|]. split; [apply Step_refl; exact HI|].
    split; [exact Htrim|]. split; [auto|].
    rewrite E1, val_app, Es, val_E. auto.
  - assert (Hrem : rem = []) by (destruct E3 as [[_ ?]|?]; [assumption|discriminate]).
    subst rem. rewrite app_nil_r in E1. subst pre. cbn [tptr].
    assert (Hsub := rep_sub _ _ _ bs Hr). rewrite Es in Hsub. cbn [rep tptr] in Hsub.
    destruct Hsub as (_ & Hv0 & Hrl & Hrr).
    assert (Hvs : val t bs = v) by (unfold val; rewrite Es; reflexivity).
    rewrite Hvs, (nval_valid _ _ Hv0).
    assert (Hne : sub t bs <> E) by (rewrite Es; discriminate).
    assert (Hval' : forall v' q, val (graft t bs (T p v' l r)) q = if list_eq_dec Bool.bool_dec q bs then v' else val t q).
    { intros v' q. destruct (prefix_dec bs q) as [[w ->]|Hout].
      - rewrite val_graft_in by exact Hne. destruct w as [|b' w].
        + rewrite app_nil_r. destruct (list_eq_dec Bool.bool_dec bs bs); [reflexivity|congruence].
        + destruct (list_eq_dec Bool.bool_dec (bs ++ b' :: w) bs) as [X|X].
          { rewrite <- (app_nil_r bs) in X at 2. apply app_inv_head in X. discriminate. }
          rewrite val_app, Es. reflexivity.
      - rewrite val_graft_out by assumption.
        destruct (list_eq_dec Bool.bool_dec q bs) as [->|X]; [|reflexivity].
        exfalso. apply (Hout []). now rewrite app_nil_r. }
    destruct v as [d|]; cbn [negb].
    2: { exists s, None, t, fl. split; [reflexivity|]. split; [apply Step_refl; exact HI|]. auto. }
    set (n0 := set_flags (hp s p) 0). set (s1 := set_hp s (upd (hp s) p n0)).
    assert (Hs1p : hp s1 p = n0) by (unfold s1; cbn; apply upd_same).
    assert (Hstep : Step s s1 root t (graft t bs (T p None l r)) fl fl).
    { eapply setval_step; eauto; reflexivity. }
    rewrite Hs1p. cbn [n0 set_flags left right].
    rewrite (rep_ptr _ _ _ Hrl), (rep_ptr _ _ _ Hrr).
    assert (Hheight : forall n, (height t <= n)%nat -> (height (graft t bs (T p None l r)) <= n)%nat).
    { intros n Hh. apply height_graft; [exact Hh|].
      destruct (height_sub t bs) as [Hs|Hs]; [|congruence]. rewrite Es in Hs. cbn in *. lia. }
    assert (Hpos : l <> E \/ r <> E \/ bs = [] -> rtrim (graft t bs (T p None l r))).
    { intros Hc.
      assert (Htr : (bs <> [] -> trim (T p (Some d) l r))) by (intros Hb; rewrite <- Es; apply rtrim_sub; assumption).
      assert (Hrtr : rtrim (T p (Some d) l r)).
      { destruct bs; [cbn in Es; subst t; exact Htrim|apply trim_rtrim, Htr; discriminate]. }
      apply rtrim_graft; auto; [|discriminate].
      intros Hb. specialize (Htr Hb). cbn in *. split; [intros _; tauto|tauto]. }
    assert (Hsimple : (l <> E \/ r <> E \/ bs = []) ->
      exists s' r0 t' fl', (s1, Some p) = (s', r0) /\
      Step s s' root t t' fl fl' /\ rtrim t' /\
      (forall n, (height t <= n)%nat -> (height t' <= n)%nat) /\
      exists p0, r0 = Some p0 /\ data (hp s p0) = d /\
        (forall q, val t' q = if list_eq_dec Bool.bool_dec q bs then None else val t q)).
    { intros Hc. exists s1, (Some p), (graft t bs (T p None l r)), fl. split; [reflexivity|].
      split; [exact Hstep|]. split; [apply Hpos, Hc|]. split; [exact Hheight|].
      exists p. split; [reflexivity|]. split; [cbn in Hv0; tauto|]. apply Hval'. }
    destruct l as [|lp lv ll lr]; cbn [tptr]; [|apply Hsimple; left; discriminate].
    destruct r as [|rp rv rl rr]; cbn [tptr]; [|apply Hsimple; right; left; discriminate].
    destruct bs as [|b1 bs1] eqn:Ebs; [apply Hsimple; auto|]. rewrite <- Ebs in *.
    destruct (exists_last (l := bs)) as (pre0 & b & Elast); [rewrite Ebs; discriminate|].
    clear b1 bs1 Ebs. 
    destruct Hstep as (HI1 & _ & _ & _). destruct HI1 as (Hr1 & Hf1 & Hn1).
    set (t1 := graft t bs (T p None E E)) in *.
    destruct (graft_perm t bs Hne) as (R & P1 & P2). rewrite Es in P1. cbn [addrs app] in P1.
    assert (Pt1 : Permutation (addrs t1) (p :: R)) by (unfold t1; rewrite P2; reflexivity).
    assert (Hnt := Hn). apply NoDup_app_iff in Hnt. destruct Hnt as (Hnt & Hnf & Hd).
    assert (HN0 : NoDup (p :: R ++ fl)).
    { change (p :: R ++ fl) with ((p :: R) ++ fl). eapply Permutation_NoDup; [apply Permutation_app_tail, P1|exact Hn]. }
    assert (HNp : NoDup (p :: fl)).
    { apply NoDup_cons_iff in HN0. destruct HN0 as [A B]. apply NoDup_app_iff in B. apply NoDup_cons_iff.
      split; [|tauto]. intros Hi. apply A, in_or_app. auto. }
    destruct (FR_free s1 p fl Hf1 HNp) as (fl1 & PF & F1 & Fr1 & N1).
    rewrite app_nil_r.
    destruct (gunwind_ok pre0 b (free s1 p) t root fl1 (hp s) bs) as (t' & fl' & G1 & G2 & G3 & G4 & G5 & G6); auto.
    + eapply sub_prefix_nonE. rewrite <- Elast. exact Hne.
    + rewrite <- Elast. exact Hne.
    + rewrite <- Elast, Es. intros q Hq. destruct q as [|c q].
      * rewrite Elast. reflexivity.
      * exfalso. apply Hq. unfold val. destruct c; cbn; now rewrite sub_E.
    + exists []. rewrite Elast. reflexivity.
    + rewrite <- Elast, Es. intros q Hq Hq'.
      assert (q <> p) by (intros ->; apply Hq'; left; reflexivity).
      rewrite Fr1 by (intros [Hi|Hi]; [congruence|exact (Hd q Hq Hi)]).
      unfold s1. cbn. apply upd_other. assumption.
    + exists R. rewrite <- Elast, Es. split; [exact P1|].
      eapply Permutation_NoDup; [|exact HN0]. rewrite PF, <- Permutation_middle. reflexivity.
    + rewrite <- Elast in *. destruct bs as [|b1 bs1] eqn:Ebs; [destruct pre0; discriminate|].
      rewrite <- Ebs in *.
      set (s' := gunwind (free s1 p) (rev (pathn t bs)) (rev bs)) in *.
      exists s', (Some p), t', fl'. split; [reflexivity|].
      destruct (G6 R) as (K1 & K2 & K3); [rewrite Es; exact P1|].
      assert (PP : Permutation (addrs t' ++ fl') (addrs t ++ fl)).
      { rewrite K1, PF, P1. rewrite <- Permutation_middle. reflexivity. }
      split; [|split; [exact G3|split; [exact G4|]]].
      * split; [split; [exact G1|split; [exact G2|]]|split; [exact PP|split]].
        -- eapply Permutation_NoDup; [symmetry; exact PP|exact Hn].
        -- intros q Hq. rewrite K2.
           ++ rewrite Fr1.
              ** unfold s1. cbn. apply upd_other. intros ->. apply Hq, in_or_app. left.
                 eapply Permutation_in; [symmetry; exact P1|]. left. reflexivity.
              ** intros [<-|Hi]; apply Hq, in_or_app; [left; eapply Permutation_in; [symmetry; exact P1|left; reflexivity]|auto].
           ++ intros Hi. apply Hq. eapply Permutation_in; [apply Permutation_app_tail; symmetry; exact P1|].
              apply in_app_or in Hi. destruct Hi as [Hi|Hi]; [right; apply in_or_app; auto|].
              eapply Permutation_in in Hi; [|exact PF]. destruct Hi as [<-|Hi]; [left; reflexivity|].
              right. apply in_or_app. auto.
        -- rewrite K3, N1. unfold s1. cbn [set_hp nalloc]. rewrite (Permutation_length P1). cbn [length]. lia.
      * exists p. split; [reflexivity|]. split; [cbn in Hv0; tauto|]. exact G5.
Qed.
End Gen.
