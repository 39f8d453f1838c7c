(* Allocators satisfy the generic hypotheses; several tries in one pool; search. *)
From Verif Require Import Base RadixModel RadixTree RadixGen.

Fixpoint flist (h : heap) (o : option nat) (fl : list nat) : Prop :=
  match fl with [] => o = None | p :: fl' => o = Some p /\ flist h (right (h p)) fl' end.

Lemma flist_ext h h' fl : forall o, (forall q, In q fl -> right (h' q) = right (h q)) -> flist h o fl -> flist h' o fl.
Proof.
  induction fl as [|p fl IH]; intros o He H; cbn in *; [exact H|]. destruct H as [H1 H2].
  split; [exact H1|]. rewrite He by auto. apply IH; auto.
Qed.

(* ---- IPv6: LIFO ---- *)
Definition FreeRep6 (s : pool) (fl : list nat) : Prop := flist (hp s) (ffirst s) fl.

Lemma FR6_frame s fl h : FreeRep6 s fl -> (forall q, In q fl -> h q = hp s q) -> FreeRep6 (set_hp s h) fl.
Proof. intros H He. unfold FreeRep6. cbn. eapply flist_ext; [|exact H]. intros q Hq. now rewrite He. Qed.
Lemma FR6_nil s : FreeRep6 s [] -> NODEALLOC6 s = (None, s).
Proof. unfold FreeRep6, NODEALLOC6. cbn. now intros ->. Qed.
Lemma FR6_alloc s p fl : FreeRep6 s (p :: fl) -> NoDup (p :: fl) ->
  exists s', NODEALLOC6 s = (Some p, s') /\ FreeRep6 s' fl /\
    (forall q, ~ In q (p :: fl) -> hp s' q = hp s q) /\ nalloc s' = nalloc s + 1.
Proof.
  unfold FreeRep6, NODEALLOC6. cbn [flist]. intros [-> H] Hn. eexists. split; [reflexivity|].
  cbn [hp ffirst nalloc]. rewrite upd_same. cbn [set_left right]. split; [|split; [|reflexivity]].
  - eapply flist_ext; [|exact H]. intros q Hq. rewrite upd_other; [reflexivity|].
    intros ->. apply NoDup_cons_iff in Hn. tauto.
  - intros q Hq. apply upd_other. intros ->. apply Hq. left. reflexivity.
Qed.
Lemma FR6_free s p fl : FreeRep6 s fl -> NoDup (p :: fl) ->
  exists fl', Permutation fl' (p :: fl) /\ FreeRep6 (NODEFREE6 s p) fl' /\
    (forall q, ~ In q (p :: fl) -> hp (NODEFREE6 s p) q = hp s q) /\
    nalloc (NODEFREE6 s p) = nalloc s - 1.
Proof.
  intros H Hn. exists (p :: fl). split; [reflexivity|]. unfold FreeRep6 in *.
  apply NoDup_cons_iff in Hn. destruct Hn as [Hp Hn].
  unfold NODEFREE6. cbn [hp ffirst nalloc]. split; [|split; [|reflexivity]].
  - cbn [flist]. split; [reflexivity|].
    destruct fl as [|q fl].
    + cbn in H. rewrite H. rewrite upd_same. reflexivity.
    + cbn in H. destruct H as [H1 H2]. rewrite H1.
      assert (q <> p) by (intros ->; apply Hp; left; reflexivity).
      rewrite (upd_other _ q) by auto. rewrite upd_same. cbn [right flist]. split; [reflexivity|].
      rewrite upd_same. cbn [set_left right]. rewrite upd_other by auto.
      eapply flist_ext; [|exact H2]. intros x Hx.
      assert (x <> q) by (intros ->; apply NoDup_cons_iff in Hn; tauto).
      assert (x <> p) by (intros ->; apply Hp; right; exact Hx).
      rewrite !upd_other by auto. reflexivity.
  - intros q Hq. destruct (ffirst s) as [f|] eqn:Ef.
    + destruct fl as [|f' fl]; cbn in H; [discriminate|]. destruct H as [H1 _]. injection H1 as <-.
      rewrite !upd_other; [reflexivity| |]; intros ->; apply Hq; [left|right; left]; reflexivity.
    + apply upd_other. intros ->. apply Hq. left. reflexivity.
Qed.

(* ---- IPv4: FIFO ---- *)
Fixpoint last_opt (fl : list nat) : option nat :=
  match fl with [] => None | [p] => Some p | _ :: t => last_opt t end.
Definition FreeRep4 (s : pool) (fl : list nat) : Prop :=
  flist (hp s) (ffirst s) fl /\ flast s = last_opt fl.

Lemma last_opt_snoc l x : last_opt (l ++ [x]) = Some x.
Proof. induction l as [|a l IH]; [reflexivity|]. cbn. destruct (l ++ [x]) eqn:E; [destruct l; discriminate|exact IH]. Qed.

Lemma FR4_frame s fl h : FreeRep4 s fl -> (forall q, In q fl -> h q = hp s q) -> FreeRep4 (set_hp s h) fl.
Proof. intros [H H'] He. split; [|exact H']. cbn. eapply flist_ext; [|exact H]. intros q Hq. now rewrite He. Qed.
Lemma FR4_nil s : FreeRep4 s [] -> NODEALLOC4 s = (None, s).
Proof. unfold FreeRep4, NODEALLOC4. cbn. now intros [-> _]. Qed.
Lemma FR4_alloc s p fl : FreeRep4 s (p :: fl) -> NoDup (p :: fl) ->
  exists s', NODEALLOC4 s = (Some p, s') /\ FreeRep4 s' fl /\
    (forall q, ~ In q (p :: fl) -> hp s' q = hp s q) /\ nalloc s' = nalloc s + 1.
Proof.
  unfold FreeRep4, NODEALLOC4. cbn [flist]. intros [[-> H] Hl] Hn.
  destruct fl as [|q fl]; cbn [flist] in H.
  - rewrite H. eexists. split; [reflexivity|]. cbn. auto.
  - destruct H as [H1 H2]. rewrite H1. eexists. split; [reflexivity|]. cbn [hp ffirst flast nalloc flist].
    split; [|split; [|reflexivity]].
    + split; [|exact Hl]. split; [reflexivity|]. rewrite upd_same. cbn [set_left right].
      eapply flist_ext; [|exact H2]. intros x Hx. rewrite upd_other; [reflexivity|].
      intros ->. apply NoDup_cons_iff in Hn. destruct Hn as [_ Hn]. apply NoDup_cons_iff in Hn. tauto.
    + intros x Hx. apply upd_other. intros ->. apply Hx. right. left. reflexivity.
Qed.

Lemma flist_snoc h h' fl : forall o l p, fl = l ++ [p] -> NoDup fl ->
  flist h o fl -> forall x, ~ In x fl -> h' p = set_right (h p) (Some x) -> right (h' x) = None ->
  (forall q, In q l -> right (h' q) = right (h q)) -> flist h' o (fl ++ [x]).
Proof.
  intros o l p -> Hn Hf x Hx Hp Hxn Hq. revert o Hf.
  induction l as [|a l IH]; intros o Hf; cbn in *.
  - destruct Hf as [-> Hf]. split; [reflexivity|]. rewrite Hp. cbn. split; [reflexivity|exact Hxn].
  - destruct Hf as [-> Hf]. split; [reflexivity|]. rewrite Hq by auto. apply NoDup_cons_iff in Hn.
    apply IH; [tauto|tauto|auto|exact Hf].
Qed.

Lemma FR4_free s p fl : FreeRep4 s fl -> NoDup (p :: fl) ->
  exists fl', Permutation fl' (p :: fl) /\ FreeRep4 (NODEFREE4 s p) fl' /\
    (forall q, ~ In q (p :: fl) -> hp (NODEFREE4 s p) q = hp s q) /\
    nalloc (NODEFREE4 s p) = nalloc s - 1.
Proof.
  intros [H Hl] Hn. exists (fl ++ [p]). split; [symmetry; apply Permutation_cons_append|].
  apply NoDup_cons_iff in Hn. destruct Hn as [Hp Hn]. unfold NODEFREE4, FreeRep4. rewrite Hl.
  destruct fl as [|a fl0] eqn:Efl.
  - cbn in *. rewrite upd_same. cbn. split; [auto|]. split; [|reflexivity].
    intros q Hq. apply upd_other. intros ->. tauto.
  - rewrite <- Efl in *. destruct (exists_last (l := fl)) as (l & z & El); [rewrite Efl; discriminate|].
    assert (Elast : last_opt fl = Some z) by (rewrite El; apply last_opt_snoc).
    rewrite Elast. cbn [hp ffirst flast nalloc].
    assert (Hzp : z <> p) by (intros ->; apply Hp; rewrite El; apply in_or_app; right; left; reflexivity).
    split; [split|split; [|reflexivity]].
    + eapply flist_snoc with (l := l) (p := z); [exact El|exact Hn|exact H|exact Hp| | |].
      * rewrite upd_same. now rewrite upd_other.
      * rewrite upd_other by auto. rewrite upd_same. reflexivity.
      * intros q Hq.
        assert (q <> z).
        { intros ->. rewrite El in Hn. apply NoDup_app_iff in Hn. destruct Hn as (_ & _ & Hn). apply (Hn z Hq). left. reflexivity. }
        assert (q <> p) by (intros ->; apply Hp; rewrite El; apply in_or_app; auto).
        rewrite !upd_other by auto. reflexivity.
    + now rewrite last_opt_snoc.
    + intros q Hq. rewrite !upd_other; [reflexivity| |].
      * intros ->. apply Hq. left. reflexivity.
      * intros ->. apply Hq. right. rewrite El. apply in_or_app. right. left. reflexivity.
Qed.

(* ---- initial pool ---- *)
Lemma flist_init N : forall k i, (i + k = N)%nat -> (0 < k)%nat ->
  flist (init_heap N) (Some i) (seq i k).
Proof.
  induction k as [|k IH]; intros i Hi Hk; [lia|]. cbn [seq flist]. split; [reflexivity|].
  assert (Er : right (init_heap N i) = if Nat.eqb i (N - 1) then None else Some (i + 1)%nat).
  { unfold init_heap. destruct (i <? N)%nat eqn:E1; [reflexivity|lia]. }
  rewrite Er. destruct (Nat.eqb i (N - 1)) eqn:E2.
  - assert (k = 0%nat) by lia. subst k. reflexivity.
  - replace (i + 1)%nat with (S i) by lia. apply IH; lia.
Qed.

Lemma init_free6 N : FreeRep6 (init_pool N) (seq 0 N).
Proof.
  unfold FreeRep6, init_pool. destruct N as [|k]; [reflexivity|]. cbn [hp ffirst].
  apply flist_init; lia.
Qed.
Lemma init_free4 N : FreeRep4 (init_pool N) (seq 0 N).
Proof.
  split; [exact (init_free6 N)|]. destruct N as [|k]; [reflexivity|]. cbn [init_pool flast].
  rewrite seq_S, last_opt_snoc. reflexivity.
Qed.

(* ---- several tries in one pool ---- *)
Section Forest.
Variable FreeRep : pool -> list nat -> Prop.

Definition fnodes (fs : list (nat * tree)) : list nat := flat_map (fun rt => addrs (snd rt)) fs.

Definition Forest (s : pool) (fs : list (nat * tree)) (fl : list nat) : Prop :=
  Forall (fun rt => rep (hp s) (snd rt) (Some (fst rt))) fs /\ FreeRep s fl /\
  NoDup (fnodes fs ++ fl) /\ nalloc s = Z.of_nat (length (fnodes fs)).

Lemma fnodes_mid a root t b : Permutation (fnodes (a ++ (root, t) :: b)) (addrs t ++ fnodes a ++ fnodes b).
Proof.
  unfold fnodes. rewrite flat_map_app. cbn [flat_map snd]. rewrite app_assoc.
  rewrite (Permutation_app_comm _ (addrs t)). now rewrite <- app_assoc.
Qed.

Lemma Forest_Inv s a root t b fl : Forest s (a ++ (root, t) :: b) fl -> Inv FreeRep s root t fl.
Proof.
  intros (H1 & H2 & H3 & _). apply Forall_app in H1. destruct H1 as [_ H1]. inversion H1 as [|? ? H4 H5]; subst.
  split; [exact H4|]. split; [exact H2|].
  apply (Permutation_NoDup (Permutation_app_tail fl (fnodes_mid a root t b))) in H3.
  rewrite <- app_assoc in H3. apply NoDup_app_iff in H3. destruct H3 as (H6 & H7 & H8).
  apply NoDup_app_iff in H7. destruct H7 as (_ & H7 & _). apply NoDup_app_iff. split; [exact H6|]. split; [exact H7|].
  intros x Hx Hx'. apply (H8 x Hx). apply in_or_app. auto.
Qed.

Lemma Forest_step s s' a root t t' b fl fl' :
  Forest s (a ++ (root, t) :: b) fl -> Step FreeRep s s' root t t' fl fl' ->
  Forest s' (a ++ (root, t') :: b) fl' /\
  Permutation (fnodes (a ++ (root, t') :: b) ++ fl') (fnodes (a ++ (root, t) :: b) ++ fl).
Proof.
  intros (H1 & H2 & H3 & H4) (HI & HP & HF & HN). destruct HI as (I1 & I2 & I3).
  assert (PP : Permutation (fnodes (a ++ (root, t') :: b) ++ fl') (fnodes (a ++ (root, t) :: b) ++ fl)).
  { rewrite !fnodes_mid. rewrite <- !app_assoc.
    rewrite !(Permutation_app_comm (fnodes a)), !(Permutation_app_comm (fnodes b)).
    rewrite <- !app_assoc, !app_assoc. apply Permutation_app_tail. apply Permutation_app_tail. exact HP. }
  assert (H3' := H3). apply (Permutation_NoDup (Permutation_app_tail fl (fnodes_mid a root t b))) in H3'.
  rewrite <- app_assoc in H3'. apply NoDup_app_iff in H3'. destruct H3' as (N1 & N2 & N3).
  apply NoDup_app_iff in N2. destruct N2 as (N4 & N5 & N6).
  assert (Hother : forall rt, In rt (a ++ b) -> forall q, In q (addrs (snd rt)) -> hp s' q = hp s q).
  { intros rt Hrt q Hq. assert (Hqf : In q (fnodes a ++ fnodes b)).
    { unfold fnodes. rewrite <- flat_map_app. apply in_flat_map. exists rt. auto. }
    apply HF. intros Hi. apply in_app_or in Hi. destruct Hi as [Hi|Hi].
    - apply (N3 q Hi). apply in_or_app. auto.
    - exact (N6 q Hqf Hi). }
  split; [|exact PP]. split; [|split; [exact I2|split]].
  - apply Forall_app in H1. destruct H1 as [Ha Hb]. inversion Hb as [|? ? Hb1 Hb2]; subst.
    apply Forall_app. split; [|constructor; [exact I1|]].
    + rewrite Forall_forall in *. intros rt Hrt. eapply rep_ext; [|apply Ha, Hrt].
      intros q Hq. eapply Hother; [apply in_or_app; left; exact Hrt|exact Hq].
    + rewrite Forall_forall in *. intros rt Hrt. eapply rep_ext; [|apply Hb2, Hrt].
      intros q Hq. eapply Hother; [apply in_or_app; right; exact Hrt|exact Hq].
  - eapply Permutation_NoDup; [symmetry; exact PP|exact H3].
  - assert (L1 := Permutation_length (fnodes_mid a root t b)).
    assert (L2 := Permutation_length (fnodes_mid a root t' b)). rewrite app_length in L1, L2. lia.
Qed.
End Forest.

(* ---- search ---- *)
Fixpoint best (t : tree) (bs : list bool) (acc : option Z) : option Z :=
  match t with
  | E => acc
  | T _ v l r =>
    let acc := match v with Some d => Some d | None => acc end in
    match bs with [] => acc | b :: bs' => best (if b then r else l) bs' acc end
  end.

Lemma best_lpm bs : forall t acc,
  (exists n d, (n <= length bs)%nat /\ val t (firstn n bs) = Some d /\ best t bs acc = Some d /\
     forall k, (n < k <= length bs)%nat -> val t (firstn k bs) = None) \/
  (best t bs acc = acc /\ forall k, (k <= length bs)%nat -> val t (firstn k bs) = None).
Proof.
  induction bs as [|b bs IH]; intros t acc.
  - destruct t as [|p v l r]; [right; split; [reflexivity|intros k _; rewrite firstn_nil; reflexivity]|].
    destruct v as [d|].
    + left. exists 0%nat, d. cbn. split; [lia|]. split; [reflexivity|]. split; [reflexivity|lia].
    + right. split; [reflexivity|]. intros k _. rewrite firstn_nil. reflexivity.
  - destruct t as [|p v l r]; [right; split; [reflexivity|intros k _; apply val_E]|].
    set (acc' := match v with Some d => Some d | None => acc end).
    change (best (T p v l r) (b :: bs) acc) with (best (tch (T p v l r) b) bs acc').
    destruct (IH (tch (T p v l r) b) acc') as [(n & d & H1 & H2 & H3 & H4)|(H1 & H2)].
    + left. exists (S n), d. split; [cbn; lia|]. split; [exact H2|]. split; [exact H3|].
      intros k Hk. destruct k as [|k]; [lia|]. apply (H4 k). cbn in Hk. lia.
    + rewrite H1. destruct v as [d|]; unfold acc'.
      * left. exists 0%nat, d. split; [lia|]. split; [reflexivity|]. split; [reflexivity|].
        intros k Hk. destruct k as [|k]; [lia|]. apply (H2 k). cbn in Hk. lia.
      * right. split; [reflexivity|]. intros k Hk. destruct k as [|k]; [reflexivity|]. apply (H2 k). cbn in Hk. lia.
Qed.

(* reachability in the pointer graph *)
Inductive reach (h : heap) (o : option nat) : nat -> Prop :=
| reach_here p : o = Some p -> reach h o p
| reach_left p q : reach h o p -> left (h p) = Some q -> reach h o q
| reach_right p q : reach h o p -> right (h p) = Some q -> reach h o q.

Lemma reach_trans h o p : reach h o p -> forall q, reach h (Some p) q -> reach h o q.
Proof.
  intros H q Hq. induction Hq as [x Hx|x y Hx IH Hy|x y Hx IH Hy].
  - injection Hx as <-. exact H.
  - eapply reach_left; eassumption.
  - eapply reach_right; eassumption.
Qed.

Lemma rep_reach h t o q : rep h t o -> (reach h o q <-> In q (addrs t)).
Proof.
  intros Hr. split.
  - intros H. induction H as [p Hp|p q' H IH Hq|p q' H IH Hq].
    + rewrite (rep_ptr _ _ _ Hr) in Hp. destruct t; [discriminate|]. cbn in *. left. congruence.
    + clear H. revert o Hr. induction t as [|x v l IHl r IHr]; intros o Hr; [contradiction|].
      cbn in Hr, IH |- *. destruct Hr as (_ & _ & Hl & Hrr). destruct IH as [<-|Hi].
      * right. apply in_or_app. left. rewrite Hq in Hl. apply rep_ptr in Hl. destruct l; [discriminate|]. cbn in *. left. congruence.
      * right. apply in_app_or in Hi. apply in_or_app. destruct Hi as [Hi|Hi]; [left|right]; eauto.
    + clear H. revert o Hr. induction t as [|x v l IHl r IHr]; intros o Hr; [contradiction|].
      cbn in Hr, IH |- *. destruct Hr as (_ & _ & Hl & Hrr). destruct IH as [<-|Hi].
      * right. apply in_or_app. right. rewrite Hq in Hrr. apply rep_ptr in Hrr. destruct r; [discriminate|]. cbn in *. left. congruence.
      * right. apply in_app_or in Hi. apply in_or_app. destruct Hi as [Hi|Hi]; [left|right]; eauto.
  - revert o Hr. induction t as [|x v l IHl r IHr]; intros o Hr Hi; [contradiction|].
    cbn in Hr, Hi. destruct Hr as (Ho & _ & Hl & Hrr). destruct Hi as [<-|Hi]; [now apply reach_here|].
    assert (Hx : reach h o x) by now apply reach_here.
    apply in_app_or in Hi. destruct Hi as [Hi|Hi].
    + assert (Hp := rep_ptr _ _ _ Hl). specialize (IHl _ Hl Hi). destruct l as [|y ? ? ?]; [contradiction|]. cbn in Hp.
      rewrite Hp in IHl. eapply reach_trans; [|exact IHl]. eapply reach_left; eassumption.
    + assert (Hp := rep_ptr _ _ _ Hrr). specialize (IHr _ Hrr Hi). destruct r as [|y ? ? ?]; [contradiction|]. cbn in Hp.
      rewrite Hp in IHr. eapply reach_trans; [|exact IHr]. eapply reach_right; eassumption.
Qed.
