(* avl_insert refines insertion into a sorted list and keeps the tree balanced. *)
From Verif Require Import Base AvlModel AvlSpec AvlRep AvlIns AvlRot AvlFun AvlRebal.
Ltac Zify.zify_post_hook ::= idtac.

Lemma height_sub c : forall t, Z.of_nat (length c) + height t <= height (plug c t).
Proof.
  induction c as [|[a k rk b r|l a k rk b] c IH]; intros t; cbn [plug plug1 length]; [lia| |]; 
    [specialize (IH (N t a k rk b r))|specialize (IH (N l a k rk b t))]; cbn [height] in IH; lia.
Qed.
Lemma Forall_bump_bal c : Forall (fun f => fbal f = 0) c -> Forall (fun f => fbal f = 0) (bumpc c).
Proof. intros H. apply Forall_map. eapply Forall_impl; [|exact H]. intros f E. destruct (bump_same f) as (_ & -> & _). exact E. Qed.
Lemma towards_bump cmp k c : Forall (towards cmp k) c -> Forall (towards cmp k) (bumpc c).
Proof. intros H. apply Forall_map. eapply Forall_impl; [|exact H]. intros f E. unfold towards in *. destruct (bump_same f) as (_ & _ & -> & -> & _). exact E. Qed.
Lemma balanced_bumped c t : balanced (plug (bumpc c) t) <-> balanced (plug c t).
Proof. apply balanced_bump. Qed.
Lemma ranked_lean c t : ranked (plug (leanc c) t) <-> ranked (plug c t).
Proof. rewrite !ranked_plug. rewrite lean_ranked. reflexivity. Qed.
Lemma keys_lean c t : keys (plug (leanc c) t) = keys (plug c t).
Proof. rewrite !keys_plug. destruct (keysL_same c) as (_ & _ & -> & ->). reflexivity. Qed.
Lemma cnt_lean x c t : cnt x (plug (leanc c) t) = cnt x (plug c t).
Proof. rewrite !cnt_plug, cntc_lean. reflexivity. Qed.
Lemma size_lean c t : size (plug (leanc c) t) = size (plug c t).
Proof. rewrite !size_plug, sizec_lean. reflexivity. Qed.
Lemma moved_lean c t : moved (plug c t) (plug (leanc c) t).
Proof. split; [apply keys_lean|]. split; [intros; apply cnt_lean|]. split; [apply size_lean|]. intros R _. apply ranked_lean, R. Qed.

Section INS.
Variable cmp : Z -> Z -> Z.
Hypothesis P : preorder cmp.

Theorem avl_insert_ok fuel p ob k t :
  holds (p_heap p) (t_root ob) t -> uniq (t_root ob) t -> balanced t -> sorted cmp (keys t) ->
  (Z.to_nat (height t) + 1 < fuel)%nat ->
  (forall q, In q (p_free p) -> q <> 0%nat /\ (one q (t_root ob) + cnt q t = 0)%nat) ->
  exists p' ob' rc t', avl_insert cmp fuel p ob k = Ret (p', ob', rc) /\
    t_root ob' = t_root ob /\ holds (p_heap p') (t_root ob) t' /\ balanced t' /\
    outside (p_heap p) (p_heap p') (t_root ob) t' /\
    match p_free p with
    | [] => rc = -1 /\ p_free p' = [] /\ t_length ob' = t_length ob /\ keys t' = keys t /\ forall x, cnt x t' = cnt x t
    | q :: fr => rc = 0 /\ p_free p' = fr /\ t_length ob' = t_length ob + 1 /\ keys t' = ins_sorted cmp k (keys t) /\
        (forall x, cnt x t' = (cnt x t + one x q)%nat) /\ (ranked t -> size t + 1 < R30 -> ranked t')
    end.
Proof.
  intros H U B S HF FR. set (sent := t_root ob) in *. unfold avl_insert. fold sent.
  assert (HS := proj1 H). cbn [repc] in HS. destruct HS as (S0 & HS). rewrite HS. cbn [n_right].
  destruct t as [|tl ta tk trk tb tr0].
  - cbn [root Nat.eqb]. unfold node_new. destruct (p_free p) as [|q fr] eqn:EF.
    + exists p, ob, (-1), L. split; [reflexivity|]. split; [reflexivity|]. split; [exact H|]. split; [exact I|]. split; [apply outside_refl|].
      split; [reflexivity|]. split; [exact EF|]. repeat split.
    + destruct (FR q (or_introl eq_refl)) as (Q0 & Q1). cbn [cnt] in Q1.
      assert (QS : sent <> q) by (intros E; rewrite E, one_refl in Q1; lia).
      eexists _, _, 0, (N L q k 1 0 L). split; [reflexivity|]. cbn [t_root p_heap p_free t_length]. fold sent. split; [reflexivity|].
      split; [|split; [cbn; repeat split; lia|split; [|repeat split; intros; cbn [cnt]; lia]]].
      * split; cbn [repc rep root].
        -- split; [exact S0|]. unfold set_right. rewrite upd_eq, upd_ne by exact QS. rewrite HS. reflexivity.
        -- split; [exact Q0|]. unfold set_right. rewrite upd_ne by congruence. rewrite upd_eq. tauto.
      * intros x Hx Hs. unfold set_right. rewrite upd_ne by exact Hs. apply upd_ne. intros ->. cbn [cnt] in Hx. rewrite one_refl in Hx. lia.
  - set (t := N tl ta tk trk tb tr0) in *.
    assert (T0 : root t <> 0%nat) by (apply holds_plug with (c := []) in H; cbn [rep t] in H; apply H).
    replace (Nat.eqb (root t) 0) with false by (symmetry; apply Nat.eqb_neq; exact T0).
    destruct (ins_walk_ok cmp sent k t fuel (p_heap p) [] [] [] (root t) sent) as
      (h1 & s & tp & cf & cz0 & fs & cs & E & EP & H1 & O1 & EC & ES & ET & EB & Z0 & TW);
      [exact H|exact U|discriminate|reflexivity|apply m_here; auto|constructor|lia|].
    cbn [plug] in EP, O1. rewrite E. cbn [obind]. clear E. subst s tp.
    unfold node_new. destruct (p_free p) as [|q fr] eqn:EF.
    + exists (mkPool h1 []), ob, (-1), (plug (bumpc cf) L). split; [reflexivity|]. split; [reflexivity|]. cbn [p_heap]. fold sent.
      split; [exact H1|]. split; [apply balanced_bump; rewrite EP; exact B|].
      split; [intros x Hx Hs; apply O1; [rewrite <- EP, <- cnt_plug_bump; exact Hx|exact Hs]|].
      split; [reflexivity|]. split; [reflexivity|]. split; [reflexivity|]. split; [rewrite keys_bump, EP; reflexivity|].
      intros x. rewrite cnt_plug_bump, EP. reflexivity.
    + destruct (FR q (or_introl eq_refl)) as (Q0 & Q1). clear FR.
      assert (NC : cf <> []) by (rewrite EC; destruct cz0; discriminate).
      set (Q := N L q k 1 0 L).
      assert (UQ : forall x, (cntc x cf + one x sent + one x q <= 1)%nat).
      { intros x. specialize (U x). rewrite <- EP, cnt_plug in U. cbn [cnt] in U. unfold one at 2. destruct (Nat.eq_dec x q) as [->|]; [|lia].
        rewrite <- EP, cnt_plug in Q1. cbn [cnt] in Q1. lia. }
      apply (holds_plug h1 sent (bumpc cf)) in H1. destruct H1 as (K1 & _). cbn [root] in K1.
      set (h2 := upd h1 q (mkN k 0 0 (par sent cf) 1 0)).
      assert (K2 : repc h2 sent 0 (bumpc cf)).
      { unfold h2. apply repc_upd; [|exact K1]. specialize (UQ q). rewrite one_refl in UQ. rewrite cntc_bump. lia. }
      destruct (fill_hole h2 sent (bumpc cf) q K2 Q0) as (n & EN & K3).
      { intros x. rewrite cntc_bump. apply UQ. } { destruct cf; [contradiction|discriminate]. }
      rewrite par_bump in EN, K3.
      replace (match bumpc cf with FL _ _ _ _ _ :: _ => true | _ => false end) with (match cf with FL _ _ _ _ _ :: _ => true | _ => false end) in EN
        by (destruct cf as [|[]]; reflexivity).
      cbv zeta. rewrite EN. set (h3 := upd h2 (par sent cf) n) in *.
      assert (PQ : q <> par sent cf).
      { intros E. pose proof (UQ (par sent cf)) as A. rewrite E, one_refl in A. destruct cf as [|f cf0]; [contradiction|]. cbn [cntc par] in A. rewrite one_refl in A. lia. }
      assert (H3 : holds h3 sent (plug (bumpc cf) Q)).
      { apply (holds_plug h3 sent (bumpc cf)). split; [exact K3|]. cbn [rep Q]. split; [exact Q0|]. rewrite par_bump.
        unfold h3, h2. rewrite upd_ne by exact PQ. rewrite upd_eq. tauto. }
      assert (U3 : uniq sent (plug (bumpc cf) Q)).
      { intros x. rewrite cnt_plug_bump, cnt_plug. unfold Q. cbn [cnt]. specialize (UQ x). lia. }
      assert (O3 : outside (p_heap p) h3 sent (plug (bumpc cf) Q)).
      { intros x Hx Hs. rewrite cnt_plug, cntc_bump in Hx. cbn [cnt Q] in Hx. unfold h3, h2.
        rewrite upd_ne. 2:{ intros ->. destruct cf as [|f cf0]; [contradiction|]. cbn [par cntc] in Hx. rewrite one_refl in Hx. lia. }
        rewrite upd_ne by (intros ->; rewrite one_refl in Hx; lia). apply O1; [|exact Hs]. rewrite <- EP, cnt_plug. cbn [cnt]. lia. }
      assert (SP := towards_split cmp P k cf L). rewrite EP in SP. specialize (SP S TW). destruct SP as (SP1 & SP2).
      assert (KQ : keys (plug (bumpc cf) Q) = ins_sorted cmp k (keys t)).
      { rewrite keys_bump, keys_plug. rewrite <- EP, keys_plug. cbn [keys app Q]. symmetry. apply ins_sorted_app; assumption. }
      assert (CQ : forall x, cnt x (plug (bumpc cf) Q) = (cnt x t + one x q)%nat).
      { intros x. rewrite cnt_plug_bump, <- EP, !cnt_plug. cbn [cnt Q]. lia. }
      assert (RQ : ranked t -> size t + 1 < R30 -> ranked (plug (bumpc cf) Q)).
      { intros R SZ. rewrite <- EP in R, SZ. apply ranked_plug in R. destruct R as (_ & R). rewrite size_plug in SZ. cbn [size] in R, SZ.
        apply ranked_plug. split; [cbn [ranked size Q]; lia|]. change (size Q) with (0 + 1). apply bump_ranked; [lia|lia|exact R]. }
      assert (SZ : size (plug (bumpc cf) Q) = size t + 1).
      { rewrite <- EP, !size_plug, sizec_bump. cbn [size Q]. lia. }
      clear K1 K2 K3 EN SP1 SP2 UQ O1.
      assert (LZ : (length cz0 < fuel)%nat).
      { pose proof (height_sub cf L) as A. rewrite EP, EC, !app_length in A. cbn [height length] in A. lia. }
      rewrite EC in H3, U3, TW, EP, O3, KQ, CQ, RQ, SZ. rewrite map_app, map_app in H3, U3, O3, KQ, CQ, RQ, SZ. cbn [map] in H3, U3, O3, KQ, CQ, RQ, SZ.
      rewrite plug_app, plug_app in H3, U3, O3, KQ, CQ, RQ, SZ. cbn [plug] in H3, U3, O3, KQ, CQ, RQ, SZ.
      apply Forall_app in TW. destruct TW as (TW & _). apply Forall_app in TW. destruct TW as (TW0 & TWf). inversion_clear TWf as [|? ? TF _].
      rewrite !plug_app in EP. cbn [plug] in EP.
      assert (BE : balanced (plug cs (plug1 fs (plug cz0 L)))) by (rewrite EP; exact B).
      assert (BF := balanced_sub _ _ BE).
      assert (BZ : balanced (plug cz0 L)) by (destruct fs; cbn [plug1 balanced] in BF; tauto).
      destruct (lean_balanced cz0 L Q Z0 BZ) as (BX & HX); [cbn; repeat split; lia|reflexivity|].
      destruct (ins_bal_ok cmp sent k q k 1 0 L L (bumpc cz0) fuel h3 (bump fs :: bumpc cs)) as (h4 & E4 & H4 & O4);
        [exact H3|exact U3|apply towards_bump; exact TW0|rewrite map_length; exact LZ|]. fold Q in E4, H4, O4.
      set (X := plug (leanc (bumpc cz0)) Q) in *.
      cbn [plug] in H4, O4.
      assert (MX : moved (plug1 (bump fs) (plug (bumpc cz0) Q)) (plug1 (bump fs) X)) by (apply (moved_plug [bump fs]), moved_lean).
      assert (MX2 := moved_plug (bumpc cs) _ _ MX).
      assert (U4 : uniq sent (plug (bumpc cs) (plug1 (bump fs) X))).
      { intros x. destruct MX2 as (_ & -> & _). apply U3. }
      assert (O5 : outside (p_heap p) h4 sent (plug (bumpc cs) (plug1 (bump fs) X))).
      { intros x Hx Hs. destruct MX2 as (_ & MC & _). rewrite MC in Hx. rewrite O4; [apply O3; assumption|exact Hx|exact Hs]. }
      (* anything obtained by moving nodes is fine *)
      assert (FIN : forall h' ht T, holds h' sent (plug (bumpc cs) T) -> balanced (plug (bumpc cs) T) -> outside h4 h' sent (plug (bumpc cs) (plug1 (bump fs) X)) ->
         moved (plug1 (bump fs) X) T ->
         exists p' ob' rc t', Ret (mkPool h' fr, mkTree sent ht (t_length ob + 1), 0) = Ret (p', ob', rc) /\
           t_root ob' = sent /\ holds (p_heap p') sent t' /\ balanced t' /\ outside (p_heap p) (p_heap p') sent t' /\
           rc = 0 /\ p_free p' = fr /\ t_length ob' = t_length ob + 1 /\ keys t' = ins_sorted cmp k (keys t) /\
           (forall x, cnt x t' = (cnt x t + one x q)%nat) /\ (ranked t -> size t + 1 < R30 -> ranked t')).
      { intros h' ht T HT BT OT MT. destruct (moved_trans _ _ _ MX2 (moved_plug (bumpc cs) _ _ MT)) as (M1 & M2 & M3 & M4).
        exists (mkPool h' fr), (mkTree sent ht (t_length ob + 1)), 0, (plug (bumpc cs) T). split; [reflexivity|]. cbn [t_root p_heap p_free t_length].
        split; [reflexivity|]. split; [exact HT|]. split; [exact BT|]. split.
        { intros x Hx Hs. destruct (moved_plug (bumpc cs) _ _ MT) as (_ & MC & _). rewrite MC in Hx. rewrite OT by assumption. apply O5; assumption. }
        split; [reflexivity|]. split; [reflexivity|]. split; [reflexivity|]. split; [rewrite M1; exact KQ|]. split; [intros x; rewrite M2; apply CQ|].
        intros R SS. apply M4; [apply RQ; assumption|rewrite SZ; exact SS]. }
      unfold towards in TF.
      destruct fs as [a key rk b r|l a key rk b]; cbn [bump plug1 faddr fdir fkey fbal] in *.
      * change (-1 =? -1) with true in TF.
        destruct (holds_node _ _ _ _ _ _ _ _ _ H3) as (A0 & HA3). rewrite HA3. cbn [n_key n_left n_right]. rewrite TF, E4. cbn [obind].
        destruct (holds_node _ _ _ _ _ _ _ _ _ H4) as (_ & HA4). rewrite HA4. cbn [n_key n_bal]. rewrite TF.
        set (rk' := (rk + 1) mod R30) in *. cbn [balanced] in BF. destruct BF as (BF1 & BF2 & BF3 & BF4).
        destruct (b =? 0) eqn:B0; [apply Z.eqb_eq in B0|apply Z.eqb_neq in B0].
        { specialize (EB B0). subst cs. cbn [plug map] in *.
          apply (FIN _ _ (N X a key rk' (-1) r)).
          - unfold set_bal. eapply (holds_upd h4 sent []); [exact H4|exact U4|]. rewrite HA4. reflexivity.
          - cbn [balanced]. repeat split; try assumption; try lia.
          - intros x Hx Hs. unfold set_bal. apply upd_ne. intros ->. cbn [cnt] in Hx. rewrite one_refl in Hx. lia.
          - apply moved_bal. }
        destruct (b =? - -1) eqn:B1; [apply Z.eqb_eq in B1|apply Z.eqb_neq in B1].
        { apply (FIN _ _ (N X a key rk' 0 r)).
          - unfold set_bal. eapply (holds_upd h4 sent (bumpc cs)); [exact H4|exact U4|]. rewrite HA4. reflexivity.
          - apply balanced_bump. eapply balanced_plug; [exact BE|cbn [balanced]; repeat split; try assumption; try lia|cbn [height]; lia].
          - intros x Hx Hs. unfold set_bal. apply upd_ne. intros ->. rewrite cnt_plug in Hx. cbn [cnt] in Hx. rewrite one_refl in Hx. lia.
          - apply moved_bal. }
        replace (b =? -1) with true by (symmetry; apply Z.eqb_eq; lia). assert (Eb : b = -1) by lia. rewrite Eb in *. clear Eb.
        assert (XS : exists A r1 kr rr br BB, X = N A r1 kr rr br BB /\ br <> 0 /\ root (plug (bumpc cz0) Q) = r1).
        { assert (CZ : cz0 <> []) by (intros CZ; rewrite CZ in BF1; cbn [plug height] in BF1; pose proof (height_nonneg r); lia).
          destruct (exists_last CZ) as (cz1 & f0 & ECZ). unfold X. rewrite ECZ, !map_app, !plug_app. cbn [map plug].
          destruct f0; cbn [lean bump plug1 root]; do 6 eexists; (split; [reflexivity|]); split; try lia; reflexivity. }
        destruct XS as (A & r1 & kr & rr & br & BB & EX & NB & ER). clearbody X. subst X. rewrite ER.
        destruct (rebalance_L q h4 sent (bumpc cs) A r1 kr rr br BB a key rk' r H4 U4 BX BF4 ltac:(lia) NB) as (h5 & pp & T & ER2 & HT & MT & BT & HHT & OT & _).
        rewrite ER2. cbn [obind]. rewrite par_bump in HT, OT. apply (FIN _ _ T); [exact HT| |exact OT|exact MT].
        apply balanced_bump. eapply balanced_plug; [exact BE|exact BT|]. cbn [height]. lia.
      * change (1 =? -1) with false in TF.
        destruct (holds_node _ _ _ _ _ _ _ _ _ H3) as (A0 & HA3). rewrite HA3. cbn [n_key n_left n_right]. rewrite TF, E4. cbn [obind].
        destruct (holds_node _ _ _ _ _ _ _ _ _ H4) as (_ & HA4). rewrite HA4. cbn [n_key n_bal]. rewrite TF.
        cbn [balanced] in BF. destruct BF as (BF1 & BF2 & BF3 & BF4).
        destruct (b =? 0) eqn:B0; [apply Z.eqb_eq in B0|apply Z.eqb_neq in B0].
        { specialize (EB B0). subst cs. cbn [plug map] in *.
          apply (FIN _ _ (N l a key rk 1 X)).
          - unfold set_bal. eapply (holds_upd h4 sent []); [exact H4|exact U4|]. rewrite HA4. reflexivity.
          - cbn [balanced]. repeat split; try assumption; try lia.
          - intros x Hx Hs. unfold set_bal. apply upd_ne. intros ->. cbn [cnt] in Hx. rewrite one_refl in Hx. lia.
          - apply moved_bal. }
        change (Z.opp 1) with (-1).
        destruct (b =? - 1) eqn:B1; [apply Z.eqb_eq in B1|apply Z.eqb_neq in B1].
        { apply (FIN _ _ (N l a key rk 0 X)).
          - unfold set_bal. eapply (holds_upd h4 sent (bumpc cs)); [exact H4|exact U4|]. rewrite HA4. reflexivity.
          - apply balanced_bump. eapply balanced_plug; [exact BE|cbn [balanced]; repeat split; try assumption; try lia|cbn [height]; lia].
          - intros x Hx Hs. unfold set_bal. apply upd_ne. intros ->. rewrite cnt_plug in Hx. cbn [cnt] in Hx. rewrite one_refl in Hx. lia.
          - apply moved_bal. }
        replace (b =? 1) with true by (symmetry; apply Z.eqb_eq; lia). assert (Eb : b = 1) by lia. rewrite Eb in *. clear Eb.
        assert (XS : exists A r1 kr rr br BB, X = N A r1 kr rr br BB /\ br <> 0 /\ root (plug (bumpc cz0) Q) = r1).
        { assert (CZ : cz0 <> []) by (intros CZ; rewrite CZ in BF1; cbn [plug height] in BF1; pose proof (height_nonneg l); lia).
          destruct (exists_last CZ) as (cz1 & f0 & ECZ). unfold X. rewrite ECZ, !map_app, !plug_app. cbn [map plug].
          destruct f0; cbn [lean bump plug1 root]; do 6 eexists; (split; [reflexivity|]); split; try lia; reflexivity. }
        destruct XS as (A & r1 & kr & rr & br & BB & EX & NB & ER). clearbody X. subst X. rewrite ER.
        destruct (rebalance_R q h4 sent (bumpc cs) A r1 kr rr br BB a key rk l H4 U4 BX BF3 ltac:(lia) NB) as (h5 & pp & T & ER2 & HT & MT & BT & HHT & OT & _).
        rewrite ER2. cbn [obind]. rewrite par_bump in HT, OT. apply (FIN _ _ T); [exact HT| |exact OT|exact MT].
        apply balanced_bump. eapply balanced_plug; [exact BE|exact BT|]. cbn [height]. lia.
Qed.
End INS.
