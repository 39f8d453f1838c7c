(* C98: the invariant of the configuration (lemmas). *)
From Verif Require Import Base IfcModel IfcSpec IfcProps IfcRoutes.
Ltac Zify.zify_post_hook ::= idtac.

Section Inv.
Variable num_vrf : Z.
Notation delr := (del_route num_vrf).
Notation addr := (add_route num_vrf).
Definition ALL : Z := 4294967295.

Definition setc (k : key) (v : Z) (l : addrs) (c : conf) : conf := mkC (put k (v, l) (c_if c)) (c_rt c).
Definition embi (x : Z * addrs) : ifc := mkI (fst x) (emb NIP (snd x)).
Definition if_ok (v : Z) (l : addrs) : Prop := 0 <= v < num_vrf /\ (length l <= 7)%nat /\ NoDup (map fst l) /\ Forall (fun x => bound (fst x) (snd x)) l.
Record wf (c : conf) : Prop := {
  w_k : NoDup (keys (c_if c));
  w_l : forall k v l, look k (c_if c) = Some (v, l) -> if_ok v l;
  w_u : uniq (has c);
  w_a : apart (has c) (c_rt c) }.
Record Inv (c : conf) (s : st) : Prop := {
  v_i : ifs s = map (fun p => (fst p, embi (snd p))) (c_if c);
  v_t : tab_ok (rt s) (has c) (c_rt c);
  v_w : wf c }.

Lemma ok_nz : forall v l, if_ok v l -> nz l.
Proof. intros v l (_ & _ & _ & B). apply Forall_forall. intros x Hx. rewrite Forall_forall in B. specialize (B x Hx). unfold bound in B. lia. Qed.
Lemma ok_in : forall v l a n, if_ok v l -> In (a, n) l -> bound a n.
Proof. intros v l a n (_ & _ & _ & B) H. rewrite Forall_forall in B. exact (B _ H). Qed.
Lemma inv_look : forall c s k v l, Inv c s -> look k (c_if c) = Some (v, l) -> look k (ifs s) = Some (mkI v (emb NIP l)).
Proof. intros c s k v l I L. rewrite (v_i _ _ I), (look_map _ _ embi), L. reflexivity. Qed.
Lemma inv_slots : forall c s k v l, Inv c s -> look k (c_if c) = Some (v, l) -> slots k s = emb NIP l.
Proof. intros c s k v l I L. unfold slots. rewrite (inv_look _ _ _ _ _ I L). reflexivity. Qed.
Lemma has_setc : forall c k v l k2 v2 a n, has (setc k v l c) k2 v2 a n <-> if key_eqb k2 k then v2 = v /\ In (a, n) l else has c k2 v2 a n.
Proof.
  intros. unfold has, setc. cbn [c_if]. rewrite look_put. destruct (key_eqb k2 k); [|reflexivity]. split.
  - intros (l' & E & H). injection E as <- <-. auto.
  - intros (-> & H). eauto.
Qed.
Lemma has_look : forall c k v l v2 a n, look k (c_if c) = Some (v, l) -> (has c k v2 a n <-> v2 = v /\ In (a, n) l).
Proof. intros c k v l v2 a n L. unfold has. rewrite L. split; [intros (l' & E & H); injection E as <- <-; auto|intros (-> & H); eauto]. Qed.

Lemma wf_setc : forall c k v l, wf c -> if_ok v l -> uniq (has (setc k v l c)) -> apart (has (setc k v l c)) (c_rt c) -> wf (setc k v l c).
Proof.
  intros c k v l W O U A. constructor; [| |exact U|exact A].
  - unfold setc. cbn [c_if]. rewrite keys_put. destruct (look k (c_if c)) eqn:E; [exact (w_k _ W)|].
    apply look_none in E. clear -E W. pose proof (w_k _ W) as N. induction (keys (c_if c)) as [|x t IH]; cbn [app].
    + constructor; [intros []|constructor].
    + inversion N as [|? ? N1 N2]; subst. constructor; [|apply IH; [intros H; apply E; right; exact H|exact N2]].
      rewrite in_app_iff. intros [H|[<-|[]]]; [exact (N1 H)|]. apply E. left. reflexivity.
  - intros k2 v2 l2. unfold setc. cbn [c_if]. rewrite look_put. destruct (key_eqb k2 k); [|exact (w_l _ W k2 v2 l2)].
    intros E. injection E as <- <-. exact O.
Qed.
Lemma uniq_sub : forall (H H' : key -> Z -> Z -> Z -> Prop), (forall k v a n, H' k v a n -> H k v a n) -> uniq H -> uniq H'.
Proof. intros H H' S U k1 k2 v a1 n1 a2 n2 A B C. exact (U _ _ _ _ _ _ _ (S _ _ _ _ A) (S _ _ _ _ B) C). Qed.
Lemma apart_sub : forall (H H' : key -> Z -> Z -> Z -> Prop) U, (forall k v a n, H' k v a n -> H k v a n) -> apart H U -> apart H' U.
Proof. intros H H' U S P k v a n x A. exact (P _ _ _ _ _ (S _ _ _ _ A)). Qed.

(* fewer addresses on k *)
Lemma wf_less : forall c k v l l', wf c -> look k (c_if c) = Some (v, l) -> (forall y, In y l' -> In y l) -> (length l' <= length l)%nat -> NoDup (map fst l') -> wf (setc k v l' c).
Proof.
  intros c k v l l' W L S E N. assert (Q : forall k2 v2 a n, has (setc k v l' c) k2 v2 a n -> has c k2 v2 a n).
  { intros k2 v2 a n. rewrite has_setc. destruct (key_eqb k2 k) eqn:F; [|auto]. apply key_eqb_eq in F. subst. intros (-> & H). exists l. auto. }
  apply wf_setc; [exact W| |apply (uniq_sub (has c)); [exact Q|exact (w_u _ W)]|apply (apart_sub (has c)); [exact Q|exact (w_a _ W)]].
  destruct (w_l _ W _ _ _ L) as (A & B & C & D). unfold if_ok. split; [exact A|]. split; [lia|]. split; [exact N|].
  apply Forall_forall. intros x Hx. rewrite Forall_forall in D. exact (D x (S x Hx)).
Qed.

Lemma setc_same : forall c k v l, look k (c_if c) = Some (v, l) -> setc k v l c = c.
Proof. intros [ci cr] k v l L. unfold setc. cbn [c_if c_rt] in *. rewrite put_same by exact L. reflexivity. Qed.
Lemma setc_setc : forall c k v l v' l', setc k v' l' (setc k v l c) = setc k v' l' c.
Proof. intros. unfold setc. cbn [c_if c_rt]. rewrite put_put. reflexivity. Qed.
Lemma look_setc : forall c k v l, look k (c_if (setc k v l c)) = Some (v, l).
Proof. intros. unfold setc. cbn [c_if]. rewrite look_put, key_eqb_refl. reflexivity. Qed.

(* what the two route deletions do to the table and the interface *)
Definition deleted (k : key) (v a n : Z) (l : addrs) (s s' : st) : Prop :=
  (forall v' d' l', rt s' v' d' l' = upd_rt (upd_rt (rt s) v a 32 None) v (netof a n) n None v' d' l') /\
  ifs s' = put k (mkI v (emb NIP (srem a l))) (ifs s) /\ ifl s' = ifl s /\ freev s' = freev s.
Lemma del_inv : forall c s k v l a n s', Inv c s -> look k (c_if c) = Some (v, l) -> In (a, n) l -> deleted k v a n l s s' -> Inv (setc k v (srem a l) c) s'.
Proof.
  intros c s k v l a n s' I L M (D1 & D2 & _ & _). pose proof (v_w _ _ I) as W. pose proof (w_l _ W _ _ _ L) as O. destruct O as (O1 & O2 & O3 & O4).
  assert (B : bound a n) by (rewrite Forall_forall in O4; exact (O4 _ M)).
  assert (IA : In a (map fst l)) by (apply (in_map fst) in M; exact M).
  constructor.
  - unfold setc. cbn [c_if]. rewrite (put_map _ _ embi), <- (v_i _ _ I). exact D2.
  - apply (tab_del (rt s) (rt s') (has c) (has (setc k v (srem a l) c)) (c_rt c) k v a n (v_t _ _ I) B (w_u _ W) (w_a _ W)).
    + exists l. auto.
    + intros k2 v2 a2 n2 (l2 & L2 & I2). pose proof (ok_in _ _ _ _ (w_l _ W _ _ _ L2) I2) as [_ X]. exact X.
    + intros k2 v2 a2 n2. rewrite has_setc. destruct (key_eqb k2 k) eqn:F.
      * apply key_eqb_eq in F. subst k2. rewrite (has_look _ _ _ _ _ _ _ L), (srem_in a l (a2, n2) O3). cbn [fst]. split.
        -- intros (-> & H & X). split; [auto|]. intros (_ & _ & Y & _). exact (X Y).
        -- intros ((-> & H) & X). split; [reflexivity|]. split; [exact H|]. intros ->. apply X.
           assert (n2 = n); [|auto]. clear -O3 H M. induction l as [|[a1 n1] t IH]; [destruct M|]. cbn [map fst] in O3. inversion O3 as [|? ? P Q]; subst.
           destruct H as [H|H], M as [M|M].
           ++ congruence.
           ++ exfalso. apply P. apply (in_map fst) in M. cbn [fst] in M. injection H as -> _. exact M.
           ++ exfalso. apply P. apply (in_map fst) in H. cbn [fst] in H. injection M as -> _. exact H.
           ++ exact (IH M Q H).
      * apply key_eqb_neq in F. split; [intros H; split; [exact H|intros (X & _); exact (F X)]|tauto].
    + exact D1.
  - apply (wf_less c k v l); [exact W|exact L| | |].
    + intros y H. apply (srem_in a l y O3) in H. tauto.
    + rewrite (srem_length a l IA). lia.
    + apply srem_nodup. exact O3.
Qed.

Lemma upd_comm : forall t v d l v2 d2 l2 x, (v = v2 /\ d = d2 /\ l = l2 -> False) -> forall v' d' l',
  upd_rt (upd_rt t v d l x) v2 d2 l2 x v' d' l' = upd_rt (upd_rt t v2 d2 l2 x) v d l x v' d' l'.
Proof.
  intros t v d l v2 d2 l2 x N v' d' l'. destruct (key3 v d l v' d' l') as [(-> & -> & ->)|K1].
  - rewrite upd_eq. rewrite upd_neq by exact N. rewrite upd_eq. reflexivity.
  - rewrite (upd_neq _ v d l x v' d' l') by exact K1. destruct (key3 v2 d2 l2 v' d' l') as [(-> & -> & ->)|K2].
    + rewrite !upd_eq. reflexivity.
    + rewrite !upd_neq by assumption. reflexivity.
Qed.

Lemma del_two : forall c s k v l a n X, Inv c s -> look k (c_if c) = Some (v, l) -> In (a, n) l -> netof X n = netof a n ->
  (exists s', obind (delr v X n s) (delr v a 32) = Ret s' /\ deleted k v a n l s s') /\
  (exists s', obind (delr v a 32 s) (delr v X n) = Ret s' /\ deleted k v a n l s s').
Proof.
  intros c s k v l a n X I L M E. pose proof (v_w _ _ I) as W. pose proof (w_l _ W _ _ _ L) as O.
  pose proof (ok_nz _ _ O) as NZ. destruct O as (O1 & O2 & O3 & O4).
  assert (B : bound a n) by (rewrite Forall_forall in O4; exact (O4 _ M)). destruct B as [B1 B2].
  assert (HA : has c k v a n) by (exists l; auto).
  assert (T1 : rt s v a 32 = Some (Local k)) by (apply (v_t _ _ I); apply ow_a with n; [exact HA|reflexivity]).
  assert (T2 : rt s v (netof a n) n = Some (Net k)) by (apply (v_t _ _ I); apply ow_n with a; [exact HA|reflexivity]).
  pose proof (inv_look _ _ _ _ _ I L) as LS. pose proof (remove_emb a l NZ ltac:(unfold NIP; lia)) as R.
  unfold del_route. replace (num_vrf <=? v) with false by lia. rewrite E, netof_32. split.
  - rewrite T2. cbn [obind]. cbn [rt ifs ifl freev]. rewrite upd_neq by lia. rewrite T1, LS. cbn [i_sl]. rewrite R.
    unfold set_sl. cbn [ifs rt ifl freev]. rewrite LS. cbn [i_vrf]. eexists. split; [reflexivity|].
    split; [|split; [reflexivity|split; reflexivity]]. cbn [rt]. apply upd_comm. lia.
  - rewrite T1. cbn [ifs]. rewrite LS. cbn [i_sl]. rewrite R. unfold set_sl. cbn [ifs rt ifl freev]. rewrite LS. cbn [i_vrf obind rt ifs ifl freev].
    rewrite upd_neq by lia. rewrite T2. eexists. split; [reflexivity|]. split; [|split; [reflexivity|split; reflexivity]]. cbn [rt]. reflexivity.
Qed.

(* ---- ofp_free_ifnet_ip_list ---- *)
Lemma nth_emb_out : forall c l i, (length l <= i)%nat -> nth i (emb c l) zslot = zslot.
Proof. intros c l i H. unfold emb. rewrite app_nth2; rewrite map_length; [|lia]. apply nth_repeat. Qed.
Lemma srem_app : forall a f x m, ~ In a (map fst f) -> fst x = a ->
  srem a (f ++ x :: m) = f ++ match m with [] => [] | _ => last m x :: removelast m end.
Proof.
  intros a f x m. induction f as [|y f IH]; intros N E; cbn [app srem map In] in *.
  - replace (fst x =? a) with true by lia. reflexivity.
  - replace (fst y =? a) with false by lia. rewrite IH by tauto. reflexivity.
Qed.
Lemma mask_ok : forall n, 1 <= n <= 32 -> mask ALL n = Ret (4294967296 - 2 ^ (32 - n)).
Proof. intros n H. unfold mask. replace ((n <? 0) || (32 <? n)) with false by lia. replace (n =? 0) with false by lia. reflexivity. Qed.

Lemma free_loop_ok : forall k v S i c s cur, Inv c s -> look k (c_if c) = Some (v, cur) ->
  (forall y, In y cur <-> In y S) -> NoDup (map fst S) ->
  ((length cur <= i)%nat \/ exists f m b, length f = i /\ cur = f ++ m /\ S = m ++ b /\ m <> []) ->
  exists s', free_loop ALL num_vrf k v (map slot_of S) i s = Ret s' /\ Inv (setc k v [] c) s' /\ ifl s' = ifl s /\ freev s' = freev s.
Proof.
  intros k v S. induction S as [|[a n] S IH]; intros i c s cur I L P N Q; cbn [map free_loop].
  - assert (cur = []) by (destruct cur as [|y cur]; [reflexivity|]; exfalso; apply (P y); left; reflexivity). subst cur.
    exists s. split; [reflexivity|]. rewrite (setc_same _ _ _ _ L). auto.
  - assert (M : In (a, n) cur) by (apply P; left; reflexivity).
    pose proof (w_l _ (v_w _ _ I) _ _ _ L) as O. destruct (ok_in _ _ _ _ O M) as [B1 B2]. destruct O as (O1 & O2 & O3 & O4).
    change (s_a (slot_of (a, n))) with a. change (s_ml (slot_of (a, n))) with n. replace (a =? 0) with false by lia.
    rewrite (inv_slots _ _ _ _ _ I L).
    assert (X : exists m, mask ALL (s_ml (nth i (emb NIP cur) zslot)) = Ret m /\ netof (Z.land a m) n = netof a n).
    { destruct Q as [Q|(f & m & b & Q1 & Q2 & Q3 & Q4)].
      - rewrite nth_emb_out by exact Q. exists ALL. split; [reflexivity|]. rewrite land_all by lia. reflexivity.
      - destruct m as [|x m]; [congruence|]. cbn [app] in Q3. injection Q3 as <- Q3. subst cur.
        unfold emb. rewrite map_app, <- app_assoc. cbn [map app]. rewrite app_nth2; rewrite map_length; [|lia]. replace (i - length f)%nat with O by lia.
        cbn [nth slot_of s_ml snd]. eexists. split; [apply mask_ok; lia|]. rewrite land_mask by lia. apply netof_idem. lia. }
    destruct X as (m & X1 & X2). rewrite X1. cbn [obind].
    destruct (del_two c s k v cur a n (Z.land a m) I L M X2) as [(s2 & E2 & D) _].
    pose proof (del_inv c s k v cur a n s2 I L M D) as I2.
    cbn [map fst] in N. inversion N as [|? ? N1 N2]; subst.
    destruct (IH (Datatypes.S i) (setc k v (srem a cur) c) s2 (srem a cur) I2 (look_setc _ _ _ _)) as (s3 & E3 & I3 & F3 & G3).
    + intros y. rewrite (srem_in a cur y O3), P. cbn [In]. split.
      * intros [[<-|H] F]; [cbn [fst] in F; congruence|exact H].
      * intros H. split; [right; exact H|]. intros F. apply N1. rewrite <- F. apply in_map. exact H.
    + exact N2.
    + destruct Q as [Q|(f & m0 & b & Q1 & Q2 & Q3 & Q4)].
      * left. pose proof (srem_length a cur ltac:(apply (in_map fst) in M; exact M)). lia.
      * destruct m0 as [|x m0]; [congruence|]. cbn [app] in Q3. injection Q3 as <- Q3. subst cur.
        assert (NF : ~ In a (map fst f)).
        { rewrite map_app in O3. cbn [map fst] in O3. apply NoDup_remove_2 in O3. rewrite in_app_iff in O3. tauto. }
        rewrite (srem_app a f (a, n) m0 NF eq_refl). destruct m0 as [|y m0]; [left; rewrite app_nil_r; lia|].
        remember (y :: m0) as u. assert (U : u <> []) by (subst; discriminate). destruct (exists_last U) as (u0 & w & E).
        destruct u0 as [|z u0].
        -- left. rewrite E. rewrite app_length. cbn [app last removelast length]. lia.
        -- right. exists (f ++ [w]), (z :: u0), (w :: b). rewrite E. rewrite last_last, removelast_last, app_length. cbn [length].
           split; [lia|]. split; [rewrite <- app_assoc; reflexivity|]. split; [|discriminate]. rewrite Q3, E, <- app_assoc. reflexivity.
    + exists s3. split.
      * destruct (delr v (Z.land a m) n s) as [s1| |]; cbn [obind] in *; try discriminate. rewrite E2. cbn [obind]. exact E3.
      * rewrite setc_setc in I3. destruct D as (_ & _ & D3 & D4). split; [exact I3|]. split; congruence.
Qed.
Lemma free_list_ok : forall k v c s l, Inv c s -> look k (c_if c) = Some (v, l) ->
  exists s', free_list ALL num_vrf k v s = Ret s' /\ Inv (setc k v [] c) s' /\ ifl s' = ifl s /\ freev s' = freev s.
Proof.
  intros k v c s l I L. pose proof (w_l _ (v_w _ _ I) _ _ _ L) as O. pose proof (ok_nz _ _ O) as NZ. destruct O as (_ & _ & O3 & _).
  unfold free_list. rewrite (inv_slots _ _ _ _ _ I L), free_emb by exact NZ. unfold emb.
  rewrite firstn_app, map_length, Nat.sub_diag, firstn_O, app_nil_r. replace (firstn (length l) (map slot_of l)) with (map slot_of l) by (symmetry; rewrite <- (map_length slot_of l); apply firstn_all).
  apply (free_loop_ok k v l 0 c s l I L); [reflexivity|exact O3|].
  destruct l as [|x t]; [left; cbn [length]; lia|]. right. exists [], (x :: t), []. rewrite app_nil_r. cbn [app length]. repeat split. discriminate.
Qed.
End Inv.
