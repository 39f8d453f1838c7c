(* C98, C99: theorems about the configuration of addresses. *)
From Verif Require Import Base IfcModel IfcSpec IfcProps IfcRoutes IfcInv.
Ltac Zify.zify_post_hook ::= idtac.

Section Steps.
Variable num_vrf : Z.
Variable nv : nat.
Hypothesis VRF0 : 0 < num_vrf.
Notation delr := (del_route num_vrf).
Notation addr := (add_route num_vrf).
Notation Inv := (IfcInv.Inv num_vrf).
Notation if_ok := (IfcInv.if_ok num_vrf).

Definition ifl_ok (c : conf) (s : st) : Prop := NoDup (ifl s) /\ forall k, In k (ifl s) <-> addrs_of k c <> [].
Definition All (c : conf) (s : st) : Prop := Inv c s /\ ifl_ok c s /\ (freev s + vlans c = nv)%nat.

Lemma inv_same : forall c s s', Inv c s -> ifs s' = ifs s -> (forall v d l, rt s' v d l = rt s v d l) -> Inv c s'.
Proof. intros c s s' [A B C] E F. constructor; [congruence| |exact C]. intros v d l x. rewrite F. apply B. Qed.

Lemma addrs_setc : forall k v l c k2, addrs_of k2 (setc k v l c) = if key_eqb k2 k then l else addrs_of k2 c.
Proof. intros. unfold addrs_of, setc. cbn [c_if]. rewrite look_put. destruct (key_eqb k2 k); reflexivity. Qed.
Lemma ifl_set : forall c s k v l s', ifl_ok c s -> NoDup (ifl s') -> (forall k2, k2 <> k -> (In k2 (ifl s') <-> In k2 (ifl s))) -> (In k (ifl s') <-> l <> []) -> ifl_ok (setc k v l c) s'.
Proof.
  intros c s k v l s' [N P] N' O K. split; [exact N'|]. intros k2. rewrite addrs_setc. destruct (key_eqb k2 k) eqn:E.
  - apply key_eqb_eq in E. subst. exact K.
  - apply key_eqb_neq in E. rewrite (O k2 E). apply P.
Qed.
Definition isvl (p : key * (Z * addrs)) : bool := negb (snd (fst p) =? 0).
Lemma vlans_put : forall k (x : Z * addrs) l, length (filter isvl (put k x l)) =
  (length (filter isvl l) + match look k l with Some _ => O | None => if (snd k =? 0)%Z then O else 1%nat end)%nat.
Proof.
  intros k x l. assert (V : forall q y, isvl (q, y) = negb (snd q =? 0)) by reflexivity. induction l as [|[q y] l IH]; cbn [put look filter].
  - rewrite V. destruct (snd k =? 0); reflexivity.
  - destruct (key_eqb k q) eqn:E.
    + apply key_eqb_eq in E. subst q. cbn [filter]. rewrite !V. destruct (snd k =? 0); cbn [negb length]; lia.
    + cbn [filter]. rewrite !V. destruct (snd q =? 0); cbn [negb length]; rewrite IH; lia.
Qed.
Lemma vlans_setc : forall k v l c, vlans (setc k v l c) = (vlans c + match look k (c_if c) with Some _ => O | None => if (snd k =? 0)%Z then O else 1%nat end)%nat.
Proof. intros. unfold vlans, setc. cbn [c_if]. apply vlans_put. Qed.
Lemma keys_del : forall A k (l : list (key * A)), keys (del k l) = filter (fun q => negb (key_eqb k q)) (keys l).
Proof. intros A k l. unfold keys, del. induction l as [|[q y] l IH]; cbn [filter map fst]; [reflexivity|]. destruct (key_eqb k q); cbn [negb map fst]; [exact IH|rewrite IH; reflexivity]. Qed.
Lemma del_none : forall A k (l : list (key * A)), ~ In k (keys l) -> del k l = l.
Proof.
  intros A k l. unfold keys, del. induction l as [|[q y] l IH]; cbn [filter map fst In]; intros H; [reflexivity|].
  destruct (key_eqb k q) eqn:E; [apply key_eqb_eq in E; subst; tauto|]. cbn [negb]. rewrite IH by tauto. reflexivity.
Qed.
Lemma vlans_del : forall k x (l : list (key * (Z * addrs))), NoDup (keys l) -> look k l = Some x -> snd k <> 0 ->
  length (filter isvl l) = S (length (filter isvl (del k l))).
Proof.
  intros k x l. assert (V : forall q y, isvl (q, y) = negb (snd q =? 0)) by reflexivity.
  assert (D : forall q (y : Z * addrs) l, del k ((q, y) :: l) = if key_eqb k q then del k l else (q, y) :: del k l) by (intros q y l0; unfold del; cbn [filter fst]; destruct (key_eqb k q); reflexivity).
  induction l as [|[q y] l IH]; intros N L H; cbn [look] in L; [discriminate|].
  unfold keys in N. cbn [map fst] in N. inversion N as [|? ? N1 N2]; subst. rewrite D. cbn [filter]. rewrite V.
  destruct (key_eqb k q) eqn:E.
  - apply key_eqb_eq in E. subst q. rewrite del_none by exact N1. replace (snd k =? 0) with false by lia. reflexivity.
  - cbn [filter]. rewrite V. specialize (IH N2 L H). destruct (snd q =? 0); cbn [negb length]; lia.
Qed.

(* an interface without addresses: created, moved to another VRF, or removed *)
Lemma inv_empty : forall c s k v s', Inv c s -> 0 <= v < num_vrf -> addrs_of k c = [] ->
  ifs s' = put k (mkI v (emb NIP [])) (ifs s) -> (forall v d l, rt s' v d l = rt s v d l) -> Inv (setc k v [] c) s'.
Proof.
  intros c s k v s' I V L E F. pose proof (v_w _ _ _ I) as W.
  assert (Q : forall k2 v2 a n, has (setc k v [] c) k2 v2 a n <-> has c k2 v2 a n).
  { intros k2 v2 a n. rewrite has_setc. destruct (key_eqb k2 k) eqn:X; [|reflexivity]. apply key_eqb_eq in X. subst k2.
    split; [intros [_ []]|]. intros (l & A & B). unfold addrs_of in L. rewrite A in L. subst l. destruct B. }
  constructor.
  - unfold setc. cbn [c_if]. rewrite (put_map _ _ embi), <- (v_i _ _ _ I). exact E.
  - intros v2 d l x. rewrite F, (v_t _ _ _ I v2 d l x). split; intros O; destruct O as [k2 n2 O X|k2 a2 O X|y O].
    + apply ow_a with n2; [apply Q; exact O|exact X].
    + apply ow_n with a2; [apply Q; exact O|exact X].
    + apply ow_u. exact O.
    + apply ow_a with n2; [apply Q; exact O|exact X].
    + apply ow_n with a2; [apply Q; exact O|exact X].
    + apply ow_u. exact O.
  - apply wf_setc; [exact W| | |].
    + split; [exact V|]. split; [cbn [length]; lia|]. split; constructor.
    + apply (uniq_sub (has c)); [intros; apply Q; assumption|exact (w_u _ _ W)].
    + apply (apart_sub (has c)); [intros; apply Q; assumption|exact (w_a _ _ W)].
Qed.
Lemma inv_gone : forall c s k v s', Inv c s -> look k (c_if c) = Some (v, []) -> ifs s' = del k (ifs s) -> (forall v d l, rt s' v d l = rt s v d l) ->
  Inv (mkC (del k (c_if c)) (c_rt c)) s'.
Proof.
  intros c s k v s' I L E F. pose proof (v_w _ _ _ I) as W.
  assert (Q : forall k2 v2 a n, has (mkC (del k (c_if c)) (c_rt c)) k2 v2 a n <-> has c k2 v2 a n).
  { intros k2 v2 a n. unfold has. cbn [c_if]. rewrite look_del. destruct (key_eqb k2 k) eqn:X; [|reflexivity]. apply key_eqb_eq in X. subst k2.
    rewrite L. split; [intros (l & A & _); discriminate|intros (l & A & B)]. injection A as _ <-. destruct B. }
  constructor.
  - cbn [c_if]. rewrite (del_map _ _ embi), <- (v_i _ _ _ I). exact E.
  - cbn [c_rt]. intros v2 d l x. rewrite F, (v_t _ _ _ I v2 d l x). split; intros O; destruct O as [k2 n2 O X|k2 a2 O X|y O].
    + apply ow_a with n2; [apply Q; exact O|exact X].
    + apply ow_n with a2; [apply Q; exact O|exact X].
    + apply ow_u. exact O.
    + apply ow_a with n2; [apply Q; exact O|exact X].
    + apply ow_n with a2; [apply Q; exact O|exact X].
    + apply ow_u. exact O.
  - constructor; cbn [c_if c_rt].
    + rewrite keys_del. apply NoDup_filter. exact (w_k _ _ W).
    + intros k2 v2 l2. rewrite look_del. destruct (key_eqb k2 k); [discriminate|]. apply (w_l _ _ W).
    + apply (uniq_sub (has c)); [intros; apply Q; assumption|exact (w_u _ _ W)].
    + apply (apart_sub (has c)); [intros; apply Q; assumption|exact (w_a _ _ W)].
Qed.

Lemma del_put : forall A k (x : A) l, del k (put k x l) = del k l.
Proof.
  intros A k x l. unfold del. induction l as [|[q y] l IH]; cbn [put filter fst]; [rewrite key_eqb_refl; reflexivity|].
  destruct (key_eqb k q) eqn:E; cbn [filter fst]; [rewrite key_eqb_refl; cbn [negb]; reflexivity|]. rewrite E. cbn [negb]. rewrite IH. reflexivity.
Qed.

(* ---- ofp_config_interface_down ---- *)
Lemma down_ok : forall c s k v l, Inv c s -> look k (c_if c) = Some (v, l) -> port_ok k = true ->
  exists s', down ALL num_vrf k s = Ret (s', Done) /\ Inv (apply (Down k) c) s' /\
    ifl s' = filter (fun q => negb (key_eqb k q)) (ifl s) /\ freev s' = (freev s + if (snd k =? 0)%Z then 0 else 1)%nat.
Proof.
  intros c s k v l I L P. unfold port_ok, IF_MAX in P. unfold down, NUM_PORTS.
  replace ((fst k <? 0) || (11 <=? fst k)) with false by lia. rewrite (inv_look _ _ _ _ _ _ I L). cbn [i_sl i_vrf]. cbn zeta.
  replace (fst k =? 8) with false by lia. rewrite orb_false_r.
  pose proof (inv_same c s (ifl_del k s) I eq_refl (fun _ _ _ => eq_refl)) as I1.
  assert (X : exists s2, (if s_a (nth 0 (emb NIP l) zslot) =? 0 then Ret (ifl_del k s)
     else if negb (snd k =? 0)
       then obind (delr v (s_a (nth 0 (emb NIP l) zslot)) 32 (ifl_del k s)) (fun s0 => obind (delr v (netof (s_a (nth 0 (emb NIP l) zslot)) (s_ml (nth 0 (emb NIP l) zslot))) (s_ml (nth 0 (emb NIP l) zslot)) s0) (free_list ALL num_vrf k v))
       else obind (delr v (netof (s_a (nth 0 (emb NIP l) zslot)) (s_ml (nth 0 (emb NIP l) zslot))) (s_ml (nth 0 (emb NIP l) zslot)) (ifl_del k s)) (fun s0 => obind (delr v (s_a (nth 0 (emb NIP l) zslot)) 32 s0) (free_list ALL num_vrf k v))) = Ret s2 /\
     Inv (setc k v [] c) s2 /\ ifl s2 = ifl (ifl_del k s) /\ freev s2 = freev s).
  { destruct l as [|[a n] t].
    - cbn [emb map app nth repeat length Nat.sub NIP s_a zslot]. exists (ifl_del k s). split; [reflexivity|].
      rewrite (setc_same _ _ _ _ L). split; [exact I1|]. split; reflexivity.
    - pose proof (w_l _ _ (v_w _ _ _ I) _ _ _ L) as O. destruct (ok_in _ _ _ _ _ O (or_introl eq_refl)) as [B1 B2].
      change (s_a (nth 0 (emb NIP ((a, n) :: t)) zslot)) with a. change (s_ml (nth 0 (emb NIP ((a, n) :: t)) zslot)) with n.
      replace (a =? 0) with false by lia.
      destruct (del_two num_vrf c (ifl_del k s) k v ((a, n) :: t) a n (netof a n) I1 L (or_introl eq_refl) (netof_idem a n ltac:(lia))) as [(s1 & E1 & D1) (s2 & E2 & D2)].
      destruct (snd k =? 0); cbn [negb].
      + pose proof (del_inv num_vrf c _ k v _ a n s1 I1 L (or_introl eq_refl) D1) as J.
        destruct (free_list_ok num_vrf k v _ s1 _ J (look_setc _ _ _ _)) as (s3 & E3 & J3 & F3 & G3). rewrite setc_setc in J3.
        exists s3. split; [|destruct D1 as (_ & _ & Q1 & Q2); split; [exact J3|split; [rewrite F3; exact Q1|rewrite G3, Q2; reflexivity]]].
        destruct (delr v (netof a n) n (ifl_del k s)) as [s0| |]; cbn [obind] in *; try discriminate. rewrite E1. exact E3.
      + pose proof (del_inv num_vrf c _ k v _ a n s2 I1 L (or_introl eq_refl) D2) as J.
        destruct (free_list_ok num_vrf k v _ s2 _ J (look_setc _ _ _ _)) as (s3 & E3 & J3 & F3 & G3). rewrite setc_setc in J3.
        exists s3. split; [|destruct D2 as (_ & _ & Q1 & Q2); split; [exact J3|split; [rewrite F3; exact Q1|rewrite G3, Q2; reflexivity]]].
        destruct (delr v a 32 (ifl_del k s)) as [s0| |]; cbn [obind] in *; try discriminate. rewrite E2. exact E3. }
  destruct X as (s2 & E & J & F & G). rewrite E. cbn [obind]. cbn [apply]. rewrite L. destruct (snd k =? 0); cbn [negb].
  - exists s2. split; [reflexivity|]. split; [exact J|]. split; [exact F|]. lia.
  - eexists. split; [reflexivity|]. split; [|cbn [ifl freev]; split; [exact F|lia]].
    pose proof (inv_gone _ _ k v (mkS (rt s2) (del k (ifs s2)) (ifl s2) (S (freev s2))) J (look_setc _ _ _ _) eq_refl (fun _ _ _ => eq_refl)) as R.
    unfold setc in R. cbn [c_if c_rt] in R. rewrite del_put in R. exact R.
Qed.

(* ---- adding an address ---- *)
Lemma fresh_has : forall c v d l, if_free c v d l = true -> forall k a n, has c k v a n -> ~ (l = 32 /\ a = d) /\ ~ (n = l /\ netof a n = d).
Proof.
  intros c v d l F k a n (la & L & M). unfold if_free in F. rewrite forallb_forall in F. specialize (F _ (look_in _ _ _ _ L)). cbv beta iota in F.
  rewrite Z.eqb_refl in F. cbn [negb orb] in F. rewrite forallb_forall in F. specialize (F _ M). cbv beta iota in F. lia.
Qed.
Lemma user_free_ok : forall c v d l, user_free c v d l = true -> forall x, ~ In (v, d, l, x) (c_rt c).
Proof.
  intros c v d l F x M. unfold user_free in F. rewrite forallb_forall in F. specialize (F _ M). cbv beta iota in F. rewrite !Z.eqb_refl in F. discriminate.
Qed.
Lemma fresh_ok : forall c v a n, fresh c v a n = true ->
  (forall k2 a2 n2, has c k2 v a2 n2 -> ~ clash a2 n2 a n) /\ (forall x, ~ In (v, a, 32, x) (c_rt c) /\ ~ In (v, netof a n, n, x) (c_rt c)).
Proof.
  intros c v a n F. unfold fresh in F. rewrite !andb_true_iff in F. destruct F as [[[F1 F2] F3] F4]. split.
  - intros k2 a2 n2 H. destruct (fresh_has _ _ _ _ F1 _ _ _ H) as [A _]. destruct (fresh_has _ _ _ _ F3 _ _ _ H) as [_ B].
    intros [C|[C D]]; [apply A; auto|apply B; auto].
  - intros x. split; [apply user_free_ok; exact F2|apply user_free_ok; exact F4].
Qed.

Lemma add_two : forall c s k v l a n, Inv c s -> look k (c_if c) = Some (v, l) -> (length l < 7)%nat -> bound a n ->
  exists s', obind (addr v a 32 (Local k) s) (addr v (Z.land a (4294967296 - 2 ^ (32 - n))) n (Net k)) = Ret s' /\
    rt s' = upd_rt (upd_rt (rt s) v a 32 (Some (Local k))) v (netof a n) n (Some (Net k)) /\
    ifs s' = put k (mkI v (raw l a)) (ifs s) /\ ifl s' = ifl s /\ freev s' = freev s.
Proof.
  intros c s k v l a n I L H [B1 B2]. pose proof (w_l _ _ (v_w _ _ _ I) _ _ _ L) as O. pose proof (ok_nz _ _ _ O) as NZ. destruct O as (O1 & O2 & O3 & O4).
  unfold add_route. replace (num_vrf <=? v) with false by lia. rewrite netof_32, Z.eqb_refl.
  unfold get_create. cbn [ifs]. rewrite (inv_look _ _ _ _ _ _ I L). cbn [obind i_sl]. rewrite add_emb by (try exact NZ; unfold NIP; lia).
  unfold set_sl. cbn [ifs rt ifl freev]. rewrite (inv_look _ _ _ _ _ _ I L). cbn [i_vrf rt ifs ifl freev].
  rewrite land_mask by lia. rewrite netof_idem by lia. eexists. split; [reflexivity|]. cbn [rt ifs ifl freev]. auto.
Qed.
Lemma add_inv : forall c s k v l a n l' s', Inv c s -> look k (c_if c) = Some (v, l) -> (length l < 7)%nat -> bound a n -> fresh c v a n = true ->
  (forall y, In y l' <-> y = (a, n) \/ In y l) -> length l' = S (length l) ->
  (forall v' d' l2, rt s' v' d' l2 = upd_rt (upd_rt (rt s) v a 32 (Some (Local k))) v (netof a n) n (Some (Net k)) v' d' l2) ->
  ifs s' = put k (mkI v (emb NIP l')) (ifs s) -> ~ In a (map fst l) /\ Inv (setc k v l' c) s'.
Proof.
  intros c s k v l a n l' s' I L H B F M N R E. pose proof (v_w _ _ _ I) as W. destruct (w_l _ _ W _ _ _ L) as (O1 & O2 & O3 & O4).
  destruct (fresh_ok _ _ _ _ F) as [F1 F2].
  assert (NI : ~ In a (map fst l)).
  { intros X. apply in_map_iff in X. destruct X as ([a2 n2] & X & Y). cbn [fst] in X. subst a2. apply (F1 k a n2); [exists l; auto|left; reflexivity]. }
  assert (Q : forall k2 v2 a2 n2, has (setc k v l' c) k2 v2 a2 n2 <-> has c k2 v2 a2 n2 \/ (k2 = k /\ v2 = v /\ a2 = a /\ n2 = n)).
  { intros k2 v2 a2 n2. rewrite has_setc. destruct (key_eqb k2 k) eqn:X.
    - apply key_eqb_eq in X. subst k2. rewrite (has_look _ _ _ _ _ _ _ L), M. split.
      + intros (-> & [Y|Y]); [injection Y as -> ->; right; auto|left; auto].
      + intros [(-> & Y)|(_ & -> & -> & ->)]; [auto|split; [reflexivity|left; reflexivity]].
    - apply key_eqb_neq in X. split; [auto|]. intros [Y|(Y & _)]; [exact Y|congruence]. }
  split; [exact NI|]. constructor.
  - unfold setc. cbn [c_if]. rewrite (put_map _ _ embi), <- (v_i _ _ _ I). exact E.
  - intros v2 d2 l2 x. rewrite R. revert v2 d2 l2 x.
    apply (tab_add (rt s) (has c) (has (setc k v l' c)) (c_rt c) k v a n (v_t _ _ _ I) B Q); [|exact F2].
    intros k2 a2 n2 X. split; [|exact (F1 _ _ _ X)]. destruct X as (l2 & X1 & X2). destruct (ok_in _ _ _ _ _ (w_l _ _ W _ _ _ X1) X2). assumption.
  - apply wf_setc; [exact W| | |].
    + split; [exact O1|]. split; [lia|]. split.
      * apply (@NoDup_incl_NoDup _ (a :: map fst l)); [constructor; assumption|rewrite map_length; cbn [length]; rewrite map_length; lia|].
        intros y [<-|Y]; apply in_map_iff; [exists (a, n); split; [reflexivity|apply M; left; reflexivity]|].
        apply in_map_iff in Y. destruct Y as (z & <- & Y). exists z. split; [reflexivity|apply M; right; exact Y].
      * apply Forall_forall. intros y Y. apply M in Y. destruct Y as [->|Y]; [exact B|]. rewrite Forall_forall in O4. exact (O4 y Y).
    + intros k1 k2 v0 a1 n1 a2 n2 X1 X2 C. apply Q in X1. apply Q in X2.
      destruct X1 as [X1|(-> & -> & -> & ->)], X2 as [X2|(-> & Y & -> & ->)].
      * exact (w_u _ _ W _ _ _ _ _ _ _ X1 X2 C).
      * subst v0. exfalso. exact (F1 _ _ _ X1 C).
      * exfalso. apply (F1 _ _ _ X2). destruct C as [C|[C D]]; [left; auto|right; auto].
      * auto.
    + intros k1 v1 a1 n1 x X. apply Q in X. destruct X as [X|(-> & -> & -> & ->)]; [exact (w_a _ _ W _ _ _ _ x X)|exact (F2 x)].
Qed.

(* ---- ofp_config_interface_up_v4 ---- *)
Lemma first_slot : forall k v l c s, Inv c s -> look k (c_if c) = Some (v, l) -> s_a (nth 0 (emb NIP l) zslot) = match l with [] => 0 | x :: _ => fst x end /\ s_ml (nth 0 (emb NIP l) zslot) = match l with [] => 0 | x :: _ => snd x end.
Proof. intros k v l c s I L. destruct l as [|x t]; split; reflexivity. Qed.

Definition phase1 (k : key) (v : Z) (s : st) : outcome st :=
  match look k (ifs s) with
  | Some i => if i_vrf i =? v then Ret s
              else obind (down ALL num_vrf k s) (fun '(s, _) => obind (get_create k s) (fun '(_, s) => Ret s))
  | None => Ret s
  end.
Definition phase2 (k : key) (s : st) : outcome st :=
  match look k (ifs s) with
  | None => obind (get_create k s) (fun '(_, s) => Ret s)
  | Some i =>
    let a0 := s_a (nth 0 (i_sl i) zslot) in
    let m0 := s_ml (nth 0 (i_sl i) zslot) in
    if (snd k =? 0) && (a0 =? 0) then Ret s
    else obind (del_route num_vrf (i_vrf i) a0 m0 s) (fun s => del_route num_vrf (i_vrf i) (s_a (nth 0 (slots k s) zslot)) 32 s)
  end.

Lemma up_pre : forall c s k v a n, All c s -> clean num_vrf nv (Up k v a n) c = true ->
  exists s1 s2 i, phase1 k v s = Ret s1 /\ phase2 k s1 = Ret s2 /\ look k (ifs s2) = Some i /\
    Inv (before_up k v c) (mkS (rt s2) (put k (mkI v (i_sl i)) (ifs s2)) (ifl s2) (freev s2)) /\
    (length (addrs_of k (before_up k v c)) < 7)%nat /\ NoDup (ifl s2) /\ (forall k2, k2 <> k -> (In k2 (ifl s2) <-> In k2 (ifl s))) /\
    (snd k <> 0 -> In k (ifl s2)) /\ (freev s2 + vlans (before_up k v c) = nv)%nat.
Proof.
  intros c s k v a n (I & [N P] & V) C. cbn [clean] in C. rewrite !andb_true_iff in C. destruct C as [[[[[C1 C2] C3] C4] C5] C6].
  assert (VR : 0 <= v < num_vrf) by lia. unfold phase1, phase2.
  destruct (look k (c_if c)) as [[v' l]|] eqn:L.
  - pose proof (inv_look _ _ _ _ _ _ I L) as LS. rewrite LS. cbn [i_vrf].
    pose proof (w_l _ _ (v_w _ _ _ I) _ _ _ L) as O. pose proof O as (O1 & O2 & O3 & O4).
    destruct (v' =? v) eqn:EV.
    + apply Z.eqb_eq in EV. subst v'. exists s. destruct (first_slot k v l c s I L) as [A0 M0].
      assert (PK : l <> [] -> In k (ifl s)) by (intros X; apply P; unfold addrs_of; rewrite L; exact X).
      destruct l as [|[a0 m0] t].
      * assert (K0 : snd k = 0) by (cbn [length] in C6; lia).
        exists s, (mkI v (emb NIP [])). cbn [i_sl i_vrf]. rewrite LS. cbn [i_sl]. rewrite K0, A0. cbn [Z.eqb andb].
        assert (B : before_up k v c = c) by (unfold before_up; rewrite L; exact (setc_same c k v [] L)). rewrite B.
        split; [reflexivity|]. split; [reflexivity|]. split; [reflexivity|]. split.
        { apply (inv_same c s); [exact I| |reflexivity]. cbn [ifs]. apply put_same. exact LS. }
        unfold addrs_of at 1. rewrite L. split; [cbn [length]; lia|]. split; [exact N|]. split; [reflexivity|]. split; [lia|exact V].
      * assert (B : before_up k v c = setc k v (srem a0 ((a0, m0) :: t)) c) by (unfold before_up; rewrite L, Z.eqb_refl; reflexivity). rewrite B.
        pose proof (ok_in _ _ _ _ _ O (or_introl eq_refl)) as [B1 B2].
        assert (MM : In (a0, m0) ((a0, m0) :: t)) by (left; reflexivity).
        destruct (del_two num_vrf c s k v _ a0 m0 a0 I L MM eq_refl) as [(s2 & E2 & D) _].
        pose proof (del_inv num_vrf c s k v _ a0 m0 s2 I L MM D) as J.
        assert (T : rt s v (netof a0 m0) m0 = Some (Net k)) by (apply (v_t _ _ _ I); apply ow_n with a0; [exists ((a0, m0) :: t); auto|reflexivity]).
        destruct (del_route num_vrf v a0 m0 s) as [s1| |] eqn:E1; cbn [obind] in E2; try discriminate.
        assert (SL : slots k s1 = emb NIP ((a0, m0) :: t)).
        { unfold del_route in E1. replace (num_vrf <=? v) with false in E1 by lia. rewrite T in E1. injection E1 as <-. unfold slots. cbn [ifs]. rewrite LS. reflexivity. }
        exists s2, (mkI v (emb NIP (srem a0 ((a0, m0) :: t)))).
        destruct D as (D1 & D2 & D3 & D4).
        split; [reflexivity|]. split.
        { rewrite LS. cbn [i_sl i_vrf]. rewrite A0, M0. cbn [fst snd]. replace ((snd k =? 0) && (a0 =? 0)) with false by lia. rewrite E1. cbn [obind]. rewrite SL, A0. cbn [fst]. exact E2. }
        split; [rewrite D2, look_put, key_eqb_refl; reflexivity|]. split.
        { apply (inv_same _ s2); [exact J| |reflexivity]. cbn [ifs i_sl]. rewrite D2, put_put. reflexivity. }
        rewrite addrs_setc, key_eqb_refl. split.
        { pose proof (srem_length a0 ((a0, m0) :: t) (or_introl eq_refl)). lia. }
        rewrite D3, D4. split; [exact N|]. split; [reflexivity|]. split; [intros _; apply PK; discriminate|].
        rewrite vlans_setc, L. lia.
    + assert (K0 : snd k = 0) by lia.
      destruct (down_ok c s k v' l I L C1) as (s1 & E1 & J & F & G). rewrite E1. cbn [obind]. cbn [apply] in J. rewrite L in J. replace (snd k =? 0) with true in J by lia.
      fold (setc k v' [] c) in J. pose proof (inv_look _ _ _ _ _ _ J (look_setc _ _ _ _)) as LS1.
      unfold get_create. rewrite LS1. cbn [obind]. exists s1, s1, (mkI v' (emb NIP [])).
      assert (B : before_up k v c = setc k v [] (setc k v' [] c)).
      { rewrite setc_setc. unfold before_up. rewrite L, EV. destruct l; reflexivity. }
      split; [reflexivity|]. split; [rewrite LS1; cbn [i_sl i_vrf emb map app nth repeat length Nat.sub NIP s_a zslot]; rewrite K0; reflexivity|]. split; [exact LS1|]. rewrite B. split.
      { apply (inv_empty _ s1 k v); [exact J|exact VR| |reflexivity|reflexivity]. unfold addrs_of. rewrite look_setc. reflexivity. }
      rewrite addrs_setc, key_eqb_refl. split; [cbn [length]; lia|]. rewrite F. split; [apply NoDup_filter; exact N|]. split.
      { intros k2 X. rewrite filter_In. split; [tauto|]. intros Y. split; [exact Y|]. apply negb_true_iff. apply key_eqb_neq. congruence. }
      split; [lia|]. rewrite !vlans_setc, look_setc, L. rewrite K0 in G. cbn [Z.eqb] in G. lia.
  - assert (LS : look k (ifs s) = None) by (rewrite (v_i _ _ _ I), (look_map _ _ embi), L; reflexivity). rewrite LS.
    exists s. destruct (freev s) as [|f] eqn:FV; [lia|].
    assert (B : before_up k v c = setc k v [] c) by (unfold before_up; rewrite L; reflexivity). rewrite B.
    exists (mkS (rt s) (put k no_addr (ifs s)) (ifl s ++ [k]) f), no_addr.
    split; [reflexivity|]. split; [rewrite LS; unfold get_create; rewrite LS, FV; reflexivity|]. split; [cbn [ifs]; rewrite look_put, key_eqb_refl; reflexivity|]. split.
    { apply (inv_empty c s k v); [exact I|exact VR| | |reflexivity]; [unfold addrs_of; rewrite L; reflexivity|]. cbn [ifs i_sl no_addr]. rewrite put_put. reflexivity. }
    assert (NK : ~ In k (ifl s)) by (rewrite P; unfold addrs_of; rewrite L; tauto).
    rewrite addrs_setc, key_eqb_refl. cbn [ifl freev]. split; [cbn [length]; lia|]. split.
    { apply NoDup_Add with k (ifl s); [|split; assumption]. pose proof (Add_app k (ifl s) []) as X. rewrite app_nil_r in X. exact X. }
    split; [intros k2 X; rewrite in_app_iff; cbn [In]; split; [intros [Y|[Y|[]]]; [exact Y|congruence]|auto]|].
    split; [intros _; rewrite in_app_iff; right; left; reflexivity|]. rewrite vlans_setc, L. replace (snd k =? 0) with false by lia. lia.
Qed.

Lemma ifl_add_ok : forall k s, NoDup (ifl s) -> NoDup (ifl (ifl_add k s)) /\ forall k2, In k2 (ifl (ifl_add k s)) <-> k2 = k \/ In k2 (ifl s).
Proof.
  intros k s N. unfold ifl_add. cbn [ifl]. destruct (existsb (key_eqb k) (ifl s)) eqn:E.
  - split; [exact N|]. intros k2. split; [auto|]. intros [->|X]; [|exact X]. apply existsb_exists in E. destruct E as (q & X & Y). apply key_eqb_eq in Y. subst. exact X.
  - assert (NK : ~ In k (ifl s)).
    { intros X. assert (existsb (key_eqb k) (ifl s) = true); [|congruence]. apply existsb_exists. exists k. split; [exact X|apply key_eqb_refl]. }
    split.
    + apply NoDup_Add with k (ifl s); [|split; assumption]. pose proof (Add_app k (ifl s) []) as X. rewrite app_nil_r in X. exact X.
    + intros k2. rewrite in_app_iff. cbn [In]. intuition congruence.
Qed.

Lemma slots_put : forall k i (s : st) r f g, slots k (mkS r (put k i (ifs s)) f g) = i_sl i.
Proof. intros. unfold slots. cbn [ifs]. rewrite look_put, key_eqb_refl. reflexivity. Qed.
Lemma primary_in : forall a n l y, In y (primary a n l) <-> y = (a, n) \/ In y l.
Proof. intros a n l y. destruct l as [|x t]; cbn [primary In]; [intuition congruence|]. rewrite in_app_iff. cbn [In]. intuition congruence. Qed.
Lemma primary_len : forall a n l, length (primary a n l) = S (length l).
Proof. intros a n l. destruct l as [|x t]; cbn [primary length]; [reflexivity|]. rewrite app_length. cbn [length]. lia. Qed.

Lemma up_ok : forall c s k v a n, All c s -> clean num_vrf nv (Up k v a n) c = true ->
  exists s', up ALL num_vrf k v a n s = Ret (s', Done) /\ All (apply (Up k v a n) c) s'.
Proof.
  intros c s k v a n A C. destruct (up_pre c s k v a n A C) as (s1 & s2 & i & E1 & E2 & LI & J & LE & N2 & O2 & K2 & V2).
  destruct A as (I & [N P] & V). cbn [clean] in C. rewrite !andb_true_iff in C. destruct C as [[[[[C1 C2] C3] C4] C5] C6].
  unfold port_ok, IF_MAX in C1. unfold addr_ok in C4. assert (B : bound a n) by (unfold bound; lia).
  unfold up, IF_MAX. replace ((fst k <? 0) || (8 <=? fst k)) with false by lia. replace (num_vrf <=? v) with false by lia.
  rewrite mask_ok by lia. cbn [obind]. fold (phase1 k v s). rewrite E1. cbn [obind]. fold (phase2 k s1). rewrite E2. cbn [obind]. rewrite LI. cbn zeta.
  set (l1 := addrs_of k (before_up k v c)) in *.
  assert (L1 : look k (c_if (before_up k v c)) = Some (v, l1)).
  { subst l1. unfold addrs_of, before_up. cbn [c_if]. rewrite look_put, key_eqb_refl. reflexivity. }
  set (s3 := mkS (rt s2) (put k (mkI v (i_sl i)) (ifs s2)) (ifl s2) (freev s2)) in *.
  set (s4 := if snd k =? 0 then ifl_add k s3 else s3).
  assert (J4 : Inv (before_up k v c) s4) by (subst s4; destruct (snd k =? 0); [apply (inv_same _ s3); [exact J|reflexivity|reflexivity]|exact J]).
  destruct (add_two _ s4 k v l1 a n J4 L1 LE B) as (s5 & E5 & R5 & I5 & F5 & G5).
  assert (SL : slots k s5 = raw l1 a) by (unfold slots; rewrite I5, look_put, key_eqb_refl; reflexivity).
  assert (NZ : nz l1) by (apply (ok_nz _ _ _ (w_l _ _ (v_w _ _ _ J) _ _ _ L1))).
  assert (NI : ~ In a (map fst l1)).
  { apply (proj1 (add_inv _ s4 k v l1 a n (primary a n l1) (mkS (rt s5) (put k (mkI v (emb NIP (primary a n l1))) (ifs s4)) (ifl s5) (freev s5)) J4 L1 LE B C5 (primary_in a n l1) (primary_len a n l1) ltac:(intros; cbn [rt]; rewrite R5; reflexivity) eq_refl)). }
  destruct (add_route num_vrf v a 32 (Local k) s4) as [s45| |] eqn:E45; cbn [obind] in E5 |- *; try discriminate. rewrite E5. cbn [obind].
  eexists. split; [reflexivity|].
  rewrite SL. fold (bcast a n). change (Z.lor a (4294967295 - (4294967296 - 2 ^ (32 - n)))) with (bcast a n). rewrite first_raw by (try exact NZ; try exact NI; unfold bound, NIP in *; lia).
  unfold set_sl. rewrite I5, look_put, key_eqb_refl. cbn [i_vrf]. rewrite put_put.
  cbn [apply]. fold l1. fold (setc k v (primary a n l1) (before_up k v c)).
  assert (FR : forall q, In q (ifl s5) <-> q = k \/ In q (ifl s2)).
  { intros q. rewrite F5. subst s4. destruct (snd k =? 0) eqn:K0; [exact (proj2 (ifl_add_ok k s3 N2) q)|]. cbn [ifl]. split; [auto|]. intros [->|X]; [apply K2; lia|exact X]. }
  assert (NR : NoDup (ifl s5)) by (rewrite F5; subst s4; destruct (snd k =? 0); [exact (proj1 (ifl_add_ok k s3 N2))|exact N2]).
  split; [|split].
  - refine (proj2 (add_inv _ s4 k v l1 a n (primary a n l1) _ J4 L1 LE B C5 (primary_in a n l1) (primary_len a n l1) _ _)); [|reflexivity].
    intros. cbn [rt]. rewrite R5. reflexivity.
  - split; [exact NR|]. cbn [ifl]. intros q. rewrite addrs_setc, FR. destruct (key_eqb q k) eqn:X.
    + apply key_eqb_eq in X. subst q. split; [|auto]. intros _. destruct l1; discriminate.
    + apply key_eqb_neq in X. rewrite (O2 q X), P. unfold addrs_of, before_up. cbn [c_if]. rewrite look_put. replace (key_eqb q k) with false by (symmetry; apply key_eqb_neq; exact X). tauto.
  - cbn [freev]. rewrite vlans_setc, L1, G5. assert (freev s4 = freev s2) by (subst s4; destruct (snd k =? 0); reflexivity). lia.
Qed.
End Steps.
