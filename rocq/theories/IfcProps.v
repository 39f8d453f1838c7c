(* C98-C99: addresses of interfaces and their routes.  Theorems at the end. *)
From Verif Require Import Base IfcModel IfcSpec.
Ltac Zify.zify_post_hook ::= idtac.

(* ---- keys, association lists ---- *)
Lemma key_eqb_eq : forall a b, key_eqb a b = true <-> a = b.
Proof. intros [a1 a2] [b1 b2]. unfold key_eqb. cbn [fst snd]. rewrite andb_true_iff, !Z.eqb_eq. split; [intros [-> ->]; reflexivity|intros E; injection E; auto]. Qed.
Lemma key_eqb_refl : forall a, key_eqb a a = true.
Proof. intros a. apply key_eqb_eq. reflexivity. Qed.
Lemma key_eqb_neq : forall a b, key_eqb a b = false <-> a <> b.
Proof. intros a b. rewrite <- key_eqb_eq. destruct (key_eqb a b); split; congruence. Qed.
Lemma key_eqb_sym : forall a b, key_eqb a b = key_eqb b a.
Proof. intros. unfold key_eqb. rewrite (Z.eqb_sym (fst a)), (Z.eqb_sym (snd a)). reflexivity. Qed.

Lemma look_put : forall A k (x : A) l k', look k' (put k x l) = if key_eqb k' k then Some x else look k' l.
Proof.
  intros A k x l k'. induction l as [|[q y] l IH]; cbn [put look]; [reflexivity|].
  destruct (key_eqb k q) eqn:E; cbn [look].
  - apply key_eqb_eq in E. subst q. destruct (key_eqb k' k); reflexivity.
  - destruct (key_eqb k' q) eqn:F; [|exact IH]. apply key_eqb_eq in F. subst q. rewrite key_eqb_sym, E. reflexivity.
Qed.
Lemma put_put : forall A k (x y : A) l, put k y (put k x l) = put k y l.
Proof.
  intros A k x y l. induction l as [|[q z] l IH]; cbn [put]; [rewrite key_eqb_refl; reflexivity|].
  destruct (key_eqb k q) eqn:E; cbn [put]; [rewrite key_eqb_refl; reflexivity|rewrite E, IH; reflexivity].
Qed.
Lemma put_same : forall A k (x : A) l, look k l = Some x -> put k x l = l.
Proof.
  intros A k x l. induction l as [|[q z] l IH]; cbn [put look]; [discriminate|].
  destruct (key_eqb k q) eqn:E; intros H; [apply key_eqb_eq in E; congruence|rewrite IH by exact H; reflexivity].
Qed.
Lemma look_del : forall A k (l : list (key * A)) k', look k' (del k l) = if key_eqb k' k then None else look k' l.
Proof.
  intros A k l k'. unfold del. induction l as [|[q y] l IH]; cbn [filter look fst]; [destruct (key_eqb k' k); reflexivity|].
  destruct (key_eqb k q) eqn:E; cbn [negb look].
  - rewrite IH. apply key_eqb_eq in E. subst q. destruct (key_eqb k' k); reflexivity.
  - rewrite IH. destruct (key_eqb k' q) eqn:F; [|reflexivity]. apply key_eqb_eq in F. subst q. rewrite key_eqb_sym, E. reflexivity.
Qed.
Lemma look_map : forall A B (f : A -> B) k l, look k (map (fun p => (fst p, f (snd p))) l) = option_map f (look k l).
Proof. intros A B f k l. induction l as [|[q y] l IH]; cbn [map look fst snd]; [reflexivity|]. destruct (key_eqb k q); [reflexivity|exact IH]. Qed.
Lemma put_map : forall A B (f : A -> B) k x l, map (fun p => (fst p, f (snd p))) (put k x l) = put k (f x) (map (fun p => (fst p, f (snd p))) l).
Proof.
  intros A B f k x l. induction l as [|[q y] l IH]; cbn [map put fst snd]; [reflexivity|].
  destruct (key_eqb k q); cbn [map fst snd]; [reflexivity|rewrite IH; reflexivity].
Qed.
Lemma del_map : forall A B (f : A -> B) k (l : list (key * A)), map (fun p => (fst p, f (snd p))) (del k l) = del k (map (fun p => (fst p, f (snd p))) l).
Proof.
  intros A B f k l. unfold del. induction l as [|[q y] l IH]; cbn [map filter fst snd]; [reflexivity|].
  destruct (key_eqb k q); cbn [negb map fst snd]; [exact IH|rewrite IH; reflexivity].
Qed.
Definition keys {A} (l : list (key * A)) : list key := map fst l.
Lemma keys_put : forall A k (x : A) l, keys (put k x l) = match look k l with Some _ => keys l | None => keys l ++ [k] end.
Proof.
  intros A k x l. unfold keys. induction l as [|[q y] l IH]; cbn [map put look fst app]; [reflexivity|].
  destruct (key_eqb k q) eqn:E; cbn [map fst]; [apply key_eqb_eq in E; subst; reflexivity|]. rewrite IH. destruct (look k l); reflexivity.
Qed.
Lemma look_in : forall A k (x : A) l, look k l = Some x -> In (k, x) l.
Proof.
  intros A k x l. induction l as [|[q y] l IH]; cbn [look]; [discriminate|]. destruct (key_eqb k q) eqn:E; intros H.
  - apply key_eqb_eq in E. left. congruence.
  - right. exact (IH H).
Qed.
Lemma look_none : forall A k (l : list (key * A)), look k l = None <-> ~ In k (keys l).
Proof.
  intros A k l. unfold keys. induction l as [|[q y] l IH]; cbn [look map fst]; [split; [intros _ []|reflexivity]|].
  destruct (key_eqb k q) eqn:E.
  - apply key_eqb_eq in E. subst. split; [discriminate|]. intros H. exfalso. apply H. left. reflexivity.
  - apply key_eqb_neq in E. rewrite IH. cbn [In]. intuition congruence.
Qed.
Lemma in_look : forall A k (x : A) l, NoDup (keys l) -> In (k, x) l -> look k l = Some x.
Proof.
  intros A k x l. unfold keys. induction l as [|[q y] l IH]; cbn [look map fst]; [intros _ []|].
  intros N [E|E].
  - injection E as -> ->. rewrite key_eqb_refl. reflexivity.
  - inversion N as [|? ? N1 N2]; subst. destruct (key_eqb k q) eqn:F; [|exact (IH N2 E)].
    apply key_eqb_eq in F. subst q. exfalso. apply N1. apply (in_map fst) in E. exact E.
Qed.

(* ---- ip_addr_info[] ---- *)
Fixpoint idx (a : Z) (l : addrs) : option nat :=
  match l with [] => None | x :: t => if a =? fst x then Some O else option_map S (idx a t) end.
Definition nz (l : addrs) : Prop := Forall (fun x => fst x <> 0) l.

Lemma find_app : forall l r a, nz l -> (forall x, hd_error r = Some x -> s_a x = 0 \/ s_a x = a) ->
  ip_find (map slot_of l ++ r) a = match idx a l with Some i => Some i | None => option_map (Nat.add (length l)) (ip_find r a) end.
Proof.
  intros l r a N H. induction N as [|x l Nx N IH]; cbn [map app idx].
  - cbn [length]. destruct (ip_find r a); reflexivity.
  - cbn [ip_find slot_of s_a]. replace (fst x =? 0) with false by lia. destruct (a =? fst x); [reflexivity|].
    rewrite IH. destruct (idx a l); [reflexivity|]. destruct (ip_find r a); reflexivity.
Qed.
Lemma find_emb : forall c l a, nz l -> ip_find (emb c l) a = idx a l.
Proof.
  intros c l a N. unfold emb. rewrite find_app; [|exact N|].
  - destruct (idx a l); [reflexivity|]. destruct (c - length l)%nat; reflexivity.
  - intros x. destruct (c - length l)%nat; cbn [repeat hd_error]; [discriminate|]. intros E. injection E as <-. left. reflexivity.
Qed.
Lemma free_app : forall l r, nz l -> first_free (map slot_of l ++ r) = (length l + first_free r)%nat.
Proof.
  intros l r N. induction N as [|x l Nx N IH]; cbn [map app length]; [reflexivity|].
  cbn [first_free slot_of s_a]. replace (fst x =? 0) with false by lia. rewrite IH. reflexivity.
Qed.
Lemma free_emb : forall c l, nz l -> first_free (emb c l) = length l.
Proof. intros c l N. unfold emb. rewrite free_app by exact N. destruct (c - length l)%nat; cbn [repeat first_free]; [lia|]. cbn. lia. Qed.
Lemma upd_app : forall A (l r : list A) i x, upd (l ++ r) (length l + i) x = l ++ upd r i x.
Proof. intros A l. induction l as [|y l IH]; intros r i x; cbn [app length Nat.add upd]; [reflexivity|]. rewrite IH. reflexivity. Qed.
Lemma upd_map : forall (l : addrs) y r x, upd (map slot_of l ++ y :: r) (length l) x = map slot_of l ++ x :: r.
Proof. intros l y r x. rewrite <- (map_length slot_of l), <- (Nat.add_0_r (length _)), upd_app. reflexivity. Qed.
Lemma idx_in : forall a l i, idx a l = Some i -> (i < length l)%nat /\ fst (nth i l (0, 0)) = a.
Proof.
  intros a l. induction l as [|x t IH]; intros i H; cbn [idx] in H; [discriminate|].
  destruct (a =? fst x) eqn:E; cbn [length].
  - injection H as <-. cbn [nth]. lia.
  - destruct (idx a t) as [j|]; cbn [option_map] in H; [|discriminate]. injection H as <-. specialize (IH j eq_refl). cbn [nth]. lia.
Qed.
Lemma idx_none : forall a l, idx a l = None <-> ~ In a (map fst l).
Proof.
  intros a l. induction l as [|x t IH]; cbn [idx map In]; [split; [intros _ []|reflexivity]|].
  destruct (a =? fst x) eqn:E.
  - apply Z.eqb_eq in E. split; [discriminate|]. intros H. exfalso. apply H. left. lia.
  - apply Z.eqb_neq in E. destruct (idx a t); cbn [option_map]; split; try discriminate; intros H.
    + exfalso. assert (Some n = None) by (apply IH; intros W; apply H; right; exact W). discriminate.
    + intros [W|W]; [lia|]. apply IH in W; [exact W|reflexivity].
    + reflexivity.
Qed.

Lemma emb_cons : forall c x l, emb (S c) (x :: l) = slot_of x :: emb c l.
Proof. intros. unfold emb. reflexivity. Qed.
Lemma emb_last : forall c t, t <> [] -> (length t <= c)%nat ->
  nth (length t - 1) (emb c t) zslot = slot_of (last t (0, 0)) /\ upd (emb c t) (length t - 1) zslot = emb c (removelast t).
Proof.
  intros c t N H. destruct (exists_last N) as (t0 & y & ->). rewrite last_last, removelast_last, app_length in *. cbn [length] in *.
  replace (length t0 + 1 - 1)%nat with (length t0 + 0)%nat by lia. unfold emb. rewrite map_app, <- app_assoc. cbn [map app].
  split.
  - rewrite Nat.add_0_r, app_nth2; rewrite map_length; [|lia]. rewrite Nat.sub_diag. reflexivity.
  - replace (length t0 + 0)%nat with (length (map slot_of t0) + 0)%nat by (rewrite map_length; lia). rewrite upd_app. cbn [upd]. rewrite app_length. cbn [length].
    replace (c - length t0)%nat with (S (c - (length t0 + 1))) by lia. reflexivity.
Qed.
Lemma last_dflt : forall A (t : list A) d d', t <> [] -> last t d = last t d'.
Proof. intros A t d d' N. destruct (exists_last N) as (t0 & y & ->). rewrite !last_last. reflexivity. Qed.

Lemma remove_gen : forall a l c i, (length l <= c)%nat -> idx a l = Some i ->
  let f := (length l - 1)%nat in
  upd (if (f =? i)%nat then emb c l else upd (emb c l) i (nth f (emb c l) zslot)) f zslot = emb c (srem a l).
Proof.
  intros a l. induction l as [|x t IH]; intros c i H E f; cbn [idx] in E; [discriminate|].
  destruct c as [|c]; cbn [length] in H; [lia|]. subst f. cbn [length]. replace (S (length t) - 1)%nat with (length t) by lia.
  rewrite emb_cons. cbn [srem]. rewrite (Z.eqb_sym (fst x) a). destruct (a =? fst x) eqn:F.
  - injection E as <-. destruct t as [|y t].
    + cbn [length Nat.eqb upd]. unfold emb. cbn [map app length]. rewrite Nat.sub_0_r. replace (S c - 0)%nat with (S c) by lia. reflexivity.
    + remember (y :: t) as u. assert (U : u <> []) by (subst; discriminate).
      destruct (length u) as [|m] eqn:L; [subst; discriminate|]. cbn [Nat.eqb upd nth].
      destruct (emb_last c u U ltac:(lia)) as (E1 & E2). rewrite L in E1, E2. replace (S m - 1)%nat with m in E1, E2 by lia.
      rewrite E1, E2, (last_dflt _ u x (0, 0) U). rewrite emb_cons. reflexivity.
  - destruct (idx a t) as [j|] eqn:G; cbn [option_map] in E; [|discriminate]. injection E as <-.
    destruct (idx_in a t j G) as (B & _). destruct (length t) as [|m] eqn:L; [lia|].
    specialize (IH c j ltac:(lia) eq_refl). cbn zeta in IH. replace (S m - 1)%nat with m in IH by lia.
    rewrite emb_cons, <- IH. cbn [Nat.eqb]. destruct (m =? j)%nat; cbn [upd nth]; reflexivity.
Qed.
Lemma srem_notin : forall a l, ~ In a (map fst l) -> srem a l = l.
Proof.
  intros a l. induction l as [|x t IH]; intros H; cbn [srem map In] in *; [reflexivity|].
  replace (fst x =? a) with false by lia. rewrite IH by tauto. reflexivity.
Qed.
Lemma remove_emb : forall a l, nz l -> (length l < NIP)%nat -> ip_remove (emb NIP l) a = emb NIP (srem a l).
Proof.
  intros a l N H. unfold ip_remove. rewrite find_emb, free_emb by exact N. destruct (idx a l) as [i|] eqn:E.
  - replace (length l =? NIP)%nat with false by lia. apply remove_gen; [lia|exact E].
  - rewrite srem_notin by (apply idx_none; exact E). reflexivity.
Qed.

(* the address is in its place, its fields are not *)
Definition raw (l : addrs) (a : Z) : list slot := map slot_of l ++ mkSl a 0 0 :: repeat zslot (NIP - length l - 1).
Lemma add_emb : forall a l, nz l -> (length l < NIP)%nat -> ip_add (emb NIP l) a = raw l a.
Proof.
  intros a l N H. unfold ip_add. rewrite free_emb by exact N. replace (length l <? NIP)%nat with true by lia.
  unfold emb, raw. rewrite app_nth2; rewrite map_length; [|lia]. rewrite Nat.sub_diag.
  replace (NIP - length l)%nat with (S (NIP - length l - 1)) by lia. cbn [repeat nth s_ml s_bc zslot].
  rewrite upd_map.
  replace (S (NIP - length l - 1) - 1)%nat with (NIP - length l - 1)%nat by lia. reflexivity.
Qed.
Lemma find_raw : forall a l, nz l -> a <> 0 -> ~ In a (map fst l) -> ip_find (raw l a) a = Some (length l).
Proof.
  intros a l N Z H. unfold raw. rewrite find_app; [|exact N|intros x E; injection E as <-; right; reflexivity].
  rewrite (proj2 (idx_none a l) H). cbn [ip_find s_a]. replace (a =? 0) with false by lia. rewrite Z.eqb_refl. cbn [option_map]. rewrite Nat.add_0_r. reflexivity.
Qed.
Definition bcast (a n : Z) : Z := Z.lor a (4294967295 - (4294967296 - 2 ^ (32 - n))).
Lemma update_raw : forall a n l, nz l -> (length l < NIP)%nat -> a <> 0 -> ~ In a (map fst l) ->
  update_fields (raw l a) a n (bcast a n) = Some (emb NIP (l ++ [(a, n)])).
Proof.
  intros a n l N H Z A. unfold update_fields. rewrite find_raw by assumption. f_equal.
  unfold raw. rewrite app_nth2; rewrite map_length; [|lia]. rewrite Nat.sub_diag. cbn [nth s_a].
  rewrite upd_map.
  unfold emb. rewrite map_app, <- app_assoc, app_length. cbn [map app length].
  replace (NIP - length l - 1)%nat with (NIP - (length l + 1))%nat by lia. reflexivity.
Qed.
Lemma first_raw : forall a n l, nz l -> (length l < NIP)%nat -> a <> 0 -> ~ In a (map fst l) ->
  set_first (raw l a) a (bcast a n) n = emb NIP (primary a n l).
Proof.
  intros a n l N H Z A. unfold set_first. rewrite find_raw by assumption. destruct l as [|x t]; cbn [length].
  - unfold raw, emb. cbn [map app length nth s_a upd primary]. reflexivity.
  - unfold raw. cbn [map app nth primary]. cbn [upd].
    rewrite upd_map.
    unfold emb. cbn [map app length]. rewrite map_app, <- app_assoc, app_length. cbn [map app length].
    cbn [length] in H. replace (NIP - S (length t) - 1)%nat with (NIP - S (length t + 1))%nat by lia. reflexivity.
Qed.

Lemma srem_in : forall a l y, NoDup (map fst l) -> (In y (srem a l) <-> In y l /\ fst y <> a).
Proof.
  intros a l y. induction l as [|x t IH]; intros N; cbn [srem]; [split; [intros []|intros [[] _]]|].
  cbn [map] in N. inversion N as [|? ? N1 N2]; subst. destruct (fst x =? a) eqn:E.
  - apply Z.eqb_eq in E. assert (D : In y (match t with [] => [] | _ => last t x :: removelast t end) <-> In y t).
    { destruct t as [|z t]; [reflexivity|]. remember (z :: t) as u. assert (U : u <> []) by (subst; discriminate).
      destruct (exists_last U) as (u0 & w & ->). rewrite last_last, removelast_last, in_app_iff. cbn [In]. tauto. }
    rewrite D. cbn [In]. split.
    + intros H. split; [right; exact H|]. intros F. apply N1. rewrite E, <- F. apply in_map. exact H.
    + intros [[<-|H] F]; [congruence|exact H].
  - cbn [In]. rewrite (IH N2). split.
    + intros [<-|[H F]]; [split; [left; reflexivity|lia]|split; [right; exact H|exact F]].
    + intros [[<-|H] F]; [left; reflexivity|right; split; assumption].
Qed.
Lemma srem_nodup : forall a l, NoDup (map fst l) -> NoDup (map fst (srem a l)).
Proof.
  intros a l. induction l as [|x t IH]; intros N; cbn [srem]; [constructor|].
  cbn [map] in N. inversion N as [|? ? N1 N2]; subst. destruct (fst x =? a) eqn:E.
  - destruct t as [|z t]; [constructor|]. remember (z :: t) as u. assert (U : u <> []) by (subst; discriminate).
    destruct (exists_last U) as (u0 & w & ->). rewrite last_last, removelast_last. rewrite map_app in N2. cbn [map] in *.
    apply NoDup_remove in N2. rewrite app_nil_r in N2. constructor; tauto.
  - cbn [map]. constructor; [|exact (IH N2)]. intros H. apply in_map_iff in H. destruct H as (y & F & H).
    apply (srem_in a t y N2) in H. apply N1. rewrite <- F. apply in_map. tauto.
Qed.
Lemma srem_length : forall a l, In a (map fst l) -> length l = S (length (srem a l)).
Proof.
  intros a l. induction l as [|x t IH]; intros H; cbn [srem map In length] in *; [destruct H|].
  destruct (fst x =? a) eqn:E.
  - destruct t as [|z t]; [reflexivity|]. remember (z :: t) as u. assert (U : u <> []) by (subst; discriminate).
    destruct (exists_last U) as (u0 & w & ->). rewrite removelast_last, app_length. cbn [length]. lia.
  - cbn [length]. rewrite IH by (destruct H; [lia|assumption]). reflexivity.
Qed.
