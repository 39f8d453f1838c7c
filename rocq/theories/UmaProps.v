(* C36: memory zones. *)
From Verif Require Import Base UmaModel.
Ltac Zify.zify_post_hook ::= idtac.

(* The specification: which zones exist. zones is the history as (zone, pool)
   of the creations that succeeded, most recent first; dead the zones
   destroyed. *)
Record zspec := mkZ { zones : list (Z * Z); dead : list Z; items : list Z }.
Definition alive (s : zspec) (z p : Z) : Prop := In (z, p) (zones s) /\ ~ In z (dead s).
Definition is_dead (s : zspec) (z : Z) : bool := existsb (Z.eqb z) (dead s).
Definition pool_of (s : zspec) (z : Z) : option Z :=
  option_map snd (find (fun x => fst x =? z) (zones s)).
(* what each call must return *)
Definition zstep (s : zspec) (c : ucall) : option (zspec * ures) :=
  match c with
  | UCreate p =>
    let n := Z.of_nat (length (zones s)) in
    match p with
    | Some p => if n <? 32 then Some (mkZ ((n, p) :: zones s) (dead s) (items s), RZone n) else Some (s, RZone (-1))
    | None => Some (s, RZone (-1))
    end
  | UDestroy z o =>
    match pool_of s z with
    | Some p => if is_dead s z then Some (s, RDestroy None (-1)) else Some (mkZ (zones s) (z :: dead s) (items s), RDestroy (Some p) o)
    | None => Some (s, RDestroy None (-1))
    end
  | UAlloc z o =>
    match pool_of s z with
    | Some p => if is_dead s z then None       (* use after destroy: not specified *)
                else match o p with Some b => Some (mkZ (zones s) (dead s) (b :: items s), RItem (Some b)) | None => Some (s, RItem None) end
    | None => Some (s, RItem None)
    end
  | UFree i => if existsb (Z.eqb i) (items s) then Some (s, RFreed i) else None   (* only items that were handed out *)
  end.
Fixpoint zrun (s : zspec) (cs : list ucall) : option (zspec * list ures) :=
  match cs with
  | [] => Some (s, [])
  | c :: r => match zstep s c with None => None | Some (s1, x) =>
              match zrun s1 r with None => None | Some (s2, xs) => Some (s2, x :: xs) end end
  end.

Definition zin (z : Z) : Prop := z <> 32.
Definition call_ok (c : ucall) : Prop := match c with UDestroy z _ => z <> 32 | _ => True end.

Record UI (u : uma) (s : zspec) : Prop := {
  ui_len : length (pools u) = 32%nat;
  ui_num : num_pools u = Z.of_nat (length (zones s)) /\ (length (zones s) <= 32)%nat;
  ui_key : forall z, pool_of s z <> None <-> 0 <= z < num_pools u;
  ui_pool : forall z, 0 <= z < 32 -> nth_error (pools u) (Z.to_nat z) =
     Some (if is_dead s z then None else pool_of s z);
  ui_dead : forall z, is_dead s z = true -> pool_of s z <> None;
  ui_meta : forall i, In i (items s) -> meta u i = Some i
}.

Lemma nth_put {A} (l : list A) i j x : (i < length l)%nat -> nth_error (put i x l) j = if (j =? i)%nat then Some x else nth_error l j.
Proof.
  revert i j. induction l as [|y l IH]; intros i j H; cbn [length] in H; [lia|].
  destruct i as [|i], j as [|j]; cbn [put nth_error Nat.eqb]; try reflexivity. apply IH. lia.
Qed.
Lemma put_length {A} (l : list A) i x : length (put i x l) = length l.
Proof. revert i. induction l as [|y l IH]; intros [|i]; cbn; auto. Qed.

Lemma step_spec u s c s' x : UI u s -> call_ok c -> zstep s c = Some (s', x) ->
  exists u', ustep u c = Ret (u', x) /\ UI u' s'.
Proof.
  intros [L [N1 N2] K P D M] HC E. destruct c as [np|z o|z o|i]; cbn [zstep ustep call_ok] in *.
  - unfold uma_create. rewrite N1. unfold NPOOLS. destruct np as [p|].
    + destruct (Z.ltb_spec (Z.of_nat (length (zones s))) 32) as [G|G]; injection E as <- <-.
      * destruct (Z.geb_spec (Z.of_nat (length (zones s))) 32); [lia|].
        destruct (Z.ltb_spec (Z.of_nat (length (zones s))) 0); [lia|]. destruct (Z.leb_spec 32 (Z.of_nat (length (zones s)))); [lia|].
        cbn [orb obind]. eexists. split; [reflexivity|].
        set (n := Z.of_nat (length (zones s))) in *.
        assert (PN : forall z, pool_of (mkZ ((n, p) :: zones s) (dead s) (items s)) z = if n =? z then Some p else pool_of s z).
        { intros z. unfold pool_of. cbn [zones find fst]. destruct (n =? z); reflexivity. }
        assert (NN : pool_of s n = None).
        { destruct (pool_of s n) eqn:Q; [|reflexivity]. assert (X : pool_of s n <> None) by congruence. apply K in X. lia. }
        assert (ND : is_dead s n = false).
        { destruct (is_dead s n) eqn:Q; [|reflexivity]. apply D in Q. congruence. }
        split; cbn [pools num_pools meta zones items].
        -- rewrite put_length. exact L.
        -- cbn [length]. split; lia.
        -- intros z. rewrite PN. destruct (Z.eqb_spec n z) as [<-|X].
           ++ split; [lia|discriminate].
           ++ rewrite K, N1. lia.
        -- intros z Hz. rewrite nth_put by lia. rewrite PN. unfold is_dead. cbn [dead]. fold (is_dead s z).
           destruct (Nat.eqb_spec (Z.to_nat z) (Z.to_nat n)) as [Q|Q].
           ++ assert (z = n) as -> by lia. rewrite ND, Z.eqb_refl. reflexivity.
           ++ destruct (Z.eqb_spec n z) as [<-|X]; [congruence|]. apply P. exact Hz.
        -- intros z Hz. rewrite PN. destruct (n =? z); [discriminate|]. apply D. exact Hz.
        -- exact M.
      * destruct (Z.geb_spec (Z.of_nat (length (zones s))) 32); [|lia]. cbn [obind]. eexists. split; [reflexivity|]. split; auto.
    + injection E as <- <-. destruct (Z.of_nat (length (zones s)) >=? 32); cbn [obind]; eexists; (split; [reflexivity|]); split; auto.
  - unfold uma_destroy, NPOOLS. destruct (pool_of s z) as [p|] eqn:PZ.
    + assert (R : 0 <= z < num_pools u) by (apply K; congruence).
      destruct (Z.gtb_spec z 32); [lia|]. destruct (Z.ltb_spec z 0); [lia|]. cbn [orb].
      rewrite P by lia. rewrite PZ. destruct (is_dead s z) eqn:DZ; injection E as <- <-; cbn [obind].
      * eexists. split; [reflexivity|]. split; auto.
      * eexists. split; [reflexivity|]. split; cbn [pools num_pools meta zones items]; auto.
        -- rewrite put_length. exact L.
        -- intros y Hy. rewrite nth_put by lia. unfold is_dead. cbn [dead existsb]. fold (is_dead s y).
           destruct (Nat.eqb_spec (Z.to_nat y) (Z.to_nat z)) as [Q|Q].
           ++ assert (y = z) as -> by lia. rewrite Z.eqb_refl. reflexivity.
           ++ destruct (Z.eqb_spec y z) as [->|X]; [congruence|]. cbn [orb]. apply P. exact Hy.
        -- intros y Hy. unfold is_dead in Hy. cbn [dead existsb] in Hy. fold (is_dead s y) in Hy.
           change (pool_of s y <> None).
           destruct (Z.eqb_spec y z) as [E|X]; [rewrite E; congruence|]. apply D. exact Hy.
    + injection E as <- <-. destruct (Z.gtb_spec z 32); cbn [orb obind]; [eexists; split; [reflexivity|split; auto]|].
      destruct (Z.ltb_spec z 0); cbn [obind]; [eexists; split; [reflexivity|split; auto]|].
      rewrite P by lia. rewrite PZ. destruct (is_dead s z); cbn [obind]; (eexists; split; [reflexivity|split; auto]).
  - unfold uma_alloc. destruct (pool_of s z) as [p|] eqn:PZ.
    + assert (R : 0 <= z < num_pools u) by (apply K; congruence).
      destruct (Z.ltb_spec z 0); [lia|]. destruct (Z.geb_spec z (num_pools u)); [lia|]. cbn [orb].
      rewrite P by lia. rewrite PZ. destruct (is_dead s z) eqn:DZ; [discriminate|].
      destruct (o p) as [b|]; injection E as <- <-; cbn [obind]; eexists; (split; [reflexivity|]); split; cbn [pools num_pools meta items zones]; auto.
      intros i [<-|Hi]; [rewrite Z.eqb_refl; reflexivity|]. destruct (Z.eqb_spec i b) as [->|]; [reflexivity|]. apply M. exact Hi.
    + injection E as <- <-. assert (X : ~ (0 <= z < num_pools u)) by (intros X; apply K in X; congruence).
      destruct (Z.ltb_spec z 0); cbn [orb]; [cbn [obind]; eexists; split; [reflexivity|split; auto]|].
      destruct (Z.geb_spec z (num_pools u)); [|lia]. cbn [obind]. eexists. split; [reflexivity|split; auto].
  - unfold uma_free. destruct (existsb (Z.eqb i) (items s)) eqn:X; [|discriminate]. injection E as <- <-.
    apply existsb_exists in X. destruct X as (j & Hj & Ej). apply Z.eqb_eq in Ej. subst j. rewrite (M i Hj). cbn [obind].
    eexists. split; [reflexivity|]. split; auto.
Qed.

(* Every history whose behaviour is specified (no allocation from a destroyed
   zone, only allocated items freed) and in which zone 32 is not destroyed
   behaves as specified: a zone names its own pool until it is destroyed,
   allocation from a zone never created fails, an item is returned to the
   buffer it came from. *)
Theorem uma_zones_partial :
  forall cs s xs, Forall call_ok cs -> zrun (mkZ [] [] []) cs = Some (s, xs) ->
  exists u, urun uma_init cs = Ret (u, xs).
Proof.
  assert (G : forall cs u s s' xs, UI u s -> Forall call_ok cs -> zrun s cs = Some (s', xs) ->
              exists u', urun u cs = Ret (u', xs)).
  { induction cs as [|c cs IH]; intros u s s' xs I F E; cbn [zrun urun] in *.
    - injection E as <- <-. eauto.
    - destruct (zstep s c) as [[s1 x]|] eqn:E1; [|discriminate]. destruct (zrun s1 cs) as [[s2 ys]|] eqn:E2; [|discriminate].
      injection E as <- <-. inversion F as [|? ? F1 F2]; subst.
      destruct (step_spec u s c s1 x I F1 E1) as (u1 & E3 & I1). rewrite E3. cbn [obind].
      destruct (IH u1 s1 s2 ys I1 F2 E2) as (u2 & E4). rewrite E4. cbn [obind]. eauto. }
  intros cs s xs F E. apply (G cs uma_init (mkZ [] [] []) s xs); try assumption.
  split; cbn.
  - reflexivity.
  - split; [reflexivity|lia].
  - intros z. split; [intros H; contradiction H; reflexivity|lia].
  - intros z Hz. change (repeat None (Z.to_nat NPOOLS)) with (repeat (@None Z) 32).
    assert (X : (Z.to_nat z < 32)%nat) by lia. rewrite (nth_error_nth' _ None) by (rewrite repeat_length; exact X).
    f_equal. apply nth_repeat.
  - discriminate.
  - intros i [].
Qed.
(* zone 32, one past the table, is read *)
Theorem uma_destroy_past_end_refuted : forall o, ustep uma_init (UDestroy 32 o) = UB.
Proof. reflexivity. Qed.
(* allocating from a destroyed zone passes an invalid pool to ODP *)
Theorem uma_alloc_after_destroy_refuted :
  forall o, urun uma_init [UCreate (Some 7); UDestroy 0 0; UAlloc 0 o] = UB.
Proof. reflexivity. Qed.

Example uma_example :
  let cs := [UCreate (Some 7); UCreate (Some 8); UAlloc 1 (fun p => Some (p * 10)); UAlloc 2 (fun _ => Some 1); UFree 80;
             UDestroy 0 0; UDestroy 0 0; UCreate (Some 9)] in
  Forall call_ok cs /\
  option_map snd (zrun (mkZ [] [] []) cs) =
  Some [RZone 0; RZone 1; RItem (Some 80); RItem None; RFreed 80; RDestroy (Some 7) 0; RDestroy None (-1); RZone 2].
Proof. split; [repeat constructor; cbn; lia|reflexivity]. Qed.
Print Assumptions uma_zones_partial.
Print Assumptions uma_destroy_past_end_refuted.
Print Assumptions uma_alloc_after_destroy_refuted.
