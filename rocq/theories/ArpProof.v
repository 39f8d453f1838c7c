From Verif Require Import Base ArpModel ArpSpec.
From Coq Require Import Permutation.
Ltac Zify.zify_post_hook ::= idtac.

Definition rng (c : acfg) (i : nat) := (1 <= i <= nent c)%nat.
Definition entok (e : aent) : Prop :=
  if e_used e then 0 <= e_vrf e < 65536 /\ (e_compl e = true -> e_pkts e = []) /\ 0 <= e_ref e < 4294967296
  else e_compl e = false /\ e_man e = false /\ e_ptmo e = false /\ e_utmo e = false /\ e_pkts e = [] /\ e_ref e = 0.

Record inv (c : acfg) (s : arp) : Prop := mkInv {
  i_fnd : NoDup (afree s);
  i_fre : forall i, In i (afree s) <-> rng c i /\ e_used (ents s i) = false;
  i_tnd : forall st, NoDup (tab s st);
  i_tab : forall st i, In i (tab s st) <-> rng c i /\ e_used (ents s i) = true /\ hash c (e_vrf (ents s i)) (e_ip (ents s i)) = st;
  i_unq : forall i j, rng c i -> rng c j -> e_used (ents s i) = true -> e_used (ents s j) = true ->
          e_vrf (ents s i) = e_vrf (ents s j) -> e_ip (ents s i) = e_ip (ents s j) -> i = j;
  i_cac : forall st, cache s st = 0%nat \/ In (cache s st) (tab s st);
  i_ent : forall i, rng c i -> entok (ents s i);
  i_zero : e_vrf (ents s 0%nat) = 16843009 /\ e_compl (ents s 0%nat) = true /\ e_ref (ents s 0%nat) <> 0
}.
Definition pool (c : acfg) (s : arp) : Prop := pfree s + Z.of_nat (length (waiting c s)) = NPKT /\ 0 <= pfree s.

Lemma nupd_same {A} (f : nat -> A) i x : nupd f i x i = x.
Proof. unfold nupd. now rewrite Nat.eqb_refl. Qed.
Lemma nupd_other {A} (f : nat -> A) i j x : j <> i -> nupd f i x j = f j.
Proof. unfold nupd. intros H. destruct (Nat.eqb_spec j i); congruence. Qed.
Ltac nu i j := destruct (Nat.eq_dec j i) as [->|?]; [rewrite ?nupd_same in * | rewrite ?(nupd_other _ i j) in * by assumption].

Lemma keyeq_iff e v ip : keyeq e v ip = true <-> e_vrf e = v /\ e_ip e = ip.
Proof. unfold keyeq. rewrite andb_true_iff, !Z.eqb_eq. tauto. Qed.
Lemma keyeq_0 c s v ip : inv c s -> 0 <= v < 65536 -> keyeq (ents s 0%nat) v ip = false.
Proof. intros I H. destruct (i_zero _ _ I) as [Hv _]. unfold keyeq. rewrite Hv. replace (16843009 =? v) with false by lia. reflexivity. Qed.

(* an entry changed in fields that do not name it *)
Lemma inv_setE c s i e :
  inv c s -> rng c i -> e_vrf e = e_vrf (ents s i) -> e_ip e = e_ip (ents s i) -> e_used e = e_used (ents s i) -> entok e ->
  inv c (setE s i e).
Proof.
  intros [A B C D E F G H] R K1 K2 K3 K4.
  assert (X : forall j, e_vrf (nupd (ents s) i e j) = e_vrf (ents s j) /\ e_ip (nupd (ents s) i e j) = e_ip (ents s j) /\
              e_used (nupd (ents s) i e j) = e_used (ents s j)).
  { intros j. nu i j; auto. }
  constructor; cbn [setE ents afree tab cache]; auto.
  - intros j. destruct (X j) as (_ & _ & ->). apply B.
  - intros st j. destruct (X j) as (-> & -> & ->). apply D.
  - intros j k. destruct (X j) as (-> & -> & ->). destruct (X k) as (-> & -> & ->). apply E.
  - intros j Rj. nu i j; auto.
  - unfold rng in R. rewrite nupd_other by lia. exact H.
Qed.
Lemma inv_setP c s n : inv c s -> inv c (setP s n).
Proof. intros [A B C D E F G H]. now constructor. Qed.
Lemma inv_setC c s st i : inv c s -> i = 0%nat \/ In i (tab s st) -> inv c (setC s st i).
Proof.
  intros [A B C D E F G H] K. constructor; cbn [setC ents afree tab cache]; auto.
  intros st'. nu st st'; auto.
Qed.

Lemma find_some_iff {A} (f : A -> bool) l x : find f l = Some x -> In x l /\ f x = true.
Proof. apply find_some. Qed.

Lemma lookup_some c s v ip i : inv c s -> arp_lookup s (hash c v ip) v ip = Some i <-> names c s i v ip.
Proof.
  intros I. unfold arp_lookup, names. split.
  - intros H. apply find_some in H. destruct H as [H1 H2]. apply (i_tab _ _ I) in H1. apply keyeq_iff in H2. unfold rng in H1. tauto.
  - intros (R & U & V & P).
    assert (X : In i (tab s (hash c v ip))). { apply (i_tab _ _ I). rewrite V, P. unfold rng. auto. }
    destruct (find _ _) eqn:Fd.
    + apply find_some in Fd. destruct Fd as [F1 F2]. apply (i_tab _ _ I) in F1. apply keyeq_iff in F2.
      destruct F1 as (F1 & F3 & _). f_equal. apply (i_unq _ _ I); destruct F2; auto; congruence.
    + apply (find_none _ _ Fd) in X. assert (keyeq (ents s i) v ip = true) by (apply keyeq_iff; auto). congruence.
Qed.
Lemma lookup_none c s v ip : inv c s -> arp_lookup s (hash c v ip) v ip = None -> forall i, ~ names c s i v ip.
Proof. intros I H i N. apply (lookup_some _ _ _ _ _ I) in N. congruence. Qed.
Lemma names_unq c s v ip i j : inv c s -> names c s i v ip -> names c s j v ip -> i = j.
Proof. intros I (R & U & V & P) (R' & U' & V' & P'). apply (i_unq _ _ I); auto; congruence. Qed.
Lemma namesb_iff c s v ip i : namesb c s v ip i = true <-> names c s i v ip.
Proof. unfold namesb, names. rewrite !andb_true_iff, !Nat.leb_le, keyeq_iff. tauto. Qed.

(* --- insert_new_entry --- *)
Definition fresh_e (v ip t : Z) := mkE v ip true false false 0 [] false false t 0.
Lemma insert_new_spec c s v ip cok s1 r : inv c s -> 0 <= v < 65536 ->
  insert_new_entry s (hash c v ip) v ip cok = (s1, r) ->
  inv c s1 /\ pfree s1 = pfree s /\
  match r with
  | None => s1 = s /\ afree s = [] /\ forall i, ~ names c s i v ip
  | Some i => names c s1 i v ip /\
      ((s1 = s) \/ ((forall j, ~ names c s j v ip) /\ rng c i /\ e_used (ents s i) = false /\
         exists t, forall j, ents s1 j = nupd (ents s) i (fresh_e v ip t) j))
  end.
Proof.
  intros I Hv. unfold insert_new_entry. destruct (arp_lookup s (hash c v ip) v ip) as [i|] eqn:L.
  - intros [= <- <-]. split; [auto|]. split; [auto|]. split; [now apply lookup_some|auto].
  - pose proof (lookup_none _ _ _ _ I L) as NN. unfold entry_alloc.
    destruct (afree s) as [|i fr] eqn:F.
    + intros [= <- <-]. auto.
    + assert (X : rng c i /\ e_used (ents s i) = false). { apply (i_fre _ _ I). rewrite F. now left. }
      destruct X as [R U]. pose proof (i_ent _ _ I i R) as EO. unfold entok in EO. rewrite U in EO.
      destruct EO as (E1 & E2 & E3 & E4 & E5 & E6).
      unfold entry_reset. rewrite E3, E4. cbn [andb orb]. intros [= <- <-].
      assert (Ee : forall f, ents (setT (setE (setF (setE s i f) fr) i (fresh_e v ip (e_time (ents s i)))) (hash c v ip) (i :: tab s (hash c v ip))) = nupd (nupd (ents s) i f) i (fresh_e v ip (e_time (ents s i)))) by reflexivity.
      cbn [setT setE setF ents tab afree cache pfree e_vrf e_ip e_used e_compl e_man e_mac e_pkts e_ptmo e_utmo e_time e_ref]. rewrite nupd_same.
      cbn [setT setE setF ents tab afree cache pfree e_vrf e_ip e_used e_compl e_man e_mac e_pkts e_ptmo e_utmo e_time e_ref].
      fold (fresh_e v ip (e_time (ents s i))).
      set (en := nupd (nupd (ents s) i _) i (fresh_e v ip (e_time (ents s i)))).
      assert (EN : forall j, en j = nupd (ents s) i (fresh_e v ip (e_time (ents s i))) j).
      { intros j. unfold en, nupd. destruct (Nat.eqb j i); reflexivity. }
      split; [|split; [reflexivity|]].
      * pose proof (i_fnd _ _ I) as ND. rewrite F in ND. apply NoDup_cons_iff in ND. destruct ND as [NI ND].
        constructor; cbn [setT setE setF setP setC ents afree tab cache].
        -- auto.
        -- intros j. rewrite EN. pose proof (i_fre _ _ I j) as B. rewrite F in B. nu i j.
           ++ cbn. split; [intros; contradiction|intros [? [=]]].
           ++ rewrite <- B. cbn. split; [auto|intros [?|?]; congruence].
        -- intros st. nu (hash c v ip) st; [|apply (i_tnd _ _ I)]. constructor; [|apply (i_tnd _ _ I)].
           intros Y. apply (i_tab _ _ I) in Y. destruct Y as (_ & Y & _). congruence.
        -- intros st j. rewrite EN. pose proof (i_tab _ _ I st j) as B.
           nu i j.
           ++ cbn. nu (hash c v ip) st.
              ** split; auto. intros _. now left.
              ** split; [intros Y; apply B in Y; destruct Y as (_ & Y & _); congruence|intros (_ & _ & Y); congruence].
           ++ nu (hash c v ip) st; [|apply B]. cbn [In]. rewrite B. split; [intros [?|?]; [congruence|auto]|auto].
        -- intros j k. rewrite !EN. intros Rj Rk. nu i j; nu i k; cbn; intros; auto.
           ++ exfalso. apply (NN k). split; [auto|]. auto.
           ++ exfalso. apply (NN j). split; [auto|]. auto.
           ++ apply (i_unq _ _ I); auto.
        -- intros st. destruct (i_cac _ _ I st) as [?|Y]; [now left|right]. nu (hash c v ip) st; auto. now right.
        -- intros j Rj. rewrite EN. nu i j; [|now apply (i_ent _ _ I)]. cbn. repeat split; auto; lia.
        -- rewrite EN. unfold rng in R. rewrite nupd_other by lia. apply (i_zero _ _ I).
      * split.
        -- unfold names. cbn [setT setE setF ents]. fold en. rewrite EN, nupd_same. cbn. auto.
        -- right. split; [auto|]. split; [auto|]. split; [auto|]. exists (e_time (ents s i)).
           exact EN.
Qed.

(* --- removal --- *)
Lemma NoDup_app1 {A} (l : list A) x : NoDup l -> ~ In x l -> NoDup (l ++ [x]).
Proof.
  intros H N. apply (Permutation_NoDup (l := x :: l)); [|now constructor].
  rewrite Permutation_app_comm. reflexivity.
Qed.
Lemma rm1_some i l : In i l -> NoDup l -> exists l', rm1 i l = Some l' /\ NoDup l' /\ forall j, In j l' <-> In j l /\ j <> i.
Proof.
  induction l as [|a l IH]; intros H N; [destruct H|]. apply NoDup_cons_iff in N. destruct N as [N1 N2]. cbn [rm1].
  destruct (Nat.eqb_spec a i) as [->|Ne].
  - exists l. split; [auto|]. split; [auto|]. intros j. cbn. split; [intros Y; split; [auto|intros ->; contradiction]|intros [[?|?] ?]; congruence].
  - destruct H as [?|H]; [congruence|]. destruct (IH H N2) as (l' & -> & M1 & M2). exists (a :: l'). split; [auto|]. split.
    + constructor; auto. rewrite M2. tauto.
    + intros j. cbn. rewrite M2. split; [intros [<-|?]; tauto|tauto].
Qed.

Definition freed_e (e : aent) := mkE (e_vrf e) (e_ip e) false false false (e_mac e) [] false false (e_time e) (e_ref e).
Lemma remove_unref_spec c s i : inv c s -> rng c i -> e_ref (ents s i) = 0 -> e_used (ents s i) = true ->
  exists s1, remove_unref s (hash c (e_vrf (ents s i)) (e_ip (ents s i))) i = Ret (s1, e_pkts (ents s i)) /\ inv c s1 /\
    (forall j, ents s1 j = nupd (ents s) i (freed_e (ents s i)) j) /\
    pfree s1 = pfree s + Z.of_nat (length (e_pkts (ents s i))) /\
    (forall st j, In j (tab s1 st) <-> In j (tab s st) /\ j <> i).
Proof.
  intros I R Z0 U. unfold remove_unref.
  replace ((e_ref (ents s i) =? 0) && e_used (ents s i)) with true by (rewrite Z0, U; reflexivity).
  set (e := ents s i). set (st := hash c (e_vrf e) (e_ip e)).
  set (s1 := setP _ _). unfold remove_entry.
  assert (E1 : ents s1 i = mkE (e_vrf e) (e_ip e) (e_used e) (e_compl e) (e_man e) (e_mac e) []
                  (e_ptmo e) (e_utmo e) (e_time e) (e_ref e)) by (unfold s1; cbn; now rewrite nupd_same).
  rewrite E1. cbn [e_vrf e_ip e_used e_compl e_man e_mac e_pkts e_ptmo e_utmo e_time e_ref].
  assert (V : 0 <= e_vrf e < 65536). { pose proof (i_ent _ _ I i R) as X. unfold entok in X. rewrite U in X. tauto. }
  set (hit := keyeq (ents s1 (cache s1 st)) (e_vrf e) (e_ip e)).
  assert (HIT : cache s st = i -> hit = true).
  { intros H. unfold hit. change (cache s1 st) with (cache s st). rewrite H, E1. apply keyeq_iff. auto. }
  set (s2 := if hit then setC s1 st 0%nat else s1).
  assert (T2 : tab s2 = tab s) by (unfold s2; destruct hit; reflexivity).
  assert (F2 : afree s2 = afree s) by (unfold s2; destruct hit; reflexivity).
  assert (N2 : ents s2 = ents s1) by (unfold s2; destruct hit; reflexivity).
  assert (P2 : pfree s2 = pfree s1) by (unfold s2; destruct hit; reflexivity).
  assert (IT : In i (tab s st)). { apply (i_tab _ _ I). fold e. auto. }
  destruct (rm1_some i (tab s st) IT (i_tnd _ _ I st)) as (l & RM & NDl & Inl).
  rewrite T2, RM. cbn [obind]. eexists. split; [reflexivity|].
  unfold entry_free. cbn [setF setE setT ents tab afree cache pfree]. rewrite nupd_same.
  cbn [e_vrf e_ip e_used e_compl e_man e_mac e_pkts e_ptmo e_utmo e_time e_ref].
  assert (EN : forall j f, nupd (nupd (ents s2) i f) i (freed_e e) j = nupd (ents s) i (freed_e e) j).
  { intros j f. rewrite N2. unfold s1, nupd. cbn. unfold nupd. destruct (Nat.eqb j i); reflexivity. }
  fold (freed_e e).
  assert (TB : forall st' j, In j (nupd (tab s2) st l st') <-> In j (tab s st') /\ j <> i).
  { intros st' j. rewrite T2. nu st st'; [apply Inl|]. split; [intros Y; split; [auto|]|tauto].
    intros ->. apply (i_tab _ _ I) in Y. fold e in Y. destruct Y as (_ & _ & Y). fold st in Y. congruence. }
  split; [|split; [intros j; apply EN|split; [rewrite P2; reflexivity|exact TB]]].
  constructor; cbn [setT setE setF setP setC ents afree tab cache].
  - rewrite F2. apply NoDup_app1; [apply (i_fnd _ _ I)|]. intros Y. apply (i_fre _ _ I) in Y. fold e in Y. destruct Y as [_ Y].
    unfold e in *. congruence.
  - intros j. rewrite EN, F2, in_app_iff, (i_fre _ _ I j). nu i j.
    + cbn. split; auto.
    + cbn. split; [intros [?|[?|[]]]; [auto|congruence]|auto].
  - intros st'. rewrite T2. nu st st'; [auto|apply (i_tnd _ _ I)].
  - intros st' j. rewrite TB, EN, (i_tab _ _ I st' j). nu i j; [|tauto]. cbn. split; [tauto|intros (_ & [=] & _)].
  - intros j k Rj Rk. rewrite !EN. nu i j; [cbn; discriminate|]. nu i k; [cbn; discriminate|]. now apply (i_unq _ _ I).
  - intros st'. assert (Ca : cache s2 st' = 0%nat \/ (cache s2 st' = cache s st' /\ cache s st' <> i)).
    { unfold s2. destruct hit eqn:Hh.
      - cbn. nu st st'; [auto|]. change (cache s1 st') with (cache s st').
        destruct (i_cac _ _ I st') as [?|Y]; [auto|right; split; [auto|]]. intros Q. rewrite Q in Y. apply (i_tab _ _ I) in Y. fold e in Y. destruct Y as (_ & _ & Y). fold st in Y. congruence.
      - change (cache s1 st') with (cache s st').
        destruct (i_cac _ _ I st') as [?|Y]; [auto|right; split; [auto|]]. intros Q.
        assert (st' = st). { rewrite Q in Y. apply (i_tab _ _ I) in Y. fold e in Y. unfold st. symmetry. tauto. }
        subst st'. specialize (HIT Q). congruence. }
    destruct Ca as [?|[-> Q]]; [auto|]. destruct (i_cac _ _ I st') as [?|Y]; [auto|right]. apply TB. auto.
  - intros j Rj. rewrite EN. nu i j; [|now apply (i_ent _ _ I)]. cbn. repeat split; auto.
  - rewrite EN. unfold rng in R. rewrite nupd_other by lia. apply (i_zero _ _ I).
Qed.

