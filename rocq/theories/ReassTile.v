(* Disjoint fragments covering a datagram, in any order. *)
From Coq Require Import Permutation Sorted.
From Verif Require Import Base CksumModel CksumSpec
  ReassModel ReassSpec ReassProof ReassInv ReassStep ReassRun.
Ltac Zify.zify_post_hook ::= idtac.

Definition before (f g : frag) : Prop := fr_off f < fr_off g /\ fr_off f + fr_len f <= fr_off g.
Definition dsorted := StronglySorted before.
Fixpoint ins (p : frag) (l : list frag) : list frag :=
  match l with
  | [] => [p]
  | f :: r => if fr_off p <=? fr_off f then p :: f :: r else f :: ins p r
  end.

Lemma ins_perm p l : Permutation (ins p l) (p :: l).
Proof.
  induction l as [|f l IH]; cbn [ins]; [reflexivity|].
  destruct (fr_off p <=? fr_off f); [reflexivity|]. rewrite IH. apply perm_swap.
Qed.
Lemma before_trans f g h : 0 <= fr_len g -> before f g -> before g h -> before f h.
Proof. unfold before. lia. Qed.
Lemma ins_sorted p l : dsorted l -> (forall f, In f l -> before p f \/ before f p) -> dsorted (ins p l).
Proof.
  intros S. induction S as [|f l S IH F]; intros D; cbn [ins].
  { repeat constructor. }
  destruct (Z.leb_spec (fr_off p) (fr_off f)) as [L|L].
  - assert (B : before p f) by (destruct (D f (or_introl eq_refl)) as [B|B]; [exact B|unfold before in B; lia]).
    constructor; [constructor; assumption|].
    constructor; [exact B|]. rewrite Forall_forall in F |- *. intros g Hg.
    destruct (D g (or_intror Hg)) as [X|X]; [exact X|]. specialize (F g Hg). unfold before in *. lia.
  - constructor.
    + apply IH. intros g Hg. apply D. right. exact Hg.
    + rewrite Forall_forall in F |- *. intros g Hg.
      apply (Permutation_in _ (ins_perm p l)) in Hg. destruct Hg as [<-|Hg]; [|auto].
      destruct (D f (or_introl eq_refl)) as [B|B]; [unfold before in B; lia|exact B].
Qed.

Lemma trim_disjoint : forall l p, dsorted (p :: l) -> trim p l = Ret (l, []).
Proof.
  induction l as [|f l IH]; intros p S; cbn [trim]; [reflexivity|].
  inversion S as [|? ? S' F]; subst. inversion F as [|? ? B _]; subst. unfold before in B.
  destruct (fr_off p + fr_len p - fr_off f >? 0) eqn:E; [lia|]. rewrite (IH f S'). reflexivity.
Qed.
Lemma place_disjoint : forall l p prev, dsorted l -> (forall f, In f l -> before p f \/ before f p) ->
  (forall q, prev = Some q -> before q p) -> place p prev l = Ret (Some (ins p l, [])).
Proof.
  induction l as [|f l IH]; intros p prev S D Q; cbn [place ins]; [reflexivity|].
  destruct (Z.leb_spec (fr_off p) (fr_off f)) as [L|L].
  - assert (B : dsorted (p :: f :: l)).
    { pose proof (ins_sorted p (f :: l) S D) as X. cbn [ins] in X.
      destruct (Z.leb_spec (fr_off p) (fr_off f)); [exact X|lia]. }
    rewrite (trim_disjoint _ _ B). cbn [obind].
    destruct prev as [q|]; [|reflexivity]. specialize (Q q eq_refl). unfold before in Q.
    destruct (fr_off q + fr_len q - fr_off p >? 0) eqn:E; [lia|reflexivity].
  - inversion S as [|? ? S' F]; subst. rewrite IH.
    + reflexivity.
    + exact S'.
    + intros g Hg. apply D. right. exact Hg.
    + intros q E. injection E as <-. destruct (D f (or_introl eq_refl)) as [B|B]; [unfold before in B; lia|exact B].
Qed.

Lemma sorted_related l f g : dsorted l -> In f l -> In g l -> f = g \/ before f g \/ before g f.
Proof.
  intros S. induction S as [|x l S IH F]; [intros []|]. rewrite Forall_forall in F.
  intros [<-|Hf] [<-|Hg]; auto.
Qed.
Lemma sorted_unique : forall l m, dsorted l -> dsorted m -> Permutation l m -> l = m.
Proof.
  induction l as [|f l IH]; intros m S1 S2 P.
  { apply Permutation_nil in P. congruence. }
  destruct m as [|g m]; [symmetry in P; apply Permutation_nil in P; discriminate|].
  inversion S1 as [|? ? S1' F1]; inversion S2 as [|? ? S2' F2]; subst.
  rewrite Forall_forall in F1, F2.
  assert (f = g).
  { assert (In f (g :: m)) as [E|H1] by (apply (Permutation_in _ P); left; reflexivity); [congruence|].
    assert (In g (f :: l)) as [E|H2] by (apply (Permutation_in _ (Permutation_sym P)); left; reflexivity); [congruence|].
    specialize (F1 g H2). specialize (F2 f H1). unfold before in *. lia. }
  subst g. f_equal. apply IH; [assumption|assumption|]. exact (Permutation_cons_inv P).
Qed.
Lemma sorted_nodup_off l : dsorted l -> NoDup (map fr_off l).
Proof.
  intros S. induction S as [|x l S IH F]; cbn [map]; constructor; [|exact IH].
  rewrite Forall_forall in F. intros H. apply in_map_iff in H. destruct H as (g & E & Hg).
  specialize (F g Hg). unfold before in F. lia.
Qed.

(* ---- tilings ---- *)
Lemma frag_begin_div p : exists k, frag_begin p = 8 * k.
Proof. unfold frag_begin. eauto. Qed.
Lemma frag_len_pos p : pkt_wf p -> 0 <= frag_len p.
Proof. intros (W & L & _). unfold frag_len. lia. Qed.

Lemma tiles_cons n p q r : tiles n (p :: q :: r) ->
  frag_begin p = n /\ more_frags p = true /\ 0 < frag_len p /\ tiles (n + frag_len p) (q :: r).
Proof. intros H. exact H. Qed.
Lemma tiles_head n p r : tiles n (p :: r) -> frag_begin p = n.
Proof. destruct r; intros H; [exact (proj1 H)|apply tiles_cons in H; tauto]. Qed.

Lemma tiles_bounds : forall ps n p, tiles n ps -> Forall pkt_wf ps -> In p ps -> n <= frag_begin p.
Proof.
  induction ps as [|x ps IH]; intros n p H W HI; [destruct HI|]. destruct HI as [<-|HI].
  - rewrite (tiles_head _ _ _ H). lia.
  - destruct ps as [|y ps]; [destruct HI|]. apply tiles_cons in H. inversion W as [|? ? W1 W2]; subst.
    destruct H as (A & B & C & D). specialize (IH _ p D W2 HI). lia.
Qed.
Lemma tiles_mf : forall ps n p, tiles n ps -> In p ps -> more_frags p = true ->
  0 < frag_len p /\ frag_len p mod 8 = 0.
Proof.
  induction ps as [|x ps IH]; intros n p H HI M; [destruct HI|].
  destruct ps as [|y ps].
  - destruct H as [_ H]. destruct HI as [<-|[]]. congruence.
  - apply tiles_cons in H. destruct H as (A & B & C & D). destruct HI as [<-|HI]; [|exact (IH _ p D HI M)].
    split; [exact C|]. pose proof (tiles_head _ _ _ D) as E.
    destruct (frag_begin_div x) as (k1 & K1). destruct (frag_begin_div y) as (k2 & K2).
    replace (frag_len x) with ((k2 - k1) * 8) by lia. apply Z.mod_mul. lia.
Qed.
Lemma tiles_sorted : forall ps n, tiles n ps -> Forall pkt_wf ps -> dsorted (map new_frag ps).
Proof.
  induction ps as [|x ps IH]; intros n H W; [destruct H|].
  inversion W as [|? ? W1 W2]; subst. destruct ps as [|y ps]; [repeat constructor|].
  apply tiles_cons in H. destruct H as (A & B & C & D).
  cbn [map]. constructor; [exact (IH _ D W2)|].
  change (Forall (before (new_frag x)) (map new_frag (y :: ps))).
  apply Forall_forall. intros g Hg. apply in_map_iff in Hg. destruct Hg as (q & <- & Hq).
  pose proof (tiles_bounds _ _ q D W2 Hq) as Bq. rewrite Forall_forall in W2. specialize (W2 q Hq).
  unfold before. rewrite !new_frag_off, new_frag_len by assumption. lia.
Qed.

Lemma piece_new p : pkt_wf p -> piece (new_frag p) = frag_payload p.
Proof. intros W. unfold piece. rewrite new_frag_len by exact W. reflexivity. Qed.
Lemma payload_new ps : Forall pkt_wf ps -> payload (map new_frag ps) = datagram ps.
Proof.
  intros W. unfold payload, datagram. f_equal. rewrite map_map. apply map_ext_in.
  intros p Hp. apply piece_new. rewrite Forall_forall in W. auto.
Qed.
Lemma mf_flag p s : fr_flags s = fr_flags (new_frag p) -> Z.land (fr_flags s) OFP_IP_MF =? 0 = negb (more_frags p).
Proof.
  intros E. rewrite E. cbn [new_frag fr_flags]. destruct (more_frags p) eqn:M; unfold more_frags in M; cbn [negb].
  - apply Z.eqb_neq. intros X. apply flag_val in X. congruence.
  - apply Z.eqb_eq. apply flag_val. exact M.
Qed.

Lemma frag_payload_len p : pkt_wf p -> zlen (frag_payload p) = frag_len p.
Proof.
  intros W. unfold frag_payload. change (zlen (ztake (frag_len p) (p_data p)) = frag_len p).
  apply zlen_ztake. pose proof (frag_len_pos p W). destruct W as (_ & _ & L). unfold zlen. lia.
Qed.

Lemma complete_all : forall ps n s, tiles n ps -> Forall pkt_wf ps ->
  complete n s (map new_frag ps) = Some (n + zlen (datagram ps)).
Proof.
  induction ps as [|x ps IH]; intros n s H W; [destruct H|].
  inversion W as [|? ? W1 W2]; subst. cbn [map complete].
  rewrite new_frag_off, new_frag_len by assumption. rewrite (tiles_head _ _ _ H), Z.eqb_refl.
  unfold datagram. cbn [map concat]. rewrite zlen_app, (frag_payload_len x W1).
  destruct ps as [|y ps].
  - cbn [map concat complete]. destruct H as [_ M]. rewrite (mf_flag x (new_frag x) eq_refl), M. cbn [negb].
    f_equal. unfold zlen. cbn [length]. lia.
  - apply tiles_cons in H. destruct H as (A & B & C & D). rewrite (IH _ _ D W2). unfold datagram. f_equal. lia.
Qed.
(* a sorted part of the tiling is complete only if it is all of it *)
Lemma complete_part : forall ps n s F t, tiles n ps -> Forall pkt_wf ps -> dsorted F -> F <> [] ->
  (forall f, In f F -> In f (map new_frag ps)) -> complete n s F = Some t -> F = map new_frag ps.
Proof.
  induction ps as [|x ps IH]; intros n s F t H W S NE SUB C; [destruct H|].
  inversion W as [|? ? W1 W2]; subst.
  destruct F as [|f F]; [congruence|]. cbn [complete] in C.
  destruct (Z.eqb_spec (fr_off f) n) as [EO|]; [|discriminate].
  inversion S as [|? ? S' FF]; subst. rewrite Forall_forall in FF.
  assert (EF : f = new_frag x).
  { destruct (SUB f (or_introl eq_refl)) as [E|Hf]; [congruence|]. exfalso.
    destruct ps as [|y ps]; [destruct Hf|]. apply tiles_cons in H. destruct H as (A & B & D & E).
    change (In f (map new_frag (y :: ps))) in Hf.
    apply in_map_iff in Hf. destruct Hf as (q & <- & Hq). pose proof (tiles_bounds _ _ q E W2 Hq) as X.
    rewrite Forall_forall in W2. rewrite new_frag_off in * by auto. lia. }
  subst f.
  assert (SUB' : forall g, In g F -> In g (map new_frag ps)).
  { intros g Hg. destruct (SUB g (or_intror Hg)) as [E|X]; [|exact X]. exfalso.
    specialize (FF g Hg). subst g. unfold before in FF. lia. }
  cbn [map]. f_equal. destruct F as [|g F].
  - cbn [complete] in C. rewrite (mf_flag x (new_frag x) eq_refl) in C.
    destruct ps as [|y ps]; [reflexivity|]. apply tiles_cons in H. destruct H as (_ & M & _). rewrite M in C. discriminate.
  - destruct ps as [|y ps]; [destruct (SUB' g (or_introl eq_refl))|].
    apply tiles_cons in H. destruct H as (A & B & D & E).
    rewrite new_frag_len in C by assumption.
    refine (IH _ _ (g :: F) t E W2 S' _ SUB' C). discriminate.
Qed.

(* ---- chains of the datagram ---- *)
Lemma sdb_key a b : same_datagramb a b = true <-> key a = key b.
Proof.
  unfold same_datagramb, key. rewrite !andb_true_iff, !Z.eqb_eq. split.
  - intros [[[-> ->] ->] ->]. reflexivity.
  - intros E. injection E as -> -> -> ->. auto.
Qed.
Lemma find_chain_key a b l : key a = key b -> find_chain a l = find_chain b l.
Proof.
  intros E. assert (M : forall c, chain_matches a c = chain_matches b c).
  { intros c. apply eq_true_iff_eq. rewrite !matches_iff, E. reflexivity. }
  induction l as [|c l IH]; cbn [find_chain]; [reflexivity|]. rewrite M, IH. reflexivity.
Qed.
Lemma queued_key st a b : key a = key b -> queued st a = queued st b.
Proof.
  intros E. unfold queued. rewrite (find_chain_key a b _ E).
  injection E as E1 E2 _ _. rewrite E1, E2. reflexivity.
Qed.
Lemma look_none h a : (forall x, In x a -> ckey x <> Some (key h)) -> look h a = None.
Proof.
  induction a as [|c a IH]; intros H; [reflexivity|]. rewrite look_cons.
  destruct (chain_matches h c) eqn:M; [apply matches_iff in M; destruct (H c (or_introl eq_refl) M)|].
  apply IH. intros x Hx. apply H. right. exact Hx.
Qed.
Lemma nodup_none (a b : list chain) c h : NoDup (map ckey (a ++ c :: b)) -> ckey c = Some (key h) ->
  (forall x, In x (a ++ b) -> ckey x <> Some (key h)).
Proof.
  intros ND CK x Hx E. rewrite map_app in ND. cbn [map] in ND. apply NoDup_remove_2 in ND.
  apply ND. rewrite CK, <- E, <- map_app. apply in_map. exact Hx.
Qed.

Section Tile.
Variable ps : list ippkt.
Variable h : iphdr.
Hypothesis Htile : tiles 0 ps.
Hypothesis Hwf : Forall pkt_wf ps.
Hypothesis Hkey : forall p, In p ps -> key (p_hdr p) = key h.
Hypothesis Hcnt : (2 <= length ps <= 17)%nat.
Hypothesis Hsize : forall p, In p ps -> 4 * h_hl (p_hdr p) + zlen (datagram ps) <= 65535.

Definition J (S : list ippkt) (st : reass) : Prop :=
  match S with
  | [] => queued st h = None
  | _ => exists c, queued st h = Some c /\ c_nfrags c = Z.of_nat (length S) /\
         Permutation (c_frags c) (map new_frag S) /\ dsorted (c_frags c)
  end.

Lemma J_other be hist S st p st' e : step_ok be hist st p st' e -> key (p_hdr p) <> key h -> J S st -> J S st'.
Proof.
  intros O N. unfold J. pose proof (step_other be hist st p st' e h O N) as E.
  destruct S; rewrite E; auto.
Qed.

Lemma wf_in p : In p ps -> pkt_wf p.
Proof. rewrite Forall_forall in Hwf. auto. Qed.

Lemma disjoint_new S p rest : Permutation (S ++ p :: rest) ps ->
  forall f, In f (map new_frag S) -> before (new_frag p) f \/ before f (new_frag p).
Proof.
  intros P f Hf.
  pose proof (tiles_sorted ps 0 Htile Hwf) as SS.
  pose proof (sorted_nodup_off _ SS) as ND.
  assert (P' : Permutation (map fr_off (map new_frag ps)) (map fr_off (map new_frag (S ++ p :: rest)))).
  { apply Permutation_map, Permutation_map. symmetry. exact P. }
  apply (Permutation_NoDup P') in ND.
  rewrite !map_app in ND. cbn [map] in ND. apply NoDup_remove_2 in ND.
  assert (I1 : In (new_frag p) (map new_frag ps)).
  { apply in_map. apply (Permutation_in _ P). apply in_app_iff. right. left. reflexivity. }
  assert (I2 : In f (map new_frag ps)).
  { apply in_map_iff in Hf. destruct Hf as (q & <- & Hq). apply in_map. apply (Permutation_in _ P).
    apply in_app_iff. left. exact Hq. }
  destruct (sorted_related _ _ _ SS I1 I2) as [E|[B|B]]; [|auto|auto].
  exfalso. apply ND. rewrite E. apply in_app_iff. left. apply in_map. exact Hf.
Qed.

Lemma mf_guard p : In p ps ->
  negb (Z.land (h_off (p_hdr p)) OFP_IP_MF =? 0) &&
  ((u16 (h_len (p_hdr p) - 4 * h_hl (p_hdr p)) =? 0) || negb (Z.land (u16 (h_len (p_hdr p) - 4 * h_hl (p_hdr p))) 7 =? 0)) = false.
Proof.
  intros Hp. pose proof (wf_in p Hp) as W.
  pose proof (new_frag_len p W) as EL. cbn [new_frag fr_len] in EL. rewrite EL.
  destruct (more_frags p) eqn:M.
  - destruct (tiles_mf ps 0 p Htile Hp M) as [L8 D8].
    change 7 with (Z.ones 3). rewrite Z.land_ones by lia. change (2 ^ 3) with 8. rewrite D8.
    destruct (Z.eqb_spec (frag_len p) 0); [lia|]. apply andb_false_r.
  - assert (X : Z.land (h_off (p_hdr p)) OFP_IP_MF = 0).
    { unfold more_frags in M. apply flag_val in M. rewrite <- M, <- Z.land_assoc. reflexivity. }
    rewrite X. reflexivity.
Qed.

Lemma own_step be al junk hist st S p rest : RInv hist st -> J S st ->
  Permutation (S ++ p :: rest) ps -> r_nipq st <= 1024 ->
  exists st' e, ip_reass be al junk true st p = Ret (st', e) /\ step_ok be hist st p st' e /\
    (rest <> [] -> ef_ret e = None /\ J (S ++ [p]) st') /\
    (rest = [] -> exists d, ef_ret e = Some d /\ whole be h ps d /\ queued st' h = None).
Proof.
  intros R HJ P HN.
  assert (Hp : In p ps) by (apply (Permutation_in _ P), in_app_iff; right; left; reflexivity).
  pose proof (wf_in p Hp) as W. pose proof (Hkey p Hp) as EK.
  destruct (step_total be al junk true hist st p R W) as (st' & e & E & O).
  exists st', e. split; [exact E|]. split; [exact O|].
  unfold ip_reass in E. rewrite (mf_guard p Hp) in E.
  destruct (Z.gtb_spec (r_nipq st) maxnipq) as [X|_]; [unfold maxnipq in X; lia|]. cbn [negb] in E.
  fold (hash_of p) in E. fold (new_frag p) in E.
  pose proof (find_chain_spec (p_hdr p) (r_q st (hash_of p))) as FS.
  assert (CO : queued st h = look (p_hdr p) (r_q st (hash_of p))).
  { rewrite <- (queued_key st _ _ EK). reflexivity. }
  unfold look in CO.
  assert (QH : forall st1, queued st1 h = look (p_hdr p) (r_q st1 (hash_of p))).
  { intros st1. rewrite <- (queued_key st1 _ _ EK). reflexivity. }
  destruct S as [|s0 S0].
  - (* the first fragment *)
    cbn [J] in HJ. rewrite HJ in CO.
    destruct (find_chain (p_hdr p) (r_q st (hash_of p))) as [[[a c] b]|]; [discriminate|].
    injection E as <- <-. cbn [app] in P.
    split; [intros _|intros ->; apply Permutation_length in P; cbn [length] in P; lia].
    split; [reflexivity|]. cbn [app J]. eexists. rewrite QH. cbn [r_q]. rewrite rupd_same, look_cons.
    assert (M : forall n t, chain_matches (p_hdr p) (mkC [new_frag p] n t) = true) by (intros; apply matches_iff; reflexivity).
    rewrite M. split; [reflexivity|]. cbn [c_nfrags c_frags length map]. split; [reflexivity|]. split; [reflexivity|].
    repeat constructor.
  - destruct HJ as (c & HC & HNF & HP & HS). rewrite HC in CO.
    destruct (find_chain (p_hdr p) (r_q st (hash_of p))) as [[[a c0] b]|]; [|discriminate].
    injection CO as <-. destruct FS as [EQ CK].
    set (S := s0 :: S0) in *.
    assert (D : forall f, In f (c_frags c) -> before (new_frag p) f \/ before f (new_frag p)).
    { intros f Hf. apply (disjoint_new S p rest P). apply (Permutation_in _ HP Hf). }
    rewrite (place_disjoint _ _ None HS D) in E by discriminate. cbn [obind length] in E.
    pose proof (ins_sorted _ _ HS D) as SI. pose proof (ins_perm (new_frag p) (c_frags c)) as PI.
    assert (PF : Permutation (ins (new_frag p) (c_frags c)) (map new_frag (S ++ [p]))).
    { rewrite PI, HP, map_app. cbn [map]. apply Permutation_cons_append. }
    pose proof (nodup_none a b c (p_hdr p)) as NN.
    assert (ND : NoDup (map ckey (a ++ c :: b))) by (rewrite <- EQ; apply (ri_nd _ _ R)).
    specialize (NN ND CK).
    assert (LEN : (length S + 1 + length rest = length ps)%nat).
    { apply Permutation_length in P. rewrite app_length in P. cbn [length] in P. lia. }
    assert (SUBI : forall f, In f (ins (new_frag p) (c_frags c)) -> In f (map new_frag ps)).
    { intros f Hf. apply (Permutation_in _ PF) in Hf. apply in_map_iff in Hf. destruct Hf as (q & <- & Hq).
      apply in_map. apply (Permutation_in _ P). rewrite in_app_iff in *. cbn [In] in *. tauto. }
    assert (NEI : ins (new_frag p) (c_frags c) <> []).
    { intros X. rewrite X in PI. apply Permutation_length in PI. discriminate. }
    set (nf := u8 (u8 (c_nfrags c + 1) - Z.of_nat 0)) in E.
    assert (ENF : nf = Z.of_nat (length S + 1)).
    { unfold nf. rewrite HNF. unfold u8. change (Z.of_nat 0) with 0. rewrite Z.sub_0_r, Z.mod_mod by lia. rewrite Z.mod_small by lia. lia. }
    split.
    + intros NR.
      assert (1 <= length rest)%nat by (destruct rest; [congruence|cbn; lia]).
      destruct (complete 0 0 (ins (new_frag p) (c_frags c))) as [t|] eqn:EC.
      { exfalso. pose proof (complete_part ps 0 0 _ t Htile Hwf SI NEI SUBI EC) as X.
        apply (f_equal (@length _)) in X. rewrite map_length in X.
        apply Permutation_length in PF. rewrite map_length, app_length in PF. cbn [length] in PF. lia. }
      destruct (Z.gtb_spec nf maxfragsperpacket) as [X|_]; [unfold maxfragsperpacket in X; lia|].
      injection E as <- <-. split; [reflexivity|].
      assert (EJ : forall st1, (exists c', queued st1 h = Some c' /\ c_nfrags c' = Z.of_nat (length (S ++ [p])) /\
         Permutation (c_frags c') (map new_frag (S ++ [p])) /\ dsorted (c_frags c')) -> J (S ++ [p]) st1).
      { intros st1 X. exact X. }
      apply EJ. eexists. rewrite QH. cbn [r_q]. rewrite rupd_same, look_app, look_none, look_cons.
      2:{ intros x Hx. apply NN. apply in_app_iff. auto. }
      assert (M : forall n t, chain_matches (p_hdr p) (mkC (ins (new_frag p) (c_frags c)) n t) = true).
      { intros n t. apply matches_iff. pose proof (so_inv _ _ _ _ _ _ O) as RI.
        apply fok_ckey; [|exact NEI]. apply Forall_forall. intros f Hf. specialize (SUBI f Hf).
        apply in_map_iff in SUBI. destruct SUBI as (q & <- & Hq). rewrite EK, <- (Hkey q Hq). apply new_frag_ok, wf_in, Hq. }
      rewrite M. split; [reflexivity|]. cbn [c_nfrags c_frags]. split; [rewrite ENF, app_length; reflexivity|].
      split; [exact PF|exact SI].
    + intros ->. rewrite app_nil_r in P || idtac.
      assert (PP : Permutation (ins (new_frag p) (c_frags c)) (map new_frag ps)).
      { rewrite PF. apply Permutation_map. exact P. }
      pose proof (sorted_unique _ _ SI (tiles_sorted ps 0 Htile Hwf) PP) as EI.
      rewrite EI, (complete_all ps 0 0 Htile Hwf) in E. cbn [Z.add] in E.
      pose proof (Hsize p Hp) as HZ.
      destruct (Z.gtb_spec (zlen (datagram ps) + 4 * h_hl (p_hdr p)) 65535) as [X|_]; [lia|].
      destruct ps as [|p1 ps1] eqn:EPS; [destruct Htile|]. rewrite <- EPS in *.
      assert (EM : map new_frag ps = new_frag p1 :: map new_frag ps1) by (rewrite EPS; reflexivity).
      rewrite EM in E.
      assert (H1 : In p1 ps) by (rewrite EPS; left; reflexivity).
      pose proof (wf_in p1 H1) as W1. destruct (new_frag_ok p1 W1) as [(_ & FL1 & FL2) _].
      destruct (Z.ltb_spec (zlen (fr_data (new_frag p1))) (fr_len (new_frag p1))) as [X|_]; [lia|].
      assert (FO : Forall (fok (KK (key h))) (map new_frag ps1)).
      { apply Forall_forall. intros f Hf. apply in_map_iff in Hf. destruct Hf as (q & <- & Hq).
        assert (Hq' : In q ps) by (rewrite EPS; right; exact Hq).
        rewrite <- (Hkey q Hq'). apply new_frag_ok, wf_in, Hq'. }
      destruct (add_frags_ok (KK (key h)) (TT hist) (KK_cut _) (TT_cut _) (map new_frag ps1) (fr_data (new_frag p1)) (fr_len (new_frag p1)) FO)
        as (data & EA & LD & TD); [lia|].
      assert (Hwf1 : Forall pkt_wf ps1) by (rewrite EPS in Hwf; inversion Hwf; assumption).
      assert (ED : datagram ps = piece (new_frag p1) ++ payload (map new_frag ps1)).
      { rewrite (piece_new p1 W1), (payload_new ps1 Hwf1), EPS. reflexivity. }
      assert (EL : fr_len (new_frag p1) + zlen (payload (map new_frag ps1)) = zlen (datagram ps)).
      { rewrite ED, zlen_app. unfold piece. rewrite zlen_ztake by lia. reflexivity. }
      rewrite EL in EA, TD. rewrite EA in E. cbn [obind] in E.
      assert (WH1 : hdr_wf (p_hdr p1)) by (destruct W1; assumption).
      destruct (finish_hdr_ok be al (p_hdr p1) (4 * h_hl (p_hdr p1) + zlen (datagram ps)) WH1)
        as (hd' & FH & FK & F1 & F2 & F3 & F5 & F6 & F7 & F4).
      cbn [new_frag fr_hdr] in E. rewrite FH in E. cbn [obind] in E.
      injection E as <- <-. eexists. split; [reflexivity|]. split.
      * unfold whole. cbn [p_hdr p_data].
        split.
        { change (piece (new_frag p1)) with (ztake (fr_len (new_frag p1)) (fr_data (new_frag p1))) in ED.
          rewrite <- ED in TD. unfold ztake, zlen in TD. rewrite Nat2Z.id in TD. exact TD. }
        split; [apply key_same_datagram; rewrite FK; exact (Hkey p1 H1)|].
        split; [|split; [exact F3|exact F4]].
        rewrite F2, F1. unfold zlen. apply Z.mod_small. pose proof (Hsize p1 H1). pose proof (hw_hl _ WH1).
        unfold zlen in *. lia.
      * rewrite QH. cbn [r_q]. rewrite rupd_same. apply look_none. exact NN.
Qed.

Lemma own_app a b : own h (a ++ b) = own h a ++ own h b.
Proof. apply filter_app. Qed.

Lemma own_run : forall evs hist st S rest, RInv hist st -> J S st -> arrivals_wf evs ->
  Forall (undisturbed h) evs -> Permutation (S ++ own h (arrivals evs) ++ rest) ps -> rest <> [] ->
  r_nipq st + Z.of_nat (length evs) <= 1024 ->
  exists st' es, rrun st evs = Ret (st', es) /\ RInv (hist ++ arrivals evs) st' /\
    J (S ++ own h (arrivals evs)) st' /\ (forall d, In d (returned es) -> ~ same_datagram (p_hdr d) h) /\
    r_nipq st' <= r_nipq st + Z.of_nat (length evs).
Proof.
  induction evs as [|ev evs IH]; intros hist st S rest R HJ W U P NR NQ.
  { exists st, []. cbn [rrun arrivals]. rewrite !app_nil_r. split; [reflexivity|]. split; [exact R|].
    split; [exact HJ|]. split; [intros d []|]. lia. }
  inversion U as [|? ? U1 U2]; subst. cbn [length] in NQ.
  destruct ev as [be al junk pushed p|]; cbn [undisturbed] in U1; [|destruct U1].
  unfold arrivals_wf in W. cbn [arrivals] in W, P |- *. inversion W as [|? ? W1 W2]; subst.
  cbn [own filter] in P. fold (own h (arrivals evs)) in P.
  destruct (same_datagramb (p_hdr p) h) eqn:ES.
  - rewrite (U1 eq_refl). cbn [app] in P.
    destruct (own_step be al junk hist st S p (own h (arrivals evs) ++ rest) R HJ P) as (st1 & e & E & O & A & _); [lia|].
    destruct A as [A1 A2].
    { intros X. apply app_eq_nil in X. tauto. }
    pose proof (so_bucket _ _ _ _ _ _ O) as SB. apply bucket_step_len in SB.
    destruct (IH (hist ++ [p]) st1 (S ++ [p]) rest (so_inv _ _ _ _ _ _ O) A2 W2 U2) as (st2 & es & E2 & R2 & J2 & D2 & N2).
    { rewrite <- app_assoc. exact P. } { exact NR. } { lia. }
    exists st2, (e :: es). cbn [rrun rstep]. rewrite E. cbn [obind]. rewrite E2. cbn [obind].
    split; [reflexivity|]. rewrite <- app_assoc in R2. split; [exact R2|].
    cbn [own filter]. rewrite ES. fold (own h (arrivals evs)). rewrite <- app_assoc in J2. split; [exact J2|].
    split.
    + intros d Hd. unfold returned in Hd. cbn [flat_map] in Hd. rewrite A1 in Hd. exact (D2 d Hd).
    + cbn [length]. lia.
  - assert (NK : key (p_hdr p) <> key h) by (intros X; apply sdb_key in X; congruence).
    destruct (step_total be al junk pushed hist st p R W1) as (st1 & e & E & O).
    pose proof (so_bucket _ _ _ _ _ _ O) as SB. apply bucket_step_len in SB.
    destruct (IH (hist ++ [p]) st1 S rest (so_inv _ _ _ _ _ _ O) (J_other _ _ _ _ _ _ _ O NK HJ) W2 U2 P NR)
      as (st2 & es & E2 & R2 & J2 & D2 & N2); [lia|].
    exists st2, (e :: es). cbn [rrun rstep]. rewrite E. cbn [obind]. rewrite E2. cbn [obind].
    split; [reflexivity|]. rewrite <- app_assoc in R2. split; [exact R2|].
    cbn [own filter]. rewrite ES. fold (own h (arrivals evs)). split; [exact J2|].
    split.
    + intros d Hd. unfold returned in Hd. cbn [flat_map] in Hd. fold (returned es) in Hd.
      apply in_app_iff in Hd. destruct Hd as [Hd|Hd]; [|exact (D2 d Hd)].
      destruct (ef_ret e) as [d'|] eqn:ER; [|destruct Hd]. destruct Hd as [<-|[]].
      destruct (so_ret _ _ _ _ _ _ O d' ER) as (total & SD & _).
      intros X. apply NK. unfold same_datagram in *. unfold key.
      destruct SD as (-> & -> & -> & ->) || destruct SD as (Q1 & Q2 & Q3 & Q4).
      destruct X as (X1 & X2 & X3 & X4). congruence.
    + cbn [length]. lia.
Qed.

Lemma rrun_app : forall a b st, rrun st (a ++ b) =
  obind (rrun st a) (fun '(st1, es) => obind (rrun st1 b) (fun '(st2, es2) => Ret (st2, es ++ es2))).
Proof.
  induction a as [|ev a IH]; intros b st; cbn [app rrun obind].
  { destruct (rrun st b) as [[? ?]| |]; reflexivity. }
  destruct (rstep st ev) as [[st1 e]| |]; cbn [obind]; [|reflexivity|reflexivity].
  rewrite IH. destruct (rrun st1 a) as [[st2 es]| |]; cbn [obind]; [|reflexivity|reflexivity].
  destruct (rrun st2 b) as [[st3 es']| |]; reflexivity.
Qed.

Lemma own_whole evs be al junk p hist st : RInv hist st -> queued st h = None -> arrivals_wf evs ->
  Forall (undisturbed h) evs -> Permutation (own h (arrivals evs) ++ [p]) ps ->
  r_nipq st + Z.of_nat (length evs) <= 1024 ->
  exists st' es e d, rrun st (evs ++ [Arrive be al junk true p]) = Ret (st', es ++ [e]) /\
    (forall x, In x (returned es) -> ~ same_datagram (p_hdr x) h) /\
    ef_ret e = Some d /\ whole be h ps d /\ queued st' h = None.
Proof.
  intros R HC W U P N.
  destruct (own_run evs hist st [] [p] R HC W U) as (st1 & es & E & R1 & J1 & D1 & N1); [exact P|discriminate|lia|].
  cbn [app] in J1.
  destruct (own_step be al junk _ st1 _ p [] R1 J1 P) as (st2 & e & E2 & O & _ & B); [lia|].
  destruct (B eq_refl) as (d & ER & WD & CN).
  exists st2, es, e, d. rewrite rrun_app, E. cbn [obind rrun rstep]. rewrite E2. cbn [obind].
  auto.
Qed.
End Tile.
