(* Connections: induction over the history. *)
From Coq Require Import Permutation Sorted.
From Verif Require Import Base TcpSeqModel TcpReassModel TcpReassSpec TcpReassProof.
Ltac Zify.zify_post_hook ::= idtac.

Lemma data_step B hw ms al cr acc N A g st st' e :
  Inv B acc N st -> acceptable N A g -> at_pos B A (i_data g) -> 0 < ms -> 0 <= hw ->
  tcp_data hw ms al cr st g = Ret (st', e) ->
  step_ok B (acc_of e A g acc) N st [i_uid g] st' e /\
  Z.of_nat (length (segq st')) <= Z.max (Z.of_nat (length (segq st))) (hw / ms + 1) /\
  (te_drop e = true -> st' = st /\ ((segqlen st >= hw / ms + 1 \/ al = false) /\ (i_seq g <> rcv_nxt st \/ estab st = false))).
Proof.
  intros HI HA HB Hms Hhw. unfold tcp_data.
  destruct (segq st) as [|q r] eqn:EQ; [|rewrite <- EQ; apply reass_step; assumption].
  destruct ((i_seq g =? rcv_nxt st) && estab st) eqn:EB; [|rewrite <- EQ; apply reass_step; assumption].
  apply andb_true_iff in EB. destruct EB as [E1 E2]. apply Z.eqb_eq in E1.
  destruct HI as [HN HL (l & HQ & HO & HH & HC & HCV)]. destruct HA as (GS & GA & GE & GL).
  assert (A = N).
  { rewrite GS, HN in E1. pose proof (seqno_eq A N) as X. rewrite E1, Z.eqb_refl in X. symmetry in X.
    apply Z.eqb_eq. apply X. lia. }
  subst A. intros Q. injection Q as <- <-.
  set (e := mkTE _ _ _ _ _ _ _).
  assert (BE : bytes_of e = i_data g) by (unfold bytes_of, e; cbn; apply app_nil_r).
  assert (NB : nbytes e = i_len g) by (unfold nbytes; rewrite BE; lia).
  split; [|split].
  - split; rewrite ?NB, ?BE; cbn [estab segq e te_alloc te_zfree te_drop acc_of te_freed].
    + split; cbn [rcv_nxt segqlen segq]; [rewrite HN; apply seqno_add|rewrite HL, EQ; reflexivity|].
      exists []. split; [reflexivity|]. split; [constructor|]. split; [constructor|]. split; [constructor|].
      intros x (A0 & g0 & [E0|I0] & R0); [injection E0 as <- <-; lia|].
      rewrite EQ in HQ. destruct l as [|y l]; [|discriminate].
      destruct (HCV x) as [H|(a & [] & _)]; [exists A0, g0; auto|lia].
    + exact HB.
    + reflexivity.
    + unfold uids_q. rewrite EQ. cbn [segq map app]. reflexivity.
    + rewrite EQ. reflexivity.
    + intros _ _. exact I.
    + lia.
  - cbn [segq length]. apply Z.le_max_l.
  - cbn [e te_drop]. discriminate.
Qed.

Lemma est_step B acc N st call cr st' e :
  Inv B acc N st -> tstep st (Establish call cr) = Ret (st', e) ->
  Inv B acc (N + nbytes e) st' /\ at_pos B N (bytes_of e) /\ estab st' = true /\
  Permutation (uids_q st' ++ te_freed e ++ uids_out e) (uids_q st) /\
  te_alloc e - te_zfree e = Z.of_nat (length (segq st')) - Z.of_nat (length (segq st)) /\
  (call = true -> settled (N + nbytes e) st') /\ te_drop e = false /\
  (length (segq st') <= length (segq st))%nat.
Proof.
  intros [HN HL (l & HQ & HO & HH & HC & HCV)]. unfold tstep, tcp_reass.
  set (st1 := mkTcb _ _ _ true). destruct call; intros Q.
  - injection Q as Q. pose proof (present_ok B cr acc N st1 l [] 0 0 0 [] (euids l)) as P. cbv zeta in P. rewrite Q in P.
    destruct (P HN HQ) with (n0 := Z.of_nat (length l)) as (P1 & P2 & P3 & P4 & P5 & P6 & P7 & P8 & P9 & P10 & P11); try assumption.
    + cbn [segqlen st1]. rewrite HL, HQ, map_length. reflexivity.
    + left. exact HH.
    + rewrite app_nil_r. reflexivity.
    + rewrite heap_count_all by exact HH. lia.
    + split; [exact P1|]. split; [exact P2|]. split; [exact P3|]. unfold uids_q at 2. rewrite HQ, map_uid, map_length.
      split; [exact P4|]. split; [exact P5|]. split; [intros _; apply P6; reflexivity|]. auto.
  - injection Q as <- <-. assert (Z0 : N + nbytes (mkTE [] [] 0 0 false 0 false) = N) by (unfold nbytes, bytes_of; cbn [te_out map concat length]; lia).
    rewrite Z0. split; [split; [exact HN|exact HL|exists l; auto]|].
    split; [apply at_pos_nil|]. split; [reflexivity|]. split; [unfold uids_out; cbn [te_freed te_out map]; rewrite app_nil_r; reflexivity|].
    split; [cbn [te_alloc te_zfree segq st1]; lia|]. split; [discriminate|]. split; [reflexivity|]. cbn [segq st1]. lia.
Qed.

Lemma delivered_app es e : delivered (es ++ [e]) = delivered es ++ bytes_of e.
Proof. unfold delivered. rewrite map_app, concat_app. cbn [map concat]. rewrite app_nil_r. reflexivity. Qed.

Definition freed_all (es : list teff) := concat (map te_freed es).
Definition out_all (es : list teff) := concat (map uids_out es).
Lemma concat_app1 {X Y} (f : X -> list Y) es e : concat (map f (es ++ [e])) = concat (map f es) ++ f e.
Proof. rewrite map_app, concat_app. cbn [map concat]. rewrite app_nil_r. reflexivity. Qed.
Lemma zsum_app1 f (es : list teff) e : zsum (map f (es ++ [e])) = zsum (map f es) + f e.
Proof.
  induction es as [|x es IH]; unfold zsum in *; cbn [app map fold_right] in *; lia.
Qed.

Lemma conn_inv B n0 est0 acc drp st N es : conn B n0 est0 acc drp st N es ->
  Inv B acc N st /\ N = n0 + Z.of_nat (length (delivered es)) /\ at_pos B n0 (delivered es) /\
  Permutation (uids_q st ++ freed_all es ++ out_all es) (map (fun x => i_uid (snd x)) acc ++ map i_uid drp) /\
  zsum (map te_alloc es) - zsum (map te_zfree es) = Z.of_nat (length (segq st)).
Proof.
  induction 1 as [|acc drp st N es A g hw ms al cr st' e C (I1 & I2 & I3 & I4 & I5) HA HB Hms Hhw HD
                  |acc drp st N es call cr st' e C (I1 & I2 & I3 & I4 & I5) HD].
  - split.
    { split; [reflexivity|reflexivity|]. exists []. split; [reflexivity|]. split; [constructor|]. split; [constructor|].
      split; [constructor|]. intros x (A0 & g0 & [] & _). }
    split; [cbn; lia|]. split; [apply at_pos_nil|]. split; reflexivity.
  - destruct (data_step B hw ms al cr acc N A g st st' e I1 HA HB Hms Hhw HD) as ([S1 S2 S3 S4 S5 S6 S7] & _ & _).
    split; [exact S1|]. rewrite delivered_app, app_length. split; [unfold nbytes; lia|].
    split; [apply at_pos_app; [exact I3|rewrite <- I2; exact S2]|].
    split.
    { unfold freed_all, out_all. rewrite !concat_app1. fold (freed_all es) (out_all es).
      transitivity ((uids_q st' ++ te_freed e ++ uids_out e) ++ freed_all es ++ out_all es).
      { rewrite <- !app_assoc. apply Permutation_app_head.
        rewrite (Permutation_app_comm (freed_all es)). rewrite <- !app_assoc. apply Permutation_app_head.
        rewrite (Permutation_app_comm (out_all es)). rewrite <- !app_assoc. apply Permutation_app_head.
        reflexivity. }
      rewrite S4. cbn [app]. rewrite I4. destruct (te_drop e); cbn [map app snd]; [apply Permutation_middle|reflexivity]. }
    rewrite !zsum_app1. lia.
  - destruct (est_step B acc N st call cr st' e I1 HD) as (S1 & S2 & S3 & S4 & S5 & S6 & S7 & S8).
    split; [exact S1|]. rewrite delivered_app, app_length. split; [unfold nbytes; lia|].
    split; [apply at_pos_app; [exact I3|rewrite <- I2; exact S2]|].
    split.
    { unfold freed_all, out_all. rewrite !concat_app1. fold (freed_all es) (out_all es).
      transitivity ((uids_q st' ++ te_freed e ++ uids_out e) ++ freed_all es ++ out_all es).
      { rewrite <- !app_assoc. apply Permutation_app_head.
        rewrite (Permutation_app_comm (freed_all es)). rewrite <- !app_assoc. apply Permutation_app_head.
        rewrite (Permutation_app_comm (out_all es)). rewrite <- !app_assoc. apply Permutation_app_head.
        reflexivity. }
      rewrite S4, I4. reflexivity. }
    rewrite !zsum_app1. lia.
Qed.

Lemma ranges_of B N lo l hi : lo <= hi -> Forall (ok B N) l -> chained l -> Forall (fun x => lo <= fst x) l ->
  Forall (fun x => en x <= hi) l -> ranges lo hi (map snd l).
Proof.
  revert lo. induction l as [|x l IH]; intros lo H HO HC HL HH; [exact H|].
  inversion HO; inversion HC; inversion HL; inversion HH; subst. cbn [map ranges].
  match goal with X : ok B N x |- _ => pose proof X as (ES & EL & _) end.
  exists (fst x). split; [assumption|]. split; [exact ES|]. split; [exact EL|].
  apply IH; try assumption.
Qed.

Lemma inv_ranges B acc N st : Inv B acc N st -> ranges N (N + 2147483647) (segq st).
Proof.
  intros [HN HL (l & HQ & HO & HH & HC & HCV)]. rewrite HQ. apply (ranges_of B N); try assumption; [lia|apply (fst_ge_ok B); exact HO|].
  rewrite Forall_forall in *. intros x Hx. destruct (HO x Hx) as (_ & _ & _ & L & _). lia.
Qed.

Lemma settled_gap B acc N st : Inv B acc N st -> settled N st -> ~ received_at acc N.
Proof.
  intros [HN HL (l & HQ & HO & HH & HC & HCV)] HS R.
  destruct (HCV N R) as [H|(a & Ha & R2)]; [lia|]. unfold settled in HS. rewrite HQ in HS.
  destruct l as [|y l]; [destruct Ha|]. cbn [map] in HS.
  inversion HO as [|? ? O1 O2]; inversion HC as [|? ? C1 C2]; subst.
  destruct O1 as (ES & EL & L1 & L2 & _). destruct Ha as [<-|Ha].
  - apply HS. rewrite ES. f_equal. lia.
  - rewrite Forall_forall in C2. specialize (C2 a Ha). cbn beta in C2.
    assert (fst y = N) by (unfold en in C2; lia). apply HS. rewrite ES. f_equal. lia.
Qed.

Lemma stack_free B acc N st : Inv B acc N st -> Forall (fun q => s_stack q = false) (segq st).
Proof.
  intros [HN HL (l & HQ & HO & HH & HC & HCV)]. rewrite HQ, Forall_map. exact HH.
Qed.

Lemma at_pos_stream f n0 d : at_pos (fun x b => b = f x) n0 d -> d = stream_from f n0 (Z.of_nat (length d)).
Proof.
  intros H. unfold stream_from. rewrite Nat2Z.id.
  revert n0 H. induction d as [|b d IH]; intros n0 H; [reflexivity|].
  cbn [length seq map]. f_equal.
  - rewrite (H 0%nat b eq_refl). f_equal.
  - rewrite <- seq_shift, map_map. rewrite (IH (n0 + 1)) at 1.
    + apply map_ext. intros i. f_equal. lia.
    + intros i x Hx. replace (n0 + 1 + Z.of_nat i) with (n0 + Z.of_nat (S i)) by lia. apply H. exact Hx.
Qed.
