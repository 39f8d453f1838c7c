(* C35: ofp_strerror. *)
From Coq Require Import String.
From Verif Require Import Base ErrnoModel.
Ltac Zify.zify_post_hook ::= idtac.

(* every int but INT_MIN: the text of the error, of the negated error, or the
   empty string; the table is never left *)
Theorem strerror_total_partial :
  forall n, INT_MIN < n <= INT_MAX ->
  exists m, strerror n = Ret m /\
    (94 < Z.abs n -> m = EmptyString) /\
    (Z.abs n <= 94 -> exists name, nth_error errmsgs (Z.to_nat (Z.abs n)) = Some (name, m)).
Proof.
  intros n [H1 H2]. unfold strerror.
  assert (L : length errmsgs = 95%nat) by reflexivity.
  assert (STEP : forall k, 0 <= k ->
    exists m, errstep k = Ret m /\
    (94 < k -> m = EmptyString) /\ (k <= 94 -> exists name, nth_error errmsgs (Z.to_nat k) = Some (name, m))).
  { intros k Hk. unfold errstep, OFP_ELAST. destruct (Z.gtb_spec k 94) as [G|G].
    - exists EmptyString. split; [reflexivity|]. split; [reflexivity|lia].
    - destruct (Z.ltb_spec k 0); [lia|]. destruct (nth_error errmsgs (Z.to_nat k)) as [[nm m]|] eqn:E.
      + exists m. split; [reflexivity|]. split; [lia|]. intros _. exists nm. reflexivity.
      + apply nth_error_None in E. rewrite L in E. lia. }
  destruct (Z.ltb_spec n 0) as [N|N].
  - destruct (Z.eqb_spec n INT_MIN); [lia|]. rewrite (Z.abs_neq n) by lia. apply STEP. lia.
  - rewrite (Z.abs_eq n) by lia. apply STEP. lia.
Qed.

(* the text belongs to the macro *)
Theorem strerror_matches_macros :
  forall name v, In (name, v) errnos ->
  exists m, strerror v = Ret m /\ strerror (- v) = Ret m /\ nth_error errmsgs (Z.to_nat v) = Some (name, m).
Proof.
  set (chk := fun x : string * Z => let '(name, v) := x in
    match strerror v, strerror (- v), nth_error errmsgs (Z.to_nat v) with
    | Ret a, Ret b, Some (nm, c) => (String.eqb a c && String.eqb b c && String.eqb nm name)%bool
    | _, _, _ => false end).
  assert (C : forallb chk errnos = true) by (vm_compute; reflexivity).
  intros name v H. rewrite forallb_forall in C. specialize (C _ H). unfold chk in C.
  destruct (strerror v) as [a| |]; try discriminate. destruct (strerror (- v)) as [b| |]; try discriminate.
  destruct (nth_error errmsgs (Z.to_nat v)) as [[nm c]|]; [|discriminate].
  rewrite !andb_true_iff, !String.eqb_eq in C. destruct C as [[-> ->] ->]. exists c. auto.
Qed.

Theorem strerror_int_min_refuted : strerror INT_MIN = UB.
Proof. reflexivity. Qed.

Example strerror_example : strerror (-22) = Ret "Invalid argument"%string /\ strerror 95 = Ret EmptyString /\ In ("OFP_EINVAL"%string, 22) errnos.
Proof.
  split; [reflexivity|]. split; [reflexivity|].
  assert (existsb (fun x => String.eqb (fst x) "OFP_EINVAL" && (snd x =? 22)) errnos = true) by reflexivity.
  apply existsb_exists in H. destruct H as ([a b] & H & E). apply andb_true_iff in E. destruct E as [E1 E2].
  apply String.eqb_eq in E1. apply Z.eqb_eq in E2. cbn in E1, E2. subst. exact H.
Qed.
Print Assumptions strerror_total_partial.
Print Assumptions strerror_matches_macros.
Print Assumptions strerror_int_min_refuted.
