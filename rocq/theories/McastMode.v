(* C101: what IGMP reports of a source of a group. *)
From Verif Require Import Base McastModel McastSpec McastMerge McastGroup McastInv McastStep McastProps.
Ltac Zify.zify_post_hook ::= idtac.

Lemma num_pos : forall A (p : A -> bool) l, (0 <? num p l) = existsb p l.
Proof.
  intros A p l. unfold num. induction l as [|a l IH]; [reflexivity|]. cbn [filter existsb]. destruct (p a); cbn [length orb]; [|exact IH]. apply Z.ltb_lt. lia.
Qed.
Lemma num_zero : forall A (p : A -> bool) l, (num p l =? 0) = negb (existsb p l).
Proof.
  intros A p l. rewrite <- num_pos. unfold num. destruct (0 <? Z.of_nat (length (filter p l))) eqn:E; cbn [negb]; [apply Z.eqb_neq|apply Z.eqb_eq]; lia.
Qed.
Lemma num_le : forall A (p : A -> bool) l, 0 <= num p l <= Z.of_nat (length l).
Proof. intros A p l. unfold num. split; [lia|]. induction l as [|a l IH]; [cbn; lia|]. cbn [filter]. destruct (p a); cbn [length]; lia. Qed.
Lemma num_and : forall A (p q : A -> bool) l, num (fun a => p a && q a) l <= num p l /\ (num p l =? num (fun a => p a && q a) l) = forallb q (filter p l).
Proof.
  intros A p q l. unfold num. induction l as [|a l [I1 I2]]; [split; [cbn [filter length]; lia|reflexivity]|]. cbn [filter forallb]. destruct (p a); cbn [andb length forallb]; [|split; assumption].
  destruct (q a); cbn [andb length].
  - split; [lia|]. rewrite <- I2. apply eq_true_iff_eq. rewrite !Z.eqb_eq. lia.
  - split; [lia|]. apply Z.eqb_neq. lia.
Qed.

Theorem mcast_source_mode_partial : forall maxsock maxgrp maxmem U n h, fits maxsock maxgrp maxmem U n h ->
  exists x, run maxsock maxgrp maxmem h (init n) = Ret (x, snd (srun maxsock maxmem h (repeat [] n))) /\
    forall i g u a, let mb := members (fst (srun maxsock maxmem h (repeat [] n))) i g in
      glook (i, g) (mus x) = Some u -> Z.of_nat (length mb) < 65536 ->
      (existsb (including a) mb = true -> exists m, In m mb /\ s_mode m = Exc /\ isin a (s_src m) = false) \/ existsb (including a) mb = false \/ existsb excl mb = false ->
      ims_mode u a = in_report mb a.
Proof.
  intros maxsock maxgrp maxmem U n h F. destruct (mcast_group_counts maxsock maxgrp maxmem U n h F) as (x & E & C). exists x. split; [exact E|].
  intros i g u a mb L LN CO. specialize (C i g). cbv zeta in C. fold mb in C. rewrite L in C. destruct C as (_ & _ & IX & _ & GA). specialize (GA a). destruct GA as [GX GN].
  rewrite Z.mod_small in IX by (pose proof (num_le _ excl mb); lia). rewrite Z.mod_small in GX by (pose proof (num_le _ (excluding a) mb); lia).
  rewrite Z.mod_small in GN by (pose proof (num_le _ (including a) mb); lia).
  assert (S : ims_mode u a = if (0 <? num excl mb) && (num excl mb =? num (excluding a) mb) then Exc else if (0 <? num (including a) mb) && (num (excluding a) mb =? 0) then Inc else Und).
  { unfold ims_mode, gx, gn in *. destruct (look a (srcs u)) as [k|]; [rewrite <- IX, <- GX, <- GN; reflexivity|]. rewrite <- GX, <- GN.
    destruct (0 <? num excl mb) eqn:Q; [|reflexivity]. replace (num excl mb =? 0) with false by lia. reflexivity. }
  rewrite S. rewrite num_pos, num_zero, num_pos.
  change (excluding a) with (fun m : smem => excl m && isin a (s_src m)) at 1. rewrite (proj2 (num_and _ excl (fun m => isin a (s_src m)) mb)).
  unfold in_report. change (fun m : smem => meq (s_mode m) Exc) with excl. cbv zeta.
  assert (NE : negb (match filter excl mb with [] => true | _ => false end) = existsb excl mb).
  { clear. induction mb as [|m l IH]; [reflexivity|]. cbn [filter existsb]. destruct (excl m); [reflexivity|exact IH]. }
  rewrite NE. destruct (existsb excl mb) eqn:EX; cbn [andb]; [|reflexivity].
  destruct (forallb (fun m : smem => isin a (s_src m)) (filter excl mb)) eqn:FB; cbn [andb]; [|reflexivity].
  destruct (existsb (including a) mb) eqn:EI; cbn [negb]; [|reflexivity]. exfalso. destruct CO as [CO|[CO|CO]]; try discriminate. destruct (CO eq_refl) as (m & M1 & M2 & M3).
  rewrite forallb_forall in FB. assert (X : In m (filter excl mb)) by (apply filter_In; split; [exact M1|unfold excl; rewrite M2; reflexivity]). specialize (FB m X). cbv beta in FB. congruence.
Qed.
Print Assumptions mcast_source_mode_partial.
