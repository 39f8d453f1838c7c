(* C67: TCP options. *)
From Verif Require Import Base TcpOptModel TcpOptSpec TcpOptProof.
Ltac Zify.zify_post_hook ::= idtac.

(* Every option area, of any length and any content, has exactly one reading; the parser returns, never
   looking outside the area, and reports for each kind the last well sized option, honouring MSS, window
   scale and SACK-permitted only on SYN segments and SACK blocks only off them. *)
Theorem options_parse : forall (ds syn : bool) (area : list Z), exists os r,
  options area os /\ (forall os', options area os' -> os' = os) /\
  parse ds syn area = Ret r /\
  o_mss r = (if syn then final says_mss os else None) /\
  o_ws r = (if syn then final says_ws os else None) /\
  (o_sackok r = true <-> syn = true /\ ds = true /\ final says_sackok os = Some tt) /\
  o_ts r = final says_ts os /\
  o_sack r = (if syn then None else final says_sack os).
Proof.
  intros ds syn area. destruct (dooptions_ok (S (length area)) ds syn area no_opt ltac:(lia)) as [os [Ho Hd]].
  exists os, (merge ds syn os no_opt). split; [exact Ho|]. split; [intros os' H'; eapply options_det; eauto|]. split; [exact Hd|].
  unfold merge, no_opt, mask, orr. cbn [o_mss o_ws o_sackok o_ts o_sig o_sack].
  destruct syn, ds; cbn [andb negb];
    destruct (final says_mss os), (final says_ws os), (final says_sackok os) as [[]|], (final says_ts os), (final says_sack os); cbn [is_so orb];
    repeat split; try reflexivity; try discriminate; intros (A & B & C); discriminate.
Qed.
Print Assumptions options_parse.

(* A parsed window scale is a legal shift count. *)
Theorem options_ws_bounded : forall ds syn area r v, bytes_ok area -> parse ds syn area = Ret r -> o_ws r = Some v -> 0 <= v <= 14.
Proof.
  intros ds syn area r v Hb Hp Hv. destruct (options_parse ds syn area) as (os & r' & Ho & _ & Hp' & _ & Hw & _).
  rewrite Hp' in Hp. injection Hp as ->. rewrite Hv in Hw. destruct syn; [|discriminate]. symmetry in Hw. clear - Hb Ho Hw.
  assert (Hall : forall l, options area l -> Forall (fun o => bytes_ok (snd o)) l).
  { clear - Hb. intros l H. induction H as [|r|r os H IH|k data r os H0 H1 H IH|k r H0 H1 H]; try constructor.
    - apply IH. inversion Hb; auto.
    - cbn [snd]. inversion Hb; subst. inversion H5; subst. apply Forall_app in H7. apply H7.
    - apply IH. inversion Hb; subst. inversion H5; subst. apply Forall_app in H7. apply H7. }
  specialize (Hall _ Ho). clear Ho. induction Hall as [|[k d] os Hd Hf IH]; [discriminate|]. cbn [final] in Hw.
  destruct (final says_ws os) as [x|]; [apply IH; exact Hw|]. clear IH. unfold says_ws in Hw.
  destruct k as [|[[p|p|]|[p|p|]|]|p]; try discriminate Hw. destruct d as [|a [|]]; try discriminate Hw. injection Hw as <-.
  cbn [snd] in Hd. inversion Hd; subst. unfold is_byte in *. lia.
Qed.
Print Assumptions options_ws_bounded.

(* Whatever options are asked for, the area written is at most 40 bytes and a whole number of 32-bit words. *)
Theorem options_written_fit : forall to, Z.of_nat (length (addoptions to)) <= 40 /\ Z.of_nat (length (addoptions to)) mod 4 = 0.
Proof. intros to. destruct (addoptions_ok to) as (_ & H). exact H. Qed.
Print Assumptions options_written_fit.

(* What a peer running the same parser gets back: every requested option except that SACK blocks are cut to the
   first k, with k the number that fits after the other options. *)
Definition opt_values_ok (to : topt) : Prop :=
  (forall v, o_mss to = Some v -> 0 <= v < 65536) /\ (forall v, o_ws to = Some v -> 0 <= v <= 14) /\
  (forall a b, o_ts to = Some (a, b) -> 0 <= a < 4294967296 /\ 0 <= b < 4294967296) /\
  (forall bl, o_sack to = Some bl -> Forall (fun b => (0 <= fst b < 4294967296) /\ (0 <= snd b < 4294967296)) bl).
Definition nonempty {A} (l : list A) : option (list A) := match l with [] => None | _ => Some l end.
Theorem options_round_trip : forall ds syn to, opt_values_ok to -> exists r k,
  parse ds syn (addoptions to) = Ret r /\
  o_mss r = (if syn then o_mss to else None) /\
  o_ws r = (if syn then o_ws to else None) /\
  o_sackok r = (o_sackok to && syn && ds) /\
  o_ts r = o_ts to /\
  o_sack r = (if syn then None else match o_sack to with Some bl => nonempty (firstn k bl) | None => None end) /\
  (o_mss to = None -> o_ws to = None -> o_sackok to = false -> o_sig to = false -> k = match o_ts to with Some _ => 3 | None => 4 end%nat).
Proof.
  intros ds syn to (Hm & Hw & Ht & Hs). destruct (addoptions_ok to) as (Ho & _).
  destruct (dooptions_ok (S (length (addoptions to))) ds syn (addoptions to) no_opt ltac:(lia)) as [os [Ho' Hd]].
  pose proof (options_det _ _ Ho' _ Ho) as ->. clear Ho Ho'.
  set (k := sack_room to) in *. assert (Hk : k = sack_room to) by reflexivity. clearbody k.
  set (ft := sack_fits to) in *. assert (Hft : ft = sack_fits to) by reflexivity. clearbody ft.
  exists (merge ds syn (sent to k ft) no_opt), k. split; [exact Hd|]. clear Hd.
  assert (Hk0 : ft = false -> k = O) by (intros ->; subst k; unfold sack_room; rewrite <- Hft; reflexivity).
  assert (Hroom : o_mss to = None -> o_ws to = None -> o_sackok to = false -> o_sig to = false -> k = match o_ts to with Some _ => 3 | None => 4 end%nat).
  { intros A B C D. subst k. unfold sack_room, sack_fits, sack_pos, base_len. rewrite A, B, C, D. destruct (o_ts to); reflexivity. }
  clear Hk Hft.
  destruct to as [m w s t g c]. unfold sent, merge, no_opt. cbn [o_mss o_ws o_sackok o_ts o_sig o_sack] in *.
  assert (Hfin : forall A (f : Z * list Z -> option A) l1 l2, final f (l1 ++ l2) = orr (final f l2) (final f l1)).
  { intros A f l1 l2. induction l1 as [|o l1 IH]; cbn [app final]; [destruct (final f l2); reflexivity|]. rewrite IH. destruct (final f l2); reflexivity. }
  assert (Hsack : forall bl, c = Some bl -> final says_sack (if ft then [(5, flat_map blk_bytes (firstn k bl))] else []) = nonempty (firstn k bl)).
  { intros bl ->. specialize (Hs _ eq_refl). destruct ft; [|rewrite Hk0 by reflexivity; reflexivity].
    cbn [final]. assert (Hff : Forall w32p (firstn k bl)).
    { apply Forall_forall. intros x Hx. rewrite Forall_forall in Hs. apply Hs. rewrite <- (firstn_skipn k bl). apply in_or_app; auto. }
    pose proof (blocks_flat _ Hff) as Hb. destruct (firstn k bl) as [|b q] eqn:E; [reflexivity|].
    unfold nonempty. rewrite <- Hb. unfold says_sack. destruct b as [b1 b2]. reflexivity. }
  assert (Hmss : forall v, m = Some v -> says_mss (2, b16 v) = m).
  { intros v ->. unfold says_mss, b16. change [u8 (v / 256); u8 v] with (b16 v). rewrite be_b16; auto. }
  assert (Hws : forall v, w = Some v -> Some (Z.min v 14) = w) by (intros v ->; f_equal; specialize (Hw _ eq_refl); lia).
  assert (Hts : forall a b, t = Some (a, b) -> says_ts (8, b32 a ++ b32 b) = t).
  { intros a b ->. destruct (Ht _ _ eq_refl) as [Ha Hb]. unfold says_ts, b32. cbn [app].
    change [u8 (a / 16777216); u8 (a / 65536); u8 (a / 256); u8 a] with (b32 a). change [u8 (b / 16777216); u8 (b / 65536); u8 (b / 256); u8 b] with (b32 b).
    rewrite !be_b32; auto. }
  rewrite !Hfin.
  assert (E5 : forall A (f : Z * list Z -> option A), (forall d, f (5, d) = None) -> final f (match c with Some bl => if ft then [(5, flat_map blk_bytes (firstn k bl))] else [] | None => [] end) = None).
  { intros A f Hf. destruct c as [bl|]; [|reflexivity]. destruct ft; [|reflexivity]. cbn [final]. apply Hf. }
  rewrite !E5 by reflexivity.
  replace (final says_sack match c with Some bl => if ft then [(5, flat_map blk_bytes (firstn k bl))] else [] | None => [] end)
    with (match c with Some bl => nonempty (firstn k bl) | None => None end) by (destruct c; [rewrite Hsack; reflexivity|reflexivity]).
  replace (final says_mss match m with Some v => [(2, b16 v)] | None => [] end) with m by (destruct m; [cbn [final]; rewrite Hmss; reflexivity|reflexivity]).
  replace (final says_ws match w with Some v => [(3, [v])] | None => [] end) with w by (destruct w; [cbn [final says_ws]; rewrite Hws; reflexivity|reflexivity]).
  replace (final says_ts match t with Some (v, e) => [(8, b32 v ++ b32 e)] | None => [] end) with t by (destruct t as [[? ?]|]; [cbn [final]; rewrite Hts; reflexivity|reflexivity]).
  clear - Hroom. destruct m, w, s, t as [[? ?]|], g, syn, ds; cbn; repeat split; auto; destruct c as [bl|]; cbn; auto; destruct (firstn k bl); reflexivity.
Qed.
Print Assumptions options_round_trip.

(* a SYN with everything: MSS 1460, scale 7, SACK permitted, timestamps *)
Example opt_ex1 : let to := mkOpt (Some 1460) (Some 7) true (Some (1000, 0)) false None in
  addoptions to = [2;4;5;180;1;3;3;7;4;2;8;10;0;0;3;232;0;0;0;0] /\ parse true true (addoptions to) = Ret to.
Proof. vm_compute. auto. Qed.
(* a data segment's ACK with timestamps and four blocks keeps three *)
Example opt_ex2 : let to := mkOpt None None false (Some (5, 6)) false (Some [(1,2);(3,4);(5,6);(7,8)]) in
  parse true false (addoptions to) = Ret (mkOpt None None false (Some (5, 6)) false (Some [(1,2);(3,4);(5,6)])).
Proof. vm_compute. reflexivity. Qed.
(* a truncated option ends the list *)
Example opt_ex3 : parse true true [2;4;5;180;3] = Ret (mkOpt (Some 1460) None false None false None) /\ parse true true [8;11;0;0] = Ret no_opt.
Proof. vm_compute. auto. Qed.
