(* C89: the digest functions. *)
From Verif Require Import Base Md5Model Md5Spec Md5Proof Md5Proof2.
Ltac Zify.zify_post_hook ::= idtac.

(* Whatever the pieces in which a message is handed over, and whatever the
   context held before, the digest is that of RFC 1321 for the whole message,
   no byte outside the buffer or the pieces is touched, and the context ends
   as zeros.  Pieces may have up to 2^32 - 64 bytes; their sum is not
   bounded. *)
Theorem md5_digest : forall garbage pieces, length garbage = 64%nat ->
  Forall (fun x => Z.of_nat (length x) <= 4294967232) pieces ->
  md5 garbage pieces = Ret (md5_of (concat pieces), mkCtx (mkR 0 0 0 0) 0 0 (repeat 0 64)).
Proof.
  intros g l H F. unfold md5.
  destruct (updates_ok l (md5_init g) [] (init_fed g H) F) as (c & E & Fd).
  rewrite E. cbn [obind]. exact (final_ok c _ Fd).
Qed.
Print Assumptions md5_digest.

(* so two ways to cut the same message give the same digest *)
Theorem md5_cut_free : forall g1 g2 l1 l2, length g1 = 64%nat -> length g2 = 64%nat ->
  Forall (fun x => Z.of_nat (length x) <= 4294967232) l1 -> Forall (fun x => Z.of_nat (length x) <= 4294967232) l2 ->
  concat l1 = concat l2 -> md5 g1 l1 = md5 g2 l2.
Proof. intros. rewrite !md5_digest by assumption. congruence. Qed.
Print Assumptions md5_cut_free.

(* the digest has sixteen bytes *)
Theorem md5_sixteen : forall m, length (md5_of m) = 16%nat /\ bytes_ok (md5_of m).
Proof.
  intros m. unfold md5_of. destruct (chain (padded m) _) as [[[a b] c] d]. split.
  - rewrite !app_length, !little_len. reflexivity.
  - assert (L : forall n x, bytes_ok (little n x)).
    { induction n; intros x; cbn [little]; constructor; [|apply IHn]. unfold is_byte. apply Z.mod_pos_bound. lia. }
    unfold bytes_ok in *. rewrite !Forall_app. repeat split; apply L.
Qed.
Print Assumptions md5_sixteen.

(* the bound on a piece is needed: with one byte already buffered, a piece of
   2^32 - 1 bytes makes the counter of the block loop wrap, and the function
   reads a block that starts at the end of the piece *)
Lemma loop_off : forall fuel s x i q, zl x = 4294967295 -> 0 <= i <= zl x -> zl x - i = 64 * q ->
  q < Z.of_nat fuel -> upd_loop fuel s x (zl x) i = UB.
Proof.
  induction fuel as [|fuel IH]; intros s x i q L H Q F; [lia|].
  cbn [upd_loop]. destruct (Z.eq_dec i (zl x)) as [E|N].
  - assert (U : u32 (i + 63) = 62).
    { rewrite E, L. reflexivity. }
    rewrite U. replace (62 <? zl x) with true by lia.
    unfold rd_in. replace (_ && _) with false by lia. reflexivity.
  - assert (U : u32 (i + 63) = i + 63) by (apply Z.mod_small; lia). rewrite U.
    replace (i + 63 <? zl x) with true by lia.
    rewrite rd_ok by lia. cbn [obind].
    assert (U2 : u32 (i + 64) = i + 64) by (apply Z.mod_small; lia). rewrite U2.
    apply (IH _ _ _ (q - 1)); lia.
Qed.

Theorem md5_huge_piece_refuted : forall garbage b x, length garbage = 64%nat ->
  Z.of_nat (length x) = 4294967295 -> md5 garbage [[b]; x] = UB.
Proof.
  intros g b x H L. unfold md5. cbn [md5_updates].
  destruct (update_ok (md5_init g) [] [b] (init_fed g H)) as (c & E & F).
  { unfold zl; cbn [length]; lia. }
  rewrite E. cbn [obind]. cbn [app] in F. unfold md5_update. rewrite (index_ok c [b] F).
  change (Z.of_nat (length [b] mod 64)) with 1. cbv zeta.
  change (u32 (64 - 1)) with 63. change (zl x) with (Z.of_nat (length x)) at 1 2 3.
  change (Z.of_nat (length x)) with (zl x) in *.
  replace (63 <=? zl x) with true by lia.
  rewrite rd_ok by lia. cbn [obind].
  set (d := firstn (Z.to_nat 63) (skipn (Z.to_nat 0) x)).
  assert (Ld : zl d = 63).
  { unfold d, zl. change (Z.to_nat 0) with 0%nat. cbn [skipn]. rewrite firstn_length. unfold zl in L. lia. }
  destruct (wr_ok (buffer c) 1 d (fd_len c _ F) ltac:(lia) ltac:(lia)) as (b' & W & _).
  rewrite W. cbn [obind].
  rewrite (loop_off _ _ x 63 67108863) by (rewrite ?L; lia). reflexivity.
Qed.
Print Assumptions md5_huge_piece_refuted.

(* such a piece exists *)
Example huge_piece : exists x, Z.of_nat (length (x : list Z)) = 4294967295.
Proof. exists (repeat 0 (Z.to_nat 4294967295)). rewrite repeat_length. apply Z2Nat.id. lia. Qed.

(* the test suite of RFC 1321 appendix A.5, in one or several pieces *)
Definition hex (l : list Z) : list Z := flat_map (fun b => [b / 16; b mod 16]) l.
Definition g64 : list Z := repeat 165 64.
Example rfc_empty : md5 g64 [] = Ret ([0xd4; 0x1d; 0x8c; 0xd9; 0x8f; 0x00; 0xb2; 0x04; 0xe9; 0x80; 0x09; 0x98; 0xec; 0xf8; 0x42; 0x7e], mkCtx (mkR 0 0 0 0) 0 0 (repeat 0 64)).
Proof. vm_compute. reflexivity. Qed.
Example rfc_abc : md5 g64 [[97]; []; [98; 99]] = Ret ([0x90; 0x01; 0x50; 0x98; 0x3c; 0xd2; 0x4f; 0xb0; 0xd6; 0x96; 0x3f; 0x7d; 0x28; 0xe1; 0x7f; 0x72], mkCtx (mkR 0 0 0 0) 0 0 (repeat 0 64)).
Proof. vm_compute. reflexivity. Qed.
(* "1234567890" eight times: 80 bytes, two blocks *)
Example rfc_digits : md5 g64 (repeat [49; 50; 51; 52; 53; 54; 55; 56; 57; 48] 8) = Ret ([0x57; 0xed; 0xf4; 0xa2; 0x2b; 0xe3; 0xc9; 0x55; 0xac; 0x49; 0xda; 0x2e; 0x21; 0x07; 0xb6; 0x7a], mkCtx (mkR 0 0 0 0) 0 0 (repeat 0 64)).
Proof. vm_compute. reflexivity. Qed.
Example md5_digest_applies : length g64 = 64%nat /\ Forall (fun x : list Z => Z.of_nat (length x) <= 4294967232) (repeat [49; 50; 51; 52; 53; 54; 55; 56; 57; 48] 8).
Proof. split; [reflexivity|]. repeat constructor; cbn; lia. Qed.
