From Verif Require Import Base CksumModel CksumSpec CksumProof CksumProof2 CksumProof3 CksumProps Ip4Model Ip4Spec Ip4Proof Ip4Icmp.
Ltac Zify.zify_post_hook ::= idtac.

(* the source address of a reply to a packet from src to dst *)
Definition reply_source (r : renv) (dst src a : list Z) : Prop :=
  (r_ours r dst = true /\ a = dst) \/
  (r_ours r dst = false /\ r_back r src = Some (Some a)) \/
  (r_ours r dst = false /\ r_back r src = None /\ a = r_addr r /\ a <> [0; 0; 0; 0]).

Lemma reflect_run be r hl x1 x2 x3 x4 x5 x6 x7 x8 x9 x10 x11 x12 x13 x14 x15 x16 x17 x18 x19 opts body a :
  let q := [64 + hl;x1;x2;x3;x4;x5;x6;x7;x8;x9;x10;x11;x12;x13;x14;x15;x16;x17;x18;x19] ++ opts ++ body in
  5 <= hl <= 15 -> length opts = (Z.to_nat (4 * hl) - 20)%nat -> r_ifp r = true -> is_byte x2 -> is_byte x3 ->
  length a = 4%nat -> reply_source r [x16;x17;x18;x19] [x12;x13;x14;x15] a -> Z.of_nat (length opts) <= x2 * 256 + x3 ->
  let l := x2 * 256 + x3 - Z.of_nat (length opts) in
  reflect be r q = Ret (Some ([69;x1;l / 256;l mod 256;x4;x5;x6;x7;64;x9;x10;x11] ++ a ++ [x12;x13;x14;x15] ++ body)).
Proof.
  intros q Hl Lo If B2 B3 La Src Lx l. unfold reflect. rewrite If. cbn [negb]. unfold is_byte in *.
  assert (S1 : slice q 16 4 = Ret [x16;x17;x18;x19]) by reflexivity. assert (S2 : slice q 12 4 = Ret [x12;x13;x14;x15]) by reflexivity.
  rewrite S1. cbn [obind]. rewrite S2. cbn [obind].
  set (q1 := [64 + hl;x1;x2;x3;x4;x5;x6;x7;x8;x9;x10;x11;x12;x13;x14;x15;x12;x13;x14;x15] ++ opts ++ body).
  assert (W1 : wr q 16 [x12;x13;x14;x15] = Ret q1) by reflexivity. rewrite W1. cbn [obind].
  assert (Es : (if r_ours r [x16;x17;x18;x19] then Ret (Some [x16;x17;x18;x19])
         else match r_back r [x12;x13;x14;x15] with
              | None => if list_eq_dec Z.eq_dec (r_addr r) [0; 0; 0; 0] then Ret None else Ret (Some (r_addr r))
              | Some None => UB
              | Some (Some a) => Ret (Some a)
              end) = Ret (Some a)).
  { destruct Src as [[E ->]|[[E E2]|(E & E2 & -> & N)]]; rewrite E; [reflexivity|rewrite E2; reflexivity|rewrite E2]. destruct (list_eq_dec Z.eq_dec (r_addr r) [0;0;0;0]); [contradiction|reflexivity]. }
  rewrite Es. cbn [obind]. destruct a as [|a0 [|a1 [|a2 [|a3 [|]]]]]; try discriminate La.
  set (q2 := [64 + hl;x1;x2;x3;x4;x5;x6;x7;x8;x9;x10;x11;a0;a1;a2;a3;x12;x13;x14;x15] ++ opts ++ body).
  assert (W2 : wr q1 12 [a0;a1;a2;a3] = Ret q2) by reflexivity. rewrite W2. cbn [obind].
  set (hd := [64 + hl;x1;x2;x3;x4;x5;x6;x7;64;x9;x10;x11;a0;a1;a2;a3;x12;x13;x14;x15]).
  assert (W3 : wr q2 8 [64] = Ret (hd ++ opts ++ body)) by reflexivity. rewrite W3. cbn [obind].
  unfold strip_options. assert (Eh : HL (hd ++ opts ++ body) = hl).
  { change (HL (hd ++ opts ++ body)) with ((64 + hl) mod 16). replace (64 + hl) with (hl + 4 * 16) by lia. rewrite Z_mod_plus_full. apply Z.mod_small. lia. }
  rewrite Eh. destruct (Z.leb_spec (4 * hl - 20) 0) as [K|K].
  - assert (H5 : hl = 5) by lia. clear Eh. assert (opts = []) by (destruct opts; [reflexivity|cbn [length] in Lo; lia]). subst opts. cbn [app obind].
    cbn [length] in l. unfold l. f_equal. f_equal. unfold hd. replace (x2 * 256 + x3 - Z.of_nat 0) with (x2 * 256 + x3) by lia.
    assert (A1 : (x2 * 256 + x3) / 256 = x2) by (symmetry; apply (Z.div_unique _ 256 x2 x3); lia). assert (A2 : (x2 * 256 + x3) mod 256 = x3) by (symmetry; apply (Z.mod_unique _ 256 x2 x3); lia).
    rewrite A1, A2, H5. reflexivity.
  - destruct (Nat.ltb_spec (length (hd ++ opts ++ body)) (Z.to_nat (4 * hl))) as [W|_]; [rewrite !app_length in W; change (length hd) with 20%nat in W; lia|].
    assert (S3 : skipn (Z.to_nat (4 * hl)) (hd ++ opts ++ body) = body).
    { rewrite app_assoc, skipn_app. rewrite skipn_all2 by (rewrite app_length, Lo; change (length hd) with 20%nat; lia).
      replace (Z.to_nat (4 * hl) - length (hd ++ opts))%nat with 0%nat by (rewrite app_length, Lo; change (length hd) with 20%nat; lia). reflexivity. }
    rewrite S3. change (firstn 20 (hd ++ opts ++ body)) with hd. set (hd' := [69;x1;x2;x3;x4;x5;x6;x7;64;x9;x10;x11;a0;a1;a2;a3;x12;x13;x14;x15]).
    assert (W4 : wr (hd ++ body) 0 [69] = Ret (hd' ++ body)) by reflexivity. rewrite W4. cbn [obind].
    assert (B16 : be16 (hd' ++ body) 2 = Ret (x2 * 256 + x3)) by reflexivity. rewrite B16. cbn [obind].
    assert (El : u16 (x2 * 256 + x3 - (Z.of_nat (Z.to_nat (4 * hl)) - 20)) = l) by (unfold u16, l; rewrite Lo in *; rewrite Z.mod_small; lia).
    rewrite El. rewrite st16_net by (unfold l; lia). reflexivity.
Qed.

Lemma reflect_cases be r q m : reflect be r q = Ret (Some m) -> (20 <= length q)%nat -> r_ifp r = true /\
  exists a, ((r_ours r (sub q 16 4) = true /\ a = sub q 16 4) \/ (r_ours r (sub q 16 4) = false /\ r_back r (sub q 12 4) = Some (Some a)) \/
   (r_ours r (sub q 16 4) = false /\ r_back r (sub q 12 4) = None /\ a = r_addr r /\ a <> [0;0;0;0])).
Proof.
  intros F L. unfold reflect in F. destruct (r_ifp r); [|discriminate]. split; [reflexivity|]. cbn [negb] in F.
  unfold slice in F. destruct (Nat.leb_spec (16 + 4) (length q)); [|lia]. cbn [obind] in F. destruct (Nat.leb_spec (12 + 4) (length q)); [|lia]. cbn [obind] in F.
  change (firstn 4 (skipn 16 q)) with (sub q 16 4) in F. change (firstn 4 (skipn 12 q)) with (sub q 12 4) in F.
  destruct (wr q 16 (sub q 12 4)); cbn [obind] in F; [|discriminate|discriminate]. destruct (r_ours r (sub q 16 4)); [exists (sub q 16 4); auto|].
  destruct (r_back r (sub q 12 4)) as [[b|]|]; [exists b; auto|discriminate|]. destruct (list_eq_dec Z.eq_dec (r_addr r) [0;0;0;0]) as [|N]; [discriminate|]. exists (r_addr r). auto 10.
Qed.

Lemma icmp_send_run be arm fuel al id x1 x2 x3 x4 x5 x6 x7 x8 x9 x10 x11 x12 x13 x14 x15 x16 x17 x18 x19 t c k1 k2 rest n :
  let q := [69;x1;x2;x3;x4;x5;x6;x7;x8;x9;x10;x11;x12;x13;x14;x15;x16;x17;x18;x19] ++ [t;c;k1;k2] ++ rest in
  bytes_ok q -> x2 * 256 + x3 = 20 + Z.of_nat n -> (4 <= n <= 4 + length rest)%nat -> (0 < fuel)%nat ->
  exists u1 u2 v1 v2, let i := u16 id in
  let s := [69;x1;x2;x3;i / 256;i mod 256;x6;x7;x8;x9;v1;v2;x12;x13;x14;x15;x16;x17;x18;x19] ++ [t;c;u1;u2] ++ rest in
  icmp_send be arm fuel al id q = Ret s /\ bytes_ok s /\ rfc1071_sum (firstn 20 s) = 65535 /\ rfc1071_sum (firstn n ([t;c;u1;u2] ++ rest)) = 65535.
Proof.
  intros q B Len N Fu. set (hd := [69;x1;x2;x3;x4;x5;x6;x7;x8;x9;x10;x11;x12;x13;x14;x15;x16;x17;x18;x19]) in *.
  assert (Bq : bytes_ok hd /\ bytes_ok [t;c;k1;k2] /\ bytes_ok rest) by (unfold q in B; apply bytes_ok_app in B; destruct B as [? B]; apply bytes_ok_app in B; tauto).
  destruct Bq as (Bh & Bk & Br).
  assert (Bx : is_byte x2 /\ is_byte x3) by (unfold hd, bytes_ok in Bh; do 4 (apply Forall_cons_iff in Bh; destruct Bh as [? Bh]); auto). unfold is_byte in Bx.
  unfold icmp_send. assert (Eh : HL q = 5) by reflexivity. rewrite Eh. change (4 * 5) with 20. change (Z.to_nat 20 + 2)%nat with 22%nat.
  set (q0 := hd ++ [t;c;0;0] ++ rest). assert (W1 : wr q 22 [0;0] = Ret q0) by reflexivity. rewrite W1. cbn [obind].
  assert (B2 : be16 q0 2 = Ret (x2 * 256 + x3)) by reflexivity. rewrite B2. cbn [obind]. rewrite Len.
  replace (20 + Z.of_nat n - 20) with (Z.of_nat n) by lia.
  assert (Bt : is_byte t /\ is_byte c) by (unfold bytes_ok in Bk; do 2 (apply Forall_cons_iff in Bk; destruct Bk as [? Bk]); auto). destruct Bt as [Bt Bc].
  assert (Btc : bytes_ok [t;c]) by (apply Forall_cons; [exact Bt|apply Forall_cons; [exact Bc|apply Forall_nil]]).
  assert (B0 : bytes_ok q0) by (unfold q0; apply bytes_ok_app; split; [exact Bh|]; apply bytes_ok_app; split; [repeat (apply Forall_cons; [unfold is_byte in *; lia|]); apply Forall_nil|exact Br]).
  assert (Lq : length q0 = (24 + length rest)%nat) by reflexivity.
  destruct (cksum_packet_rfc1071_partial be arm {| seg_addr := al; seg_data := q0 |} [] [] 20 (Z.of_nat n) fuel) as (ck & Ec & Sc).
  { constructor. } { constructor; [exact B0|constructor]. } { constructor. } { cbn [seg_data]. rewrite Lq. lia. } { lia. } { left. cbn [seg_data]. rewrite Lq. lia. } { cbn [length]. lia. } { cbn [length]. lia. }
  cbn [app] in Ec. rewrite Ec. cbn [obind]. rewrite Nat2Z.id in Sc. unfold flat in Sc. cbn [app map seg_data concat] in Sc. rewrite app_nil_r in Sc.
  change (skipn (Z.to_nat 20) q0) with ([t;c] ++ [0;0] ++ rest) in Sc.
  replace n with (4 + (n - 4))%nat in Sc by lia. set (m := (n - 4)%nat) in *.
  change (firstn (4 + m) ([t;c] ++ [0;0] ++ rest)) with ([t;c] ++ [0;0] ++ firstn m rest) in Sc.
  assert (Bm : bytes_ok (firstn m rest)) by (rewrite <- (firstn_skipn m rest) in Br; apply bytes_ok_app in Br; tauto).
  pose proof (ck_store [t;c] (firstn m rest) Btc Bm eq_refl) as K. rewrite <- Sc in K.
  assert (Bn : bytes_ok (st16 be ck)). { rewrite Sc. apply net16_bytes. apply rfc1071_range. apply bytes_ok_app. split; [exact Btc|]. apply bytes_ok_app. split; [repeat (apply Forall_cons; [unfold is_byte in *; lia|]); apply Forall_nil|exact Bm]. }
  destruct (st16_cons be ck) as (u1 & u2 & Eu). rewrite Eu in *. 
  assert (Bu : is_byte u1 /\ is_byte u2) by (unfold bytes_ok in Bn; do 2 (apply Forall_cons_iff in Bn; destruct Bn as [? Bn]); auto).
  set (q1 := hd ++ [t;c;u1;u2] ++ rest). assert (W2 : wr q0 22 [u1;u2] = Ret q1) by reflexivity. rewrite W2. cbn [obind].
  set (i := u16 id). assert (Ri : 0 <= i <= 65535) by (unfold i, u16; pose proof (Z.mod_pos_bound id 65536 ltac:(lia)); lia). rewrite st16_net by exact Ri.
  set (hd2 := [69;x1;x2;x3;i/256;i mod 256;x6;x7;x8;x9;0;0;x12;x13;x14;x15;x16;x17;x18;x19]).
  assert (W3 : wr q1 4 (net16 i) = Ret ([69;x1;x2;x3;i/256;i mod 256;x6;x7;x8;x9;x10;x11;x12;x13;x14;x15;x16;x17;x18;x19] ++ [t;c;u1;u2] ++ rest)) by reflexivity. rewrite W3. cbn [obind].
  set (q3 := hd2 ++ [t;c;u1;u2] ++ rest).
  assert (W4 : wr ([69;x1;x2;x3;i/256;i mod 256;x6;x7;x8;x9;x10;x11;x12;x13;x14;x15;x16;x17;x18;x19] ++ [t;c;u1;u2] ++ rest) 10 [0;0] = Ret q3) by reflexivity. rewrite W4. cbn [obind].
  pose proof (net16_bytes i Ri) as Bi. unfold net16, bytes_ok in Bi.
  assert (Bi2 : is_byte (i / 256) /\ is_byte (i mod 256)) by (do 2 (apply Forall_cons_iff in Bi; destruct Bi as [? Bi]); auto). destruct Bi2 as [Bi1 Bi2].
  assert (Bz : is_byte 0) by (unfold is_byte; lia).
  assert (Bhd : bytes_ok hd2).
  { unfold hd2, hd, bytes_ok in *. do 20 (apply Forall_cons_iff in Bh; destruct Bh as [? Bh]). repeat (apply Forall_cons; [assumption|]). constructor. }
  assert (B3 : bytes_ok q3) by (unfold q3; apply bytes_ok_app; split; [exact Bhd|]; apply bytes_ok_app; split; [repeat (apply Forall_cons; [unfold is_byte in *; lia|]); apply Forall_nil|exact Br]).
  assert (E5 : HL q3 = 5) by reflexivity. rewrite E5.
  assert (Ko : hdr_ok 5 q3). { split; [exact B3|]. split; [lia|]. change (length q3) with (24 + length rest)%nat. lia. }
  destruct (iph_store be al 69 x1 x2 x3 (i/256) (i mod 256) x6 x7 x8 x9 ([x12;x13;x14;x15;x16;x17;x18;x19] ++ [t;c;u1;u2] ++ rest) 5 Ko) as (cc & v1 & v2 & Ev & Es & b1 & b2 & Hs).
  change (69::x1::x2::x3::i/256::i mod 256::x6::x7::x8::x9::0::0::([x12;x13;x14;x15;x16;x17;x18;x19] ++ [t;c;u1;u2] ++ rest)) with q3 in Ev. rewrite Ev. cbn [obind].
  exists u1, u2, v1, v2. cbn zeta. split; [rewrite Es; reflexivity|]. split; [|split].
  - apply bytes_ok_app. split; [|apply bytes_ok_app; split; [repeat (apply Forall_cons; [unfold is_byte in *; lia|]); apply Forall_nil|exact Br]].
    unfold hd2, bytes_ok in *. do 20 (apply Forall_cons_iff in Bhd; destruct Bhd as [? Bhd]). repeat (apply Forall_cons; [assumption|]). constructor.
  - exact Hs.
  - replace n with (4 + m)%nat by lia. exact K.
Qed.
