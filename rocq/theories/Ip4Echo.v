From Verif Require Import Base CksumModel CksumSpec CksumProof CksumProof2 CksumProof3 CksumProps Ip4Model Ip4Spec Ip4Proof Ip4Icmp Ip4Reply Ip4Msgs.
Ltac Zify.zify_post_hook ::= idtac.

(* checksum of the message as icmp_input computes it *)
Lemma icmp_cksum be arm fuel al p : header_there p -> (hdr_len p <= Z.to_nat (total_len p) <= length p)%nat -> (hdr_len p < length p)%nat -> (0 < fuel)%nat ->
  exists c, ofp_cksum be arm fuel [{| seg_addr := al; seg_data := p |}] (Z.of_nat (hdr_len p)) (total_len p - 4 * HL p) = Ret c /\
    (c = 0 <-> rfc1071_sum (sub p (hdr_len p) (Z.to_nat (total_len p) - hdr_len p)) = 65535).
Proof.
  intros (B & H5 & Lh) N Ln Fu. assert (T0 : 0 <= total_len p <= 65535).
  { unfold total_len. assert (forall i, 0 <= nth i p 0 <= 255). { intros i. destruct (nth_in_or_default i p 0) as [I|D]; [|rewrite D; lia]. unfold bytes_ok in B. rewrite Forall_forall in B. specialize (B _ I). unfold is_byte in B. lia. }
    pose proof (H 2%nat). pose proof (H 3%nat). lia. }
  assert (Eh : Z.of_nat (hdr_len p) = 4 * HL p) by (unfold hdr_len; change (HL p) with (hdr_words p); lia).
  destruct (cksum_packet_rfc be arm {| seg_addr := al; seg_data := p |} [] [] (Z.of_nat (hdr_len p)) (total_len p - 4 * HL p) fuel) as (c & Ec & G & Sc).
  { constructor. } { constructor; [exact B|constructor]. } { constructor. } { cbn [seg_data]. lia. } { unfold MAXLEN. lia. } { left. cbn [seg_data]. lia. } { cbn [length]. lia. } { cbn [length]. lia. }
  cbn [app] in Ec. exists c. split; [exact Ec|]. unfold pkt_bytes, flat in *. cbn [app map seg_data concat flat_map] in *. rewrite app_nil_r in G, Sc. rewrite Nat2Z.id in G, Sc.
  replace (Z.to_nat (total_len p - 4 * HL p)) with (Z.to_nat (total_len p) - hdr_len p)%nat in * by lia.
  change (firstn (Z.to_nat (total_len p) - hdr_len p) (skipn (hdr_len p) p)) with (sub p (hdr_len p) (Z.to_nat (total_len p) - hdr_len p)) in *.
  set (d := sub p (hdr_len p) (Z.to_nat (total_len p) - hdr_len p)) in *.
  assert (Bd : bytes_ok d). { unfold d, sub. rewrite <- (firstn_skipn (hdr_len p) p) in B. apply bytes_ok_app in B. destruct B as [_ B]. rewrite <- (firstn_skipn (Z.to_nat (total_len p) - hdr_len p) (skipn (hdr_len p) p)) in B. apply bytes_ok_app in B. tauto. }
  pose proof (GoodSum_exists_swap be d c Bd G) as R. rewrite (st16_zero be c R), Sc. destruct (rfc_sum_char d Bd) as (Rs & _ & _). unfold rfc1071.
  split; [|intros ->; reflexivity]. intros W. change [0;0] with (net16 0) in W. apply net16_inj in W. lia.
Qed.

Lemma icmp_input_run be arm fuel al now p : header_there p -> (hdr_len p + 8 <= Z.to_nat (total_len p) <= length p)%nat -> (0 < fuel)%nat ->
  (rfc1071_sum (sub p (hdr_len p) (Z.to_nat (total_len p) - hdr_len p)) <> 65535 -> icmp_input be arm fuel al now p (hdr_len p) = Ret IDrop) /\
  (rfc1071_sum (sub p (hdr_len p) (Z.to_nat (total_len p) - hdr_len p)) = 65535 -> nth (hdr_len p) p 0 = 8 ->
     icmp_input be arm fuel al now p (hdr_len p) = obind (wr p (hdr_len p) [0]) (fun q => Ret (IReflect q))).
Proof.
  intros H N Fu. destruct (icmp_cksum be arm fuel al p H ltac:(lia) ltac:(lia) Fu) as (c & Ec & Zc). destruct (there_ok p H) as [_ L20].
  assert (B2 : be16 p 2 = Ret (total_len p)).
  { destruct (open20 p L20) as (x0&x1&x2&x3&x4&x5&x6&x7&x8&x9&x10&x11&x12&x13&x14&x15&x16&x17&x18&x19&t&E). rewrite E. reflexivity. }
  unfold icmp_input. rewrite B2. cbn [obind]. rewrite Ec. cbn [obind]. split.
  - intros W. destruct (Z.eqb_spec c 0) as [E|E]; [apply Zc in E; contradiction|reflexivity].
  - intros W T. apply Zc in W. subst c. cbn [Z.eqb negb]. destruct (Z.ltb_spec (total_len p) 8); [lia|].
    assert (L1 : forall i, (i < length p)%nat -> ld8 p i = Ret (nth i p 0)) by (intros i Hi; unfold ld8; rewrite (nth_error_nth' p 0 Hi); reflexivity).
    rewrite !L1 by lia. cbn [obind]. rewrite T. reflexivity.
Qed.

Lemma echo_whole be arm fuel al al' id now p r a : header_there p -> version p = 4 ->
  (hdr_len p + 8 <= Z.to_nat (total_len p) <= length p)%nat -> (0 < fuel)%nat ->
  rfc1071_sum (sub p (hdr_len p) (Z.to_nat (total_len p) - hdr_len p)) = 65535 -> nth (hdr_len p) p 0 = 8 ->
  r_ifp r = true -> reply_source r (sub p 16 4) (sub p 12 4) a -> length a = 4%nat -> bytes_ok a ->
  exists q m s, icmp_input be arm fuel al now p (hdr_len p) = Ret (IReflect q) /\ reflect be r q = Ret (Some m) /\
    icmp_send be arm fuel al' id m = Ret s /\ bytes_ok s /\ echo_reply_to p s a.
Proof.
  intros H V N Fu Ck T If Src La Ba. destruct (icmp_input_run be arm fuel al now p H N Fu) as [_ R0]. specialize (R0 Ck T).
  destruct (there_ok p H) as [_ L20]. pose proof (hdr_words_bound p) as W. destruct H as (B & H5 & Lh). 
  destruct (open20 p L20) as (x0&x1&x2&x3&x4&x5&x6&x7&x8&x9&x10&x11&x12&x13&x14&x15&x16&x17&x18&x19&t&E).
  set (hl := hdr_words p) in *. assert (Eh : hdr_len p = Z.to_nat (4 * hl)) by reflexivity. set (h := hdr_len p) in *. 
  assert (Lt : length p = (20 + length t)%nat) by (rewrite E; reflexivity).
  destruct (split_tail (h - 20) t ltac:(lia)) as (opts & t1 & Et & Lo).
  assert (Lt1 : length t1 = (length p - h)%nat) by (rewrite Et, app_length in Lt; lia).
  destruct t1 as [|b0 [|b1 [|b2 [|b3 rest]]]]; try (cbn [length] in Lt1; lia).
  assert (Ex0 : x0 = 64 + hl). { unfold version in V. unfold hl, hdr_words. rewrite E in *. cbn [nth] in *. pose proof (Z_div_mod_eq_full x0 16). lia. }
  set (hd := [x0;x1;x2;x3;x4;x5;x6;x7;x8;x9;x10;x11;x12;x13;x14;x15;x16;x17;x18;x19]).
  assert (Ep : p = (hd ++ opts) ++ [b0] ++ (b1 :: b2 :: b3 :: rest)) by (rewrite E, Et, <- app_assoc; reflexivity).
  assert (Lho : length (hd ++ opts) = h) by (rewrite app_length, Lo; change (length hd) with 20%nat; lia).
  assert (W1 : wr p h [0] = Ret ((hd ++ opts) ++ [0] ++ (b1 :: b2 :: b3 :: rest))) by (rewrite Ep; apply wr_at; [symmetry; exact Lho|reflexivity]).
  rewrite W1 in R0. cbn [obind] in R0.
  assert (Bp : bytes_ok hd /\ bytes_ok opts /\ bytes_ok (b0 :: b1 :: b2 :: b3 :: rest)).
  { rewrite Ep in B. rewrite <- app_assoc in B. apply bytes_ok_app in B. destruct B as [? B]. apply bytes_ok_app in B. tauto. }
  destruct Bp as (Bh & Bo & Bb).
  assert (B23 : is_byte x2 /\ is_byte x3) by (unfold hd, bytes_ok in Bh; do 4 (apply Forall_cons_iff in Bh; destruct Bh as [? Bh]); auto). destruct B23 as [B2 B3].
  assert (Tl : total_len p = x2 * 256 + x3) by (rewrite E; reflexivity).
  assert (Src' : reply_source r [x16;x17;x18;x19] [x12;x13;x14;x15] a) by (rewrite E in Src; exact Src).
  pose proof (reflect_run be r hl x1 x2 x3 x4 x5 x6 x7 x8 x9 x10 x11 x12 x13 x14 x15 x16 x17 x18 x19 opts (0 :: b1 :: b2 :: b3 :: rest) a ltac:(lia) ltac:(lia) If B2 B3 La Src' ltac:(rewrite <- Tl; lia)) as R.
  cbv zeta in R. rewrite <- Tl in R. set (n := (Z.to_nat (total_len p) - h)%nat).
  assert (El : total_len p - Z.of_nat (length opts) = 20 + Z.of_nat n) by (unfold n; lia). rewrite El in R. set (l := 20 + Z.of_nat n) in *.
  assert (Ell : l / 256 * 256 + l mod 256 = l) by (pose proof (Z_div_mod_eq_full l 256); lia).
  assert (Rl : 0 <= l <= 65535) by (unfold is_byte in *; lia).
  assert (Bl : is_byte (l / 256) /\ is_byte (l mod 256)) by (pose proof (net16_bytes l Rl) as K; unfold net16, bytes_ok in K; do 2 (apply Forall_cons_iff in K; destruct K as [? K]); auto). destruct Bl as [Bl1 Bl2].
  destruct a as [|a0 [|a1 [|a2 [|a3 [|]]]]]; try discriminate La.
  assert (Bm : bytes_ok ([69;x1;l/256;l mod 256;x4;x5;x6;x7;64;x9;x10;x11;a0;a1;a2;a3;x12;x13;x14;x15] ++ [0;b1;b2;b3] ++ rest)).
  { unfold hd, bytes_ok in *. do 20 (apply Forall_cons_iff in Bh; destruct Bh as [? Bh]). do 4 (apply Forall_cons_iff in Ba; destruct Ba as [? Ba]). do 4 (apply Forall_cons_iff in Bb; destruct Bb as [? Bb]).
    cbn [app]. repeat (apply Forall_cons; [first [assumption|unfold is_byte; lia]|]). exact Bb. }
  assert (Lr : length rest = (length p - h - 4)%nat) by (cbn [length] in Lt1; lia).
  destruct (icmp_send_run be arm fuel al' id x1 (l/256) (l mod 256) x4 x5 x6 x7 64 x9 x10 x11 a0 a1 a2 a3 x12 x13 x14 x15 0 b1 b2 b3 rest n Bm Ell ltac:(unfold n; lia) Fu) as (u1 & u2 & v1 & v2 & Es & Bs & S1 & S2).
  set (i := u16 id) in *. set (s := [69;x1;l/256;l mod 256;i/256;i mod 256;x6;x7;64;x9;v1;v2;a0;a1;a2;a3;x12;x13;x14;x15] ++ [0;b1;u1;u2] ++ rest) in *.
  do 2 eexists. exists s. split; [exact R0|]. split; [rewrite <- app_assoc; unfold hd; rewrite Ex0; exact R|]. split; [exact Es|]. split; [exact Bs|].
  unfold echo_reply_to. fold h. split; [|split]; [unfold total_len at 1; change (nth 2 s 0) with (l/256); change (nth 3 s 0) with (l mod 256); unfold l, n in *; lia| |].
  { change (length s) with (24 + length rest)%nat. lia. }
  split; [reflexivity|]. split; [reflexivity|]. split; [reflexivity|]. split; [rewrite E; reflexivity|]. split; [exact S1|]. split; [reflexivity|].
  assert (Nb : nth (h + 1) p 0 = b1).
  { rewrite Ep. rewrite app_nth2 by lia. rewrite Lho. replace (h + 1 - h)%nat with 1%nat by lia. reflexivity. }
  split; [rewrite Nb; reflexivity|]. fold n. split; [|exact S2].
  unfold sub. change (skipn 24 s) with rest. f_equal. rewrite Ep. rewrite (Nat.add_comm h 4) || idtac. replace (4 + h)%nat with (h + 4)%nat by lia. rewrite skipn_plus, skipn_exact by exact Lho. reflexivity.
Qed.

Lemma reflect_only_queries be arm fuel al now p o q : icmp_input be arm fuel al now p o = Ret (IReflect q) -> nth o p 0 = 8 \/ nth o p 0 = 13.
Proof.
  intros F. unfold icmp_input in F. destruct (be16 p 2); cbn [obind] in F; [|discriminate|discriminate]. destruct (ofp_cksum _ _ _ _ _ _); cbn [obind] in F; [|discriminate|discriminate].
  destruct (negb (a0 =? 0)); [discriminate|]. destruct (a <? 8); [discriminate|].
  destruct (ld8 p o) eqn:E; cbn [obind] in F; [|discriminate|discriminate].
  assert (En : nth o p 0 = a1) by (unfold ld8 in E; destruct (nth_error p o) eqn:En; [|discriminate]; injection E as <-; apply nth_error_nth; exact En).
  destruct (ld8 p (S o)) as [cd| |]; cbn [obind] in F; [|discriminate|discriminate]. rewrite En.
  assert (D : forall c, icmp_deliver p o a c <> Ret (IReflect q)).
  { intros c. unfold icmp_deliver. destruct (a <? 36); [discriminate|]. destruct (ld8 p (o + 8)) as [b| |]; cbn [obind]; try discriminate. repeat match goal with |- (if ?c then _ else _) <> _ => destruct c; [discriminate|] end.
    destruct (ld8 p (o + 17)); cbn [obind]; discriminate. }
  repeat match type of F with (if ?c then _ else _) = _ => destruct c eqn:? end; try (apply D in F; contradiction); try discriminate F; unfold T_ECHO, T_TSTAMP in *; repeat match goal with H : (_ =? _) = true |- _ => apply Z.eqb_eq in H end; auto.
Qed.
