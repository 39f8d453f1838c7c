From Verif Require Import Base CksumModel CksumSpec CksumProof CksumProof2 CksumProof3 CksumProps Ip4Model Ip4Spec Ip4Proof Ip4Icmp Ip4Reply.
Ltac Zify.zify_post_hook ::= idtac.

Lemma infotype_in t : infotype t = true <-> In t query_types.
Proof.
  unfold infotype. rewrite existsb_exists. split; [intros (x & I & E); apply Z.eqb_eq in E; subst; exact I|]. intros I. exists t. split; [exact I|apply Z.eqb_refl].
Qed.
Lemma suppressed_iff l2 p type : suppressed l2 p type = true <-> later_fragment p \/ (is_icmp_error p /\ type <> 5).
Proof.
  unfold suppressed, later_fragment, is_icmp_error. rewrite orb_true_iff, !andb_true_iff, !negb_true_iff, Z.eqb_neq, !Z.eqb_eq, Z.eqb_neq.
  assert (infotype (nth (hdr_len p) p 0) = false <-> ~ In (nth (hdr_len p) p 0) query_types) by (rewrite <- infotype_in; destruct (infotype _); split; congruence).
  unfold T_REDIRECT. tauto.
Qed.

(* no error about later fragments or ICMP errors, however short the packet *)
Lemma suppress_run be al l2 alloc p type code dest mtu : header_there p -> (hdr_len p + 8 <= length p)%nat -> 0 <= l2 -> suppressed l2 p type = true ->
  icmp_error be al l2 alloc p type code dest mtu = Ret None.
Proof.
  intros H L L2 S. pose proof (hdr_words_bound p) as W. destruct (there_ok p H) as [(B & W5 & Lh) L20].
  destruct (open20 p L20) as (x0&x1&x2&x3&x4&x5&x6&x7&x8&x9&x10&x11&x12&x13&x14&x15&x16&x17&x18&x19&t&E).
  set (H0 := [x0;x1;x2;x3;x4;x5;x6;x7;x8;x9;0;0;x12;x13;x14;x15;x16;x17;x18;x19]).
  assert (P0 : wr p 10 [0;0] = Ret (H0 ++ t)) by (rewrite E; reflexivity).
  assert (K0 : hdr_ok (HL p) (H0 ++ t)).
  { split; [|split; [lia|]].
    - rewrite E in B. unfold bytes_ok in *. unfold H0. cbn [app]. do 20 (apply Forall_cons_iff in B; destruct B as [? B]). repeat (apply Forall_cons; [first [assumption|unfold is_byte; lia]|]). exact B.
    - replace (length (H0 ++ t)) with (length p) by (rewrite E; reflexivity). exact Lh. }
  destruct (iph_store be al x0 x1 x2 x3 x4 x5 x6 x7 x8 x9 (x12::x13::x14::x15::x16::x17::x18::x19::t) (HL p) K0) as (c & s1 & s2 & Ec & Es & b1 & b2 & _).
  set (p1 := x0::x1::x2::x3::x4::x5::x6::x7::x8::x9::s1::s2::x12::x13::x14::x15::x16::x17::x18::x19::t).
  assert (P1 : wr (H0 ++ t) 10 (st16 be c) = Ret p1) by (rewrite Es; reflexivity).
  unfold icmp_error. rewrite P0. cbn [obind]. replace (HL (H0 ++ t)) with (HL p) by (rewrite E; reflexivity).
  change (H0 ++ t) with (x0::x1::x2::x3::x4::x5::x6::x7::x8::x9::0::0::x12::x13::x14::x15::x16::x17::x18::x19::t) in P1 |- *. rewrite Ec. cbn [obind]. rewrite P1. cbn [obind].
  assert (B6 : be16 p1 6 = Ret (nth 6 p 0 * 256 + nth 7 p 0)) by (rewrite E; reflexivity). rewrite B6. cbn [obind].
  unfold suppressed in S. destruct (negb ((nth 6 p 0 * 256 + nth 7 p 0) mod 8192 =? 0)) eqn:Efr; [reflexivity|]. cbn [orb] in S.
  assert (B9 : ld8 p1 9 = Ret (nth 9 p 0)) by (rewrite E; reflexivity). rewrite B9. cbn [obind].
  assert (Bh : ld8 p1 (Z.to_nat (4 * HL p)) = Ret (nth (hdr_len p) p 0)).
  { unfold ld8. assert (Z.to_nat (4 * HL p) = hdr_len p) as Eq by reflexivity. rewrite Eq. assert (N : (20 <= hdr_len p)%nat) by (rewrite <- Eq; lia).
    assert (Q : nth_error p1 (hdr_len p) = nth_error p (hdr_len p)).
    { rewrite E. remember (hdr_len p) as h eqn:Ehh. rewrite E in Ehh. rewrite <- Ehh. clear - N. do 20 (destruct h as [|h]; [lia|]). reflexivity. }
    rewrite Q, (nth_error_nth' p 0) by lia. reflexivity. }
  apply andb_true_iff in S. destruct S as [S1 S2]. rewrite S1. cbn [andb].
  destruct (Z.geb_spec (l2 + Z.of_nat (length p1)) (4 * HL p + 8)) as [G|G].
  - rewrite Bh. cbn [obind]. rewrite S2. reflexivity.
  - exfalso. replace (length p1) with (length p) in G by (rewrite E; reflexivity). unfold hdr_len in L. change (hdr_words p) with (HL p) in L. lia.
Qed.

Lemma firstn_exact {A} n (a b : list A) : length a = n -> firstn n (a ++ b) = a.
Proof. intros <-. rewrite firstn_app, Nat.sub_diag, firstn_O, app_nil_r. apply firstn_all. Qed.
Lemma skipn_exact {A} n (a b : list A) : length a = n -> skipn n (a ++ b) = b.
Proof. intros <-. rewrite skipn_app, Nat.sub_diag, skipn_all. reflexivity. Qed.
Lemma skipn_plus {A} a b (l : list A) : skipn (a + b) l = skipn b (skipn a l).
Proof. revert l. induction a as [|a IH]; intros l; [reflexivity|]. destruct l; [cbn; rewrite skipn_nil; reflexivity|]. cbn. apply IH. Qed.
Lemma rest_eq be type code dest mtu : 0 <= code < 256 -> 0 <= mtu < 65536 -> rest_of be type code dest mtu = err_rest type code dest mtu.
Proof.
  intros Hc Hm. unfold rest_of, err_rest, T_REDIRECT, T_PARAMPROB, T_UNREACH. replace (u8 code) with code by (symmetry; apply Z.mod_small; lia). replace (u16 mtu) with mtu by (symmetry; apply Z.mod_small; lia). reflexivity.
Qed.

Lemma icmp_error_whole be arm fuel al al' l2 id p type code dest mtu r a q :
  header_there p -> (2 * hdr_len p + 16 <= length p)%nat -> quote_ok be p -> 0 <= l2 -> length dest = 4%nat -> bytes_ok dest ->
  0 <= type < 256 -> 0 <= code < 256 -> 0 <= mtu < 65536 ->
  r_ifp r = true -> reply_source r (sub p 16 4) (sub p 12 4) a -> length a = 4%nat -> bytes_ok a -> (0 < fuel)%nat ->
  icmp_error be al l2 true p type code dest mtu = Ret (Some q) ->
  exists m s, reflect be r q = Ret (Some m) /\ icmp_send be arm fuel al' id m = Ret s /\ bytes_ok s /\
    icmp_error_msg p s a type (err_code type code) (err_rest type code dest mtu).
Proof.
  intros H L Q L2 Ld Bd Ht Hc Hm If Src La Ba Fu F.
  destruct (icmp_error_run be al l2 true p type code dest mtu H L Q L2 Ld) as (x0&x1&x2&x3&x4&x5&x6&x7&x8&x9&x10&x11&x12&x13&x14&x15&x16&x17&x18&x19&opts&t8&more&s1&s2&k1&k2&Ep&Lo&L8&Er&b1&b2&b3&b4).
  rewrite Er in F. destruct (suppressed l2 p type || negb true); [discriminate|]. injection F as <-. clear Er.
  pose proof (hdr_words_bound p) as W. destruct H as (B & H5 & Lh). set (hl := hdr_words p) in *. assert (Eh : hdr_len p = Z.to_nat (4 * hl)) by reflexivity.
  set (h := hdr_len p) in *. set (l0 := 8 * hl + 16) in *.
  assert (D1 : l0 / 256 = if l0 <? 256 then 0 else 0) by (destruct (Z.ltb_spec l0 256); apply Z.div_small; lia).
  assert (Ll : is_byte (l0 / 256) /\ is_byte (l0 mod 256)) by (unfold is_byte; pose proof (Z.mod_pos_bound l0 256 ltac:(lia)); destruct (l0 <? 256); lia).
  assert (El0 : l0 / 256 * 256 + l0 mod 256 = l0) by (pose proof (Z_div_mod_eq_full l0 256); lia).
  assert (Src' : reply_source r [x16;x17;x18;x19] [x12;x13;x14;x15] a) by (rewrite Ep in Src; exact Src).
  assert (Bp : bytes_ok [x0;x1;x2;x3;x4;x5;x6;x7;x8;x9;x10;x11;x12;x13;x14;x15;x16;x17;x18;x19] /\ bytes_ok opts /\ bytes_ok t8).
  { rewrite Ep in B. apply bytes_ok_app in B. destruct B as [? B]. apply bytes_ok_app in B. destruct B as [? B]. apply bytes_ok_app in B. tauto. }
  destruct Bp as (Bp & Bo & B8).
  set (rest := rest_of be type code dest mtu). assert (Lr : length rest = 4%nat /\ bytes_ok rest /\ rest = err_rest type code dest mtu).
  { split; [|split; [|apply rest_eq; assumption]]; unfold rest; rewrite (rest_eq be) by assumption; unfold err_rest.
    - destruct (type =? 5); [exact Ld|]. destruct (type =? 12); [reflexivity|]. destruct (_ && _); reflexivity.
    - destruct (type =? 5); [exact Bd|]. destruct (type =? 12); [repeat (apply Forall_cons; [unfold is_byte; lia|]); apply Forall_nil|].
      destruct (_ && _); [|repeat (apply Forall_cons; [unfold is_byte; lia|]); apply Forall_nil]. apply bytes_ok_app. split; [repeat (apply Forall_cons; [unfold is_byte; lia|]); apply Forall_nil|apply net16_bytes; lia]. }
  destruct Lr as (Lr & Br & Er).
  set (cd := code_of type code). assert (Ecd : cd = err_code type code /\ is_byte cd).
  { unfold cd, code_of, err_code, T_PARAMPROB, is_byte. destruct (type =? 12); [lia|]. unfold u8. rewrite Z.mod_small; lia. }
  destruct Ecd as [Ecd Bcd].
  assert (Et : u8 type = type) by (apply Z.mod_small; lia). rewrite Et.
  set (qh := [x0;x1;x2;x3;x4;x5;x6;x7;x8;x9;s1;s2;x12;x13;x14;x15;x16;x17;x18;x19]).
  set (body := ([type; cd; k1; k2] ++ rest) ++ (qh ++ opts) ++ t8).
  pose proof (reflect_run be r hl 0 (l0 / 256) (l0 mod 256) x4 x5 x6 x7 x8 1 s1 s2 x12 x13 x14 x15 x16 x17 x18 x19 opts body a ltac:(lia) ltac:(lia) If (proj1 Ll) (proj2 Ll) La Src') as R.
  rewrite El0 in R. specialize (R ltac:(rewrite Lo; unfold l0; lia)). cbv zeta in R.
  set (n := (8 + h + 8)%nat). assert (El : l0 - Z.of_nat (length opts) = 20 + Z.of_nat n) by (rewrite Lo; unfold l0, n; lia). rewrite El in R.
  set (l := 20 + Z.of_nat n) in *.
  assert (Dl : l / 256 = 0 \/ l / 256 = 0) by (left; apply Z.div_small; unfold l, n; lia).
  assert (Ell : l / 256 * 256 + l mod 256 = l) by (pose proof (Z_div_mod_eq_full l 256); lia).
  destruct a as [|a0 [|a1 [|a2 [|a3 [|]]]]]; try discriminate La.
  assert (Lbody : length body = n) by (unfold body; rewrite !app_length, Lo, L8, Lr; change (length qh) with 20%nat; cbn [length]; unfold n; lia).
  set (tail := rest ++ (qh ++ opts) ++ t8).
  assert (Eb : body = [type; cd; k1; k2] ++ tail) by (unfold body, tail; rewrite <- app_assoc; reflexivity).
  assert (Bqh : bytes_ok qh). { unfold qh, bytes_ok in *. do 20 (apply Forall_cons_iff in Bp; destruct Bp as [? Bp]). repeat (apply Forall_cons; [assumption|]). apply Forall_nil. }
  assert (Bt : bytes_ok tail) by (unfold tail; apply bytes_ok_app; split; [exact Br|]; apply bytes_ok_app; split; [apply bytes_ok_app; split; assumption|exact B8]).
  assert (Bm : bytes_ok ([69;0;l/256;l mod 256;x4;x5;x6;x7;64;1;s1;s2;a0;a1;a2;a3;x12;x13;x14;x15] ++ [type;cd;k1;k2] ++ tail)).
  { apply bytes_ok_app. split; [|apply bytes_ok_app; split; [|exact Bt]].
    - unfold bytes_ok in *. do 20 (apply Forall_cons_iff in Bp; destruct Bp as [? Bp]). do 4 (apply Forall_cons_iff in Ba; destruct Ba as [? Ba]). pose proof (Z.mod_pos_bound l 256 ltac:(lia)).
      repeat (apply Forall_cons; [first [assumption|unfold is_byte; lia]|]). apply Forall_nil.
    - repeat (apply Forall_cons; [first [assumption|unfold is_byte; lia]|]). apply Forall_nil. }
  assert (Ltail : length tail = (n - 4)%nat) by (rewrite Eb in Lbody; rewrite app_length in Lbody; cbn [length] in Lbody; lia).
  destruct (icmp_send_run be arm fuel al' id 0 (l/256) (l mod 256) x4 x5 x6 x7 64 1 s1 s2 a0 a1 a2 a3 x12 x13 x14 x15 type cd k1 k2 tail n Bm Ell ltac:(rewrite Ltail; unfold n; lia) Fu) as (u1 & u2 & v1 & v2 & Es & Bs & S1 & S2).
  set (i := u16 id) in *. set (s := [69;0;l/256;l mod 256;i/256;i mod 256;x6;x7;64;1;v1;v2;a0;a1;a2;a3;x12;x13;x14;x15] ++ [type;cd;u1;u2] ++ tail) in *.
  exists ([69;0;l/256;l mod 256;x4;x5;x6;x7;64;1;s1;s2;a0;a1;a2;a3;x12;x13;x14;x15] ++ [type;cd;k1;k2] ++ tail), s.
  split; [rewrite Eb in R; exact R|]. split; [exact Es|]. split; [exact Bs|].
  assert (Lb2 : length ([type;cd;u1;u2] ++ tail) = n) by (rewrite app_length, Ltail; cbn [length]; unfold n; lia).
  assert (Ls : length s = (20 + n)%nat) by (unfold s; rewrite app_length, Lb2; reflexivity).
  unfold icmp_error_msg. fold h. split; [rewrite Ls; unfold n; lia|]. split; [reflexivity|]. split; [unfold total_len; change (nth 2 s 0) with (l/256); change (nth 3 s 0) with (l mod 256); rewrite Ls; unfold l in *; lia|].
  split; [reflexivity|]. split; [reflexivity|]. split; [reflexivity|]. split; [rewrite Ep; reflexivity|]. split; [exact S1|].
  split; [rewrite <- Ecd; reflexivity|].
  assert (Ek : forall k, skipn (24 + k) s = skipn k tail) by reflexivity.
  split; [unfold sub; change 24%nat with (24 + 0)%nat; rewrite Ek; cbn [skipn]; unfold tail; rewrite firstn_exact by exact Lr; exact Er|].
  split; [|split].
  - change (skipn 20 s) with ([type;cd;u1;u2] ++ tail). rewrite <- S2. f_equal. symmetry. apply firstn_all2. lia.
  - unfold sub. change 28%nat with (24 + 4)%nat. rewrite Ek. unfold tail. rewrite skipn_exact by exact Lr. rewrite Ep. reflexivity.
  - unfold sub. change 40%nat with (24 + 16)%nat. rewrite Ek. unfold tail. change 16%nat with (4 + 12)%nat. rewrite skipn_plus.
    rewrite skipn_exact by exact Lr. replace (skipn 12 ((qh ++ opts) ++ t8)) with (([x12;x13;x14;x15;x16;x17;x18;x19] ++ opts ++ t8) ++ []) by (rewrite app_nil_r; rewrite <- app_assoc; reflexivity).
    replace (skipn 12 p) with (([x12;x13;x14;x15;x16;x17;x18;x19] ++ opts ++ t8) ++ more) by (rewrite Ep, <- !app_assoc; reflexivity).
    rewrite !firstn_exact by (rewrite !app_length, Lo, L8; cbn [length]; lia). reflexivity.
Qed.
