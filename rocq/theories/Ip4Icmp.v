From Verif Require Import Base CksumModel CksumSpec CksumProof CksumProof2 CksumProof3 CksumProps Ip4Model Ip4Spec Ip4Proof.
Ltac Zify.zify_post_hook ::= idtac.

Lemma rfc1071_range l : bytes_ok l -> 0 <= rfc1071 l <= 65535.
Proof. intros B. destruct (rfc_sum_char l B) as (R & _). unfold rfc1071. lia. Qed.
Lemma net16_bytes x : 0 <= x <= 65535 -> bytes_ok (net16 x).
Proof.
  intros H. unfold net16. pose proof (Z_div_mod_eq_full x 256). pose proof (Z.mod_pos_bound x 256 ltac:(lia)).
  constructor; [unfold is_byte; lia|]. constructor; [unfold is_byte; lia|constructor].
Qed.
Lemma ck_store a b : bytes_ok a -> bytes_ok b -> Nat.even (length a) = true ->
  rfc1071_sum (a ++ net16 (rfc1071 (a ++ [0; 0] ++ b)) ++ b) = 65535.
Proof.
  intros A B Ev. assert (B0 : bytes_ok (a ++ [0;0] ++ b)).
  { apply bytes_ok_app. split; [exact A|]. repeat constructor; try (unfold is_byte; lia). exact B. }
  pose proof (rfc1071_range _ B0) as R. pose proof (net16_bytes _ R) as Bn. destruct (rfc_sum_char _ B0) as (R1 & R2 & R3).
  apply sum_ok_iff. { apply bytes_ok_app. split; [exact A|]. apply bytes_ok_app. auto. }
  rewrite wsum_app in R2, R3 by exact Ev. rewrite wsum_app by exact Ev. unfold net16. cbn [app] in *. rewrite wsum_cons in *.
  pose proof (wsum_nonneg 256 1 a ltac:(lia) ltac:(lia) A). pose proof (wsum_nonneg 256 1 b ltac:(lia) ltac:(lia) B).
  set (r := rfc1071 (a ++ 0 :: 0 :: b)) in *. assert (Er : r = 65535 - rfc1071_sum (a ++ 0 :: 0 :: b)) by reflexivity.
  pose proof (Z_div_mod_eq_full r 256). destruct R2 as [k R2]. split; [exists (1 - k); lia|lia].
Qed.

(* the two header bytes at offset 10 *)
Lemma iph_store be al x0 x1 x2 x3 x4 x5 x6 x7 x8 x9 t hl : let p := x0::x1::x2::x3::x4::x5::x6::x7::x8::x9::0::0::t in
  hdr_ok hl p -> exists c s1 s2, ofp_cksum_iph be al p hl = Ret c /\ st16 be c = [s1; s2] /\ is_byte s1 /\ is_byte s2 /\
  rfc1071_sum (firstn (Z.to_nat (4 * hl)) (x0::x1::x2::x3::x4::x5::x6::x7::x8::x9::s1::s2::t)) = 65535.
Proof.
  intros p H. destruct (iph_zero be al p hl H) as (c & E & R & S & _). destruct H as (B & H & L).
  set (m := (Z.to_nat (4 * hl) - 12)%nat). assert (N : Z.to_nat (4 * hl) = (12 + m)%nat) by (unfold m; lia). rewrite N in *.
  assert (B' : bytes_ok (x0::x1::x2::x3::x4::x5::x6::x7::x8::x9::0::0::firstn m t)).
  { change (bytes_ok (firstn (12 + m) p)). rewrite <- (firstn_skipn (12 + m) p) in B. apply bytes_ok_app in B. tauto. }
  change (firstn (12 + m) p) with ([x0;x1;x2;x3;x4;x5;x6;x7;x8;x9] ++ [0;0] ++ firstn m t) in S.
  assert (B1 : bytes_ok [x0;x1;x2;x3;x4;x5;x6;x7;x8;x9] /\ bytes_ok (firstn m t)).
  { change (bytes_ok ([x0;x1;x2;x3;x4;x5;x6;x7;x8;x9] ++ [0;0] ++ firstn m t)) in B'. apply bytes_ok_app in B'. destruct B' as [? B']. apply bytes_ok_app in B'. tauto. }
  destruct B1 as [B1 B2]. pose proof (ck_store _ _ B1 B2 eq_refl) as K. pose proof (net16_bytes _ (rfc1071_range _ B')) as Bn. rewrite <- S in K.
  change (rfc1071 (x0::x1::x2::x3::x4::x5::x6::x7::x8::x9::0::0::firstn m t)) with (rfc1071 ([x0;x1;x2;x3;x4;x5;x6;x7;x8;x9] ++ [0;0] ++ firstn m t)) in Bn. rewrite <- S in Bn.
  assert (exists s1 s2, st16 be c = [s1; s2]) as (s1 & s2 & Es) by (unfold st16; destruct be; eauto). rewrite Es in *.
  exists c, s1, s2. split; [exact E|]. split; [first [exact Es|reflexivity]|]. inversion Bn as [|? ? b1 Bn']; subst. inversion Bn' as [|? ? b2 ?]; subst. auto.
Qed.

Lemma st16_cons be x : exists s1 s2, st16 be x = [s1; s2].
Proof. unfold st16. destruct be; eauto. Qed.
Lemma app3 {A} (a b c : list A) : (a ++ b) ++ c = a ++ b ++ c. Proof. symmetry. apply app_assoc. Qed.
Lemma split_tail (n : nat) (l : list Z) : (n <= length l)%nat -> exists a b, l = a ++ b /\ length a = n.
Proof. intros H. exists (firstn n l), (skipn n l). split; [symmetry; apply firstn_skipn|apply firstn_length_le; exact H]. Qed.

(* which quotation length the unconverted length field leads to *)
Definition quote_ok (be : bool) (p : list Z) : Prop :=
  let raw := if be then nth 2 p 0 * 256 + nth 3 p 0 else nth 2 p 0 + nth 3 p 0 * 256 in
  raw < 4 * hdr_words p \/ 4 * hdr_words p + 8 <= raw.
Definition rest_of (be : bool) (type code : Z) (dest : list Z) (mtu : Z) : list Z :=
  if type =? T_REDIRECT then dest
  else if type =? T_PARAMPROB then [u8 code; 0; 0; 0]
  else if (type =? T_UNREACH) && (code =? 4) && negb (mtu =? 0) then [0; 0] ++ net16 (u16 mtu)
  else [0; 0; 0; 0].
Definition code_of (type code : Z) : Z := if type =? T_PARAMPROB then 0 else u8 code.
Definition suppressed (l2 : Z) (p : list Z) (type : Z) : bool :=
  negb ((nth 6 p 0 * 256 + nth 7 p 0) mod 8192 =? 0) ||
  ((nth 9 p 0 =? 1) && negb (type =? T_REDIRECT) && negb (infotype (nth (hdr_len p) p 0))).

Lemma icmp_error_run be al l2 alloc p type code dest mtu :
  header_there p -> (2 * hdr_len p + 16 <= length p)%nat -> quote_ok be p -> 0 <= l2 -> length dest = 4%nat ->
  exists x0 x1 x2 x3 x4 x5 x6 x7 x8 x9 x10 x11 x12 x13 x14 x15 x16 x17 x18 x19 opts t8 more s1 s2 k1 k2,
  p = [x0;x1;x2;x3;x4;x5;x6;x7;x8;x9;x10;x11;x12;x13;x14;x15;x16;x17;x18;x19] ++ opts ++ t8 ++ more /\
  length opts = (hdr_len p - 20)%nat /\ length t8 = 8%nat /\
  icmp_error be al l2 alloc p type code dest mtu = Ret (if suppressed l2 p type || negb alloc then None else
    Some ([64 + hdr_words p; 0; (8 * hdr_words p + 16) / 256; (8 * hdr_words p + 16) mod 256;x4;x5;x6;x7;x8;1;s1;s2;x12;x13;x14;x15;x16;x17;x18;x19] ++ opts ++
      ([u8 type; code_of type code; k1; k2] ++ rest_of be type code dest mtu) ++
      ([x0;x1;x2;x3;x4;x5;x6;x7;x8;x9;s1;s2;x12;x13;x14;x15;x16;x17;x18;x19] ++ opts) ++ t8)) /\ is_byte s1 /\ is_byte s2 /\ is_byte k1 /\ is_byte k2.
Proof.
  intros H L Q L2 Ld. pose proof (hdr_words_bound p) as W. destruct (there_ok p H) as [(B & W5 & Lh) L20].
  destruct (open20 p L20) as (x0&x1&x2&x3&x4&x5&x6&x7&x8&x9&x10&x11&x12&x13&x14&x15&x16&x17&x18&x19&t&E).
  assert (E4 : hdr_len p = Z.to_nat (4 * hdr_words p)) by reflexivity. assert (W5' : 5 <= hdr_words p) by (destruct H as (_ & h1 & _); exact h1).
  set (hl := hdr_words p) in *. set (h := hdr_len p) in *.
  assert (Lt : (h - 20 + 8 + h + 8 <= length t)%nat) by (rewrite E in L; cbn [length] in L; lia).
  destruct (split_tail (h - 20) t ltac:(lia)) as (opts & t1 & Et & Lo).
  assert (Lt1 : (8 + h + 8 <= length t1)%nat) by (rewrite Et, app_length in Lt; lia).
  destruct (split_tail 8 t1 ltac:(lia)) as (t8 & t2 & Et1 & L8).
  assert (Lt2 : (h + 8 <= length t2)%nat) by (rewrite Et1, app_length in Lt1; lia).
  destruct (split_tail h t2 ltac:(lia)) as (th & t3 & Et2 & Lth).
  assert (Lt3 : (8 <= length t3)%nat) by (rewrite Et2, app_length in Lt2; lia).
  destruct (split_tail 8 t3 ltac:(lia)) as (td & t4 & Et3 & Ltd).
  assert (Hp : HL p = hl) by reflexivity.
  set (H0 := [x0;x1;x2;x3;x4;x5;x6;x7;x8;x9;0;0;x12;x13;x14;x15;x16;x17;x18;x19]).
  assert (P0 : wr p 10 [0;0] = Ret (H0 ++ t)) by (rewrite E; reflexivity).
  assert (K0 : hdr_ok hl (H0 ++ t)).
  { split; [|split; [lia|]].
    - rewrite E in B. unfold bytes_ok in *. unfold H0. cbn [app]. do 20 (apply Forall_cons_iff in B; destruct B as [? B]). repeat (apply Forall_cons; [first [assumption|unfold is_byte; lia]|]). exact B.
    - unfold H0. rewrite app_length. cbn [length]. lia. }
  destruct (iph_store be al x0 x1 x2 x3 x4 x5 x6 x7 x8 x9 (x12::x13::x14::x15::x16::x17::x18::x19::t) hl K0) as (c & s1 & s2 & Ec & Es & b1 & b2 & _).
  set (H1 := [x0;x1;x2;x3;x4;x5;x6;x7;x8;x9;s1;s2;x12;x13;x14;x15;x16;x17;x18;x19]).
  assert (P1 : wr (H0 ++ t) 10 (st16 be c) = Ret (H1 ++ t)) by (rewrite Es; reflexivity).
  destruct t8 as [|a0 [|a1 [|a2 [|a3 [|a4 [|a5 [|a6 [|a7 [|]]]]]]]]]; try discriminate L8.
  assert (Lh1 : length H1 = 20%nat) by reflexivity.
  exists x0,x1,x2,x3,x4,x5,x6,x7,x8,x9,x10,x11,x12,x13,x14,x15,x16,x17,x18,x19,opts,[a0;a1;a2;a3;a4;a5;a6;a7],t2,s1,s2,a2,a3.
  assert (Ba : is_byte a2 /\ is_byte a3).
  { rewrite E in B. unfold bytes_ok in B. do 20 (apply Forall_cons_iff in B; destruct B as [? B]). rewrite Et in B. apply Forall_app in B. destruct B as [_ B]. rewrite Et1 in B.
    apply Forall_app in B. destruct B as [B _]. do 4 (apply Forall_cons_iff in B; destruct B as [? B]). auto. }
  split; [rewrite E, Et, Et1; reflexivity|]. split; [exact Lo|]. split; [reflexivity|]. split; [|tauto].
  assert (Hn : nth 0 (H1 ++ t) 0 = nth 0 p 0) by (rewrite E; reflexivity).
  unfold icmp_error. rewrite P0. cbn [obind]. change (HL (H0 ++ t)) with (nth 0 (H0 ++ t) 0 mod 16). replace (nth 0 (H0 ++ t) 0 mod 16) with hl by (unfold hl, hdr_words; rewrite E; reflexivity).
  fold H0 in Ec. change (H0 ++ t) with (x0::x1::x2::x3::x4::x5::x6::x7::x8::x9::0::0::x12::x13::x14::x15::x16::x17::x18::x19::t) in P1 |- *. rewrite Ec. cbn [obind]. rewrite P1. cbn [obind].
  assert (B6 : be16 (H1 ++ t) 6 = Ret (nth 6 p 0 * 256 + nth 7 p 0)) by (rewrite E; reflexivity). rewrite B6. cbn [obind]. rewrite Hp.
  unfold suppressed. fold h. destruct (negb ((nth 6 p 0 * 256 + nth 7 p 0) mod 8192 =? 0)) eqn:Efr; [reflexivity|]. cbn [orb].
  assert (B9 : ld8 (H1 ++ t) 9 = Ret (nth 9 p 0)) by (rewrite E; reflexivity). rewrite B9. cbn [obind].
  assert (Bh : ld8 (H1 ++ t) (Z.to_nat (4 * hl)) = Ret (nth h p 0)).
  { rewrite <- E4. rewrite Et, Et1. cbn [app]. change (H1 ++ opts ++ a0 :: a1 :: a2 :: a3 :: a4 :: a5 :: a6 :: a7 :: t2) with (H1 ++ opts ++ a0 :: (a1 :: a2 :: a3 :: a4 :: a5 :: a6 :: a7 :: t2)).
    rewrite app_assoc. rewrite ld8_at by (rewrite app_length, Lh1, Lo; lia). rewrite E, Et, Et1.
    replace (x0::x1::x2::x3::x4::x5::x6::x7::x8::x9::x10::x11::x12::x13::x14::x15::x16::x17::x18::x19::opts ++ [a0;a1;a2;a3;a4;a5;a6;a7] ++ t2)
      with (([x0;x1;x2;x3;x4;x5;x6;x7;x8;x9;x10;x11;x12;x13;x14;x15;x16;x17;x18;x19] ++ opts) ++ a0 :: (a1 :: a2 :: a3 :: a4 :: a5 :: a6 :: a7 :: t2)) by (rewrite <- app_assoc; reflexivity).
    rewrite app_nth2; rewrite app_length, Lo; cbn [length]; [|lia]. replace (h - (20 + (h - 20)))%nat with 0%nat by lia. reflexivity. }
  assert (Lp : Z.of_nat (length (H1 ++ t)) = Z.of_nat (length p)) by (rewrite E; reflexivity).
  assert (Er : (if (nth 9 p 0 =? 1) && negb (type =? T_REDIRECT) && (l2 + Z.of_nat (length (H1 ++ t)) >=? 4 * hl + 8)
     then obind (ld8 (H1 ++ t) (Z.to_nat (4 * hl))) (fun t0 : Z => Ret (negb (infotype t0))) else Ret false) =
     Ret ((nth 9 p 0 =? 1) && negb (type =? T_REDIRECT) && negb (infotype (nth h p 0)))).
  { rewrite Lp. destruct (Z.geb_spec (l2 + Z.of_nat (length p)) (4 * hl + 8)) as [G|G]; [|lia]. rewrite andb_true_r.
    destruct ((nth 9 p 0 =? 1) && negb (type =? T_REDIRECT)); [|reflexivity]. rewrite Bh. reflexivity. }
  rewrite Er. cbn [obind]. destruct ((nth 9 p 0 =? 1) && negb (type =? T_REDIRECT) && negb (infotype (nth h p 0))); [reflexivity|]. cbn [orb].
  destruct alloc; [|reflexivity]. cbn [negb].
  assert (Elen : u16 (4 * hl * 2 + 16) = 8 * hl + 16) by (unfold u16; rewrite Z.mod_small; lia). rewrite Elen. rewrite <- E4.
  assert (T : t = opts ++ [a0;a1;a2;a3;a4;a5;a6;a7] ++ th ++ td ++ t4) by (rewrite Et, Et1, Et2, Et3; reflexivity).
  assert (S1 : slice (H1 ++ t) 0 (Z.to_nat (8 * hl + 16)) = Ret (H1 ++ opts ++ [a0;a1;a2;a3;a4;a5;a6;a7] ++ th ++ td)).
  { rewrite T. replace (H1 ++ opts ++ [a0;a1;a2;a3;a4;a5;a6;a7] ++ th ++ td ++ t4) with ([] ++ (H1 ++ opts ++ [a0;a1;a2;a3;a4;a5;a6;a7] ++ th ++ td) ++ t4) by (rewrite <- !app_assoc; reflexivity).
    apply slice_at; [reflexivity|]. rewrite !app_length, Lh1, Lo, Lth, Ltd. cbn [length]. lia. }
  rewrite S1. cbn [obind].
  assert (S2 : slice (H1 ++ t) 0 h = Ret (H1 ++ opts)).
  { rewrite T. replace (H1 ++ opts ++ [a0;a1;a2;a3;a4;a5;a6;a7] ++ th ++ td ++ t4) with ([] ++ (H1 ++ opts) ++ ([a0;a1;a2;a3;a4;a5;a6;a7] ++ th ++ td ++ t4)) by (rewrite <- !app_assoc; reflexivity).
    apply slice_at; [reflexivity|]. rewrite app_length, Lh1, Lo. lia. }
  rewrite S2. cbn [obind].
  assert (R1 : wr (H1 ++ opts ++ [a0;a1;a2;a3;a4;a5;a6;a7] ++ th ++ td) (h + 8) (H1 ++ opts) = Ret (H1 ++ opts ++ [a0;a1;a2;a3;a4;a5;a6;a7] ++ (H1 ++ opts) ++ td)).
  { replace (H1 ++ opts ++ [a0;a1;a2;a3;a4;a5;a6;a7] ++ th ++ td) with ((H1 ++ opts ++ [a0;a1;a2;a3;a4;a5;a6;a7]) ++ th ++ td) by (rewrite <- !app_assoc; reflexivity).
    rewrite wr_at; [rewrite <- !app_assoc; reflexivity| |]; rewrite !app_length, Lh1, Lo; cbn [length]; lia. }
  rewrite R1. cbn [obind].
  assert (Raw : ld16 be (H1 ++ t) 2 = Ret (if be then nth 2 p 0 * 256 + nth 3 p 0 else nth 2 p 0 + nth 3 p 0 * 256)) by (rewrite E; reflexivity).
  rewrite Raw. cbn [obind].
  assert (Qn : 8 <= u32 ((if be then nth 2 p 0 * 256 + nth 3 p 0 else nth 2 p 0 + nth 3 p 0 * 256) - 4 * hl)).
  { unfold quote_ok in Q. fold hl in Q. assert (Hx : is_byte x2 /\ is_byte x3) by (rewrite E in B; unfold bytes_ok in B; do 4 (apply Forall_cons_iff in B; destruct B as [? B]); auto).
    rewrite E in Q |- *. cbn [nth] in *. unfold is_byte in Hx. unfold u32. destruct Q as [Q|Q].
    - rewrite <- (Z_mod_plus_full _ 1). rewrite Z.mod_small; destruct be; lia.
    - rewrite Z.mod_small; destruct be; lia. }
  destruct (Z.gtb_spec 8 (u32 ((if be then nth 2 p 0 * 256 + nth 3 p 0 else nth 2 p 0 + nth 3 p 0 * 256) - 4 * hl))) as [G|_]; [lia|].
  change (Z.to_nat 8) with 8%nat.
  assert (S3 : slice (H1 ++ t) h 8 = Ret [a0;a1;a2;a3;a4;a5;a6;a7]).
  { rewrite T. replace (H1 ++ opts ++ [a0;a1;a2;a3;a4;a5;a6;a7] ++ th ++ td ++ t4) with ((H1 ++ opts) ++ [a0;a1;a2;a3;a4;a5;a6;a7] ++ (th ++ td ++ t4)) by (rewrite <- !app_assoc; reflexivity).
    apply slice_at; [rewrite app_length, Lh1, Lo; lia|reflexivity]. }
  rewrite S3. cbn [obind].
  assert (R2 : wr (H1 ++ opts ++ [a0;a1;a2;a3;a4;a5;a6;a7] ++ (H1 ++ opts) ++ td) (h + 8 + h) [a0;a1;a2;a3;a4;a5;a6;a7] =
     Ret (H1 ++ opts ++ [a0;a1;a2;a3;a4;a5;a6;a7] ++ (H1 ++ opts) ++ [a0;a1;a2;a3;a4;a5;a6;a7])).
  { replace (H1 ++ opts ++ [a0;a1;a2;a3;a4;a5;a6;a7] ++ (H1 ++ opts) ++ td) with ((H1 ++ opts ++ [a0;a1;a2;a3;a4;a5;a6;a7] ++ (H1 ++ opts)) ++ td ++ []) by (rewrite app_nil_r, <- !app_assoc; reflexivity).
    rewrite wr_at; [rewrite app_nil_r, <- !app_assoc; reflexivity| |]; rewrite ?app_length, ?Lh1, ?Lo; cbn [length]; lia. }
  rewrite R2. cbn [obind].
  set (Q8 := [a0;a1;a2;a3;a4;a5;a6;a7]) in *. set (HH := (H1 ++ opts) ++ Q8).
  assert (A : forall i b b' z, i = (h + length z)%nat -> length b = length b' -> forall y, wr (H1 ++ opts ++ (z ++ b ++ y) ++ HH) i b' = Ret (H1 ++ opts ++ (z ++ b' ++ y) ++ HH)).
  { intros i b b' z -> Eb y. replace (H1 ++ opts ++ (z ++ b ++ y) ++ HH) with ((H1 ++ opts ++ z) ++ b ++ (y ++ HH)) by (rewrite <- !app_assoc; reflexivity).
    rewrite wr_at; [rewrite <- !app_assoc; reflexivity| |exact Eb]. rewrite !app_length, Lh1, Lo. lia. }
  change Q8 with ([] ++ [a0] ++ [a1;a2;a3;a4;a5;a6;a7]) at 1. rewrite (A h [a0] [u8 type] []) by (cbn [length]; lia). cbn [obind]. cbn [app].
  match goal with |- context [wr _ (h + 4) ?r] => set (rest := r) end.
  assert (Lr : length rest = 4%nat /\ rest = rest_of be type code dest mtu).
  { unfold rest, rest_of. destruct (type =? T_REDIRECT); [split; [exact Ld|reflexivity]|]. destruct (type =? T_PARAMPROB); [split; reflexivity|].
    destruct ((type =? T_UNREACH) && (code =? 4) && negb (mtu =? 0)); [|split; reflexivity]. rewrite st16_net; [split; reflexivity|]. unfold u16. pose proof (Z.mod_pos_bound mtu 65536 ltac:(lia)). lia. }
  destruct Lr as [Lr Er2]. rewrite <- Er2. clearbody rest.
  change (H1 ++ opts ++ u8 type :: a1 :: a2 :: a3 :: a4 :: a5 :: a6 :: a7 :: HH) with (H1 ++ opts ++ ([u8 type;a1;a2;a3] ++ [a4;a5;a6;a7] ++ []) ++ HH).
  rewrite (A (h + 4)%nat [a4;a5;a6;a7] rest [u8 type;a1;a2;a3]) by (cbn [length]; lia). cbn [obind]. rewrite app_nil_r.
  change ([u8 type; a1; a2; a3] ++ rest) with ([u8 type] ++ [a1] ++ ([a2; a3] ++ rest)).
  assert (Ecd : [u8 (if type =? T_PARAMPROB then 0 else code)] = [code_of type code]) by (unfold code_of; destruct (type =? T_PARAMPROB); reflexivity).
  rewrite Ecd. rewrite (A (h + 1)%nat [a1] [code_of type code] [u8 type]) by (cbn [length]; lia). cbn [obind].
  rewrite st16_net by lia.
  set (Tail := opts ++ ([u8 type] ++ [code_of type code] ++ [a2; a3] ++ rest) ++ HH).
  assert (V1 : wr (H1 ++ Tail) 2 (net16 (8 * hl + 16)) = Ret ([x0;x1;(8 * hl + 16) / 256;(8 * hl + 16) mod 256;x4;x5;x6;x7;x8;x9;s1;s2;x12;x13;x14;x15;x16;x17;x18;x19] ++ Tail)) by reflexivity.
  rewrite V1. cbn [obind].
  assert (V2 : HL ([x0;x1;(8 * hl + 16) / 256;(8 * hl + 16) mod 256;x4;x5;x6;x7;x8;x9;s1;s2;x12;x13;x14;x15;x16;x17;x18;x19] ++ Tail) = hl) by (unfold hl, hdr_words; rewrite E; reflexivity).
  rewrite V2.
  assert (V3 : wr ([x0;x1;(8 * hl + 16) / 256;(8 * hl + 16) mod 256;x4;x5;x6;x7;x8;x9;s1;s2;x12;x13;x14;x15;x16;x17;x18;x19] ++ Tail) 0 [64 + hl; 0] =
    Ret ([64 + hl;0;(8 * hl + 16) / 256;(8 * hl + 16) mod 256;x4;x5;x6;x7;x8;x9;s1;s2;x12;x13;x14;x15;x16;x17;x18;x19] ++ Tail)) by reflexivity.
  rewrite V3. cbn [obind].
  assert (V4 : wr ([64 + hl;0;(8 * hl + 16) / 256;(8 * hl + 16) mod 256;x4;x5;x6;x7;x8;x9;s1;s2;x12;x13;x14;x15;x16;x17;x18;x19] ++ Tail) 9 [1] =
    Ret ([64 + hl;0;(8 * hl + 16) / 256;(8 * hl + 16) mod 256;x4;x5;x6;x7;x8;1;s1;s2;x12;x13;x14;x15;x16;x17;x18;x19] ++ Tail)) by reflexivity.
  rewrite V4. cbn [obind]. reflexivity.
Qed.
