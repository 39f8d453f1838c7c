(* C111, C112. *)
From Verif Require Import Base NameModel NameSpec.
Ltac Zify.zify_post_hook ::= idtac.

(* ---- numerals ---- *)
Lemma nv_app ds es v : fold_left (fun v d => v * 10 + (d - 48)) (ds ++ es) v =
  fold_left (fun v d => v * 10 + (d - 48)) es (fold_left (fun v d => v * 10 + (d - 48)) ds v).
Proof. apply fold_left_app. Qed.

(* what dec_pos prepends to the accumulator *)
Lemma dec_pos_spec : forall f n acc, 0 <= n < 10 ^ (Z.of_nat f) -> (0 < f)%nat ->
  exists ds, dec_pos f n acc = ds ++ acc /\ num_canonical ds /\ num_val ds = n /\
    (length ds <= f)%nat /\ (n <> 0 -> hd 0 ds <> 48).
Proof.
  induction f as [|f IH]; intros n acc Hn Hf; [lia|].
  cbn [dec_pos]. destruct (n <? 10) eqn:E.
  - exists [48 + n]. split; [reflexivity|]. split.
    + split; [split; [discriminate|]|].
      * constructor; [lia|constructor].
      * cbn [hd]. intros H. f_equal. lia.
    + split; [unfold num_val; cbn [fold_left]; lia|]. split; [cbn [length]; lia|]. cbn [hd]. lia.
  - assert (P : 10 ^ Z.of_nat (S f) = 10 * 10 ^ Z.of_nat f).
    { rewrite Nat2Z.inj_succ, Z.pow_succ_r by lia. reflexivity. }
    assert (D : n = 10 * (n / 10) + n mod 10) by (apply Z.div_mod; lia).
    assert (M : 0 <= n mod 10 < 10) by (apply Z.mod_pos_bound; lia).
    assert (Q : 0 <= n / 10 < 10 ^ Z.of_nat f) by lia.
    assert (Hf' : (0 < f)%nat).
    { destruct f; [|lia]. change (10 ^ Z.of_nat 0) with 1 in Q. lia. }
    destruct (IH (n / 10) ((48 + n mod 10) :: acc) Q Hf') as (ds & E1 & (Ck & Cz) & V & L & H0).
    exists (ds ++ [48 + n mod 10]).
    split; [rewrite E1, <- app_assoc; reflexivity|].
    assert (Nz : n / 10 <> 0) by lia.
    destruct ds as [|d ds]; [destruct Ck as [Ck _]; congruence|].
    split.
    + split; [split; [discriminate|]|].
      * destruct Ck as [_ Fo]. apply Forall_app. split; [exact Fo|]. constructor; [lia|constructor].
      * cbn [app hd]. intros H. exfalso. apply (H0 Nz). exact H.
    + split.
      * unfold num_val in *. rewrite nv_app, V. cbn [fold_left]. lia.
      * split; [rewrite app_length; cbn [length] in *; lia|]. intros _. cbn [app hd]. apply (H0 Nz).
Qed.

Definition INT_MAX := 2147483647.

Lemma print_d_spec n : 0 <= n <= INT_MAX ->
  num_canonical (print_d n) /\ num_val (print_d n) = n /\ (length (print_d n) <= 10)%nat.
Proof.
  intros H. unfold print_d. assert (E : (n <? 0) = false) by lia. rewrite E. clear E.
  unfold INT_MAX in H.
  destruct (dec_pos_spec 10 n []) as (ds & E & C & V & L & _); [|lia|].
  - change (10 ^ Z.of_nat 10) with 10000000000. lia.
  - rewrite E, app_nil_r. auto.
Qed.

Lemma read_digits_spec : forall ds rest v, Forall (fun d => 48 <= d <= 57) ds ->
  match rest with c :: _ => is_digit c = false | [] => True end ->
  read_digits (ds ++ rest) v = fold_left (fun v d => v * 10 + (d - 48)) ds v.
Proof.
  induction ds as [|d ds IH]; intros rest v H Hr.
  - cbn [app fold_left]. destruct rest as [|c t]; [reflexivity|]. cbn [read_digits]. rewrite Hr. reflexivity.
  - inversion H as [|? ? H1 H2]; subst. cbn [app read_digits fold_left].
    assert (E : is_digit d = true) by (unfold is_digit; lia). rewrite E. apply IH; assumption.
Qed.

Lemma atoi_spec ds rest : digits_ok ds -> num_val ds <= INT_MAX ->
  match rest with c :: _ => is_digit c = false | [] => True end ->
  atoi (ds ++ rest) = num_val ds.
Proof.
  intros [Hn Hd] Hv Hr.
  assert (Hnn : 0 <= num_val ds).
  { unfold num_val. cut (forall v, 0 <= v -> 0 <= fold_left (fun v d => v * 10 + (d - 48)) ds v).
    { intros G. apply G. lia. }
    clear Hn Hv Hr. induction ds as [|d t IH]; intros v H; cbn [fold_left]; [exact H|].
    inversion Hd; subst. apply IH; [assumption|lia]. }
  unfold atoi. destruct ds as [|d t]; [congruence|].
  assert (D : 48 <= d <= 57) by (inversion Hd; assumption).
  assert (S1 : skip_space ((d :: t) ++ rest) = (d :: t) ++ rest).
  { cbn [app skip_space]. assert (E : is_space d = false) by (unfold is_space; lia). rewrite E. reflexivity. }
  rewrite S1. cbn [app]. assert (E1 : (d =? 45) = false) by lia. assert (E2 : (d =? 43) = false) by lia.
  rewrite E1, E2. change (d :: t ++ rest) with ((d :: t) ++ rest).
  rewrite (read_digits_spec (d :: t) rest 0 Hd Hr).
  fold (num_val (d :: t)). set (v := num_val (d :: t)) in *. clearbody v. unfold INT_MAX in Hv.
  change (2 ^ 63) with 9223372036854775808.
  rewrite Z.min_r by lia. rewrite Z.max_r by lia. unfold to_int.
  rewrite Z.mod_small by lia. assert (E : (v <? 2147483648) = true) by lia. rewrite E. reflexivity.
Qed.

Lemma atoi_num ds : digits_ok ds -> num_val ds <= INT_MAX -> atoi ds = num_val ds.
Proof. intros H1 H2. pose proof (atoi_spec ds [] H1 H2 I) as H. rewrite app_nil_r in H. exact H. Qed.

Lemma hd_digit ds : digits_ok ds -> 48 <= nth 0 ds 0 <= 57.
Proof. intros [Hn H]. destruct ds; [congruence|]. inversion H; subst. cbn [nth]. assumption. Qed.

Lemma no_dot ds rest : Forall (fun d => 48 <= d <= 57) ds -> after_dot (ds ++ rest) = after_dot rest.
Proof.
  induction 1 as [|d t H _ IH]; [reflexivity|]. cbn [app after_dot].
  assert (E : (d =? 46) = false) by lia. rewrite E. exact IH.
Qed.

(* ---- C111 ---- *)
(* The name of every sub-interface is the documented one, *)
Theorem ifnet_name_spelled : forall port vlan, 0 <= port < NUM_PORTS -> 0 <= vlan <= INT_MAX ->
  names (ofp_port_vlan_to_ifnet_name port vlan) port vlan.
Proof.
  intros port vlan Hp Hv. unfold NUM_PORTS, OFP_FP_INTERFACE_MAX in Hp.
  destruct (print_d_spec vlan Hv) as (Cv & Vv & _).
  destruct (print_d_spec port) as (Cp & Vp & _); [unfold INT_MAX; lia|].
  unfold ofp_port_vlan_to_ifnet_name, names.
  change LOCAL_PORTS with 8. change GRE_PORTS with 10. change VXLAN_PORTS with 9.
  unfold LO, VXLAN, GRE, FP_MAX.
  destruct (port =? 8) eqn:E8.
  { right. right. exists s_lo, (print_d vlan). split; [exact Cv|]. split; [exact Vv|]. split; [reflexivity|].
    left. split; [lia|reflexivity]. }
  destruct (port =? 10) eqn:E10.
  { right. right. exists s_gre, (print_d vlan). split; [exact Cv|]. split; [exact Vv|]. split; [reflexivity|].
    right. right. split; [lia|reflexivity]. }
  destruct (port =? 9) eqn:E9.
  { right. right. exists s_vxlan, (print_d vlan). split; [exact Cv|]. split; [exact Vv|]. split; [reflexivity|].
    right. left. split; [lia|reflexivity]. }
  destruct (vlan =? 0) eqn:Ev; cbn [negb].
  - left. split; [lia|]. split; [lia|]. exists (print_d port). auto.
  - right. left. split; [lia|]. split; [lia|]. exists (print_d port), (print_d vlan).
    repeat (split; [assumption|]). reflexivity.
Qed.
Print Assumptions ifnet_name_spelled.

(* every such name (also one typed with these digits) is understood as that sub-interface, *)
Theorem ifnet_name_understood : forall nm port vlan, names nm port vlan -> vlan <= INT_MAX ->
  ofp_name_to_port_vlan nm = (port, Some vlan).
Proof.
  intros nm port vlan H Hv.
  destruct H as [(Hp & V & p & (Cp & _) & Vp & ->)|[(Hp & V & p & v & (Cp & _) & Vp & (Cv & _) & Vv & ->)|
    (pre & v & (Cv & _) & Vv & -> & [(-> & ->)|[(-> & ->)|(-> & ->)]])]].
  - unfold ofp_name_to_port_vlan, s_fp, P_gre, P_vxlan, P_lo, P_fp. cbn -[atoi after_dot].
    unfold FP_MAX in Hp. rewrite (atoi_num p Cp) by (unfold INT_MAX; lia).
    change (102 :: 112 :: p) with ([102; 112] ++ p).
    assert (E : after_dot ([102; 112] ++ p) = None).
    { cbn [app after_dot]. change (102 =? 46) with false. change (112 =? 46) with false. cbv iota.
      destruct Cp as [_ Fp]. rewrite <- (app_nil_r p). rewrite (no_dot p [] Fp). reflexivity. }
    rewrite E, Vp, V. reflexivity.
  - unfold ofp_name_to_port_vlan, s_fp, P_gre, P_vxlan, P_lo, P_fp. cbn -[atoi after_dot].
    unfold FP_MAX in Hp. rewrite (atoi_spec p (dot :: v) Cp) by (try reflexivity; unfold INT_MAX; lia).
    assert (E : after_dot (102 :: 112 :: p ++ dot :: v) = Some v).
    { cbn [after_dot]. change (102 =? 46) with false. change (112 =? 46) with false. cbv iota.
      destruct Cp as [_ Fp]. rewrite (no_dot p _ Fp). reflexivity. }
    rewrite E, Vp, (atoi_num v Cv) by lia. rewrite Vv. reflexivity.
  - unfold ofp_name_to_port_vlan, s_lo, P_gre, P_vxlan, P_lo, P_fp. cbn -[atoi nth].
    pose proof (hd_digit v Cv) as Hd.
    assert (E : (nth 0 v 0 <? 48) || (57 <? nth 0 v 0) = false) by lia. rewrite E.
    rewrite (atoi_num v Cv) by lia. rewrite Vv. reflexivity.
  - unfold ofp_name_to_port_vlan, s_vxlan, P_gre, P_vxlan, P_lo, P_fp. cbn -[atoi nth].
    pose proof (hd_digit v Cv) as Hd.
    assert (E : (nth 0 v 0 <? 48) || (57 <? nth 0 v 0) = false) by lia. rewrite E.
    rewrite (atoi_num v Cv) by lia. rewrite Vv. reflexivity.
  - unfold ofp_name_to_port_vlan, s_gre, P_gre, P_vxlan, P_lo, P_fp. cbn -[atoi nth].
    rewrite (atoi_num v Cv) by lia. rewrite Vv. reflexivity.
Qed.
Print Assumptions ifnet_name_understood.

(* so printing and reading a name is the identity and no two sub-interfaces share a name; *)
Theorem ifnet_name_roundtrip : forall port vlan, 0 <= port < NUM_PORTS -> 0 <= vlan <= INT_MAX ->
  ofp_name_to_port_vlan (ofp_port_vlan_to_ifnet_name port vlan) = (port, Some vlan).
Proof. intros port vlan Hp Hv. apply ifnet_name_understood; [apply ifnet_name_spelled; assumption|lia]. Qed.
Print Assumptions ifnet_name_roundtrip.

Theorem ifnet_name_injective : forall p1 v1 p2 v2,
  0 <= p1 < NUM_PORTS -> 0 <= v1 <= INT_MAX -> 0 <= p2 < NUM_PORTS -> 0 <= v2 <= INT_MAX ->
  ofp_port_vlan_to_ifnet_name p1 v1 = ofp_port_vlan_to_ifnet_name p2 v2 -> p1 = p2 /\ v1 = v2.
Proof.
  intros p1 v1 p2 v2 H1 H2 H3 H4 E. pose proof (ifnet_name_roundtrip p1 v1 H1 H2) as R1.
  rewrite E, (ifnet_name_roundtrip p2 v2 H3 H4) in R1. split; congruence.
Qed.
Print Assumptions ifnet_name_injective.

(* the 18-byte buffer is never overrun. *)
Theorem ifnet_name_fits : forall port vlan, 0 <= port < NUM_PORTS -> 0 <= vlan <= INT_MAX ->
  name_overflows port vlan = false.
Proof.
  intros port vlan Hp Hv. destruct (print_d_spec vlan Hv) as (_ & _ & Lv).
  unfold NUM_PORTS, OFP_FP_INTERFACE_MAX in Hp.
  unfold name_overflows, IFNAME_BUF, ofp_port_vlan_to_ifnet_name.
  change LOCAL_PORTS with 8. change GRE_PORTS with 10. change VXLAN_PORTS with 9.
  destruct (port =? 8) eqn:E8; [unfold P_lo; rewrite app_length; cbn [length]; lia|].
  destruct (port =? 10) eqn:E10; [unfold P_gre; rewrite app_length; cbn [length]; lia|].
  destruct (port =? 9) eqn:E9; [unfold P_vxlan; rewrite app_length; cbn [length]; lia|].
  assert (Lp : length (print_d port) = 1%nat).
  { unfold print_d. assert (E : (port <? 0) = false) by lia. rewrite E. cbn [dec_pos].
    assert (E2 : (port <? 10) = true) by lia. rewrite E2. reflexivity. }
  destruct (negb (vlan =? 0)); unfold P_fp; rewrite ?app_length; cbn [length]; lia.
Qed.
Print Assumptions ifnet_name_fits.

(* The number behind "fp" is not checked: "fp8.1" is taken for the loopback interface lo1,
   and "fp10.5" for the tunnel gre5; *)
Theorem ifnet_name_alias_refuted :
  ofp_name_to_port_vlan (s_fp ++ [56; dot; 49]) = (LO, Some 1) /\
  ofp_name_to_port_vlan (s_fp ++ [49; 48; dot; 53]) = (GRE, Some 5) /\
  ~ exists v, names (s_fp ++ [56; dot; 49]) LO v.
Proof.
  split; [reflexivity|]. split; [reflexivity|]. intros (v & H).
  destruct H as [(Hp & _)|[(Hp & _)|(pre & w & _ & _ & E & [(_ & ->)|[(A & _)|(A & _)]])]];
    [unfold LO, FP_MAX in Hp; lia|unfold LO, FP_MAX in Hp; lia|discriminate|discriminate|discriminate].
Qed.
Print Assumptions ifnet_name_alias_refuted.

(* a name without any number is the first physical port, and "green" a GRE tunnel. *)
Theorem ifnet_name_nonsense_refuted :
  ofp_name_to_port_vlan (s_fp ++ [103; 97]) = (0, Some 0) /\
  ofp_name_to_port_vlan (s_gre ++ [101; 110]) = (GRE, Some 0).
Proof. split; reflexivity. Qed.
Print Assumptions ifnet_name_nonsense_refuted.

Example ifnet_name_ex :
  ofp_port_vlan_to_ifnet_name 3 100 = [102; 112; 51; 46; 49; 48; 48] /\
  names [102; 112; 51; 46; 49; 48; 48] 3 100 /\
  ofp_port_vlan_to_ifnet_name 9 4095 = [118; 120; 108; 97; 110; 52; 48; 57; 53].
Proof.
  split; [reflexivity|]. split; [|reflexivity].
  apply (ifnet_name_spelled 3 100); unfold NUM_PORTS, OFP_FP_INTERFACE_MAX, INT_MAX; lia.
Qed.

(* ---- C112 ---- *)
Lemma tb2 n : 0 <= n -> Z.testbit 2 n = (n =? 1).
Proof. intros H. change 2 with (2 ^ 1). rewrite Z.pow2_bits_eqb by lia. apply Z.eqb_sym. Qed.

Lemma lxor2 a : Z.lxor a 2 = if Z.testbit a 1 then a - 2 else a + 2.
Proof.
  destruct (Z.testbit a 1) eqn:T.
  - rewrite Z.sub_nocarry_ldiff.
    + apply Z.bits_inj'. intros n Hn. rewrite Z.ldiff_spec, Z.lxor_spec, tb2 by lia.
      destruct (n =? 1) eqn:E; [replace n with 1 by lia; rewrite T; reflexivity|].
      cbn. rewrite andb_true_r, xorb_false_r. reflexivity.
    + apply Z.bits_inj'. intros n Hn. rewrite Z.ldiff_spec, Z.bits_0, tb2 by lia.
      destruct (n =? 1) eqn:E; [replace n with 1 by lia; rewrite T; reflexivity|reflexivity].
  - symmetry. apply Z.add_nocarry_lxor.
    apply Z.bits_inj'. intros n Hn. rewrite Z.land_spec, Z.bits_0, tb2 by lia.
    destruct (n =? 1) eqn:E; [replace n with 1 by lia; rewrite T; reflexivity|apply andb_false_r].
Qed.

(* RFC 4291 2.5.6 and appendix A: fe80::/64 and the modified EUI-64 of the MAC address *)
Theorem link_local_rfc4291 : forall a b c d e f, 0 <= a < 256 ->
  ofp_mac_to_link_local [a; b; c; d; e; f] =
    [254; 128] ++ repeat 0 6 ++ [(if Z.testbit a 1 then a - 2 else a + 2); b; c; 255; 254; d; e; f].
Proof.
  intros a b c d e f Ha. unfold ofp_mac_to_link_local. cbn -[Z.lxor Z.testbit Z.sub Z.add].
  repeat f_equal.
  apply lxor2.
Qed.
Print Assumptions link_local_rfc4291.

(* so interfaces with different MAC addresses have different link-local addresses *)
Theorem link_local_injective : forall m1 m2, length m1 = 6%nat -> length m2 = 6%nat ->
  ofp_mac_to_link_local m1 = ofp_mac_to_link_local m2 -> m1 = m2.
Proof.
  intros m1 m2 L1 L2 E.
  destruct m1 as [|a1 [|b1 [|c1 [|d1 [|e1 [|f1 [|? ?]]]]]]]; try discriminate L1.
  destruct m2 as [|a2 [|b2 [|c2 [|d2 [|e2 [|f2 [|? ?]]]]]]]; try discriminate L2.
  unfold ofp_mac_to_link_local in E. cbn -[Z.lxor] in E.
  injection E as Ea Eb Ec Ed Ee Ef. subst.
  assert (a1 = a2); [|subst; reflexivity].
  rewrite <- (Z.lxor_0_r a1), <- (Z.lxor_0_r a2), <- (Z.lxor_nilpotent 2), <- !Z.lxor_assoc, Ea. reflexivity.
Qed.
Print Assumptions link_local_injective.

Example link_local_ex : ofp_mac_to_link_local [0; 17; 34; 51; 68; 85] =
  [254; 128; 0; 0; 0; 0; 0; 0; 2; 17; 34; 255; 254; 51; 68; 85].
Proof. reflexivity. Qed.
