(* C105: a tunnel hands out the packet that was put in. *)
From Verif Require Import Base CksumModel Ip4Model Ip4Proof TunModel.
Ltac Zify.zify_post_hook ::= idtac.

Ltac open l n := match n with O => (destruct l; [|discriminate]) | S ?k => let x := fresh "x" in destruct l as [|x l]; [discriminate|]; open l k end.

(* an IP header of 20 bytes *)
Definition header (h : list Z) : Prop := length h = 20%nat /\ nth 0 h 0 = 69.

(* what the output gives: outer header, GRE header, and the packet from its IP header on *)
Theorem gre_encapsulates : forall (v6 has_l2 : bool) (id lcl rem L inner : list Z), length id = 2%nat -> length lcl = 4%nat -> length rem = 4%nat ->
  (length L <= 24)%nat -> (has_l2 = false -> L = []) -> (length inner >= if v6 then 40 else 20)%nat ->
  exists tos ttl l, nth_error inner (if v6 then 7 else 8) = Some ttl /\ be16 inner (if v6 then 4 else 2) = Ret l /\
    gre_out v6 has_l2 id lcl rem (mkP (L ++ inner) 0 (length L)) =
    Ret (mkP ([69; tos] ++ pk16 ((l + (if v6 then 40 else 0) + 24) mod 65536) ++ id ++ [0; 0; ttl; 47; 0; 0] ++ lcl ++ rem ++ [0; 0] ++ (if v6 then [134; 221] else [8; 0]) ++ inner) 0 0).
Proof.
  intros v6 has_l2 id lcl rem L inner Hi Hl Hr HL HN Hn.
  assert (LD : forall k, (k < length inner)%nat -> exists b, nth_error inner k = Some b /\ ld8 (L ++ inner) (length L + k) = Ret b /\ ld8 inner k = Ret b).
  { intros k K. destruct (nth_error inner k) as [b|] eqn:E; [|apply nth_error_None in E; lia]. exists b. split; [reflexivity|]. unfold ld8. rewrite nth_error_app2 by lia. replace (length L + k - length L)%nat with k by lia. rewrite E. split; reflexivity. }
  destruct (LD 1%nat ltac:(destruct v6; lia)) as (tos & _ & T1 & _). destruct (LD (if v6 then 7 else 8)%nat ltac:(destruct v6; lia)) as (ttl & T2 & T3 & _).
  destruct (LD (if v6 then 4 else 2)%nat ltac:(destruct v6; lia)) as (a & _ & T4 & T5). destruct (LD (S (if v6 then 4 else 2))%nat ltac:(destruct v6; lia)) as (b & _ & T6 & T7).
  exists (if v6 then 0 else tos), ttl, (a * 256 + b). split; [exact T2|]. split; [unfold be16; rewrite T5; cbn [obind]; rewrite T7; reflexivity|].
  unfold gre_out. cbn [data l2 l3]. rewrite T1. cbn [obind]. rewrite T3. cbn [obind]. unfold be16 at 1. rewrite T4. cbn [obind]. replace (S (length L + (if v6 then 4 else 2)))%nat with (length L + S (if v6 then 4 else 2))%nat by lia. rewrite T6. cbn [obind].
  assert (R : exists pre, length pre = 24%nat /\ (if 0 <=? 24 - (if has_l2 then Z.of_nat (length L - 0) mod 256 else 0) then repeat 0 (Z.to_nat (24 - (if has_l2 then Z.of_nat (length L - 0) mod 256 else 0))) ++ L ++ inner
      else skipn (Z.to_nat (- (24 - (if has_l2 then Z.of_nat (length L - 0) mod 256 else 0)))) (L ++ inner)) = pre ++ inner).
  { rewrite Nat.sub_0_r. assert (E : (if has_l2 then Z.of_nat (length L) mod 256 else 0) = Z.of_nat (length L)) by (destruct has_l2; [apply Z.mod_small; lia|rewrite (HN eq_refl); reflexivity]).
    rewrite E. replace (0 <=? 24 - Z.of_nat (length L)) with true by (symmetry; apply Z.leb_le; lia). exists (repeat 0 (Z.to_nat (24 - Z.of_nat (length L))) ++ L). split; [rewrite app_length, repeat_length; lia|]. rewrite app_assoc. reflexivity. }
  destruct R as (pre & PL & ->). set (tot := (a * 256 + b + (if v6 then 40 else 0) + 24) mod 65536). clearbody tot.
  open id 2%nat. open lcl 4%nat. open rem 4%nat. unfold wr, pk16. cbn [app]. destruct v6; cbn [app length]; rewrite app_length, PL;
    match goal with |- context [Nat.leb ?u ?w] => replace (Nat.leb u w) with true by (symmetry; apply Nat.leb_le; lia) end; cbn [obind firstn app]; repeat f_equal;
    change (0 + 24)%nat with 24%nat; rewrite skipn_app, PL, Nat.sub_diag, skipn_all2 by lia; reflexivity.
Qed.
Print Assumptions gre_encapsulates.

(* and input takes the packet out again, whatever headers it crossed the net with;
   it keeps the addresses of the link header it came with *)
Theorem gre_decapsulates : forall be dst src et h pt inner, length dst = 6%nat -> length src = 6%nat -> length et = 2%nat -> header h -> length pt = 2%nat -> inner <> [] ->
  gre_in be 0 true (mkP ((dst ++ src ++ et) ++ h ++ [0; 0] ++ pt ++ inner) 0 14) =
  Ret (Inner (mkP (dst ++ src ++ pt ++ inner) 0 14) (256 * nth 0 pt 0 + nth 1 pt 0)).
Proof.
  intros be dst src et h pt inner D S E (H & H0) P NE. open dst 6%nat. open src 6%nat. open et 2%nat. open pt 2%nat. open h 20%nat. cbn [nth] in H0. subst.
  destruct inner as [|i inner]; [contradiction|]. destruct be; reflexivity.
Qed.
Print Assumptions gre_decapsulates.

(* both together: what goes into the tunnel comes out at the other end *)
Theorem gre_roundtrip : forall be (v6 has_l2 : bool) (id lcl rem L inner : list Z) dst src et h, length id = 2%nat -> length lcl = 4%nat -> length rem = 4%nat ->
  (length L <= 24)%nat -> (has_l2 = false -> L = []) -> (length inner >= if v6 then 40 else 20)%nat ->
  length dst = 6%nat -> length src = 6%nat -> length et = 2%nat -> header h ->
  exists out, gre_out v6 has_l2 id lcl rem (mkP (L ++ inner) 0 (length L)) = Ret out /\ l3 out = 0%nat /\
    gre_in be 0 true (mkP ((dst ++ src ++ et) ++ h ++ skipn 20 (data out)) 0 14) =
    Ret (Inner (mkP (dst ++ src ++ (if v6 then [134; 221] else [8; 0]) ++ inner) 0 14) (if v6 then 34525 else 2048)).
Proof.
  intros be v6 has_l2 id lcl rem L inner dst src et h I1 I2 I3 L1 L2 N D S E H.
  destruct (gre_encapsulates v6 has_l2 id lcl rem L inner I1 I2 I3 L1 L2 N) as (tos & ttl & l & _ & _ & G). eexists. split; [exact G|]. split; [reflexivity|].
  assert (NE : inner <> []) by (intros X; subst inner; cbn in N; destruct v6; lia). set (tot := (l + (if v6 then 40 else 0) + 24) mod 65536). clearbody tot. clear G. cbn [data].
  open id 2%nat. open lcl 4%nat. open rem 4%nat.
  destruct v6; apply (gre_decapsulates be dst src et h); auto.
Qed.
Print Assumptions gre_roundtrip.

(* optional fields of the GRE header are skipped, on a big-endian machine *)
Definition has (b : Z) (bit : Z) : bool := Z.testbit b bit.
Definition optional (b0 : Z) : nat := ((if has b0 7 || has b0 6 then 4 else 0) + (if has b0 5 then 4 else 0) + (if has b0 4 then 4 else 0))%nat.
Theorem gre_options_partial : forall dst src et h b0 b1 pt opts inner, length dst = 6%nat -> length src = 6%nat -> length et = 2%nat -> header h -> length pt = 2%nat -> inner <> [] ->
  0 <= b0 < 256 -> 0 <= b1 < 256 -> length opts = optional b0 ->
  gre_in true 0 true (mkP ((dst ++ src ++ et) ++ h ++ [b0; b1] ++ pt ++ opts ++ inner) 0 14) =
  Ret (Inner (mkP (dst ++ src ++ pt ++ inner) 0 14) (256 * nth 0 pt 0 + nth 1 pt 0)).
Proof.
  intros dst src et h b0 b1 pt opts inner D S E (H & H0) P NE B0 B1 O.
  assert (T : forall i, 0 <= i -> Z.testbit (gre_flags true b0 b1) (i + 8) = Z.testbit b0 i).
  { intros i Hi. unfold gre_flags. rewrite <- (Z.shiftr_spec _ 8 i Hi). rewrite Z.shiftr_div_pow2 by lia. change (2 ^ 8) with 256. f_equal. rewrite Z.add_comm, Z.div_add by lia. rewrite Z.div_small by lia. lia. }
  assert (GL : gre_len (gre_flags true b0 b1) = (4 + optional b0)%nat).
  { unfold gre_len, optional, has. pose proof (T 7 ltac:(lia)) as T7. pose proof (T 6 ltac:(lia)) as T6. pose proof (T 5 ltac:(lia)) as T5. pose proof (T 4 ltac:(lia)) as T4.
    change (7 + 8) with 15 in T7. change (6 + 8) with 14 in T6. change (5 + 8) with 13 in T5. change (4 + 8) with 12 in T4. rewrite T7, T6, T5, T4. lia. }
  assert (SK : exists t, length t = 14%nat /\ skipn (24 + length opts) ((dst ++ src ++ et) ++ h ++ [b0; b1] ++ pt ++ opts ++ inner) = t ++ inner).
  { exists (skipn (24 + length opts) ((dst ++ src ++ et) ++ h ++ [b0; b1] ++ pt ++ opts)). split; [rewrite skipn_length, !app_length, H, D, S, E, P; cbn [length]; lia|].
    rewrite !app_assoc. rewrite (skipn_app (24 + length opts)). rewrite <- !app_assoc. f_equal. rewrite !app_length, H, D, S, E, P. cbn [length].
    replace (24 + length opts - _)%nat with 0%nat by lia. reflexivity. }
  destruct SK as (t & TL & SK). assert (LN : length ((dst ++ src ++ et) ++ h ++ [b0; b1] ++ pt ++ opts ++ inner) = (38 + length opts + length inner)%nat) by (rewrite !app_length, H, D, S, E, P; cbn [length]; lia).
  assert (NL : (length inner > 0)%nat) by (destruct inner; [contradiction|cbn [length]; lia]).
  unfold gre_in. cbn [negb]. rewrite Z.eqb_refl. cbn [data l2 l3].
  set (b := (dst ++ src ++ et) ++ h ++ [b0; b1] ++ pt ++ opts ++ inner) in *.
  assert (X1 : slice b 0 6 = Ret dst) by (unfold b; rewrite <- !app_assoc; apply (slice_at [] dst); [reflexivity|congruence]).
  assert (X2 : slice b (0 + 6) 6 = Ret src). { unfold b. rewrite <- !app_assoc. apply (slice_at dst src); lia. }
  assert (X3 : slice b (14 + 22) 2 = Ret pt).
  { unfold b. replace ((dst ++ src ++ et) ++ h ++ [b0; b1] ++ pt ++ opts ++ inner) with (((dst ++ src ++ et) ++ h ++ [b0; b1]) ++ pt ++ opts ++ inner) by (rewrite <- !app_assoc; reflexivity).
    apply slice_at; [rewrite !app_length, H, D, S, E; reflexivity|congruence]. }
  assert (X4 : ld8 b (14 + 20) = Ret b0 /\ ld8 b (14 + 21) = Ret b1 /\ ld8 b 14 = Ret 69).
  { unfold b. open dst 6%nat. open src 6%nat. open et 2%nat. open h 20%nat. cbn [nth] in H0. subst. repeat split. }
  destruct X4 as (X4 & X5 & X6). rewrite X1. cbn [obind]. rewrite X2. cbn [obind]. rewrite X3. cbn [obind]. rewrite X4. cbn [obind]. rewrite X5. cbn [obind]. rewrite X6. cbn [obind].
  rewrite GL, <- O. change (Z.to_nat (69 mod 16) * 4)%nat with 20%nat. replace (14 + 20 + (4 + length opts) - 14)%nat with (24 + length opts)%nat by lia.
  replace (length b <=? 24 + length opts)%nat with false by (symmetry; apply Nat.leb_gt; lia). rewrite SK.
  clearbody b. clear X1 X2 X3 X4 X5 X6 SK LN H H0 h E et.
  open dst 6%nat. open src 6%nat. open pt 2%nat. open t 14%nat. reflexivity.
Qed.
Print Assumptions gre_options_partial.

(* on a little-endian machine they are not: a key is left in front of the packet *)
Theorem gre_key_refuted : forall dst src et h pt k inner, length dst = 6%nat -> length src = 6%nat -> length et = 2%nat -> header h -> length pt = 2%nat -> length k = 4%nat ->
  gre_in false 0 true (mkP ((dst ++ src ++ et) ++ h ++ [32; 0] ++ pt ++ k ++ inner) 0 14) =
  Ret (Inner (mkP (dst ++ src ++ pt ++ k ++ inner) 0 14) (256 * nth 0 pt 0 + nth 1 pt 0)).
Proof.
  intros dst src et h pt k inner D S E (H & H0) P K. open dst 6%nat. open src 6%nat. open et 2%nat. open pt 2%nat. open h 20%nat. open k 4%nat. cbn [nth] in H0. subst. reflexivity.
Qed.
Print Assumptions gre_key_refuted.

(* on a VLAN the source address ends up as the destination, and the source is what
   was in front of the packet *)
Theorem gre_vlan_refuted : forall be vlan dst src et h pt inner, 0 < vlan -> length dst = 6%nat -> length src = 6%nat -> length et = 6%nat -> header h -> length pt = 2%nat -> inner <> [] ->
  gre_in be vlan true (mkP ((dst ++ src ++ et) ++ h ++ [0; 0] ++ pt ++ inner) 0 18) =
  Ret (Inner (mkP (src ++ skipn 12 (firstn 18 h) ++ [129; 0] ++ pk16 vlan ++ pt ++ inner) 0 18) (256 * nth 0 pt 0 + nth 1 pt 0)).
Proof.
  intros be vlan dst src et h pt inner V D S E (H & H0) P NE. unfold gre_in. replace (vlan =? 0) with false by (symmetry; apply Z.eqb_neq; lia).
  open dst 6%nat. open src 6%nat. open et 6%nat. open pt 2%nat. open h 20%nat. cbn [nth] in H0. subst.
  destruct inner as [|i inner]; [contradiction|]. destruct be; reflexivity.
Qed.
Print Assumptions gre_vlan_refuted.

(* ---- VXLAN ---- *)
Definition outer (h : list Z) : Prop := header h /\ nth 9 h 0 = 17.
Theorem vxlan_roundtrip : forall known vni (id src gw frame e h : list Z), 0 <= vni < 16777216 -> known vni = true -> length id = 2%nat -> length src = 4%nat -> length gw = 4%nat ->
  (length frame >= 14)%nat -> outer h -> exists mac et,
  slice frame 6 6 = Ret mac /\ be16 frame 12 = Ret et /\
  vx_in known (mkP (e ++ h ++ skipn 20 (vx_out vni id src gw frame)) 0 (length e)) =
  Ret (Frame (mkP frame 0 (if et =? 33024 then 18%nat else 14%nat)) vni mac (firstn 4 (skipn 12 h))).
Proof.
  intros known vni id src gw frame e h V K I S G F ((H & H0) & H9).
  assert (FL : exists mac et, slice frame 6 6 = Ret mac /\ be16 frame 12 = Ret et).
  { destruct frame as [|f0 [|f1 [|f2 [|f3 [|f4 [|f5 [|f6 [|f7 [|f8 [|f9 [|f10 [|f11 [|f12 [|f13 frame]]]]]]]]]]]]]]; try (cbn [length] in F; lia). eexists. eexists. split; reflexivity. }
  destruct FL as (mac & et & F1 & F2). exists mac, et. split; [exact F1|]. split; [exact F2|].
  assert (L0 : forall l k b, nth_error l k = Some b -> ld8 (e ++ l) (length e + k) = Ret b).
  { intros l k b X. unfold ld8. rewrite nth_error_app2 by lia. replace (length e + k - length e)%nat with k by lia. rewrite X. reflexivity. }
  assert (SL : forall l k n r, slice l k n = Ret r -> slice (e ++ l) (length e + k) n = Ret r).
  { intros l k n r X. unfold slice in *. rewrite app_length. destruct (Nat.leb (k + n) (length l)) eqn:Q; [|discriminate]. apply Nat.leb_le in Q.
    replace (Nat.leb (length e + k + n) (length e + length l)) with true by (symmetry; apply Nat.leb_le; lia). rewrite skipn_app, skipn_all2 by lia. replace (length e + k - length e)%nat with k by lia. exact X. }
  assert (D : (vni * 256 / 16777216) mod 256 * 65536 + (vni * 256 / 65536) mod 256 * 256 + (vni * 256 / 256) mod 256 = vni).
  { rewrite Z.div_mul by lia. replace (vni * 256 / 65536) with (vni / 256) by (change 65536 with (256 * 256); rewrite Z.div_mul_cancel_r by lia; reflexivity).
    replace (vni * 256 / 16777216) with (vni / 65536) by (change 16777216 with (65536 * 256); rewrite Z.div_mul_cancel_r by lia; reflexivity).
    change 65536 with (256 * 256) at 1. rewrite <- Z.div_div by lia. pose proof (Z.div_mod vni 256 ltac:(lia)). pose proof (Z.div_mod (vni / 256) 256 ltac:(lia)).
    rewrite (Z.mod_small (vni / 256 / 256)); [lia|]. split; [apply Z.div_pos; [apply Z.div_pos|]; lia|]. apply Z.div_lt_upper_bound; [lia|]. apply Z.div_lt_upper_bound; lia. }
  unfold vx_out. set (ln := pk16 (len frame + 16)). assert (LN : length ln = 2%nat) by reflexivity. set (ln0 := pk16 (len frame + 36)). assert (LN0 : length ln0 = 2%nat) by reflexivity. clearbody ln ln0.
  assert (B : [69; 0] ++ ln0 ++ id ++ [0; 0; 2; 17; 0; 0] ++ src ++ gw ++ pk16 17777 ++ pk16 4789 ++ ln ++ [0; 0] ++ [8; 0; 0; 0] ++ pk32 (vni * 256) ++ frame
     = ([69; 0] ++ ln0 ++ id ++ [0; 0; 2; 17; 0; 0] ++ src ++ gw) ++ pk16 17777 ++ pk16 4789 ++ ln ++ [0; 0] ++ [8; 0; 0; 0] ++ pk32 (vni * 256) ++ frame) by (rewrite <- !app_assoc; reflexivity).
  rewrite B. rewrite skipn_app. rewrite (skipn_all2 (n := 20)) by (rewrite !app_length, LN0, I, S, G; cbn; lia).
  match goal with |- context [skipn (20 - length ?l) _] => replace (20 - length l)%nat with 0%nat by (rewrite !app_length, LN0, I, S, G; reflexivity) end. cbn [skipn app]. clear B.
  open h 20%nat. cbn [nth] in H0, H9. subst. open ln 2%nat. unfold vx_in. cbn [data l3 app pk16].
  erewrite L0 by reflexivity. cbn [obind]. rewrite Z.eqb_refl. cbn [negb].
  match goal with |- context [ld8 (e ++ ?l) (length e)] => replace (ld8 (e ++ l) (length e)) with (ld8 (e ++ l) (length e + 0)) by (f_equal; lia) end.
  erewrite L0 by reflexivity. cbn [obind]. change (Z.to_nat (69 mod 16) * 4)%nat with 20%nat.
  rewrite <- !Nat.add_assoc. unfold be16 at 1. erewrite L0 by reflexivity. cbn [obind]. replace (Datatypes.S (length e + (20 + 2)))%nat with (length e + 23)%nat by lia. erewrite L0 by reflexivity. cbn [obind].
  match goal with |- context [negb (?a =? 4789)] => change a with 4789 end. cbn [Z.eqb Pos.eqb negb].
  rewrite (SL _ (20 + 12)%nat 3%nat [(vni * 256 / 16777216) mod 256; (vni * 256 / 65536) mod 256; (vni * 256 / 256) mod 256]) by reflexivity. cbn [obind nth]. rewrite D, K. cbn [negb]. erewrite SL by reflexivity. cbn [obind].
  rewrite app_length. cbn [length]. match goal with |- context [Nat.leb ?u ?w] => replace (Nat.leb u w) with false by (symmetry; apply Nat.leb_gt; unfold pk32; cbn [app length]; lia) end.
  match goal with |- context [skipn ?n (e ++ ?l)] => assert (SK : skipn n (e ++ l) = frame) end.
  { rewrite skipn_app, skipn_all2 by lia. match goal with |- context [skipn (?a - ?b) _] => replace (a - b)%nat with 36%nat by lia end. reflexivity. }
  rewrite SK, F2. cbn [obind]. rewrite F1. reflexivity.
Qed.
Print Assumptions vxlan_roundtrip.

(* the lengths written are right as long as they fit *)
Theorem vxlan_length_partial : forall vni id src gw frame, length id = 2%nat -> length src = 4%nat -> length gw = 4%nat -> len frame + 36 < 65536 ->
  be16 (vx_out vni id src gw frame) 2 = Ret (len (vx_out vni id src gw frame)) /\ be16 (vx_out vni id src gw frame) 24 = Ret (len (vx_out vni id src gw frame) - 20).
Proof.
  intros vni id src gw frame I S G L. assert (LE : len (vx_out vni id src gw frame) = len frame + 36).
  { unfold vx_out, len, pk32, pk16. rewrite !app_length, I, S, G. cbn [length]. lia. }
  rewrite LE. assert (E : forall v, 0 <= v < 65536 -> (v / 256) mod 256 * 256 + v mod 256 = v).
  { intros v V. pose proof (Z.div_mod v 256 ltac:(lia)). rewrite (Z.mod_small (v / 256)); [lia|]. split; [apply Z.div_pos; lia|apply Z.div_lt_upper_bound; lia]. }
  assert (0 <= len frame) by (unfold len; lia). open id 2%nat. open src 4%nat. open gw 4%nat. unfold vx_out, be16. cbn [app pk16 ld8 nth_error obind]. rewrite !E by lia. split; f_equal; lia.
Qed.
Print Assumptions vxlan_length_partial.

(* ---- cases ---- *)
Definition ip4 : list Z := [69; 7; 0; 24; 1; 2; 0; 0; 63; 17; 9; 9; 10; 0; 0; 1; 10; 0; 0; 2; 1; 2; 3; 4].
Example gre_case : gre_out false true [5; 6] [1; 1; 1; 1] [2; 2; 2; 2] (mkP (repeat 9 14 ++ ip4) 0 14) =
  Ret (mkP ([69; 7; 0; 48; 5; 6; 0; 0; 63; 47; 0; 0; 1; 1; 1; 1; 2; 2; 2; 2; 0; 0; 8; 0] ++ ip4) 0 0).
Proof. reflexivity. Qed.
Example header_case : outer [69; 0; 0; 86; 0; 0; 0; 0; 2; 17; 0; 0; 1; 1; 1; 1; 2; 2; 2; 2].
Proof. repeat split. Qed.
