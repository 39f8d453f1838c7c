(* C110. *)
From Verif Require Import Base CksumModel NdModel NdSpec Ic6Model Ic6Spec.
Ltac Zify.zify_post_hook ::= idtac.

Lemma obR {A B} (a : A) (f : A -> outcome B) : obind (Ret a) f = f a.
Proof. reflexivity. Qed.

Lemma ld8_in m i : (i < length m)%nat -> ld8 m i = Ret (nth i m 0).
Proof. intros H. unfold ld8. rewrite (nth_error_nth' m 0) by lia. reflexivity. Qed.
Lemma ld16_in be m i : (i + 1 < length m)%nat ->
  exists w, ld16 be m i = Ret w.
Proof.
  intros H. unfold ld16. rewrite (nth_error_nth' m 0) by lia. rewrite (nth_error_nth' m 0) by lia. eauto.
Qed.
Lemma nth_byte m i : bytes_ok m -> (i < length m)%nat -> is_byte (nth i m 0).
Proof. intros B H. unfold bytes_ok in B. rewrite Forall_forall in B. apply B, nth_In, H. Qed.

Lemma shl8 x : 0 <= x -> Z.shiftl (x + 1) 3 = 8 * (x + 1).
Proof. intros H. rewrite Z.shiftl_mul_pow2 by lia. change (2 ^ 3) with 8. ring. Qed.
Lemma shl4 x : 0 <= x -> Z.shiftl (x + 2) 2 = 4 * (x + 2).
Proof. intros H. rewrite Z.shiftl_mul_pow2 by lia. change (2 ^ 2) with 4. ring. Qed.

Definition fin_ok (m : list Z) (fin : option nat) : Prop :=
  match fin with Some i => (i + 16 <= length m)%nat | None => True end.

Lemma walk_safe be m : bytes_ok m -> forall fuel eoff nxt fin,
  (length m + 8 <= eoff + 8 * fuel)%nat -> (0 < fuel)%nat -> fin_ok m fin ->
  exists r, err_walk be fuel m eoff nxt fin = Ret r /\
    match r with Some (_, _, fin') => fin_ok m fin' | None => True end.
Proof.
  intros Bm. induction fuel as [|fuel IH]; intros eoff nxt fin Hf Hf0 Hfin; [lia|].
  cbn [err_walk].
  assert (More : forall e n fi, (eoff + 8 <= e)%nat -> (eoff + 2 <= length m)%nat -> fin_ok m fi ->
    exists r, err_walk be fuel m e n fi = Ret r /\ match r with Some (_, _, fin') => fin_ok m fin' | None => True end).
  { intros e n fi He Hl Hi. apply IH; [lia|lia|exact Hi]. }
  destruct ((nxt =? 0) || (nxt =? 60) || (nxt =? 51)).
  - destruct (length m <? eoff + 2)%nat eqn:L; [exists None; auto|].
    rewrite (ld8_in m (eoff + 1)), (ld8_in m eoff) by lia. rewrite !obR. cbv zeta.
    assert (B := nth_byte m (eoff + 1) Bm ltac:(lia)). unfold is_byte in B.
    set (len := nth (eoff + 1) m 0) in *. clearbody len.
    apply More; [|lia|exact Hfin].
    destruct (nxt =? 51); [rewrite shl4 by lia|rewrite shl8 by lia]; lia.
  - destruct (nxt =? 43).
    + destruct (length m <? eoff + 4)%nat eqn:L; [exists None; auto|].
      rewrite (ld8_in m (eoff + 1)), (ld8_in m (eoff + 2)), (ld8_in m (eoff + 3)), (ld8_in m eoff) by lia.
      rewrite !obR. cbv zeta.
      assert (B := nth_byte m (eoff + 1) Bm ltac:(lia)). unfold is_byte in B.
      set (len := nth (eoff + 1) m 0) in *. clearbody len.
      rewrite shl8 by lia.
      destruct (negb (nth (eoff + 3) m 0 =? 0) && (nth (eoff + 2) m 0 =? 0)).
      * destruct (length m <? eoff + Z.to_nat (8 * (len + 1)))%nat eqn:L2; [exists None; auto|].
        apply More; [lia|lia|].
        destruct ((len mod 2 =? 0) && negb (len / 2 =? 0)) eqn:C; [|exact Hfin].
        cbn [fin_ok].
        assert (len = 2 * (len / 2)) by (pose proof (Z.div_mod len 2 ltac:(lia)); lia).
        set (h := len / 2) in *. clearbody h. lia.
      * apply More; [lia|lia|exact Hfin].
    + destruct (nxt =? 44).
      * destruct (length m <? eoff + 8)%nat eqn:L; [exists None; auto|].
        destruct (ld16_in be m (eoff + 2) ltac:(lia)) as [w ->]. rewrite obR.
        destruct (negb (Z.land w (IP6F_OFF_MASK be) =? 0)); [eexists; split; [reflexivity|exact Hfin]|].
        rewrite (ld8_in m eoff) by lia. rewrite obR. apply More; [lia|lia|exact Hfin].
      * eexists. split; [reflexivity|exact Hfin].
Qed.

(* C110: an error message, whatever it contains, is examined in at most one step per eight
   bytes and without reading outside the packet. *)
Theorem icmp6_error_walk_safe : forall be m off icmp6len fuel,
  bytes_ok m -> (length m < 8 * fuel)%nat ->
  exists r, icmp6_notify_error be fuel m off icmp6len = Ret r.
Proof.
  intros be m off icmp6len fuel Bm Hf. unfold icmp6_notify_error.
  destruct (u32 icmp6len <? 48); [eauto|].
  destruct (length m <? off + 48)%nat eqn:L; [eauto|]. cbv zeta.
  rewrite (ld8_in m (off + 8 + 6)) by lia. rewrite obR.
  destruct (walk_safe be m Bm fuel (off + 48) (nth (off + 8 + 6) m 0) None) as (r & E & Hr); [lia|lia|exact Logic.I|].
  rewrite E, obR. destruct r as [[[eoff nxt] fin]|]; [|eauto].
  assert (Q : forall i, (i + 16 <= length m)%nat -> exists x, slice m i 16 = Ret x).
  { intros i Hi. unfold slice. destruct (i + 16 <=? length m)%nat eqn:Y; [eauto|lia]. }
  destruct (Q (match fin with Some i => i | None => off + 8 + 24 end)%nat) as [d Ed].
  { destruct fin; cbn [fin_ok] in Hr; lia. }
  destruct (Q (off + 8 + 8)%nat ltac:(lia)) as [s Es].
  rewrite Ed, obR, Es, obR. eauto.
Qed.
Print Assumptions icmp6_error_walk_safe.

(* ---- the notice is about the right flow ---- *)
Lemma frag0_mask (be : bool) fl : 0 <= fl < 8 ->
  Z.land (if be then 0 * 256 + fl else 0 + fl * 256) (IP6F_OFF_MASK be) = 0.
Proof.
  intros H. assert (C : fl = 0 \/ fl = 1 \/ fl = 2 \/ fl = 3 \/ fl = 4 \/ fl = 5 \/ fl = 6 \/ fl = 7) by lia.
  destruct C as [->|[->|[->|[->|[->|[->|[->| ->]]]]]]]; destruct be; reflexivity.
Qed.

Lemma nth_pre (p q : list Z) i k : length p = i -> nth (i + k) (p ++ q) 0 = nth k q 0.
Proof. intros <-. rewrite app_nth2 by lia. f_equal. lia. Qed.

Lemma ld8_pre p q i k : length p = i -> (k < length q)%nat -> ld8 (p ++ q) (i + k) = Ret (nth k q 0).
Proof. intros H K. rewrite ld8_in by (rewrite app_length; lia). now rewrite (nth_pre p q i k H). Qed.

Definition fin_is (m : list Z) (dflt : nat) (fin : option nat) (a : list Z) : Prop :=
  slice m (match fin with Some i => i | None => dflt end) 16 = Ret a.

Lemma ext_not_upper e nxt : ext_ok e -> (8 <= length (ext_bytes e nxt))%nat.
Proof.
  destruct e; cbn [ext_ok ext_bytes length]; unfold is_byte; intros; try lia.
Qed.

Lemma firstn_len_app : forall (b r : list Z) n, length b = n -> firstn n (b ++ r) = b.
Proof.
  intros b r n E. rewrite firstn_app, E, Nat.sub_diag, firstn_O, app_nil_r, <- E. apply firstn_all.
Qed.

Lemma slice_mid : forall m q b r i, m = q ++ b ++ r -> length q = i -> length b = 16%nat -> slice m i 16 = Ret b.
Proof.
  intros m q b r i E1 E2 E3. unfold slice.
  assert (T : (i + 16 <=? length m)%nat = true) by (rewrite E1, !app_length; lia).
  rewrite T. f_equal. rewrite E1, <- E2. rewrite skipn_app, skipn_all, Nat.sub_diag, app_nil_l, skipn_O.
  apply firstn_len_app. exact E3.
Qed.

Lemma walk_chain be m dflt upper rest : ~ is_ext upper ->
  forall es pre fuel fin a,
  m = pre ++ chain_bytes es upper ++ rest -> Forall ext_ok es -> (length es < fuel)%nat ->
  fin_is m dflt fin a ->
  exists fin', err_walk be fuel m (length pre) (chain_first es upper) fin =
     Ret (Some (length pre + length (chain_bytes es upper), upper, fin'))%nat /\
     fin_is m dflt fin' (chain_dst es a).
Proof.
  intros Hu. induction es as [|e es IH]; intros pre fuel fin a Em Hok Hf Hfin.
  - destruct fuel as [|fuel]; [cbn in Hf; lia|]. cbn [chain_first chain_bytes chain_dst err_walk length].
    unfold is_ext in Hu.
    assert (A : (upper =? 0) = false /\ (upper =? 60) = false /\ (upper =? 51) = false /\
      (upper =? 43) = false /\ (upper =? 44) = false) by lia.
    destruct A as (-> & -> & -> & -> & ->). cbn [orb]. exists fin. rewrite Nat.add_0_r. auto.
  - destruct fuel as [|fuel]; [cbn in Hf; lia|]. inversion Hok as [|? ? He Hes]; subst x l.
    cbn [length] in Hf. cbn [chain_first chain_bytes].
    set (nx := chain_first es upper) in *.
    set (eb := ext_bytes e nx) in *.
    assert (Em' : m = (pre ++ eb) ++ chain_bytes es upper ++ rest).
    { rewrite Em. cbn [chain_bytes]. fold nx. fold eb. rewrite <- !app_assoc. reflexivity. }
    assert (Em2 : m = pre ++ eb ++ (chain_bytes es upper ++ rest)) by (rewrite Em', <- app_assoc; reflexivity).
    assert (L8 : (8 <= length eb)%nat) by (apply ext_not_upper; exact He).
    assert (Lm : (length pre + length eb <= length m)%nat) by (rewrite Em2, !app_length; lia).
    assert (Rd : forall k, (k < length eb)%nat -> ld8 m (length pre + k) = Ret (nth k eb 0)).
    { intros k Hk. rewrite Em2. rewrite ld8_pre; [|reflexivity|rewrite app_length; lia].
      f_equal. apply app_nth1. exact Hk. }
    assert (R0 := Rd 0%nat ltac:(lia)). rewrite Nat.add_0_r in R0.
    assert (R1 := Rd 1%nat ltac:(lia)). assert (R2 := Rd 2%nat ltac:(lia)). assert (R3 := Rd 3%nat ltac:(lia)).
    assert (Next : forall fin2 a2, fin_is m dflt fin2 a2 ->
      exists fin', err_walk be fuel m (length pre + length eb) nx fin2 =
        Ret (Some (length pre + length (eb ++ chain_bytes es upper), upper, fin'))%nat /\
        fin_is m dflt fin' (chain_dst es a2)).
    { intros fin2 a2 H2. destruct (IH (pre ++ eb) fuel fin2 a2 Em' Hes ltac:(lia) H2) as (f' & E & F).
      exists f'. rewrite app_length in E. fold nx in E. split; [|exact F].
      rewrite E. rewrite app_length. do 4 f_equal. lia. }
    cbn [err_walk]. destruct e as [p k body|k body|k ty sl body|r fl ident];
      cbn [ext_proto chain_dst ext_ok] in *; cbn [ext_bytes] in eb.
    + destruct He as (Hp & Hk & Hl). unfold is_byte in Hk.
      assert (C : (p =? 0) || (p =? 60) || (p =? 51) = true) by lia. rewrite C.
      assert (C51 : (p =? 51) = false) by lia. rewrite C51.
      assert (T : (length m <? length pre + 2)%nat = false) by lia. rewrite T.
      rewrite R1, obR, R0, obR. cbn [nth eb]. cbv zeta.
      rewrite shl8 by lia.
      assert (Le : Z.to_nat (8 * (k + 1)) = length eb) by (unfold eb; cbn [length]; lia).
      rewrite Le. apply Next. exact Hfin.
    + destruct He as (Hk & Hl). unfold is_byte in Hk.
      change ((51 =? 0) || (51 =? 60) || (51 =? 51)) with true. cbv iota. change (51 =? 51) with true. cbv iota.
      assert (T : (length m <? length pre + 2)%nat = false) by lia. rewrite T.
      rewrite R1, obR, R0, obR. cbn [nth eb]. cbv zeta.
      rewrite shl4 by lia.
      assert (Le : Z.to_nat (4 * (k + 2)) = length eb) by (unfold eb; cbn [length]; lia).
      rewrite Le. apply Next. exact Hfin.
    + destruct He as (Hk & _ & _ & Hl). unfold is_byte in Hk.
      change ((43 =? 0) || (43 =? 60) || (43 =? 51)) with false. cbv iota. change (43 =? 43) with true. cbv iota.
      assert (T : (length m <? length pre + 4)%nat = false) by lia. rewrite T.
      rewrite R1, obR, R2, obR, R3, obR, R0, obR. cbn [nth eb]. cbv zeta.
      rewrite shl8 by lia.
      assert (Le : Z.to_nat (8 * (k + 1)) = length eb) by (unfold eb; cbn [length]; lia).
      rewrite Le.
      assert (T2 : (length m <? length pre + length eb)%nat = false) by lia.
      destruct (negb (sl =? 0) && (ty =? 0)) eqn:C.
      * rewrite T2. apply Next.
        assert (Cd : (ty =? 0) && negb (sl =? 0) && (k mod 2 =? 0) && negb (k =? 0)
                     = (k mod 2 =? 0) && negb (k / 2 =? 0)).
        { apply andb_true_iff in C. destruct C as [-> ->]. cbn [andb].
          destruct (k mod 2 =? 0) eqn:E2; [|reflexivity]. cbn [andb]. f_equal.
          pose proof (Z.div_mod k 2 ltac:(lia)). lia. }
        rewrite Cd. destruct ((k mod 2 =? 0) && negb (k / 2 =? 0)) eqn:E; [|exact Hfin].
        unfold fin_is.
        assert (Hh : k = 2 * (k / 2)) by (pose proof (Z.div_mod k 2 ltac:(lia)); lia).
        set (h := k / 2) in *. clearbody h.
        assert (Lb : length body = (4 + 16 * Z.to_nat h)%nat) by lia.
        assert (Si : (length pre + 8 + 16 * Z.to_nat (h - 1))%nat = (length pre + 4 + (length body - 16))%nat) by lia.
        rewrite Si.
        assert (Ls : length (skipn (length body - 16) body) = 16%nat) by (rewrite skipn_length; lia).
        assert (Em3 : m = (pre ++ [nx; k; ty; sl] ++ firstn (length body - 16) body) ++
          skipn (length body - 16) body ++ (chain_bytes es upper ++ rest)).
        { rewrite Em2. unfold eb. rewrite <- (firstn_skipn (length body - 16) body) at 1.
          rewrite <- !app_assoc. cbn [app]. rewrite <- !app_assoc. reflexivity. }
        eapply slice_mid; [exact Em3| |exact Ls].
        rewrite !app_length, firstn_length_le by lia. cbn [length]. lia.
      * assert (Cd : (ty =? 0) && negb (sl =? 0) && (k mod 2 =? 0) && negb (k =? 0) = false).
        { rewrite (andb_comm (ty =? 0)), C. reflexivity. }
        rewrite Cd. apply Next. exact Hfin.
    + destruct He as (Hfl & Hl).
      change ((44 =? 0) || (44 =? 60) || (44 =? 51)) with false. change (44 =? 43) with false.
      change (44 =? 44) with true. cbv iota.
      assert (T : (length m <? length pre + 8)%nat = false) by lia. rewrite T.
      assert (Rw : ld16 be m (length pre + 2) = Ret (if be then 0 * 256 + fl else 0 + fl * 256)).
      { unfold ld16. unfold ld8 in R2, R3.
        replace (S (length pre + 2)) with (length pre + 3)%nat by lia.
        destruct (nth_error m (length pre + 2)); [|discriminate].
        destruct (nth_error m (length pre + 3)); [|discriminate].
        cbn [nth eb] in R2, R3. injection R2 as ->. injection R3 as ->. reflexivity. }
      rewrite Rw, obR, (frag0_mask be fl Hfl). change (negb (0 =? 0)) with false. cbv iota.
      rewrite R0, obR. cbn [nth eb].
      assert (Le : length eb = 8%nat) by (unfold eb; cbn [length]; lia).
      pose proof (Next fin a Hfin) as Nx. rewrite Le in Nx. exact Nx.
Qed.

(* For an error about a packet with any well-formed chain of extension headers, the notice
   carries that packet's source, its final destination, its upper-layer protocol and the
   offset of its upper-layer header. *)
Theorem icmp6_error_notice : forall be ip icmp flow plen hlim src dst es upper rest fuel icmp6len,
  length icmp = 8%nat -> length flow = 4%nat -> length plen = 2%nat ->
  length src = 16%nat -> length dst = 16%nat ->
  Forall ext_ok es -> ~ is_ext upper -> (length es < fuel)%nat -> 48 <= icmp6len < 4294967296 ->
  let m := ip ++ icmp ++ flow ++ plen ++ [chain_first es upper; hlim] ++ src ++ dst
              ++ chain_bytes es upper ++ rest in
  icmp6_notify_error be fuel m (length ip) icmp6len =
  Ret (Some {| n_dst := chain_dst es dst; n_src := src;
               n_off := (length ip + 48 + length (chain_bytes es upper))%nat; n_nxt := upper |}).
Proof.
  intros be ip icmp flow plen hlim src dst es upper rest fuel icmp6len Li Lf Lp Ls Ld Hok Hu Hfu Hl m.
  set (pre := ip ++ icmp ++ flow ++ plen ++ [chain_first es upper; hlim] ++ src ++ dst).
  assert (Em : m = pre ++ chain_bytes es upper ++ rest) by (unfold m, pre; rewrite <- !app_assoc; reflexivity).
  assert (Lpre : length pre = (length ip + 48)%nat).
  { unfold pre. rewrite !app_length, Li, Lf, Lp, Ls, Ld. cbn [length]. lia. }
  assert (Sl : forall q b r i, m = q ++ b ++ r -> length q = i -> length b = 16%nat -> slice m i 16 = Ret b).
  { intros. eapply slice_mid; eassumption. }
  assert (Ssrc : slice m (length ip + 8 + 8) 16 = Ret src).
  { apply (Sl (ip ++ icmp ++ flow ++ plen ++ [chain_first es upper; hlim]) src (dst ++ chain_bytes es upper ++ rest)).
    - unfold m. rewrite <- !app_assoc. reflexivity.
    - rewrite !app_length, Li, Lf, Lp. cbn [length]. lia.
    - exact Ls. }
  assert (Sdst : slice m (length ip + 8 + 24) 16 = Ret dst).
  { apply (Sl (ip ++ icmp ++ flow ++ plen ++ [chain_first es upper; hlim] ++ src) dst (chain_bytes es upper ++ rest)).
    - unfold m. rewrite <- !app_assoc. reflexivity.
    - rewrite !app_length, Li, Lf, Lp, Ls. cbn [length]. lia.
    - exact Ld. }
  unfold icmp6_notify_error.
  assert (Eu : u32 icmp6len = icmp6len) by (unfold u32; apply Z.mod_small; lia). rewrite Eu.
  assert (T : (icmp6len <? 48) = false) by lia. rewrite T.
  assert (T2 : (length m <? length ip + 48)%nat = false) by (rewrite Em, !app_length, Lpre; lia).
  rewrite T2. cbv zeta.
  assert (En : ld8 m (length ip + 8 + 6) = Ret (chain_first es upper)).
  { replace (length ip + 8 + 6)%nat with (length (ip ++ icmp ++ flow ++ plen) + 0)%nat
      by (rewrite !app_length, Li, Lf, Lp; lia).
    assert (E : m = (ip ++ icmp ++ flow ++ plen) ++ (chain_first es upper :: hlim :: src ++ dst ++ chain_bytes es upper ++ rest))
      by (unfold m; rewrite <- !app_assoc; reflexivity).
    rewrite E. rewrite ld8_pre; [reflexivity|reflexivity|cbn [length]; lia]. }
  rewrite En, obR.
  destruct (walk_chain be m (length ip + 8 + 24) upper rest Hu es pre fuel None dst Em Hok Hfu Sdst) as (fin & E & F).
  rewrite Lpre in E. rewrite E, obR. unfold fin_is in F. rewrite F, obR, Ssrc, obR. reflexivity.
Qed.
Print Assumptions icmp6_error_notice.

Definition ex_es : list ext :=
  [Options 0 0 [1; 4; 0; 0; 0; 0]; Routing 2 0 1 (repeat 0 4 ++ repeat 7 16); FirstFragment 0 1 [0; 0; 0; 9];
   Auth 4 (repeat 3 22)].
Example icmp6_error_ex :
  Forall ext_ok ex_es /\ ~ is_ext 17 /\ length (chain_bytes ex_es 17) = 64%nat /\
  chain_dst ex_es (repeat 5 16) = repeat 7 16.
Proof.
  split; [|split; [unfold is_ext; lia|split; reflexivity]].
  unfold ex_es. repeat constructor; unfold is_byte; cbn; lia.
Qed.

(* UDP then reads the ports at that offset "assuming M and OFF are valid".  When the chain is
   complete and four more bytes are there, it reads the datagram's ports, *)
Theorem udp6_error_ports_partial : forall be m n, (n_off n + 4 <= length m)%nat ->
  udp6_ctl_ports be m n = Ret (nth (n_off n) m 0 * 256 + nth (n_off n + 1) m 0,
                               nth (n_off n + 2) m 0 * 256 + nth (n_off n + 3) m 0).
Proof.
  intros be m n H. unfold udp6_ctl_ports, ld16.
  replace (S (n_off n)) with (n_off n + 1)%nat by lia.
  replace (S (n_off n + 2)) with (n_off n + 3)%nat by lia.
  rewrite (nth_error_nth' m 0 (n := n_off n)) by lia. rewrite (nth_error_nth' m 0 (n := (n_off n + 1)%nat)) by lia.
  rewrite (nth_error_nth' m 0 (n := (n_off n + 2)%nat)) by lia. rewrite (nth_error_nth' m 0 (n := (n_off n + 3)%nat)) by lia.
  reflexivity.
Qed.
Print Assumptions udp6_error_ports_partial.

(* but a chain may end far outside the packet: the last header's length is not compared with
   the packet's, so an error message of 50 payload bytes makes UDP read 2 KB behind it. *)
Theorem udp6_error_ports_refuted :
  let m := repeat 0 40 ++ repeat 0 8 ++ ([0x60; 0; 0; 0; 0; 10; 0; 64] ++ repeat 1 16 ++ repeat 2 16) ++ [17; 255] in
  exists n, icmp6_notify_error false 20 m 40 50 = Ret (Some n) /\ n_nxt n = 17 /\
    (n_off n = length m + 2046)%nat /\ udp6_ctl_ports false m n = UB.
Proof. cbv zeta. eexists. repeat split; vm_compute; reflexivity. Qed.
Print Assumptions udp6_error_ports_refuted.
