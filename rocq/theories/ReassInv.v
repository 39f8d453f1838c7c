(* The state invariant of reassembly and its preservation. *)
From Coq Require Import Permutation.
From Verif Require Import Base CksumModel CksumSpec CksumProof CksumProof2 CksumProof3 CksumProps
  ReassModel ReassSpec ReassProof.
Ltac Zify.zify_post_hook ::= idtac.

Definition dkey := (Z * Z * Z * Z)%type.
Definition key (h : iphdr) : dkey := (h_id h, h_src h, h_dst h, h_p h).
Definition khash (k : dkey) : Z := let '(id, src, _, _) := k in reass_hash src id.

Lemma same_key_iff a b : same_key a b = true <-> key a = key b.
Proof.
  unfold same_key, key. rewrite !andb_true_iff, !Z.eqb_eq. split.
  - intros [[[-> ->] ->] ->]. reflexivity.
  - intros E. injection E as -> -> -> ->. auto.
Qed.
Lemma key_dec (a b : dkey) : {a = b} + {a <> b}.
Proof. repeat decide equality. Qed.
Lemma key_same_datagram a b : key a = key b -> same_datagram a b.
Proof. unfold key, same_datagram. intros E. injection E. auto. Qed.
Lemma khash_range k : 0 <= khash k < 64.
Proof.
  destruct k as [[[id src] d] p]. unfold khash, reass_hash.
  change 63 with (Z.ones 6). rewrite Z.land_ones by lia. apply Z.mod_pos_bound. reflexivity.
Qed.

(* ---- per-fragment facts ---- *)
Definition KK (k : dkey) (f : frag) : Prop := key (fr_hdr f) = k /\ hdr_wf (fr_hdr f).
Lemma KK_cut k : forall f o f', KK k f -> cut f o = Ret f' -> KK k f'.
Proof.
  intros f o f' H E. unfold cut in E. destruct (zlen (fr_data f) <? fr_len f); [discriminate|].
  injection E as <-. exact H.
Qed.

Definition TT (hist : list ippkt) (f : frag) : Prop :=
  exists q, In q hist /\ p_hdr q = fr_hdr f /\
    frag_begin q <= fr_off f /\ fr_off f + fr_len f = frag_end q /\
    (Z.land (fr_flags f) OFP_IP_MF = 0 -> more_frags q = false) /\
    piece f = ztake (fr_len f) (zdrop (fr_off f - frag_begin q) (p_data q)).

Lemma TT_cut hist : forall f o f', fsafe f -> TT hist f -> 0 < o < fr_len f -> fr_off f + o < 65536 ->
   cut f o = Ret f' -> TT hist f'.
Proof.
  intros f o f' Hs (q & Hq & Hk & Hb & He & Hf & Hp) Ho Hw E.
  destruct (cut_ok f o Hs Ho) as (g & E' & Hs' & U & EH & EF & EL & EO & EP).
  rewrite E in E'. injection E' as <-.
  rewrite Z.mod_small in EO by (destruct Hs; lia).
  exists q. rewrite EH, EF, EO, EL. split; [exact Hq|]. split; [exact Hk|]. split; [lia|]. split; [lia|].
  split; [exact Hf|]. unfold piece in *. rewrite EL in EP. rewrite EL, EP, Hp.
  replace (fr_len f) with (o + (fr_len f - o)) at 2 by lia.
  rewrite zdrop_ztake by lia. rewrite ztake_ztake by lia. rewrite zdrop_zdrop by lia.
  f_equal. f_equal. lia.
Qed.

Lemma TT_mono hist p f : TT hist f -> TT (hist ++ [p]) f.
Proof. intros (q & Hq & H). exists q. split; [apply in_app_iff; auto|exact H]. Qed.

Lemma good_mono (T T' : frag -> Prop) l : (forall f, T f -> T' f) -> good T l -> good T' l.
Proof. intros H. induction l as [|f l IH]; cbn [good]; [auto|]. intros [A [B|B]]; auto. Qed.

Lemma off_val o : 0 <= o < 65536 -> u16 (Z.shiftl o 3) = 8 * (o mod 8192).
Proof.
  intros H. unfold u16. rewrite Z.shiftl_mul_pow2 by lia. change (2 ^ 3) with 8.
  change 65536 with (8192 * 8). rewrite Z.mul_mod_distr_r by lia. lia.
Qed.

Lemma flag_val o : Z.land (Z.land o 57344) OFP_IP_MF = 0 <-> Z.testbit o 13 = false.
Proof.
  rewrite <- Z.land_assoc. change (Z.land 57344 OFP_IP_MF) with (2 ^ 13).
  split; intros H.
  - assert (B : Z.testbit (Z.land o (2 ^ 13)) 13 = false) by (rewrite H; apply Z.bits_0).
    rewrite Z.land_spec, Z.pow2_bits_eqb in B by lia. change (13 =? 13) with true in B.
    rewrite andb_true_r in B. exact B.
  - apply Z.bits_inj'. intros n Hn. rewrite Z.land_spec, Z.bits_0, Z.pow2_bits_eqb by lia.
    destruct (Z.eqb_spec 13 n) as [<-|]; [rewrite H; reflexivity|apply andb_false_r].
Qed.

(* ---- chains and buckets ---- *)
Definition ckey (c : chain) : option dkey :=
  match c_frags c with f :: _ => Some (key (fr_hdr f)) | [] => None end.

Lemma matches_iff h c : chain_matches h c = true <-> ckey c = Some (key h).
Proof.
  unfold chain_matches, ckey. destruct (c_frags c) as [|f r]; [split; discriminate|].
  rewrite same_key_iff. split; [intros ->; reflexivity|intros E; injection E; congruence].
Qed.

Lemma find_chain_spec h l :
  match find_chain h l with
  | Some (a, c, b) => l = a ++ c :: b /\ ckey c = Some (key h)
  | None => forall c, In c l -> ckey c <> Some (key h)
  end.
Proof.
  induction l as [|x l IH]; cbn [find_chain]; [intros c []|].
  destruct (chain_matches h x) eqn:E.
  - split; [reflexivity|apply matches_iff; exact E].
  - destruct (find_chain h l) as [[[a c] b]|].
    + destruct IH as [-> K]. split; [reflexivity|exact K].
    + intros c [<-|H]; [|exact (IH c H)]. rewrite <- matches_iff, E. discriminate.
Qed.

Definition chain_ok (hist : list ippkt) (ix : Z) (c : chain) : Prop :=
  exists k, ckey c = Some k /\ khash k = ix /\ Forall (fok (KK k)) (c_frags c) /\ good (TT hist) (c_frags c).

Record RInv (hist : list ippkt) (st : reass) : Prop := {
  ri_ok : forall ix c, In c (r_q st ix) -> chain_ok hist ix c;
  ri_nd : forall ix, NoDup (map ckey (r_q st ix))
}.

Lemma chain_ok_mono hist p ix c : chain_ok hist ix c -> chain_ok (hist ++ [p]) ix c.
Proof.
  intros (k & A & B & C & D). exists k. split; [exact A|]. split; [exact B|]. split; [exact C|].
  eapply good_mono; [apply TT_mono|exact D].
Qed.
Lemma RInv_mono hist p st : RInv hist st -> RInv (hist ++ [p]) st.
Proof. intros [A B]. split; [|exact B]. intros ix c H. apply chain_ok_mono, A, H. Qed.

Lemma rupd_same {A} (f : Z -> A) k v : rupd f k v k = v.
Proof. unfold rupd. rewrite Z.eqb_refl. reflexivity. Qed.
Lemma rupd_other {A} (f : Z -> A) k v x : x <> k -> rupd f k v x = f x.
Proof. unfold rupd. destruct (Z.eqb_spec x k); congruence. Qed.

(* replace one bucket *)
Lemma RInv_bucket hist st ix l n : RInv hist st ->
  (forall c, In c l -> chain_ok hist ix c) -> NoDup (map ckey l) ->
  RInv hist (mkR (rupd (r_q st) ix l) n).
Proof.
  intros [A B] HL ND. split; cbn [r_q]; intros jx.
  - intros c. destruct (Z.eq_dec jx ix) as [->|N]; [rewrite rupd_same|rewrite rupd_other by assumption]; auto.
  - destruct (Z.eq_dec jx ix) as [->|N]; [rewrite rupd_same|rewrite rupd_other by assumption]; auto.
Qed.

Lemma RInv_init : RInv [] reass_init.
Proof. split; cbn; [intros ? ? []|intros; constructor]. Qed.

(* ---- header of the result ---- *)
Lemma st16_bytes be x : 0 <= x < 65536 -> bytes_ok (st16 be x).
Proof.
  intros H. unfold st16, bytes_ok, is_byte.
  assert (0 <= x / 256 < 256) by (split; [apply Z.div_pos; lia|apply Z.div_lt_upper_bound; lia]).
  assert (0 <= x mod 256 < 256) by (apply Z.mod_pos_bound; lia).
  destruct be; repeat constructor; lia.
Qed.
Lemma st32_bytes be x : 0 <= x < 4294967296 -> bytes_ok (st32 be x).
Proof.
  intros H. unfold st32.
  assert (0 <= x / 65536 < 65536) by (split; [apply Z.div_pos; lia|apply Z.div_lt_upper_bound; lia]).
  assert (0 <= x mod 65536 < 65536) by (apply Z.mod_pos_bound; lia).
  destruct be; apply Forall_app; split; apply st16_bytes; assumption.
Qed.

Lemma swap16_range x : 0 <= x < 65536 -> 0 <= swap16 x < 65536.
Proof.
  intros H. unfold swap16.
  assert (0 <= x / 256 < 256) by (split; [apply Z.div_pos; lia|apply Z.div_lt_upper_bound; lia]).
  assert (0 <= x mod 256 < 256) by (apply Z.mod_pos_bound; lia). lia.
Qed.
Lemma be16_range be x : 0 <= x < 65536 -> 0 <= cpu_to_be_16 be x < 65536.
Proof. intros H. unfold cpu_to_be_16. destruct be; [exact H|apply swap16_range, H]. Qed.

Definition hdr_pre (be : bool) (h : iphdr) (len off : Z) : list Z :=
  [64 + h_hl h; h_tos h] ++ st16 be len ++ st16 be (h_id h) ++ st16 be off ++ [h_ttl h; h_p h].
Definition hdr_post (be : bool) (h : iphdr) : list Z := st32 be (h_src h) ++ st32 be (h_dst h) ++ h_opt h.

Lemma hdr_bytes_split be h len off sum :
  hdr_bytes be h len off sum = hdr_pre be h len off ++ st16 be sum ++ hdr_post be h.
Proof. unfold hdr_bytes, hdr_pre, hdr_post. rewrite <- !app_assoc. reflexivity. Qed.

Lemma st16_len be x : length (st16 be x) = 2%nat.
Proof. destruct be; reflexivity. Qed.
Lemma hdr_pre_len be h len off : length (hdr_pre be h len off) = 10%nat.
Proof. unfold hdr_pre. rewrite !app_length, !st16_len. reflexivity. Qed.
Lemma hdr_bytes_len be h len off sum : hdr_wf h ->
  Z.of_nat (length (hdr_bytes be h len off sum)) = 4 * h_hl h.
Proof.
  intros W. rewrite hdr_bytes_split, !app_length, hdr_pre_len, st16_len. unfold hdr_post, st32.
  pose proof (hw_opt _ W) as [_ L].
  destruct be; rewrite !app_length, !st16_len; lia.
Qed.
Lemma hdr_pre_bytes be h len off : hdr_wf h -> 0 <= len < 65536 -> 0 <= off < 65536 -> bytes_ok (hdr_pre be h len off).
Proof.
  intros W Hl Ho. unfold hdr_pre, bytes_ok.
  pose proof (hw_hl _ W). pose proof (hw_tos _ W). pose proof (hw_ttl _ W). pose proof (hw_p _ W). pose proof (hw_id _ W).
  unfold is_byte in *.
  repeat (apply Forall_app; split); try (apply st16_bytes; assumption);
    repeat constructor; unfold is_byte; lia.
Qed.
Lemma hdr_post_bytes be h : hdr_wf h -> bytes_ok (hdr_post be h).
Proof.
  intros W. unfold hdr_post, bytes_ok. repeat (apply Forall_app; split).
  - apply st32_bytes, W.
  - apply st32_bytes, W.
  - apply W.
Qed.

Lemma finish_hdr_ok be al h len : hdr_wf h ->
  exists h', finish_hdr be al h len = Ret h' /\ key h' = key h /\ h_hl h' = h_hl h /\
    h_len h' = len mod 65536 /\ h_off h' = 0 /\ h_tos h' = h_tos h /\ h_ttl h' = h_ttl h /\ h_opt h' = h_opt h /\
    forall al', ofp_cksum_iph be al' (hdr_bytes be h' (cpu_to_be_16 be (h_len h')) 0 (h_sum h')) (h_hl h') = Ret 0.
Proof.
  intros W. set (blen := cpu_to_be_16 be (u16 len)).
  assert (HB : 0 <= blen < 65536).
  { apply be16_range. unfold u16. apply Z.mod_pos_bound. reflexivity. }
  set (pre := hdr_pre be h blen 0). set (post := hdr_post be h).
  assert (Bpre : bytes_ok pre) by (apply hdr_pre_bytes; [exact W|exact HB|lia]).
  assert (Bpost : bytes_ok post) by (apply hdr_post_bytes; exact W).
  assert (E0 : hdr_bytes be h blen 0 0 = pre ++ [0; 0] ++ post).
  { rewrite hdr_bytes_split. unfold pre, post. destruct be; reflexivity. }
  assert (L0 : Z.of_nat (length (pre ++ [0; 0] ++ post)) = 4 * h_hl h) by (rewrite <- E0; apply hdr_bytes_len, W).
  assert (B0 : bytes_ok (pre ++ [0; 0] ++ post)).
  { apply Forall_app. split; [exact Bpre|]. apply Forall_app. split; [|exact Bpost].
    repeat constructor; unfold is_byte; lia. }
  pose proof (hw_hl _ W) as HL.
  destruct (cksum_iph_rfc1071 be al (pre ++ [0; 0] ++ post) [] (h_hl h) B0 HL L0) as (c & E & S).
  rewrite app_nil_r in E.
  unfold finish_hdr. fold blen. rewrite E0, E. cbn [obind].
  eexists. split; [reflexivity|]. cbn [key h_id h_src h_dst h_p h_hl h_len h_off h_sum h_tos h_ttl h_opt].
  repeat (split; [reflexivity|]).
  intros al'. fold blen.
  assert (E1 : forall len' sum, hdr_bytes be (mkH (h_hl h) (h_tos h) len' (h_id h) 0 (h_ttl h) (h_p h) sum (h_src h) (h_dst h) (h_opt h)) blen 0 c
      = pre ++ st16 be c ++ post).
  { intros. rewrite hdr_bytes_split. reflexivity. }
  rewrite (E1 (u16 len) c).
  assert (HLE : Z.of_nat (length (pre ++ [0; 0] ++ post)) <= 262144) by lia.
  destruct (cksum_buffer_rfc1071 be false 0 (pre ++ [0; 0] ++ post) [] B0 HLE) as (c2 & E2 & S2).
  rewrite app_nil_r in E2.
  assert (EV : Nat.even (length pre) = true) by (unfold pre; rewrite hdr_pre_len; reflexivity).
  pose proof (cksum_stored_verifies be false 0 0 pre post c2 Bpre Bpost EV HLE E2) as V.
  rewrite S2, <- S in V.
  assert (LL : Z.of_nat (length (pre ++ st16 be c ++ post)) = 4 * h_hl h).
  { rewrite <- L0, !app_length, st16_len. reflexivity. }
  assert (Bc : bytes_ok (st16 be c)).
  { rewrite S. assert (R : 0 <= rfc1071 (pre ++ [0; 0] ++ post) < 65536).
    { destruct (rfc_sum_char _ B0) as (R1 & _). unfold rfc1071. lia. }
    unfold net16, bytes_ok, is_byte.
    assert (0 <= rfc1071 (pre ++ [0; 0] ++ post) / 256 < 256) by (split; [apply Z.div_pos; lia|apply Z.div_lt_upper_bound; lia]).
    assert (0 <= rfc1071 (pre ++ [0; 0] ++ post) mod 256 < 256) by (apply Z.mod_pos_bound; lia).
    repeat constructor; lia. }
  assert (B1 : bytes_ok (pre ++ st16 be c ++ post)).
  { apply Forall_app. split; [exact Bpre|]. apply Forall_app. split; [exact Bc|exact Bpost]. }
  destruct (cksum_iph_rfc1071 be al' _ [] (h_hl h) B1 HL LL) as (c3 & E3 & S3).
  rewrite app_nil_r in E3. rewrite E3. f_equal.
  assert (HLE2 : Z.of_nat (length (pre ++ st16 be c ++ post)) <= 262144) by lia.
  destruct (cksum_buffer_rfc1071 be false 0 _ [] B1 HLE2) as (c4 & E4 & S4).
  rewrite app_nil_r in E4.
  rewrite V in E4. injection E4 as <-. rewrite <- S4 in S3.
  revert S3. unfold st16.
  assert (DM : forall z, z mod 256 = 0 -> z / 256 = 0 -> z = 0).
  { intros z A B. rewrite (Z.div_mod z 256) by lia. lia. }
  destruct be; intros X; injection X as X1 X2; apply DM; assumption.
Qed.
