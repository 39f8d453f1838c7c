(* C34: IPv4 fragmentation (src/ofp_pkt_processing.c:794-910). *)
From Coq Require Import Permutation.
From Verif Require Import Base CksumModel CksumSpec ReassModel ReassSpec ReassProof ReassInv ReassStep ReassRun ReassTile ReassProps
  FragModel FragSpec FragProof.
Ltac Zify.zify_post_hook ::= idtac.

(* A packet too long for the MTU, without DF, whose options are a legal option
   list, is cut into fragments that tile its payload, fit the MTU, are as large
   as possible and carry its header, the first all options, the others those
   with the copy flag; every header checksum verifies. p may be a fragment
   itself. *)
Theorem frag_exact :
  forall be env p mtu fuel copied,
  pkt_wf p -> options (h_opt (p_hdr p)) copied -> 68 <= mtu -> mtu < h_len (p_hdr p) -> frag_end p <= 65536 ->
  Z.land (h_off (p_hdr p)) OFP_IP_DF = 0 ->
  (forall k, fe_alloc (env k) = true /\ fe_out (env k) = true) ->
  h_len (p_hdr p) + 64 < Z.of_nat fuel ->
  exists fs, output_mtu fuel be env p mtu = Ret (fs, FProcessed) /\ fragmentation be p mtu fs /\ (2 <= length fs)%nat /\
    map p_uid fs = map (fun i => fe_uid (env i)) (seq 0 (length fs)).
Proof.
  intros be env p mtu fuel copied W HO HM1 HM2 HE DF EN HF.
  pose proof W as (WH & WL & WD). pose proof (hw_hl _ WH) as HHL.
  assert (FP : 0 < frag_len p) by (unfold frag_len; lia).
  destruct (fragment_pkt_ok be env p mtu fuel copied W HO ltac:(lia) FP HE) as (fs & E & F & U).
  { intros k. unfold env_ok. destruct (EN k) as (-> & ->). reflexivity. }
  { exact HF. }
  exists fs. split.
  { unfold output_mtu. replace (h_len (p_hdr p) >? mtu) with true by (symmetry; apply Z.gtb_lt; lia). rewrite DF. exact E. }
  split; [exact F|]. split; [|exact U].
  destruct F as (C & D & G & cp & n & O1 & N1 & M).
  destruct fs as [|f [|g r]]; [contradiction| |cbn [length]; lia].
  exfalso. destruct M as (((WF & WFL & WFD) & LM & LD & _ & _ & _ & _ & OP & _) & _).
  assert (HH : h_hl (p_hdr f) = h_hl (p_hdr p)).
  { pose proof (hw_opt _ WF) as (_ & L1). pose proof (hw_opt _ WH) as (_ & L2). rewrite OP in L1. lia. }
  apply (f_equal (@length Z)) in D. unfold datagram in D. cbn [map concat] in D. rewrite app_nil_r in D.
  unfold frag_payload in D. rewrite !firstn_length in D. unfold frag_len in *. lia.
Qed.

Theorem frag_not_needed :
  forall fuel be env p mtu, h_len (p_hdr p) <= mtu -> output_mtu fuel be env p mtu = Ret ([p], FProcessed).
Proof.
  intros. unfold output_mtu. replace (h_len (p_hdr p) >? mtu) with false; [reflexivity|].
  symmetry. apply Bool.not_true_is_false. rewrite Z.gtb_lt. lia.
Qed.

(* too long and DF set: nothing is sent, the "fragmentation needed" error is raised *)
Theorem frag_dont_fragment :
  forall fuel be env p mtu, 0 <= h_off (p_hdr p) -> mtu < h_len (p_hdr p) -> Z.testbit (h_off (p_hdr p)) 14 = true ->
  output_mtu fuel be env p mtu = Ret ([], FNeedFrag).
Proof.
  intros fuel be env p mtu H0 H1 H2. unfold output_mtu.
  replace (h_len (p_hdr p) >? mtu) with true by (symmetry; apply Z.gtb_lt; lia).
  replace (Z.land (h_off (p_hdr p)) OFP_IP_DF =? 0) with false; [reflexivity|].
  symmetry. apply Z.eqb_neq. intros E. apply (f_equal (fun x => Z.testbit x 14)) in E.
  rewrite Z.land_spec, H2 in E. discriminate E.
Qed.

(* When an allocation or the output of a fragment fails, exactly the fragments
   before it have been sent, and the packet is dropped. *)
Theorem frag_failure_sends_prefix :
  forall be env p mtu fuel copied,
  pkt_wf p -> options (h_opt (p_hdr p)) copied -> 68 <= mtu -> mtu < h_len (p_hdr p) -> frag_end p <= 65536 ->
  Z.land (h_off (p_hdr p)) OFP_IP_DF = 0 -> h_len (p_hdr p) + 64 < Z.of_nat fuel ->
  exists fs n, fragmentation be p mtu fs /\ (n <= length fs)%nat /\
    (forall i, (i < n)%nat -> fe_alloc (env i) = true /\ fe_out (env i) = true) /\
    ((n = length fs /\ output_mtu fuel be env p mtu = Ret (fs, FProcessed)) \/
     ((n < length fs)%nat /\ (fe_alloc (env n) = false \/ fe_out (env n) = false) /\
      output_mtu fuel be env p mtu = Ret (firstn n fs, FDrop))).
Proof.
  intros be env p mtu fuel copied W HO HM1 HM2 HE DF HF.
  destruct (frag_exact be (make_ok env) p mtu fuel copied W HO HM1 HM2 HE DF) as (fs & E & F & _ & _).
  { intros k. split; reflexivity. } { exact HF. }
  unfold output_mtu in E |- *. replace (h_len (p_hdr p) >? mtu) with true in * by (symmetry; apply Z.gtb_lt; lia).
  rewrite DF in *. cbn [Z.eqb negb] in *.
  destruct (fragment_pkt_prefix _ _ _ _ _ _ E) as (n & N1 & N2 & N3 & N4).
  exists fs, n. split; [exact F|]. split; [exact N1|]. split.
  { intros i Hi. specialize (N2 i Hi). unfold env_ok in N2. apply andb_true_iff in N2. exact N2. }
  destruct (Nat.eqb_spec n (length fs)) as [->|NE].
  - left. split; [reflexivity|]. rewrite N3, firstn_all. reflexivity.
  - right. split; [lia|]. split; [|exact N3]. destruct N4 as [N4|N4]; [contradiction|]. unfold env_ok in N4. apply andb_false_iff in N4. exact N4.
Qed.

(* ---------- together with reassembly ---------- *)
Lemma consecutive_tiles n ps : consecutive n false ps -> tiles n ps.
Proof.
  revert n. induction ps as [|p [|q r] IH]; intros n H; [exact H| |].
  - destruct H as (A & B & _). split; assumption.
  - destruct H as (A & B & C & _ & D). cbn [tiles]. split; [exact A|]. split; [exact B|]. split; [exact C|]. apply IH, D.
Qed.
Lemma consecutive_pos n mf ps : consecutive n mf ps -> forall q r, ps = q :: r -> forall x, In x r -> n < frag_begin x.
Proof.
  revert n. induction ps as [|p [|p2 r2] IH]; intros n H q r E x Hx; [discriminate| |].
  - injection E as <- <-. contradiction.
  - injection E as <- <-. destruct H as (A & B & C & D & E). destruct Hx as [<-|Hx].
    + destruct r2; destruct E as (E & _); lia.
    + specialize (IH _ E _ _ eq_refl x Hx). lia.
Qed.

Lemma fragmentation_facts be p mtu fs : pkt_wf p -> fragmentation be p mtu fs ->
  Forall pkt_wf fs /\ (forall q, In q fs -> same_datagram (p_hdr q) (p_hdr p)) /\
  (forall q, In q fs -> h_hl (p_hdr q) <= h_hl (p_hdr p)) /\
  length (datagram fs) = Z.to_nat (frag_len p).
Proof.
  intros W (C & D & G & cp & n & O & N & M). pose proof W as (WH & WL & WD).
  destruct fs as [|f r]; [contradiction|]. destruct M as (M1 & M2).
  assert (ALL : forall q, In q (f :: r) -> exists opts, fragment_of be p mtu opts q /\ (length opts <= length cp + n \/ opts = h_opt (p_hdr p))%nat).
  { intros q [<-|Hq]; [exists (h_opt (p_hdr p)); split; [exact M1|right; reflexivity]|].
    exists (cp ++ repeat 0 n). split; [exact (proj1 (Forall_forall _ _) M2 q Hq)|]. left. rewrite app_length, repeat_length. lia. }
  split. { apply Forall_forall. intros q Hq. destruct (ALL q Hq) as (opts & (F & _) & _). exact F. }
  split. { intros q Hq. destruct (ALL q Hq) as (opts & (_ & _ & _ & F & _) & _). exact F. }
  split.
  { intros q Hq. destruct (ALL q Hq) as (opts & ((F & _) & _ & _ & _ & _ & _ & _ & OP & _) & L).
    pose proof (hw_opt _ F) as (_ & L1). pose proof (hw_opt _ WH) as (_ & L2). rewrite OP in L1.
    pose proof (options_len _ _ O). destruct L as [L| ->]; lia. }
  rewrite D. unfold frag_payload. rewrite firstn_length. unfold frag_len in *. lia.
Qed.

(* The fragments of a datagram, arriving in any order at a node mixed with other
   traffic, reassemble to its payload. (The reassembly takes at most 17.) *)
Theorem frag_reassemble_any_order :
  forall be p mtu fs evs be' al junk last st,
  pkt_wf p -> frag_begin p = 0 -> more_frags p = false -> mtu < h_len (p_hdr p) ->
  fragmentation be p mtu fs -> (2 <= length fs <= 17)%nat ->
  reachable st -> queued st (p_hdr p) = None -> arrivals_wf evs -> Forall (undisturbed (p_hdr p)) evs ->
  Permutation (own (p_hdr p) (arrivals evs) ++ [last]) fs ->
  r_nipq st + Z.of_nat (length evs) <= 1024 ->
  exists st' es e d,
    rrun st (evs ++ [Arrive be' al junk true last]) = Ret (st', es ++ [e]) /\
    (forall x, In x (returned es) -> ~ same_datagram (p_hdr x) (p_hdr p)) /\
    ef_ret e = Some d /\ same_datagram (p_hdr d) (p_hdr p) /\ h_off (p_hdr d) = 0 /\
    h_len (p_hdr d) = 4 * h_hl (p_hdr d) + frag_len p /\
    firstn (Z.to_nat (frag_len p)) (p_data d) = frag_payload p.
Proof.
  intros be p mtu fs evs be' al junk last st W B0 MF HM F HN HR HQ AW U P N.
  destruct (fragmentation_facts be p mtu fs W F) as (F1 & F2 & F3 & F4).
  destruct F as (C & D & _). rewrite B0, MF in C.
  pose proof W as (WH & WL & WD).
  assert (FP : 0 <= frag_len p) by (unfold frag_len; lia).
  destruct (reass_any_order fs (p_hdr p) evs be' al junk last st (consecutive_tiles _ _ C) HN F1 F2) as (st' & es & e & d & E1 & E2 & E3 & E4 & E5);
    try assumption.
  { intros q Hq. rewrite F4. specialize (F3 q Hq). unfold frag_len in *. lia. }
  exists st', es, e, d. split; [exact E1|]. split; [exact E2|]. split; [exact E3|].
  destruct E4 as (X1 & X2 & X3 & X4 & _). split; [exact X2|]. split; [exact X4|].
  rewrite F4 in X1, X3. rewrite Z2Nat.id in X3 by exact FP. split; [exact X3|]. rewrite X1, D. reflexivity.
Qed.

Lemma own_in h l q : In q l -> same_datagram (p_hdr q) h -> In q (own h l).
Proof.
  intros H (A & B & C & D). apply filter_In. split; [exact H|]. unfold same_datagramb.
  rewrite A, B, C, D, !Z.eqb_refl. reflexivity.
Qed.

(* On a node that starts empty the header comes back as well. *)
Theorem frag_reassemble_header :
  forall be p mtu fs evs be' al junk last st es e d,
  pkt_wf p -> frag_begin p = 0 -> more_frags p = false ->
  fragmentation be p mtu fs -> arrivals_wf evs ->
  Permutation (own (p_hdr p) (arrivals evs) ++ [last]) fs ->
  rrun reass_init (evs ++ [Arrive be' al junk true last]) = Ret (st, es ++ [e]) -> ef_ret e = Some d ->
  h_hl (p_hdr d) = h_hl (p_hdr p) /\ h_tos (p_hdr d) = h_tos (p_hdr p) /\ h_ttl (p_hdr d) = h_ttl (p_hdr p) /\
  h_opt (p_hdr d) = h_opt (p_hdr p).
Proof.
  intros be p mtu fs evs be' al junk last st es e d W B0 MF F AW P ER ED.
  destruct (fragmentation_facts be p mtu fs W F) as (F1 & F2 & F3 & F4).
  assert (INL : In last fs) by (apply (Permutation_in _ P); apply in_or_app; right; left; reflexivity).
  assert (WL : pkt_wf last) by exact (proj1 (Forall_forall _ _) F1 last INL).
  assert (AL : forall l1 l2, arrivals (l1 ++ l2) = arrivals l1 ++ arrivals l2).
  { induction l1 as [|[? ? ? ? ?|] l1 IH]; intros; cbn [arrivals app]; rewrite ?IH; reflexivity. }
  assert (AW2 : arrivals_wf (evs ++ [Arrive be' al junk true last])).
  { unfold arrivals_wf. rewrite AL. apply Forall_app. split; [exact AW|]. repeat constructor; exact (proj1 WL) || exact (proj2 WL) || apply WL. }
  destruct (reass_delivers_received_partial _ AW2) as (st2 & es2 & E2 & L2 & DL & _).
  rewrite ER in E2. injection E2 as <- <-.
  assert (LE : length es = length evs) by (rewrite !app_length in L2; cbn [length] in L2; lia).
  destruct (DL evs be' al junk true last [] es e [] d eq_refl eq_refl LE ED) as (tot & _ & _ & _ & _ & _ & _ & _ & _ & q & IQ & SQ & BQ & Q1 & Q2 & Q3 & Q4).
  assert (SP : same_datagram (p_hdr q) (p_hdr p)).
  { pose proof (F2 last INL) as (S1 & S2 & S3 & S4). destruct SQ as (T1 & T2 & T3 & T4). repeat split; congruence. }
  assert (IQF : In q fs).
  { apply (Permutation_in _ P). apply in_app_or in IQ. apply in_or_app. destruct IQ as [IQ|IQ]; [left; apply own_in; assumption|right; exact IQ]. }
  destruct F as (C & D & G & cp & n & O & N & M). destruct fs as [|f r]; [contradiction|].
  destruct IQF as [->|IQF].
  - destruct M as (((WQ & _) & _ & _ & _ & T1 & T2 & _ & OP & _) & _).
    pose proof (hw_opt _ WQ) as (_ & L1). pose proof (hw_opt _ (proj1 W)) as (_ & L3). rewrite OP in L1.
    repeat split; try congruence. lia.
  - exfalso. rewrite B0 in C. pose proof (consecutive_pos _ _ _ C f r eq_refl q IQF). lia.
Qed.

(* A fragment cut again on the way: the fragments still tile the datagram. *)
Lemma tiles_cons p l : l <> [] -> forall n, tiles n (p :: l) <-> (frag_begin p = n /\ more_frags p = true /\ 0 < frag_len p /\ tiles (n + frag_len p) l).
Proof. intros H n. destruct l; [contradiction|]. cbn [tiles]. tauto. Qed.

Lemma consecutive_app n mf gs b : consecutive n mf gs ->
  (b <> [] -> mf = true) -> (b = [] -> mf = false) ->
  (b <> [] -> tiles (n + Z.of_nat (length (datagram gs))) b) -> Forall (fun g => Z.of_nat (length (frag_payload g)) = frag_len g) gs ->
  tiles n (gs ++ b).
Proof.
  revert n. induction gs as [|g [|g2 gs] IH]; intros n C H1 H2 HT HP; [contradiction| |].
  - destruct C as (C1 & C2 & C3). cbn [app]. destruct b as [|x b].
    + cbn [tiles]. rewrite H2 in C2 by reflexivity. split; assumption.
    + rewrite H1 in C2 by discriminate. apply tiles_cons; [discriminate|]. split; [exact C1|]. split; [exact C2|]. split; [exact C3|].
      inversion_clear HP as [|? ? PG _]. rewrite <- PG. specialize (HT ltac:(discriminate)).
      unfold datagram in HT. cbn [map concat] in HT. rewrite app_nil_r in HT. exact HT.
  - destruct C as (C1 & C2 & C3 & _ & C4). cbn [app]. apply tiles_cons; [discriminate|].
    split; [exact C1|]. split; [exact C2|]. split; [exact C3|]. inversion_clear HP as [|? ? PG PR].
    apply IH; try assumption. intros NB. specialize (HT NB).
    unfold datagram in HT. cbn [map concat] in HT. rewrite app_length, Nat2Z.inj_add, PG in HT.
    unfold datagram. cbn [map concat]. replace (n + frag_len g + _) with (n + (frag_len g + Z.of_nat (length (frag_payload g2 ++ concat (map frag_payload gs))))) by lia. exact HT.
Qed.

Theorem frag_again :
  forall be mtu a f gs b n,
  tiles n (a ++ f :: b) -> pkt_wf f -> fragmentation be f mtu gs ->
  tiles n (a ++ gs ++ b) /\ datagram (a ++ gs ++ b) = datagram (a ++ f :: b).
Proof.
  intros be mtu a f gs b n T W F. split.
  - revert n T. induction a as [|x a IH]; intros n T.
    + cbn [app] in *. destruct (fragmentation_facts be f mtu gs W F) as (F1 & F2 & F3 & F4).
      destruct F as (C & D & _). pose proof W as (WH & WL & WD).
      assert (FP : 0 <= frag_len f) by (unfold frag_len; lia).
      assert (BE : frag_begin f = n /\ (b <> [] -> more_frags f = true /\ tiles (n + frag_len f) b) /\ (b = [] -> more_frags f = false)).
      { destruct b as [|y b].
        - destruct T as (T1 & T2). split; [exact T1|]. split; [contradiction|auto].
        - apply tiles_cons in T; [|discriminate]. destruct T as (T1 & T2 & T3 & T4). split; [exact T1|]. split; [auto|discriminate]. }
      destruct BE as (B1 & B2 & B3). rewrite B1 in C.
      apply (consecutive_app n (more_frags f)); try assumption.
      * intros NB. apply B2, NB.
      * intros NB. rewrite F4, Z2Nat.id by exact FP. apply B2, NB.
      * apply Forall_forall. intros g Hg. pose proof (proj1 (Forall_forall _ _) F1 g Hg) as (_ & G2 & G3).
        unfold frag_payload. rewrite firstn_length. unfold frag_len in *. lia.
    + cbn [app] in *. assert (NE : a ++ f :: b <> []) by (destruct a; discriminate).
      apply tiles_cons in T; [|exact NE]. destruct T as (T1 & T2 & T3 & T4).
      assert (NE2 : a ++ gs ++ b <> []).
      { destruct F as (C & _). destruct gs; [contradiction|]. destruct a; discriminate. }
      apply tiles_cons; [exact NE2|]. split; [exact T1|]. split; [exact T2|]. split; [exact T3|]. apply IH, T4.
  - destruct F as (_ & D & _). unfold datagram in *. rewrite !map_app, !concat_app. cbn [map concat]. rewrite <- D. reflexivity.
Qed.

(* ---------- what does not hold ---------- *)
(* An option whose length byte is 0 (never legal, but nothing on the forwarding
   path checks options): the function never returns. *)
Theorem frag_zero_length_option_refuted :
  forall be env p mtu o r,
  hdr_wf (p_hdr p) -> h_opt (p_hdr p) = o :: 0 :: r -> o mod 32 <> 0 -> o mod 32 <> 1 ->
  forall fuel, fragment_pkt fuel be env p mtu = Diverge.
Proof.
  intros be env p mtu o r W EO H0 H1 fuel. pose proof (hw_hl _ W) as HL. pose proof (hw_opt _ W) as (OB & OL).
  assert (Bo : is_byte o) by (rewrite EO in OB; inversion OB; assumption).
  unfold fragment_pkt. rewrite (zero_option_diverges fuel _ 0 _ [] o); [reflexivity| | | | |].
  - rewrite Z.shiftl_mul_pow2 by lia. change (2^2) with 4. rewrite EO in OL. cbn [length] in OL. lia.
  - rewrite EO. reflexivity.
  - rewrite opt_number_mod by apply Bo. exact H0.
  - rewrite opt_number_mod by apply Bo. exact H1.
  - rewrite EO. reflexivity.
Qed.

(* A header length below 5 words is not refused: memcpy of a negative size *)
Theorem frag_short_header_refuted :
  exists p, 0 <= h_hl (p_hdr p) < 5 /\ h_len (p_hdr p) <= 20 + zlen (p_data p) /\
    forall be env mtu, fe_alloc (env 0%nat) = true -> mtu < h_len (p_hdr p) -> output_mtu 5 be env p mtu = UB.
Proof.
  exists (mkP 1 (mkH 4 0 100 7 0 64 17 0 1 2 []) (repeat 7 84)). split; [cbn; lia|]. split; [cbn; lia|].
  intros be env mtu EA HM. unfold output_mtu. cbn [p_hdr h_len h_off] in *.
  replace (100 >? mtu) with true by (symmetry; apply Z.gtb_lt; lia). cbn [Z.land OFP_IP_DF Z.eqb negb].
  unfold fragment_pkt. cbn [p_hdr h_hl h_len h_opt]. change (Z.shiftl 4 2) with 16.
  cbn [copy_opts]. change (0 >=? 16 - 20) with true. cbn [obind frag_loop].
  change (0 >=? 100 - 16) with false. cbv iota zeta. rewrite EA. reflexivity.
Qed.

(* An MTU that leaves less than 8 bytes of room: it never ends either. *)
Theorem frag_tiny_mtu_refuted :
  forall be env p mtu,
  pkt_wf p -> h_hl (p_hdr p) = 5 -> 20 <= mtu < 28 -> 0 < frag_len p ->
  Z.land (h_off (p_hdr p)) OFP_IP_DF = 0 -> mtu < h_len (p_hdr p) ->
  (forall k, fe_alloc (env k) = true /\ fe_out (env k) = true) ->
  forall fuel, output_mtu fuel be env p mtu = Diverge.
Proof.
  intros be env p mtu W H5 HM HL DF HT EN fuel. pose proof W as (WH & WL & WD).
  unfold output_mtu. replace (h_len (p_hdr p) >? mtu) with true by (symmetry; apply Z.gtb_lt; lia). rewrite DF. cbn [Z.eqb negb].
  unfold fragment_pkt. rewrite H5. change (Z.shiftl 5 2) with 20. change (20 - 20) with 0.
  pose proof (hw_opt _ WH) as (OB & OL). rewrite H5 in OL.
  assert (O0 : h_opt (p_hdr p) = []) by (destruct (h_opt (p_hdr p)); [reflexivity|cbn [length] in OL; lia]).
  destruct fuel as [|fuel]; [reflexivity|]. cbn [copy_opts]. change (0 >=? 0) with true. cbn [obind]. change (pad4 []) with (@nil Z).
  assert (PL : 0 < h_len (p_hdr p) - 20) by (unfold frag_len in HL; lia).
  assert (S0 : Z.land (mtu - 20) 65528 = 0).
  { rewrite land_65528 by lia. rewrite Z.div_small by lia. reflexivity. }
  generalize (S fuel) as n, true as first, 0%nat as k. induction n as [|n IH]; intros first k; [reflexivity|].
  cbn [frag_loop]. replace (0 >=? h_len (p_hdr p) - 20) with false by (symmetry; apply Bool.not_true_is_false; rewrite Z.geb_le; lia).
  cbv zeta. rewrite H5. change (zlen []) with 0. change (Z.shiftr (20 + 0) 2) with 5.
  replace (if first then 5 else 5) with 5 by (destruct first; reflexivity). change (Z.shiftl 5 2) with 20. rewrite S0.
  replace (h_len (p_hdr p) - 20 - 0 >? 0) with true by (symmetry; apply Z.gtb_lt; lia).
  destruct (EN k) as (EA & EO). rewrite EA, EO. cbn [negb].
  change (5 <? 5) with false. rewrite andb_false_r.
  replace (zlen (p_data p) <? 0 + 0) with false by (symmetry; apply Z.ltb_ge; unfold zlen; lia).
  replace (if first then h_opt (p_hdr p) else []) with (@nil Z) by (destruct first; [rewrite O0|]; reflexivity).
  pose proof (hw_off _ WH) as HO.
  assert (OF : 0 <= (if 0 + 0 <? h_len (p_hdr p) - 20 then Z.lor (u16 (h_off (p_hdr p) + 0 / 8)) OFP_IP_MF else u16 (h_off (p_hdr p) + 0 / 8)) < 65536).
  { assert (0 <= u16 (h_off (p_hdr p) + 0 / 8) < 65536) by (unfold u16; apply Z.mod_pos_bound; reflexivity).
    destruct (_ <? _); [|assumption]. apply (lor_MF _ H). }
  assert (LN : 0 <= u16 (0 + 20) < 65536) by (unfold u16; apply Z.mod_pos_bound; reflexivity).
  destruct (frag_hdr_ok be (fe_al (env k)) (p_hdr p) 5 (u16 (0 + 20)) _ [] WH ltac:(lia) ltac:(constructor) eq_refl LN OF) as (c & E & _).
  rewrite E. cbn [obind]. change (0 + 0) with 0. rewrite IH. reflexivity.
Qed.

(* The first fragments are on the wire when a later one fails (see
   frag_failure_sends_prefix): a concrete case, and one for frag_exact:
   100 bytes with options 130/3 (copied), 7/3 (not copied), MTU 68. *)
Definition p100 : ippkt :=
  mkP 1 (mkH 7 0 128 7 0 64 17 0 16909060 84281096 [130; 3; 9; 7; 3; 4; 1; 0]) (map Z.of_nat (seq 0 100)).
Definition eok (k : nat) : fenv := mkFE true (Z.of_nat k + 10) 0 true.

Example p100_met : pkt_wf p100 /\ options (h_opt (p_hdr p100)) [130; 3; 9] /\ frag_end p100 <= 65536.
Proof.
  split; [|split; [|vm_compute; discriminate]].
  - split; [split; cbn [p_hdr p100 h_hl h_tos h_ttl h_p h_id h_off h_src h_dst h_opt]; unfold is_byte; try lia|].
    + split; [repeat constructor; unfold is_byte; lia|reflexivity].
    + split; [cbn; lia|vm_compute; discriminate].
  - apply (o_opt 130 3 [9] [7; 3; 4; 1; 0] []); [lia|lia|lia|reflexivity|].
    apply (o_opt 7 3 [4] [1; 0] []); [lia|lia|lia|reflexivity|].
    apply o_one; [right; reflexivity|]. apply o_one; [left; reflexivity|]. constructor.
Qed.

Example p100_result :
  match output_mtu 300 false eok p100 68 with
  | Ret (fs, FProcessed) =>
      map p_uid fs = [10; 11; 12] /\ map (fun f => h_len (p_hdr f)) fs = [68; 64; 44] /\
      map frag_begin fs = [0; 40; 80] /\ map more_frags fs = [true; true; false] /\
      map (fun f => h_opt (p_hdr f)) fs = [[130; 3; 9; 7; 3; 4; 1; 0]; [130; 3; 9; 0]; [130; 3; 9; 0]] /\
      datagram fs = p_data p100
  | _ => False end.
Proof. vm_compute. repeat split. Qed.

Example p100_partial :
  match output_mtu 300 false (fun k => mkFE (Nat.ltb k 2) (Z.of_nat k) 0 true) p100 68 with
  | Ret (fs, FDrop) => map p_uid fs = [0; 1] | _ => False end.
Proof. vm_compute. reflexivity. Qed.

(* the fragments arrive out of order and come back as the datagram *)
Example p100_reassembled :
  match output_mtu 300 false eok p100 68 with
  | Ret ([f1; f2; f3], FProcessed) =>
      match rrun reass_init [arr f3; arr f1; arr f2] with
      | Ret (_, [_; _; e]) => match ef_ret e with
          | Some d => p_data d = p_data p100 /\ h_len (p_hdr d) = 128 /\ h_opt (p_hdr d) = h_opt (p_hdr p100)
          | None => False end
      | _ => False end
  | _ => False end.
Proof. vm_compute. repeat split. Qed.

(* met by a record route option of length 0 *)
Example zero_option_met :
  let p := mkP 1 (mkH 6 0 1500 7 0 64 17 0 1 2 [7; 0; 0; 0]) [] in hdr_wf (p_hdr p) /\ h_opt (p_hdr p) = 7 :: 0 :: [0; 0] /\ 7 mod 32 <> 0 /\ 7 mod 32 <> 1.
Proof.
  cbv zeta. split; [|split; [reflexivity|split; discriminate]].
  split; cbn [p_hdr h_hl h_tos h_ttl h_p h_id h_off h_src h_dst h_opt]; unfold is_byte; try lia.
  split; [repeat constructor; unfold is_byte; lia|reflexivity].
Qed.

Print Assumptions frag_exact.
Print Assumptions frag_not_needed.
Print Assumptions frag_dont_fragment.
Print Assumptions frag_failure_sends_prefix.
Print Assumptions frag_reassemble_any_order.
Print Assumptions frag_reassemble_header.
Print Assumptions frag_again.
Print Assumptions frag_zero_length_option_refuted.
Print Assumptions frag_short_header_refuted.
Print Assumptions frag_tiny_mtu_refuted.
