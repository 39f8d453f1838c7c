(* C90: initial sequence numbers of connections this side opens. *)
From Verif Require Import Base Md5Model Md5Spec Md5Proof Md5Proof2 Md5Props IsnModel.
Ltac Zify.zify_post_hook ::= idtac.

(* ---- specification ---- *)

(* the keyed word: the first four bytes of the MD5 of ports, addresses and
   secret, as a little-endian number *)
Definition first_word (d : list Z) : Z := nth 0 d 0 + 2 ^ 8 * nth 1 d 0 + 2 ^ 16 * nth 2 d 0 + 2 ^ 24 * nth 3 d 0.
Definition keyed (sec : list Z) (t : tuple) : Z := first_word (md5_of (fport t ++ lport t ++ faddr t ++ laddr t ++ sec)).

(* ports are two bytes, addresses four or sixteen *)
Definition tuple_ok (t : tuple) : Prop := length (fport t) = 2%nat /\ length (lport t) = 2%nat /\
  (length (faddr t) = 4%nat /\ length (laddr t) = 4%nat \/ length (faddr t) = 16%nat /\ length (laddr t) = 16%nat).

(* the clock is read again and again within a call and never goes back; it is
   an int that has not wrapped (248 days) *)
Definition reads_ok (from : Z) (k : clock) : Prop :=
  0 <= from <= k_cond k /\ k_cond k <= k_secret k <= k_seed k /\ k_seed k <= k_cmp k <= k_proj k /\ k_proj k <= k_last k < 2147483648 /\
  length (k_junk k) = 64%nat.
Fixpoint clock_ok (from : Z) (l : list (tuple * clock)) : Prop :=
  match l with [] => True | (t, k) :: l => tuple_ok t /\ reads_ok from k /\ clock_ok (k_last k) l end.
Definition ends_by (T : Z) (l : list (tuple * clock)) : Prop := Forall (fun p => k_last (snd p) <= T) l.
(* the clock stands still during each call *)
Definition still (l : list (tuple * clock)) : Prop := Forall (fun p => k_cmp (snd p) = k_proj (snd p) /\ k_proj (snd p) = k_last (snd p)) l.

Definition state_ok (s : isn) : Prop :=
  0 <= offset s < 2 ^ 32 /\ 0 <= offset_old s < 2 ^ 32 /\ length (secret s) = 32%nat.

(* ---- proofs ---- *)

Lemma bytes_small : forall n (x : list Z), length x = n -> (n <= 32)%nat -> Z.of_nat (length x) <= 4294967232.
Proof. intros n x -> H. lia. Qed.

Lemma hash_ok : forall t k s, tuple_ok t -> length (k_junk k) = 64%nat -> length (secret s) = 32%nat ->
  hash t k s = Ret (keyed (secret s) t).
Proof.
  intros t k s (A & B & C) J S. unfold hash. rewrite md5_digest.
  - cbn [obind concat]. rewrite app_nil_r. unfold keyed, le4, first_word. reflexivity.
  - exact J.
  - repeat constructor.
    + apply (bytes_small 2); [exact A|lia].
    + apply (bytes_small 2); [exact B|lia].
    + destruct C as [[C _]|[C _]]; eapply bytes_small; try exact C; lia.
    + destruct C as [[_ C]|[_ C]]; eapply bytes_small; try exact C; lia.
    + eapply bytes_small; [exact S|lia].
Qed.

Local Opaque md5_of.

Lemma reseed_len : forall iv k s, length (secret s) = 32%nat -> length (secret (reseed iv k s)) = 32%nat.
Proof.
  intros iv k s H. unfold reseed. destruct (_ || _); [|exact H].
  cbn [secret]. rewrite app_length, skipn_length, H. reflexivity.
Qed.

Lemma new_isn_ret : forall iv t k s, tuple_ok t -> length (k_junk k) = 64%nat -> length (secret s) = 32%nat ->
  new_isn iv t k s = Ret (tick_offset k (reseed iv k s),
    u32 (keyed (secret (reseed iv k s)) t + offset (tick_offset k (reseed iv k s)))).
Proof.
  intros. unfold new_isn. rewrite hash_ok; [reflexivity|assumption|assumption|]. apply reseed_len. assumption.
Qed.

Lemma no_reseed : forall iv k s, iv <= 0 -> last_reseed s <> 0 -> reseed iv k s = s.
Proof.
  intros iv k s H N. unfold reseed. replace (_ || _) with false; [reflexivity|].
  apply Z.eqb_neq in N. rewrite N. replace (0 <? iv) with false by lia. reflexivity.
Qed.

(* state s holds the true counters O and P (which do not wrap) *)
Definition holds (s : isn) (O P : Z) : Prop := offset s = u32 O /\ offset_old s = u32 P /\ P <= O.

Lemma u32_mod_id : forall a b, u32 (u32 a + b) = u32 (a + b).
Proof. intros. unfold u32. apply Zplus_mod_idemp_l. Qed.
Lemma s32_small : forall x, -2147483648 <= x < 2147483648 -> s32 x = x.
Proof.
  intros x H. unfold s32. cbv zeta. destruct (Z_lt_ge_dec x 0) as [L|L].
  - rewrite <- (Z.mod_add x 1) by lia. rewrite Z.mod_small by lia. replace (x + 1 * 4294967296 <? 2147483648) with false by lia. lia.
  - rewrite Z.mod_small by lia. replace (x <? 2147483648) with true by lia. reflexivity.
Qed.
Lemma s32_u32_sub : forall a b, s32 (u32 a - u32 b) = s32 (a - b).
Proof. intros. unfold s32, u32. rewrite <- Zminus_mod. reflexivity. Qed.

Lemma tick_step : forall k s O P from, holds s O P -> reads_ok from k -> last s <= from -> 0 <= last s ->
  O - P + 4096 + 10485 * (k_proj k - last s) < 2147483648 ->
  exists O' P', holds (tick_offset k s) O' P' /\ O + 4096 <= O' /\
    O' <= O + 4096 + 10485 * (last (tick_offset k s) - last s) /\
    O' - P' <= O - P + 4096 /\ last s <= last (tick_offset k s) <= k_last k /\
    (k_cmp k = k_proj k -> k_proj k = k_last k ->
       last (tick_offset k s) = k_last k /\ P + 10485 * (last (tick_offset k s) - last s) <= P') /\
    secret (tick_offset k s) = secret s /\ last_reseed (tick_offset k s) = last_reseed s.
Proof.
  intros k s O P from (HO & HP & LE) (R1 & R2 & R3 & R4 & _) F L B. unfold tick_offset. cbv zeta.
  rewrite HO, u32_mod_id.
  destruct (k_cmp k =? last s) eqn:E; cbn [negb].
  - exists (O + 4096), P. unfold holds. cbn [offset offset_old last secret last_reseed].
    split; [split; [reflexivity|split; [exact HP|lia]]|].
    split; [lia|]. split; [lia|]. split; [lia|]. split; [lia|]. split; [intros; split; lia|].
    split; reflexivity.
  - rewrite (s32_small (k_proj k - last s)) by lia.
    set (dt := k_proj k - last s) in *. assert (D : 0 <= dt) by lia.
    assert (U : u64 (1048576 / 100 * u64 dt) = 10485 * dt).
    { unfold u64. change (1048576 / 100) with 10485. rewrite (Z.mod_small dt) by lia. apply Z.mod_small. lia. }
    rewrite U, HP, u32_mod_id. rewrite s32_u32_sub, s32_small by lia.
    destruct (0 <? P + 10485 * dt - (O + 4096)) eqn:G.
    + exists (P + 10485 * dt), (P + 10485 * dt). unfold holds. cbn [offset offset_old last secret last_reseed].
      split; [split; [reflexivity|split; [reflexivity|lia]]|].
      split; [lia|]. split; [unfold dt in *; lia|]. split; [lia|]. split; [unfold dt in *; lia|].
      split; [unfold dt in *; intros; split; lia|]. split; reflexivity.
    + exists (O + 4096), (O + 4096). unfold holds. cbn [offset offset_old last secret last_reseed].
      split; [split; [reflexivity|split; [reflexivity|lia]]|].
      split; [lia|]. split; [unfold dt in *; lia|]. split; [lia|]. split; [unfold dt in *; lia|].
      split; [unfold dt in *; intros; split; lia|]. split; reflexivity.
Qed.

Fixpoint rising (b : Z) (l : list Z) : Prop := match l with [] => True | o :: l => b + 4096 <= o /\ rising o l end.

Lemma run_isn : forall iv l s O P from T, iv <= 0 -> last_reseed s <> 0 -> length (secret s) = 32%nat ->
  holds s O P -> clock_ok from l -> last s <= from -> 0 <= last s -> ends_by T l ->
  (l <> [] -> O - P + 4096 * Z.of_nat (length l) + 10485 * (T - last s) < 2147483648) ->
  exists s' Os, calls_of iv l s = Ret (s', map (fun p => u32 (keyed (secret s) (fst (fst p)) + snd p)) (combine l Os)) /\
    length Os = length l /\ rising O Os /\
    Forall (fun o => o <= O + 4096 * Z.of_nat (length l) + 10485 * (T - last s)) Os /\
    (still l -> forall d, l <> [] -> P + 10485 * (k_last (snd (List.last l d)) - last s) <= List.last Os 0).
Proof.
  intros iv l. induction l as [|[t k] l IH]; intros s O P from T HI NR LS H C F L E B; cbn [calls_of].
  - exists s, []. split; [reflexivity|]. split; [reflexivity|]. split; [exact Logic.I|]. split; [constructor|]. intros _ d N. contradiction.
  - destruct C as (TO & RO & C). inversion E as [|? ? E0 E1]; subst. cbn [snd] in E0.
    specialize (B ltac:(discriminate)). cbn [length] in B.
    rewrite new_isn_ret by (try assumption; apply RO). rewrite no_reseed by assumption. cbn [obind].
    destruct (tick_step k s O P from H RO F L) as (O' & P' & H' & A1 & A2 & A3 & A4 & A5 & A6 & A7).
    { destruct RO as (R1 & R2 & R3 & R4 & _). lia. }
    destruct (IH (tick_offset k s) O' P' (k_last k) T) as (s' & Os & B1 & B2 & B3 & B4 & B5); try assumption; try lia.
    { rewrite A6. exact LS. }
    rewrite B1. cbn [obind]. rewrite A6. destruct H' as (HO' & HP' & LE').
    exists s', (O' :: Os). cbn [combine map fst snd length].
    split. { rewrite HO'. do 3 f_equal. unfold u32. apply Zplus_mod_idemp_r. }
    split; [lia|]. split; [split; [exact A1|exact B3]|].
    split.
    { constructor; [destruct RO as (R1 & R2 & R3 & R4 & _); lia|].
      eapply Forall_impl; [|exact B4]. intros o Ho. cbv beta in Ho. lia. }
    intros ST d _. inversion ST as [|? ? S0 S1]; subst. cbn [snd] in S0. destruct S0 as [S0 S2].
    destruct (A5 S0 S2) as [A8 A9].
    destruct l as [|p l].
    + destruct Os; [|discriminate B2]. cbn [List.last]. cbn [snd]. lia.
    + specialize (B5 S1 d ltac:(discriminate)).
      destruct Os as [|o Os]; [discriminate B2|].
      change (List.last ((t, k) :: p :: l) d) with (List.last (p :: l) d).
      change (List.last (O' :: o :: Os) 0) with (List.last (o :: Os) 0). lia.
Qed.

Lemma rising_all : forall l b, rising b l -> Forall (fun o => b + 4096 <= o) l.
Proof.
  induction l as [|o l IH]; intros b H; [constructor|]. destruct H as [H1 H2]. constructor; [exact H1|].
  eapply Forall_impl; [|exact (IH o H2)]. intros a Ha. cbv beta in Ha. lia.
Qed.
Lemma rising_nth : forall l b i j, rising b l -> (i < j < length l)%nat -> nth i l 0 + 4096 <= nth j l 0.
Proof.
  induction l as [|o l IH]; intros b i j H L; [cbn [length] in L; lia|].
  destruct H as [H1 H2]. destruct j as [|j]; [lia|]. cbn [length] in L. destruct i as [|i]; cbn [nth].
  - pose proof (rising_all l o H2) as A. rewrite Forall_forall in A. apply A. apply nth_In. lia.
  - eapply IH; [exact H2|lia].
Qed.

Lemma holds_of : forall s, state_ok s -> holds s (offset_old s + (offset s - offset_old s) mod 4294967296) (offset_old s).
Proof.
  intros s (A & B & _). change (2 ^ 32) with 4294967296 in *. unfold holds.
  assert (M : 0 <= (offset s - offset_old s) mod 4294967296 < 4294967296) by (apply Z.mod_pos_bound; lia).
  split; [|split; [unfold u32; rewrite Z.mod_small; lia|lia]].
  unfold u32. rewrite Zplus_mod_idemp_r. rewrite Z.mod_small; lia.
Qed.

Lemma nth_values : forall sec (l : list (tuple * clock)) (Os : list Z) i dt, length Os = length l -> (i < length l)%nat ->
  nth i (map (fun p => u32 (keyed sec (fst (fst p)) + snd p)) (combine l Os)) 0
  = u32 (keyed sec (fst (nth i l dt)) + nth i Os 0).
Proof.
  intros sec l Os i dt L H.
  erewrite nth_indep; [|rewrite map_length, combine_length; lia].
  rewrite (map_nth (fun p => u32 (keyed sec (fst (fst p)) + snd p)) (combine l Os) (dt, 0) i).
  rewrite combine_nth by (symmetry; exact L). reflexivity.
Qed.

(* ---- theorems ---- *)

(* Every call returns, and the number is the keyed word of the connection plus
   the running offset. *)
Theorem isn_value : forall iv t k s, tuple_ok t -> length (k_junk k) = 64%nat -> state_ok s ->
  exists s', new_isn iv t k s = Ret (s', (keyed (secret s') t + offset s') mod 2 ^ 32).
Proof.
  intros iv t k s T J (_ & _ & L). rewrite new_isn_ret by assumption. eexists. f_equal. f_equal.
  assert (E : forall k s, secret (tick_offset k s) = secret s).
  { intros k0 s0. unfold tick_offset. cbv zeta. destruct (negb _); reflexivity. }
  rewrite E. reflexivity.
Qed.
Print Assumptions isn_value.

(* Two connections of the same ports and addresses: the later one starts ahead
   of the earlier one, by at least 4096 and less than half the sequence space,
   whatever other connections are opened and however the clock runs, as long
   as 4096 per connection and 10485 per tick add up to less than 2^31 (34
   minutes, or half a million connections). *)
Theorem isn_advances : forall iv (l : list (tuple * clock)) s T s' vs i j d,
  iv <= 0 -> last_reseed s <> 0 -> state_ok s -> 0 <= last s -> clock_ok (last s) l -> ends_by T l ->
  (offset s - offset_old s) mod 2 ^ 32 + 4096 * Z.of_nat (length l) + 10485 * (T - last s) < 2 ^ 31 ->
  calls_of iv l s = Ret (s', vs) ->
  (i < j < length l)%nat -> fst (nth i l d) = fst (nth j l d) ->
  4096 <= (nth j vs 0 - nth i vs 0) mod 2 ^ 32 < 2 ^ 31.
Proof.
  intros iv l s T s' vs i j d HI NR SO L C E B R IJ ET.
  change (2 ^ 31) with 2147483648 in *. change (2 ^ 32) with 4294967296 in *.
  destruct (run_isn iv l s _ _ (last s) T HI NR (proj2 (proj2 SO)) (holds_of s SO) C ltac:(lia) L E) as (s2 & Os & A1 & A2 & A3 & A4 & _).
  { intros _. lia. }
  rewrite A1 in R. assert (V : vs = map (fun p => u32 (keyed (secret s) (fst (fst p)) + snd p)) (combine l Os)) by congruence.
  assert (Li : (i < length l)%nat) by (clear - IJ; lia). assert (Lj : (j < length l)%nat) by (clear - IJ; lia).
  pose proof (nth_values (secret s) l Os i d A2 Li) as Vi. pose proof (nth_values (secret s) l Os j d A2 Lj) as Vj.
  rewrite <- V in Vi, Vj. rewrite Vi, Vj, ET. clear Vi Vj V.
  set (h := keyed _ _). pose proof (rising_nth Os _ i j A3 ltac:(lia)) as RN.
  pose proof (rising_all Os _ A3) as RA. rewrite Forall_forall in A4, RA.
  pose proof (A4 (nth j Os 0) ltac:(apply nth_In; lia)) as UB. pose proof (RA (nth i Os 0) ltac:(apply nth_In; lia)) as LB.
  cbv beta in UB, LB. unfold u32. rewrite <- Zminus_mod.
  replace (h + nth j Os 0 - (h + nth i Os 0)) with (nth j Os 0 - nth i Os 0) by lia.
  rewrite Z.mod_small; lia.
Qed.
Print Assumptions isn_advances.

(* And it is ahead by a megabyte (1048500 bytes) for each second between them,
   less the 4096 bytes of each connection opened in the tick of the first. *)
Theorem isn_keeps_pace : forall iv l t k0 k1 s T s' vs,
  iv <= 0 -> last_reseed s <> 0 -> state_ok s -> 0 <= last s ->
  let all := (t, k0) :: l ++ [(t, k1)] in
  clock_ok (last s) all -> ends_by T all -> still all ->
  (offset s - offset_old s) mod 2 ^ 32 + 4096 * Z.of_nat (length all) + 10485 * (T - last s) < 2 ^ 31 ->
  calls_of iv all s = Ret (s', vs) ->
  10485 * (k_last k1 - k_last k0) - 4096 - (offset s - offset_old s) mod 2 ^ 32
    <= (List.last vs 0 - nth 0 vs 0) mod 2 ^ 32.
Proof.
  intros iv l t k0 k1 s T s' vs HI NR SO L all C E ST B R. unfold all in *. clear all.
  change (2 ^ 31) with 2147483648 in *. change (2 ^ 32) with 4294967296 in *.
  cbn [calls_of] in R. destruct C as (TO & RO & C). inversion E as [|? ? E0 E1]; subst. inversion ST as [|? ? S0 S1]; subst.
  cbn [snd] in *. set (a := l ++ [(t, k1)]) in *.
  assert (La : a <> []) by (unfold a; destruct l; discriminate).
  assert (Ka : forall d, List.last a d = (t, k1)) by (intros; unfold a; apply last_last).
  assert (Ia : In (t, k1) a) by (unfold a; apply in_or_app; right; left; reflexivity).
  clearbody a.
  rewrite new_isn_ret in R by (try assumption; try apply RO; apply SO). rewrite no_reseed in R by assumption. cbn [obind] in R.
  cbn [length] in B. pose proof RO as (R1 & R2 & R3 & R4 & _).
  destruct (tick_step k0 s _ _ (last s) (holds_of s SO) RO ltac:(lia) L) as (O' & P' & H' & A1 & A2 & A3 & A4 & A5 & A6 & A7).
  { lia. }
  destruct (A5 (proj1 S0) (proj2 S0)) as [A8 A9].
  destruct (run_isn iv a (tick_offset k0 s) O' P' (k_last k0) T) as (s2 & Os & B1 & B2 & B3 & B4 & B5); try assumption; try lia.
  { rewrite A6. apply SO. }
  rewrite B1 in R. cbn [obind] in R. rewrite A6 in R. destruct H' as (HO' & HP' & LE').
  match type of R with Ret (_, ?x) = _ => assert (V : vs = x) by congruence end. rewrite V. clear V R.
  cbn [nth]. rewrite HO'.
  specialize (B5 S1 (t, k1) La). rewrite Ka in B5. cbn [snd] in B5.
  assert (LV : List.last (u32 (keyed (secret s) t + u32 O') :: map (fun p => u32 (keyed (secret s) (fst (fst p)) + snd p)) (combine a Os)) 0
    = u32 (keyed (secret s) t + List.last Os 0)).
  { destruct a as [|p a] using rev_ind; [contradiction|].
    specialize (Ka p). rewrite last_last in Ka. subst p.
    destruct Os as [|o Os _] using rev_ind; [rewrite app_length in B2; cbn [length] in B2; lia|].
    rewrite !app_length in B2. cbn [length] in B2. rewrite last_last.
    assert (CA : forall (x y : list (tuple * clock)) (u v : list Z), length u = length x -> combine (x ++ y) (u ++ v) = combine x u ++ combine y v).
    { induction x; intros y u v Hl; destruct u; try discriminate Hl; [reflexivity|]. cbn [combine app]. f_equal. apply IHx. cbn [length] in Hl. lia. }
    rewrite CA by lia. cbn [combine]. rewrite map_app. cbn [map].
    rewrite app_comm_cons, last_last. reflexivity. }
  rewrite LV. set (h := keyed (secret s) t).
  assert (BD : O' + 4096 <= List.last Os 0 <= O' + 4096 * Z.of_nat (length a) + 10485 * (T - last (tick_offset k0 s))).
  { assert (IO : In (List.last Os 0) Os).
    { destruct Os as [|o Os _] using rev_ind; [destruct a; [contradiction|discriminate B2]|]. rewrite last_last. apply in_or_app. right. left. reflexivity. }
    pose proof (rising_all Os _ B3) as RA. rewrite Forall_forall in RA, B4. split; [apply RA|apply B4]; exact IO. }
  unfold u32. rewrite Zplus_mod_idemp_r, <- Zminus_mod.
  replace (h + List.last Os 0 - (h + O')) with (List.last Os 0 - O') by lia.
  rewrite (Z.mod_small (List.last Os 0 - O')); lia.
Qed.
Print Assumptions isn_keeps_pace.

(* Different connections are keyed by different messages: two tuples give the
   same message for a secret only if they are the same tuple. *)
Theorem isn_message_unique : forall sec t u, tuple_ok t -> tuple_ok u ->
  fport t ++ lport t ++ faddr t ++ laddr t ++ sec = fport u ++ lport u ++ faddr u ++ laddr u ++ sec -> t = u.
Proof.
  intros sec t u (A & B & C) (A' & B' & C') E.
  assert (AI : forall (a b x y : list Z), length a = length b -> a ++ x = b ++ y -> a = b /\ x = y).
  { induction a as [|z a IH]; intros [|z' b] x y HL HE; try discriminate HL; [auto|].
    cbn [app] in HE. injection HE as -> HE. destruct (IH b x y ltac:(cbn [length] in HL; lia) HE). split; congruence. }
  assert (TL : length (faddr t ++ laddr t ++ sec) = length (faddr u ++ laddr u ++ sec)).
  { apply (f_equal (@length Z)) in E. rewrite !app_length in *. lia. }
  rewrite !app_length in TL.
  destruct (AI (fport t) (fport u) _ _ (eq_trans A (eq_sym A')) E) as [E1 E2]. destruct (AI (lport t) (lport u) _ _ (eq_trans B (eq_sym B')) E2) as [E3 E4].
  destruct (AI (faddr t) (faddr u) _ _ ltac:(lia) E4) as [E5 E6]. destruct (AI (laddr t) (laddr u) _ _ ltac:(lia) E6) as [E7 _].
  destruct t, u; cbn in *; congruence.
Qed.
Print Assumptions isn_message_unique.

(* ---- what the comment of the function promises and the code does not do ---- *)

Definition tup : tuple := mkTuple [0; 80] [1; 2] [10; 0; 0; 1] [10; 0; 0; 2].
Definition ck (t : Z) : clock := mkClock t t t t t t (repeat 0 64).

(* "isn_secret": nothing random goes in.  A program whose first connection is
   opened in tick b > 0 uses a secret that is b and zeros, so anybody who
   knows b knows every number; for the first one, all of it: *)
Theorem isn_secret_refuted : forall t b, tuple_ok t -> 0 < b < 204800 ->
  exists s', new_isn 0 t (ck b) isn0
    = Ret (s', (first_word (md5_of (fport t ++ lport t ++ faddr t ++ laddr t ++
                  [b mod 256; b / 256 mod 256; b / 65536] ++ repeat 0 29)) + Z.max 4096 (10485 * b)) mod 2 ^ 32).
Proof.
  intros t b T H. rewrite new_isn_ret by (try assumption; reflexivity).
  assert (RS : reseed 0 (ck b) isn0 = mkIsn (cycles b ++ repeat 0 24) 0 b 0 0) by reflexivity.
  rewrite RS.
  assert (CY : cycles b ++ repeat 0 24 = [b mod 256; b / 256 mod 256; b / 65536] ++ repeat 0 29).
  { unfold cycles. cbv zeta. assert (u64 b = b) as -> by (apply Z.mod_small; lia).
    assert (u32 b = b) as -> by (apply Z.mod_small; lia). rewrite (Z.div_small b 4294967296) by lia.
    unfold enc4. rewrite (Z.div_small b 16777216) by lia.
    rewrite (Z.mod_small (b / 65536)).
    2: { split; [apply Z.div_pos; lia|apply Z.div_lt_upper_bound; lia]. }
    reflexivity. }
  rewrite CY. eexists. f_equal. f_equal. unfold u32. change (2 ^ 32) with 4294967296. cbn [secret]. unfold keyed.
  rewrite <- Zplus_mod_idemp_r. f_equal. f_equal.
  unfold tick_offset. cbv zeta. cbn [ck k_cmp k_proj k_last last offset offset_old].
  replace (b =? 0) with false by lia. cbn [negb offset].
  rewrite (s32_small (b - 0)) by lia. rewrite Z.sub_0_r.
  assert (U : u64 (1048576 / 100 * u64 b) = 10485 * b).
  { unfold u64. change (1048576 / 100) with 10485. rewrite (Z.mod_small b) by lia. apply Z.mod_small. lia. }
  rewrite U, !Z.add_0_l. change (u32 4096) with 4096.
  assert (W : u32 (10485 * b) = 10485 * b) by (apply Z.mod_small; lia). rewrite W, s32_small by lia.
  destruct (0 <? 10485 * b - 4096) eqn:G; [rewrite Z.max_r by lia|rewrite Z.max_l by lia]; rewrite Z.mod_small; lia.
Qed.
Print Assumptions isn_secret_refuted.

(* a first connection in tick 0 leaves the "seeded" mark at 0: the secret is
   replaced at the next call, and the same connection, opened again one tick
   later, starts behind its predecessor *)
Theorem isn_tick_zero_refuted : exists s a b,
  calls_of 0 [(tup, ck 0); (tup, ck 1)] isn0 = Ret (s, [a; b]) /\ 2 ^ 31 <= (b - a) mod 2 ^ 32.
Proof.
  assert (K : match calls_of 0 [(tup, ck 0); (tup, ck 1)] isn0 with Ret (_, [a; b]) => 2 ^ 31 <=? (b - a) mod 2 ^ 32 | _ => false end = true) by (vm_compute; reflexivity).
  destruct (calls_of 0 [(tup, ck 0); (tup, ck 1)] isn0) as [[s [|a [|b [|c l]]]]| |]; try discriminate K.
  exists s, a, b. split; [reflexivity|]. apply Z.leb_le. exact K.
Qed.
Print Assumptions isn_tick_zero_refuted.

(* "incremented at approximately ISN_BYTES_PER_SECOND": after 34 quiet minutes
   the projected offset counts as behind, and the next number of the same
   connection is 4096 after the last *)
Theorem isn_idle_refuted : exists s a b c,
  calls_of 0 [(tup, ck 1); (tup, ck 100); (tup, ck 205000)] isn0 = Ret (s, [a; b; c]) /\ (c - b) mod 2 ^ 32 = 4096.
Proof.
  assert (K : match calls_of 0 [(tup, ck 1); (tup, ck 100); (tup, ck 205000)] isn0 with Ret (_, [a; b; c]) => (c - b) mod 2 ^ 32 =? 4096 | _ => false end = true) by (vm_compute; reflexivity).
  destruct (calls_of 0 _ isn0) as [[s [|a [|b [|c [|z l]]]]]| |]; try discriminate K.
  exists s, a, b, c. split; [reflexivity|]. apply Z.eqb_eq. exact K.
Qed.
Print Assumptions isn_idle_refuted.

(* "the same exact sequence number is never sent out twice": it is, after 2^20
   connections in one tick *)
Lemma same_tick : forall n s t k, tuple_ok t -> length (k_junk k) = 64%nat -> length (secret s) = 32%nat ->
  last_reseed s <> 0 -> k_cmp k = last s ->
  exists s' vs, calls_of 0 (repeat (t, k) n) s = Ret (s', vs) /\ length vs = n /\
    secret s' = secret s /\ last_reseed s' = last_reseed s /\ last s' = last s /\
    (n <> O -> offset s' = u32 (offset s + 4096 * Z.of_nat n)) /\
    forall i, (i < n)%nat -> nth i vs 0 = u32 (keyed (secret s) t + offset s + 4096 * (Z.of_nat i + 1)).
Proof.
  induction n as [|n IH]; intros s t k T J S R K; cbn [repeat calls_of].
  - exists s, []. repeat split; try reflexivity; [intros C; contradiction|intros i Hi; lia].
  - rewrite new_isn_ret by assumption. rewrite no_reseed by (try assumption; lia). cbn [obind].
    assert (TO : tick_offset k s = mkIsn (secret s) (last s) (last_reseed s) (u32 (offset s + 4096)) (offset_old s)).
    { unfold tick_offset. cbv zeta. rewrite K, Z.eqb_refl. reflexivity. }
    rewrite TO. destruct (IH (mkIsn (secret s) (last s) (last_reseed s) (u32 (offset s + 4096)) (offset_old s)) t k T J S R K)
      as (s' & vs & A1 & A2 & A3 & A4 & A5 & A6 & A7).
    rewrite A1. cbn [obind]. cbn [secret last last_reseed offset] in *.
    exists s', (u32 (keyed (secret s) t + u32 (offset s + 4096)) :: vs).
    split; [reflexivity|]. split; [cbn [length]; lia|]. split; [exact A3|]. split; [exact A4|]. split; [exact A5|].
    split.
    + intros _. destruct n as [|n].
      * cbn [repeat calls_of] in A1. assert (s' = mkIsn (secret s) (last s) (last_reseed s) (u32 (offset s + 4096)) (offset_old s)) by congruence.
        subst s'. reflexivity.
      * rewrite A6 by discriminate. unfold u32. rewrite Zplus_mod_idemp_l. f_equal. lia.
    + intros [|i] Hi; cbn [nth].
      * unfold u32. rewrite Zplus_mod_idemp_r. f_equal. lia.
      * rewrite A7 by lia. unfold u32.
        replace (keyed (secret s) t + (offset s + 4096) mod 4294967296 + 4096 * (Z.of_nat i + 1))
          with ((offset s + 4096) mod 4294967296 + (keyed (secret s) t + 4096 * (Z.of_nat i + 1))) by lia.
        rewrite Zplus_mod_idemp_l. f_equal. lia.
Qed.

Theorem isn_repeats_refuted : forall t k s, tuple_ok t -> length (k_junk k) = 64%nat -> length (secret s) = 32%nat ->
  last_reseed s <> 0 -> k_cmp k = last s ->
  exists s' vs, calls_of 0 (repeat (t, k) (Z.to_nat 1048577)) s = Ret (s', vs) /\
    nth (Z.to_nat 1048576) vs 0 = nth 0 vs 0.
Proof.
  intros t k s T J S R K.
  destruct (same_tick (Z.to_nat 1048577) s t k T J S R K) as (s' & vs & A1 & A2 & A3 & A4 & A5 & A6 & A7).
  exists s', vs. split; [exact A1|]. rewrite !A7 by lia. rewrite Z2Nat.id by lia. change (Z.of_nat 0) with 0.
  unfold u32. replace (keyed (secret s) t + offset s + 4096 * (1048576 + 1)) with (keyed (secret s) t + offset s + 4096 * (0 + 1) + 1 * 4294967296) by lia.
  apply Z.mod_add. lia.
Qed.
Print Assumptions isn_repeats_refuted.

(* ---- a case that meets the hypotheses ---- *)
Definition s5 : isn := mkIsn ([5] ++ repeat 0 31) 5 5 52425 52425.
Definition story : list (tuple * clock) := [(tup, ck 7); (mkTuple [0; 81] [1; 2] [10; 0; 0; 1] [10; 0; 0; 2], ck 7); (tup, ck 300)].
Example story_ok : state_ok s5 /\ last_reseed s5 <> 0 /\ 0 <= last s5 /\ clock_ok (last s5) story /\ ends_by 300 story /\ still story /\
  (offset s5 - offset_old s5) mod 2 ^ 32 + 4096 * Z.of_nat (length story) + 10485 * (300 - last s5) < 2 ^ 31 /\
  match calls_of 0 story s5 with Ret (_, [a; _; c]) => (c - a) mod 2 ^ 32 | _ => 0 end = 3072105.
Proof.
  split; [unfold state_ok; vm_compute; intuition congruence|].
  split; [discriminate|]. split; [cbn; lia|].
  split.
  { cbn [clock_ok story]. unfold tuple_ok, reads_ok. cbn. repeat split; try lia; left; split; reflexivity. }
  split; [repeat constructor; cbn; lia|].
  split; [repeat constructor|]. split; [vm_compute; reflexivity|]. vm_compute. reflexivity.
Qed.
