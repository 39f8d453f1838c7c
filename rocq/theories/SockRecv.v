(* Receiving from a stream: nothing is lost, repeated or reordered, whatever arrives meanwhile. *)
From Verif Require Import Base SockModel SockSpec SockProof.
Ltac Zify.zify_post_hook ::= idtac.

Lemma sub_app {A} (a b c d : list A) : sub a b -> sub c d -> sub (a ++ c) (b ++ d).
Proof. intros H K. induction H; cbn [app]; [exact K|constructor; assumption|constructor; assumption]. Qed.
Lemma sub_nil_l {A} (b : list A) : sub [] b.
Proof. induction b; constructor; assumption. Qed.
Lemma sub_length {A} (a b : list A) : sub a b -> (length a <= length b)%nat.
Proof. induction 1; cbn [length]; lia. Qed.
Lemma arrivals_app env a : forall k b, arrivals env k (a + b) = arrivals env k a ++ arrivals env (k + a) b.
Proof.
  induction a as [|a IH]; intros k b; cbn [arrivals Nat.add app]; [rewrite Nat.add_0_r; reflexivity|].
  rewrite IH, <- app_assoc. replace (S k + a)%nat with (k + S a)%nat by lia. reflexivity.
Qed.

Section R.
Variable takes : pkt -> bool.
Variable env : nat -> event.
Variable F : rflags.
Hypothesis SM : forall k, Forall small (v_pkts (env k)).
Hypothesis NP : f_peek F = false.

(* the packets acc, accepted from the arrivals ps while n0 packets are queued *)
Definition accepted (n0 : nat) (acc ps : list pkt) : Prop :=
  sub acc ps /\ ((forall m, takes m = false) -> (n0 + length ps <= 63)%nat -> acc = ps).
Lemma accepted_nil n0 : accepted n0 [] [].
Proof. split; [constructor|reflexivity]. Qed.
Lemma accepted_app n0 n1 a p b q : accepted n0 a p -> (n1 <= n0 + length a)%nat -> accepted n1 b q -> accepted n0 (a ++ b) (p ++ q).
Proof.
  intros (A1 & A2) L (B1 & B2). split; [apply sub_app; assumption|]. intros T. rewrite app_length. intros Hn.
  rewrite A2 by (try assumption; lia). rewrite B2; [reflexivity|assumption|]. apply sub_length in A1. lia.
Qed.

Lemma arrive_ok : forall ps sb l, Q sb l -> Forall small ps -> exists acc, Q (arrive takes sb ps) (l ++ acc) /\ accepted (length l) acc ps.
Proof.
  induction ps as [|m ps IH]; intros sb l H FS; cbn [arrive].
  - exists []. rewrite app_nil_r. split; [exact H|apply accepted_nil].
  - inversion FS as [|x y S1 S2]; subst. destruct (put_last_ok takes sb l m H S1) as (sb' & f & E & H1 & _). rewrite E. cbn [fst].
    cbn [bspec] in H1. destruct (takes m) eqn:T.
    + cbn [fst] in H1. destruct (IH _ _ H1 S2) as (acc & B1 & B2 & B3). exists acc. split; [exact B1|]. split; [constructor; exact B2|].
      intros N. rewrite N in T. discriminate.
    + unfold ROOM in H1. destruct (Nat.ltb_spec (length l) 63); cbn [fst] in H1.
      * destruct (IH _ _ H1 S2) as (acc & B1 & B2 & B3). exists (m :: acc). rewrite <- app_assoc in B1. split; [exact B1|]. split; [constructor; exact B2|].
        intros N. cbn [length]. intros Hn. rewrite B3; [reflexivity|exact N|]. rewrite app_length. cbn [length]. lia.
      * destruct (IH _ _ H1 S2) as (acc & B1 & B2 & B3). exists acc. split; [exact B1|]. split; [constructor; exact B2|].
        intros N. cbn [length]. lia.
Qed.

(* from (k, r, l) to (k', r', l') the packets acc came in and the bytes out went out *)
Record moved (k : nat) (r : rsock) (l : list pkt) (out : list Z) (k' : nat) (r' : rsock) (l' : list pkt) (acc : list pkt) : Prop := {
  mv_Q : Q (r_sb r') l';
  mv_n : (k <= k')%nat;
  mv_acc : accepted (length l) acc (arrivals env k (k' - k));
  mv_bytes : bytes l ++ bytes acc = out ++ bytes l';
  mv_len : (length l' <= length l + length acc)%nat;
  mv_cant : r_cant r = true -> r_cant r' = true;
  mv_err : r_err r <> 0 -> r_err r' <> 0
}.
Lemma moved_refl k r l : Q (r_sb r) l -> moved k r l [] k r l [].
Proof.
  intros H. constructor; try assumption; try lia; try tauto.
  - rewrite Nat.sub_diag. apply accepted_nil.
  - cbn [bytes map concat app]. apply app_nil_r.
Qed.
Lemma moved_trans k r l o1 k1 r1 l1 a1 o2 k2 r2 l2 a2 :
  moved k r l o1 k1 r1 l1 a1 -> moved k1 r1 l1 o2 k2 r2 l2 a2 -> moved k r l (o1 ++ o2) k2 r2 l2 (a1 ++ a2).
Proof.
  intros [A1 A2 A3 A4 A5 A6 A7] [B1 B2 B3 B4 B5 B6 B7]. constructor; try assumption; try lia; try tauto.
  - replace (k2 - k)%nat with ((k1 - k) + (k2 - k1))%nat by lia. rewrite arrivals_app. replace (k + (k1 - k))%nat with k1 by lia.
    eapply accepted_app; [exact A3|exact A5|exact B3].
  - rewrite bytes_app, app_assoc, A4, <- !app_assoc, B4. reflexivity.
  - rewrite app_length. lia.
Qed.
Lemma moved_trans0 k r l k1 r1 l1 a1 o2 k2 r2 l2 a2 :
  moved k r l [] k1 r1 l1 a1 -> moved k1 r1 l1 o2 k2 r2 l2 a2 -> moved k r l o2 k2 r2 l2 (a1 ++ a2).
Proof. intros A B. exact (moved_trans _ _ _ _ _ _ _ _ _ _ _ _ _ A B). Qed.
Lemma others_moved k r l : Q (r_sb r) l -> exists acc, moved k r l [] (S k) (others takes r (env k)) (l ++ acc) acc /\ r_oob (others takes r (env k)) = r_oob r.
Proof.
  intros H. destruct (arrive_ok (v_pkts (env k)) _ _ H (SM k)) as (acc & A & B). exists acc. split; [|reflexivity]. constructor; cbn [others r_sb r_cant r_err]; try lia.
  - exact A.
  - replace (S k - k)%nat with 1%nat by lia. cbn [arrivals]. rewrite app_nil_r. exact B.
  - rewrite bytes_app. reflexivity.
  - rewrite app_length. lia.
  - intros ->. reflexivity.
  - intros N. apply Z.eqb_neq in N. rewrite N. apply Z.eqb_neq. exact N.
Qed.
(* consuming n bytes of the first packet *)
Definition eat (r : rsock) (m : pkt) (n : Z) : rsock * option pkt :=
  if n =? plen m then
    let sb := fst (remove_first (sbfree (r_sb r) m)) in (mkR sb (r_cant r) (r_err r) (r_oob r), get_first sb)
  else
    let m' := pull_head m n in let sb := r_sb r in
    (mkR (mkSb (upd_mb (sb_mb sb) (sb_get sb) m') (sb_put sb) (sb_get sb) (u32 (sb_cc sb - n))) (r_cant r) (r_err r) (r_oob r), Some m').
Lemma consume_eat r m n : consume F r m 0 n = (fst (eat r m n), snd (eat r m n), 0).
Proof. unfold consume, eat. rewrite NP, Z.sub_0_r. destruct (n =? plen m); reflexivity. Qed.
Lemma eat_moved k r m l n : Q (r_sb r) (m :: l) -> 0 <= n <= plen m ->
  exists l', moved k r (m :: l) (firstn (Z.to_nat n) (pk_data m)) k (fst (eat r m n)) l' [] /\ snd (eat r m n) = hd_error l' /\ r_oob (fst (eat r m n)) = r_oob r.
Proof.
  intros H Hn. unfold eat. destruct (Z.eqb_spec n (plen m)) as [E|E].
  - exists l. cbn [fst snd]. assert (H1 := free_remove_first _ _ _ H). split; [|split; [apply get_first_ok; exact H1|reflexivity]].
    constructor; cbn [r_sb r_cant r_err]; try lia; try tauto.
    + rewrite Nat.sub_diag. apply accepted_nil.
    + rewrite bytes_cons. cbn [bytes map concat]. rewrite app_nil_r, firstn_all2; [reflexivity|]. unfold plen in E. lia.
    + cbn [length]. lia.
  - exists (pull_head m n :: l). cbn [fst snd]. assert (H1 := Q_pull _ _ _ _ H Hn). split; [|split; [reflexivity|reflexivity]].
    constructor; cbn [r_sb r_cant r_err]; try lia; try tauto.
    + rewrite Nat.sub_diag. apply accepted_nil.
    + rewrite !bytes_cons. cbn [bytes map concat]. rewrite app_nil_r. unfold pull_head. cbn [pk_data]. rewrite app_assoc, firstn_skipn. reflexivity.
    + cbn [length]. lia.
Qed.

(* MSG_WAITALL *)
Lemma waitall_ok : forall fuel k r l resid, Q (r_sb r) l ->
  match waitall takes env F fuel k r (hd_error l) resid with
  | Diverge => True
  | UB => False
  | Ret (k', err, r', m') => exists l' acc, moved k r l [] k' r' l' acc /\ r_oob r' = r_oob r /\
      (err = 0 -> m' = hd_error l' /\ (l' = [] -> f_waitall F = true -> 0 < resid -> r_cant r' = true \/ r_err r' <> 0))
  end.
Proof.
  induction fuel as [|f IH]; intros k r l resid H; cbn [waitall]; [exact I|].
  assert (STOP : (l = [] -> f_waitall F = true -> 0 < resid -> r_cant r = true \/ r_err r <> 0) -> exists l' acc, moved k r l [] k r l' acc /\ r_oob r = r_oob r /\ (0 = 0 -> hd_error l = hd_error l' /\ (l' = [] -> f_waitall F = true -> 0 < resid -> r_cant r = true \/ r_err r <> 0))).
  { intros X. exists l, []. split; [apply moved_refl; exact H|]. split; [reflexivity|]. intros _. split; [reflexivity|exact X]. }
  destruct (f_waitall F) eqn:W; cbn [andb]; [|apply STOP; intros _ X; discriminate X].
  destruct l as [|m l]; cbn [hd_error andb]; [|apply STOP; intros X; discriminate X].
  destruct (resid >? 0) eqn:R; [|apply STOP; intros _ _ X; rewrite Z.gtb_ltb in R; apply Z.ltb_ge in R; lia].
  destruct (negb (r_err r =? 0) || r_cant r) eqn:E.
  { apply STOP. intros _ _ _. apply orb_prop in E. destruct E as [E|E]; [right; apply negb_true_iff, Z.eqb_neq in E; exact E|left; exact E]. }
  destruct (others_moved k r [] H) as (a1 & M1 & O1). cbn [app] in M1. rewrite (get_first_ok _ _ (mv_Q _ _ _ _ _ _ _ _ M1)).
  destruct a1 as [|m1 a1]; cbn [hd_error].
  - destruct (others_moved (S k) _ [] (mv_Q _ _ _ _ _ _ _ _ M1)) as (a2 & M2 & O2). cbn [app] in M2. assert (M := moved_trans0 _ _ _ _ _ _ _ _ _ _ _ _ M1 M2).
    set (r2 := others takes (others takes r (env k)) (env (S k))) in *. destruct (Z.eqb_spec (v_wait (env (S k))) 0) as [Z0|Z0]; cbn [negb].
    + rewrite (get_first_ok _ _ (mv_Q _ _ _ _ _ _ _ _ M2)). assert (X := IH (S (S k)) r2 a2 resid (mv_Q _ _ _ _ _ _ _ _ M2)).
      destruct (waitall takes env F f (S (S k)) r2 (hd_error a2) resid) as [[[[k' err] r'] m']| |]; [|exact X|exact X].
      destruct X as (l' & acc & X1 & X2 & X3). exists l', (a2 ++ acc). split; [exact (moved_trans0 _ _ _ _ _ _ _ _ _ _ _ _ M X1)|]. split; [rewrite X2, O2; exact O1|exact X3].
    + exists a2, a2. split; [exact M|]. split; [rewrite O2; exact O1|]. intros X. contradiction.
  - set (r2 := others takes r (env k)) in *. assert (X := IH (S k) r2 (m1 :: a1) resid (mv_Q _ _ _ _ _ _ _ _ M1)). cbn [hd_error] in X.
    destruct (waitall takes env F f (S k) r2 (Some m1) resid) as [[[[k' err] r'] m']| |]; [|exact X|exact X].
    destruct X as (l' & acc & X1 & X2 & X3). exists l', ((m1 :: a1) ++ acc). split; [exact (moved_trans0 _ _ _ _ _ _ _ _ _ _ _ _ M1 X1)|]. split; [rewrite X2; exact O1|exact X3].
Qed.

Definition oob_ok (o : Z) : Prop := 0 <= o < 2147483648.
(* what the copy loop guarantees *)
Definition loop_post (k : nat) (r : rsock) (l : list pkt) (resid : Z) (out0 : list Z) (x : lend) : Prop :=
  match x with
  | LDone k' r' resid' out => exists l' acc o, out = out0 ++ o /\ moved k r l o k' r' l' acc /\ resid = resid' + Z.of_nat (length o) /\ 0 <= resid' /\
      (if r_oob r =? 0 then r_oob r' = 0 else r_oob r' = r_oob r - Z.of_nat (length o) /\ 0 <= r_oob r') /\
      (resid' = 0 \/ (r_oob r <> 0 /\ r_oob r' = 0) \/ (l' = [] /\ (l <> [] -> f_waitall F = true -> r_cant r' = true \/ r_err r' <> 0)))
  | LFail k' err r' resid' out => exists l' acc o, out = out0 ++ o /\ moved k r l o k' r' l' acc /\ resid = resid' + Z.of_nat (length o) /\ 0 <= resid' /\ err <> 0 /\
      (if r_oob r =? 0 then r_oob r' = 0 else r_oob r' = r_oob r - Z.of_nat (length o) /\ 0 <= r_oob r')
  end.
Lemma s32_small x : 0 <= x < 2147483648 -> s32 x = x.
Proof. intros H. unfold s32. rewrite Z.mod_small by lia. cbv zeta. replace (x <? 2147483648) with true by (symmetry; apply Z.ltb_lt; lia). reflexivity. Qed.
Lemma u64_small x : 0 <= x < 18446744073709551616 -> u64 x = x.
Proof. intros H. unfold u64. apply Z.mod_small. exact H. Qed.

Lemma rloop_ok : forall fuel k r l resid out0, Q (r_sb r) l -> 0 <= resid -> oob_ok (r_oob r) ->
  match rloop takes env F fuel k r (hd_error l) 0 0 resid out0 with
  | Diverge => True
  | UB => False
  | Ret x => loop_post k r l resid out0 x
  end.
Proof.
  induction fuel as [|f IH]; intros k r l resid out0 H HR HO; [exact I|]. unfold oob_ok in HO. cbn [rloop].
  destruct l as [|m l]; cbn [hd_error].
  { cbn [loop_post]. exists [], [], []. rewrite app_nil_r. cbn [length]. repeat apply conj; try lia; try reflexivity.
    - apply moved_refl, H.
    - destruct (Z.eqb_spec (r_oob r) 0); [assumption|lia].
    - right. right. split; [reflexivity|]. intros X. contradiction. }
  destruct (Z.leb_spec resid 0) as [R0|R0].
  { exists (m :: l), [], []. rewrite app_nil_r. cbn [length]. repeat apply conj; try lia; try reflexivity.
    - apply moved_refl, H.
    - destruct (Z.eqb_spec (r_oob r) 0); [assumption|lia]. }
  assert (P0 : 0 <= plen m) by (unfold plen; lia).
  rewrite !Z.sub_0_r. rewrite (s32_small (r_oob r)) by exact HO.
  set (len1 := if negb (r_oob r =? 0) && (resid >? r_oob r) then r_oob r else resid).
  set (n := if len1 >? plen m then plen m else len1).
  assert (L1 : 0 < len1 <= resid /\ (r_oob r <> 0 -> len1 <= r_oob r)).
  { unfold len1. destruct (Z.eqb_spec (r_oob r) 0); cbn [negb andb]; [lia|]. destruct (resid >? r_oob r) eqn:G; [apply Z.gtb_lt in G|rewrite Z.gtb_ltb in G; apply Z.ltb_ge in G]; lia. }
  assert (L2 : 0 <= n <= plen m /\ n <= len1).
  { unfold n. destruct (len1 >? plen m) eqn:G; [apply Z.gtb_lt in G|rewrite Z.gtb_ltb in G; apply Z.ltb_ge in G]; lia. }
  clearbody n len1. unfold copy_to_mem. replace (0 + n <=? plen m) with true by (symmetry; apply Z.leb_le; lia). replace (0 <=? 0) with true by reflexivity. replace (0 <=? n) with true by (symmetry; apply Z.leb_le; lia). cbn [andb].
  change (skipn (Z.to_nat 0) (pk_data m)) with (pk_data m). set (d := firstn (Z.to_nat n) (pk_data m)).
  assert (LD : Z.of_nat (length d) = n). { unfold d. rewrite firstn_length. unfold plen in L2. lia. }
  destruct (others_moved k r (m :: l) H) as (a1 & M1 & O1). set (r1 := others takes r (env k)) in *.
  change ((m :: l) ++ a1) with (m :: (l ++ a1)) in M1.
  destruct (eat_moved (S k) r1 m (l ++ a1) n (mv_Q _ _ _ _ _ _ _ _ M1) ltac:(lia)) as (l2 & M2 & E2 & O2). fold d in M2.
  assert (M := moved_trans0 _ _ _ _ _ _ _ _ _ _ _ _ M1 M2). rewrite app_nil_r in M.
  rewrite consume_eat, NP. set (r2 := fst (eat r1 m n)) in *. rewrite E2.
  assert (OO : r_oob r2 = r_oob r) by (rewrite O2; exact O1).
  (* going round again *)
  assert (GO : forall r3, r_sb r3 = r_sb r2 -> r_cant r3 = r_cant r2 -> r_err r3 = r_err r2 ->
     (if r_oob r =? 0 then r_oob r3 = 0 else r_oob r3 = r_oob r - n /\ 0 < r_oob r3) ->
     match obind (waitall takes env F (S f) (S k) r3 (hd_error l2) (resid - n)) (fun '(k, err, r, m) => if negb (err =? 0) then Ret (LFail k err r (resid - n) (out0 ++ d)) else rloop takes env F f k r m 0 0 (resid - n) (out0 ++ d)) with
     | Diverge => True | UB => False | Ret x => loop_post k r (m :: l) resid out0 x end).
  { intros r3 S1 S2 S3 S4. assert (M3 : moved k r (m :: l) d (S k) r3 l2 a1).
    { destruct M as [B1 B2 B3 B4 B5 B6 B7]. constructor; try assumption; [rewrite S1; exact B1|rewrite S2; exact B6|rewrite S3; exact B7]. }
    assert (W := waitall_ok (S f) (S k) r3 l2 (resid - n) (mv_Q _ _ _ _ _ _ _ _ M3)).
    destruct (waitall takes env F (S f) (S k) r3 (hd_error l2) (resid - n)) as [[[[k4 err] r4] m4]| |]; [|exact W|exact W]. cbn [obind].
    destruct W as (l4 & a4 & W1 & W2 & W3). assert (M4 := moved_trans _ _ _ _ _ _ _ _ _ _ _ _ _ M3 W1). rewrite app_nil_r in M4.
    destruct (Z.eqb_spec err 0) as [Z0|Z0]; cbn [negb].
    - destruct (W3 Z0) as (-> & WX). assert (X := IH k4 r4 l4 (resid - n) (out0 ++ d) (mv_Q _ _ _ _ _ _ _ _ W1) ltac:(lia)).
      assert (HO4 : oob_ok (r_oob r4)). { unfold oob_ok. rewrite W2. destruct (r_oob r =? 0); lia. }
      specialize (X HO4). destruct (rloop takes env F f k4 r4 (hd_error l4) 0 0 (resid - n) (out0 ++ d)) as [x| |]; [|exact X|exact X].
      assert (OB : (r_oob r4 =? 0) = (r_oob r =? 0)). { rewrite W2. destruct (r_oob r =? 0); [rewrite S4; reflexivity|apply Z.eqb_neq; lia]. }
      destruct x as [k5 r5 rs5 out5|k5 e5 r5 rs5 out5]; cbn [loop_post] in *; rewrite OB in X.
      + destruct X as (l5 & a5 & o5 & -> & M5 & Y1 & Y2 & Y3 & Y4). exists l5, ((a1 ++ a4) ++ a5), (d ++ o5).
        split; [rewrite app_assoc; reflexivity|]. split; [exact (moved_trans _ _ _ _ _ _ _ _ _ _ _ _ _ M4 M5)|]. rewrite app_length.
        split; [lia|]. split; [exact Y2|]. split; [destruct (r_oob r =? 0); [exact Y3|rewrite W2 in Y3; lia]|].
        destruct Y4 as [Y4|[(Y4 & Y5)|(Y4 & Y5)]]; [left; exact Y4| |].
        * right. left. split; [|exact Y5]. intros NZ. rewrite NZ in OB. cbn in OB. apply Z.eqb_eq in OB. contradiction.
        * destruct (Z.eqb_spec rs5 0) as [|NZ]; [left; assumption|]. right. right. split; [exact Y4|]. intros _ WA. destruct l4 as [|m4 l4].
          { destruct (WX eq_refl WA ltac:(lia)) as [C|C]; [left; exact (mv_cant _ _ _ _ _ _ _ _ M5 C)|right; exact (mv_err _ _ _ _ _ _ _ _ M5 C)]. }
          { apply Y5; [discriminate|exact WA]. }
      + destruct X as (l5 & a5 & o5 & -> & M5 & Y1 & Y2 & Y3 & Y4). exists l5, ((a1 ++ a4) ++ a5), (d ++ o5).
        split; [rewrite app_assoc; reflexivity|]. split; [exact (moved_trans _ _ _ _ _ _ _ _ _ _ _ _ _ M4 M5)|]. rewrite app_length.
        split; [lia|]. split; [exact Y2|]. split; [exact Y3|]. destruct (r_oob r =? 0); [exact Y4|rewrite W2 in Y4; lia].
    - cbn [loop_post]. exists l4, (a1 ++ a4), d. split; [reflexivity|]. split; [exact M4|]. split; [lia|]. split; [lia|]. split; [exact Z0|].
      rewrite W2. destruct (r_oob r =? 0); lia. }
  rewrite OO. destruct (Z.eqb_spec (r_oob r) 0) as [Z0|Z0]; cbn [negb].
  - apply GO; try reflexivity. rewrite OO. exact Z0.
  - cbn [r_oob]. rewrite u64_small by lia.
    destruct (Z.eqb_spec (r_oob r - n) 0) as [Z1|Z1].
    + cbn [loop_post]. exists l2, a1, d. cbn [r_oob]. split; [reflexivity|]. split; [destruct M as [B1 B2 B3 B4 B5 B6 B7]; constructor; assumption|]. split; [lia|]. split; [lia|].
      replace (r_oob r =? 0) with false by (symmetry; apply Z.eqb_neq; exact Z0). split; [lia|]. right. left. split; assumption.
    + apply GO; try reflexivity. cbn [r_oob]. lia.
Qed.

(* what a call guarantees *)
Definition recv_post (k : nat) (r : rsock) (l : list pkt) (len : Z) (q : rres) : Prop :=
  exists k' l' acc, moved k (mkR (r_sb r) (r_cant r) 0 (r_oob r)) l (q_out q) k' (q_sock q) l' acc /\ len = q_resid q + Z.of_nat (length (q_out q)) /\ 0 <= q_resid q /\
    (r_oob r <> 0 -> Z.of_nat (length (q_out q)) <= r_oob r) /\
    (q_err q = 0 -> q_resid q = 0 \/ (r_oob r <> 0 /\ Z.of_nat (length (q_out q)) = r_oob r) \/ exists t, q_out q = bytes l ++ t) /\
    (q_err q = 0 -> f_waitall F = true -> q_resid q = 0 \/ (r_oob r <> 0 /\ Z.of_nat (length (q_out q)) = r_oob r) \/ r_cant (q_sock q) = true \/ r_err (q_sock q) <> 0) /\
    (q_err q = 0 -> 0 < len -> q_out q = [] -> r_cant (q_sock q) = true).
Lemma moved_drop_err k r l o k' r' l' a e : moved k r l o k' r' l' a -> moved k (mkR (r_sb r) (r_cant r) 0 e) l o k' r' l' a.
Proof. intros [B1 B2 B3 B4 B5 B6 B7]. constructor; try assumption. cbn [r_err]. congruence. Qed.
Lemma moved_oob k sb c e o l out k' sb' c' e' o1 l' a o' : moved k (mkR sb c e o) l out k' (mkR sb' c' e' o1) l' a -> moved k (mkR sb c e o) l out k' (mkR sb' c' e' o') l' a.
Proof. intros [B1 B2 B3 B4 B5 B6 B7]. constructor; assumption. Qed.

Lemma recv_ok : forall fuel k r l len, Q (r_sb r) l -> 0 <= len -> oob_ok (r_oob r) ->
  match recv_stream takes env F fuel k r len with
  | Diverge => True
  | UB => False
  | Ret q => recv_post k r l len q
  end.
Proof.
  induction fuel as [|f IH]; intros k r l len H HL HO; [exact I|]. cbn [recv_stream]. rewrite (get_first_ok _ _ H). rewrite NP.
  destruct l as [|m l]; cbn [hd_error].
  - assert (MR := moved_refl k (mkR (r_sb r) (r_cant r) 0 (r_oob r)) [] H). unfold oob_ok in HO.
    assert (X0 : r_oob r <> 0 -> Z.of_nat (@length Z []) <= r_oob r) by (cbn [length]; lia).
    destruct (Z.eqb_spec (r_err r) 0) as [E0|E0]; cbn [negb].
    2:{ exists k, [], []. cbn [q_err q_out q_resid q_sock length]. split; [exact MR|]. split; [lia|]. split; [lia|]. split; [exact X0|]. repeat split; intros X; contradiction. }
    assert (MR' : forall k', k' = k -> moved k (mkR (r_sb r) (r_cant r) 0 (r_oob r)) [] [] k' r [] []).
    { intros k' ->. destruct MR as [B1 B2 B3 B4 B5 B6 B7]. constructor; try assumption. cbn [r_err]. congruence. }
    destruct (r_cant r) eqn:C.
    { exists k, [], []. cbn [q_err q_out q_resid q_sock length]. rewrite C. split; [apply MR'; reflexivity|]. split; [lia|]. split; [lia|]. split; [exact X0|].
      split; [intros _; right; right; exists []; reflexivity|]. split; [intros _ _; right; right; left; reflexivity|]. intros; reflexivity. }
    destruct (f_conn F) eqn:FC; cbn [negb].
    2:{ exists k, [], []. cbn [q_err q_out q_resid q_sock length]. rewrite C. split; [apply MR'; reflexivity|]. split; [lia|]. split; [lia|]. split; [exact X0|]. unfold ENOTCONN. repeat split; intros X; lia. }
    destruct (Z.eqb_spec len 0) as [L0|L0].
    { exists k, [], []. cbn [q_err q_out q_resid q_sock length]. rewrite C. split; [apply MR'; reflexivity|]. split; [lia|]. split; [lia|]. split; [exact X0|].
      split; [intros _; left; exact L0|]. split; [intros _ _; left; exact L0|]. intros; lia. }
    destruct (f_nowait F).
    { exists k, [], []. cbn [q_err q_out q_resid q_sock length]. rewrite C. split; [apply MR'; reflexivity|]. split; [lia|]. split; [lia|]. split; [exact X0|]. unfold EWOULDBLOCK. repeat split; intros X; lia. }
    destruct (others_moved k r [] H) as (a & M & O). cbn [app] in M. set (r1 := others takes r (env k)) in *.
    destruct (Z.eqb_spec (v_wait (env k)) 0) as [W0|W0]; cbn [negb].
    + assert (X := IH (S k) r1 a len (mv_Q _ _ _ _ _ _ _ _ M) HL ltac:(rewrite O; exact HO)).
      destruct (recv_stream takes env F f (S k) r1 len) as [q| |]; [|exact X|exact X].
      destruct X as (k' & l' & acc & X1 & X2 & X3 & X4 & X5 & X6 & X7). exists k', l', (a ++ acc). rewrite O in *.
      assert (MM : moved k (mkR (r_sb r) (r_cant r) 0 (r_oob r)) [] (q_out q) k' (q_sock q) l' (a ++ acc)).
      { apply (moved_trans0 _ _ _ (S k) (mkR (r_sb r1) (r_cant r1) 0 (r_oob r)) a); [|exact X1]. destruct M as [B1 B2 B3 B4 B5 B6 B7]. constructor; try assumption. cbn [r_err]. congruence. }
      split; [exact MM|]. split; [exact X2|]. split; [exact X3|]. split; [exact X4|]. split; [|split; [exact X6|exact X7]].
      intros E. destruct (X5 E) as [Y|[Y|(t & Y)]]; [left; exact Y|right; left; exact Y|]. right. right. exists (q_out q). reflexivity.
    + exists (S k), a, a. cbn [q_err q_out q_resid q_sock length]. split; [apply (moved_drop_err _ r); exact M|]. split; [lia|]. split; [lia|]. split; [exact X0|].
      repeat split; intros X; contradiction.
  - assert (L := rloop_ok (S f) k r (m :: l) len [] H HL HO). cbn [hd_error] in L.
    destruct (rloop takes env F (S f) k r (Some m) 0 0 len []) as [x| |]; [|exact L|exact L]. cbn [obind].
    assert (OBX : forall o (r' : rsock), (if r_oob r =? 0 then r_oob r' = 0 else r_oob r' = r_oob r - Z.of_nat (@length Z o) /\ 0 <= r_oob r') -> (r_oob r <> 0 -> Z.of_nat (length o) <= r_oob r) /\ oob_ok (r_oob r') /\ (r_oob r <> 0 -> r_oob r' = 0 -> Z.of_nat (length o) = r_oob r)).
    { intros o r' X. unfold oob_ok in *. destruct (Z.eqb_spec (r_oob r) 0); lia. }
    destruct x as [k1 r1 rs1 out1|k1 e1 r1 rs1 out1]; cbn [loop_post] in L.
    + destruct L as (l1 & a1 & o1 & -> & M1 & Y1 & Y2 & Y3 & Y4). cbn [app]. destruct (OBX _ _ Y3) as (B1 & B2 & B3).
      destruct (others_moved k1 r1 l1 (mv_Q _ _ _ _ _ _ _ _ M1)) as (a2 & M2 & O2). set (r2 := others takes r1 (env k1)) in *.
      assert (M := moved_trans _ _ _ _ _ _ _ _ _ _ _ _ _ M1 M2). rewrite app_nil_r in M.
      assert (MP : forall t, l1 = t -> t = [] -> exists t, o1 = bytes (m :: l) ++ t).
      { intros t -> ->. exists (bytes a1). assert (X := mv_bytes _ _ _ _ _ _ _ _ M1). cbn [bytes map concat] in X. rewrite app_nil_r in X. symmetry. exact X. }
      destruct ((rs1 =? len) && negb (len =? 0) && negb (r_cant r2)) eqn:AG.
      * apply andb_prop in AG. destruct AG as (AG & A3). apply andb_prop in AG. destruct AG as (A1 & A2). apply Z.eqb_eq in A1. apply negb_true_iff in A2, A3. apply Z.eqb_neq in A2.
        assert (o1 = []) by (destruct o1; [reflexivity|cbn [length] in Y1; lia]). subst o1.
        assert (X := IH (S k1) r2 (l1 ++ a2) len (mv_Q _ _ _ _ _ _ _ _ M2) HL ltac:(rewrite O2; exact B2)).
        destruct (recv_stream takes env F f (S k1) r2 len) as [q| |]; [|exact X|exact X].
        destruct X as (k' & l' & acc & X1 & X2 & X3 & X4 & X5 & X6 & X7). exists k', l', ((a1 ++ a2) ++ acc).
        assert (OR : r_oob r2 = r_oob r). { rewrite O2. cbn [length] in Y3. destruct (Z.eqb_spec (r_oob r) 0); lia. }
        rewrite OR in *. split.
        { apply (moved_trans0 _ _ _ (S k1) (mkR (r_sb r2) (r_cant r2) 0 (r_oob r)) (l1 ++ a2)); [|exact X1]. destruct M as [D1 D2 D3 D4 D5 D6 D7]. constructor; try assumption. cbn [r_err]. congruence. }
        split; [exact X2|]. split; [exact X3|]. split; [exact X4|]. split; [|split; [exact X6|exact X7]].
        intros E. destruct (X5 E) as [Y|[Y|(t & Y)]]; [left; exact Y|right; left; exact Y|]. right. right.
        assert (B := mv_bytes _ _ _ _ _ _ _ _ M1). cbn [app] in B. rewrite Y, bytes_app, <- app_assoc. rewrite <- B, <- app_assoc. exists (bytes a1 ++ bytes a2 ++ t). reflexivity.
      * exists (S k1), (l1 ++ a2), (a1 ++ a2). cbn [q_err q_out q_resid q_sock]. split; [apply (moved_drop_err _ r); exact M|]. split; [exact Y1|]. split; [exact Y2|]. split; [exact B1|].
        split; [|split].
        { intros _. destruct Y4 as [Y4|[(Y4 & Y5)|(Y4 & Y5)]]; [left; exact Y4|right; left; split; [exact Y4|apply B3; assumption]|right; right; apply (MP l1 eq_refl Y4)]. }
        { intros _ WA. destruct Y4 as [Y4|[(Y4 & Y5)|(Y4 & Y5)]]; [left; exact Y4|right; left; split; [exact Y4|apply B3; assumption]|].
          destruct (Y5 ltac:(discriminate) WA) as [C|C]; right; right; [left; exact (mv_cant _ _ _ _ _ _ _ _ M2 C)|right; exact (mv_err _ _ _ _ _ _ _ _ M2 C)]. }
        { intros _ LP ->. cbn [length] in Y1. replace (rs1 =? len) with true in AG by (symmetry; apply Z.eqb_eq; lia). replace (len =? 0) with false in AG by (symmetry; apply Z.eqb_neq; lia).
          cbn [andb negb] in AG. apply negb_false_iff in AG. exact AG. }
    + destruct L as (l1 & a1 & o1 & -> & M1 & Y1 & Y2 & Y3 & Y4). cbn [app]. destruct (OBX _ _ Y4) as (B1 & B2 & B3).
      exists k1, l1, a1. cbn [q_err q_out q_resid q_sock]. split; [apply (moved_drop_err _ r); exact M1|]. split; [exact Y1|]. split; [exact Y2|]. split; [exact B1|].
      repeat split; intros X; contradiction.
Qed.

(* progress: with data waiting, no waiting for more, and no empty packets, the call returns data *)
Definition solid (l : list pkt) : Prop := Forall (fun m => pk_data m <> []) l.
Hypothesis SOLID : forall k, solid (v_pkts (env k)).
Lemma sub_Forall {A} (P : A -> Prop) a b : sub a b -> Forall P b -> Forall P a.
Proof. induction 1; intros K; [constructor| |]; inversion K; subst; [constructor; auto|auto]. Qed.
Lemma solid_arr n : forall k, solid (arrivals env k n).
Proof. induction n as [|n IH]; intros k; cbn [arrivals]; [constructor|]. apply Forall_app. split; [apply SOLID|apply IH]. Qed.
Lemma rloop_returns : f_waitall F = false -> forall fuel k r l resid out0, Q (r_sb r) l -> solid l -> 0 <= resid -> oob_ok (r_oob r) -> (Z.to_nat resid < fuel)%nat ->
  exists k' r' resid' out, rloop takes env F fuel k r (hd_error l) 0 0 resid out0 = Ret (LDone k' r' resid' out) /\ (l <> [] -> 0 < resid -> resid' < resid).
Proof.
  intros NW. induction fuel as [|f IH]; intros k r l resid out0 H SL HR HO HF; [lia|]. unfold oob_ok in HO. cbn [rloop].
  destruct l as [|m l]; cbn [hd_error]; [eexists _, _, _, _; split; [reflexivity|]; intros X; contradiction|].
  destruct (Z.leb_spec resid 0) as [R0|R0]; [eexists _, _, _, _; split; [reflexivity|]; intros X; lia|].
  inversion SL as [|x y NE SL']; subst. assert (P0 : 0 < plen m). { unfold plen. destruct (pk_data m); [contradiction|cbn [length]; lia]. }
  rewrite !Z.sub_0_r. rewrite (s32_small (r_oob r)) by exact HO.
  set (len1 := if negb (r_oob r =? 0) && (resid >? r_oob r) then r_oob r else resid).
  set (n := if len1 >? plen m then plen m else len1).
  assert (L1 : 0 < len1 <= resid /\ (r_oob r <> 0 -> len1 <= r_oob r)).
  { unfold len1. destruct (Z.eqb_spec (r_oob r) 0); cbn [negb andb]; [lia|]. destruct (resid >? r_oob r) eqn:G; [apply Z.gtb_lt in G|rewrite Z.gtb_ltb in G; apply Z.ltb_ge in G]; lia. }
  assert (L2 : 0 < n <= plen m /\ n <= len1).
  { unfold n. destruct (len1 >? plen m) eqn:G; [apply Z.gtb_lt in G|rewrite Z.gtb_ltb in G; apply Z.ltb_ge in G]; lia. }
  assert (L3 : n = plen m \/ n = len1). { unfold n. destruct (len1 >? plen m); [left|right]; reflexivity. }
  assert (L4 : n <> plen m -> n = resid \/ n = r_oob r). { intros X. destruct L3 as [Y|Y]; [contradiction|]. rewrite Y. unfold len1. destruct (negb (r_oob r =? 0) && (resid >? r_oob r)); [right|left]; reflexivity. }
  clearbody n len1. unfold copy_to_mem. replace (0 + n <=? plen m) with true by (symmetry; apply Z.leb_le; lia). replace (0 <=? 0) with true by reflexivity. replace (0 <=? n) with true by (symmetry; apply Z.leb_le; lia). cbn [andb].
  change (skipn (Z.to_nat 0) (pk_data m)) with (pk_data m). set (d := firstn (Z.to_nat n) (pk_data m)).
  destruct (others_moved k r (m :: l) H) as (a1 & M1 & O1). set (r1 := others takes r (env k)) in *.
  change ((m :: l) ++ a1) with (m :: (l ++ a1)) in M1.
  destruct (eat_moved (S k) r1 m (l ++ a1) n (mv_Q _ _ _ _ _ _ _ _ M1) ltac:(lia)) as (l2 & M2 & E2 & O2).
  assert (SA : solid (l ++ a1)). { apply Forall_app. split; [exact SL'|]. destruct (mv_acc _ _ _ _ _ _ _ _ M1) as (SB & _). apply (sub_Forall _ _ _ SB), solid_arr. }
  rewrite consume_eat, NP. set (r2 := fst (eat r1 m n)) in *. rewrite E2.
  assert (SD : n = plen m -> solid l2).
  { intros E. unfold eat in r2. unfold r2 in M2. replace (n =? plen m) with true in M2 by (symmetry; apply Z.eqb_eq; exact E). cbn [fst] in M2. assert (Q1 := mv_Q _ _ _ _ _ _ _ _ M2). cbn [r_sb] in Q1.
    assert (Q2 := free_remove_first _ _ _ (mv_Q _ _ _ _ _ _ _ _ M1)). assert (l2 = l ++ a1); [|subst l2; exact SA].
    assert (LL : length l2 = length (l ++ a1)). { assert (U1 := q_put _ _ Q1). rewrite (q_put _ _ Q2) in U1. apply steps_inj in U1; [symmetry; exact U1|exact (q_get _ _ Q2)| |]; [assert (V := q_len _ _ Q2); lia|assert (V := q_len _ _ Q1); lia]. }
    assert (S1 := q_seg _ _ Q1). assert (S2 := q_seg _ _ Q2). revert LL S1 S2. generalize (sb_mb (fst (remove_first (sbfree (r_sb r1) m)))) (sb_get (fst (remove_first (sbfree (r_sb r1) m)))). generalize (l ++ a1). clear.
    intros x mb. revert l2. induction x as [|u x IH]; intros [|v l2] i L S1 S2; try discriminate; [reflexivity|]. cbn [seg length] in *. destruct S1 as (S1a & S1), S2 as (S2a & S2). rewrite <- S1a, <- S2a. f_equal. apply (IH l2 (bump i)); [lia|assumption|assumption]. }
  assert (OO : r_oob r2 = r_oob r) by (rewrite O2; exact O1).
  assert (GO : forall r3, r_sb r3 = r_sb r2 -> oob_ok (r_oob r3) -> (n = plen m \/ n = resid) ->
     exists k' r' resid' out, obind (waitall takes env F (S f) (S k) r3 (hd_error l2) (resid - n)) (fun '(k, err, r, m) => if negb (err =? 0) then Ret (LFail k err r (resid - n) (out0 ++ d)) else rloop takes env F f k r m 0 0 (resid - n) (out0 ++ d)) = Ret (LDone k' r' resid' out) /\ (m :: l <> [] -> 0 < resid -> resid' < resid)).
  { intros r3 S1 S2 S3. cbn [waitall]. rewrite NW. cbn [andb obind Z.eqb negb].
    assert (Q3 : Q (r_sb r3) l2) by (rewrite S1; exact (mv_Q _ _ _ _ _ _ _ _ M2)).
    destruct S3 as [S3|S3].
    - destruct (IH (S k) r3 l2 (resid - n) (out0 ++ d) Q3 (SD S3) ltac:(lia) S2 ltac:(lia)) as (k' & r' & rs' & out & E & _). rewrite E.
      eexists _, _, _, _. split; [reflexivity|]. intros _ _.
      assert (X := rloop_ok f (S k) r3 l2 (resid - n) (out0 ++ d) Q3 ltac:(lia) S2). rewrite E in X. cbn [loop_post] in X. destruct X as (_ & _ & o & _ & _ & X & _). lia.
    - destruct f as [|f']; [lia|]. cbn [rloop]. destruct l2 as [|m2 l2]; cbn [hd_error].
      + eexists _, _, _, _. split; [reflexivity|]. lia.
      + destruct (Z.leb_spec (resid - n) 0); [|lia]. eexists _, _, _, _. split; [reflexivity|]. lia. }
  rewrite OO. destruct (Z.eqb_spec (r_oob r) 0) as [Z0|Z0]; cbn [negb].
  - apply GO; [reflexivity|unfold oob_ok; rewrite OO; exact HO|]. destruct (Z.eq_dec n (plen m)) as [E|E]; [left; exact E|]. destruct (L4 E); [right; assumption|lia].
  - cbn [r_oob]. rewrite u64_small by lia. destruct (Z.eqb_spec (r_oob r - n) 0) as [Z1|Z1].
    + eexists _, _, _, _. split; [reflexivity|]. lia.
    + apply GO; [reflexivity|unfold oob_ok; cbn [r_oob]; lia|]. destruct (Z.eq_dec n (plen m)) as [E|E]; [left; exact E|]. destruct (L4 E); [right; assumption|lia].
Qed.
Lemma recv_returns : f_waitall F = false -> forall fuel k r l len, Q (r_sb r) l -> l <> [] -> solid l -> 0 < len -> oob_ok (r_oob r) -> (Z.to_nat len < fuel)%nat ->
  exists q, recv_stream takes env F fuel k r len = Ret q /\ q_err q = 0 /\ q_resid q < len.
Proof.
  intros NW fuel k r l len H NE SL HL HO HF. destruct fuel as [|f]; [lia|]. cbn [recv_stream]. rewrite (get_first_ok _ _ H). rewrite NP.
  destruct (rloop_returns NW (S f) k r l len [] H SL ltac:(lia) HO HF) as (k' & r' & rs & out & E & X). destruct l as [|m l]; [contradiction|]. cbn [hd_error] in *. rewrite E. cbn [obind].
  specialize (X ltac:(discriminate) HL). replace (rs =? len) with false by (symmetry; apply Z.eqb_neq; lia). cbn [andb]. eexists. split; [reflexivity|]. cbn [q_err q_resid]. split; [reflexivity|exact X].
Qed.
End R.
