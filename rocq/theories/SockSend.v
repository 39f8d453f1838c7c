(* Sending on a stream: what is counted is queued, in order, whatever is acknowledged meanwhile. *)
From Verif Require Import Base SockModel SockSpec SockProof.
Ltac Zify.zify_post_hook ::= idtac.

Lemma drop_bytes_len l : forall n, (length (drop_bytes n l) <= length l)%nat.
Proof.
  induction l as [|m l IH]; intros n; cbn [drop_bytes length]; [lia|]. destruct (n <=? 0); [cbn [length]; lia|]. destruct (plen m <=? n); [specialize (IH (n - plen m)); lia|cbn [length]; lia].
Qed.
Lemma skipn_skipn {A} x : forall y (l : list A), skipn x (skipn y l) = skipn (x + y) l.
Proof. induction y as [|y IH]; intros l; [rewrite Nat.add_0_r; reflexivity|]. rewrite Nat.add_succ_r. destruct l as [|a l]; cbn [skipn]; [apply skipn_nil|]. apply IH. Qed.
Lemma skipn_skipn_app {A} (a b : list A) n d : exists d', skipn n (skipn d a ++ b) = skipn d' (a ++ b).
Proof.
  destruct (le_lt_dec d (length a)) as [H|H].
  - exists (d + n)%nat. assert (X : a ++ b = firstn d a ++ (skipn d a ++ b)) by (rewrite app_assoc, firstn_skipn; reflexivity). rewrite X.
    rewrite (skipn_app (d + n) (firstn d a)), (skipn_all2 (firstn d a)) by (rewrite firstn_length; lia). cbn [app]. f_equal. rewrite firstn_length. lia.
  - rewrite (skipn_all2 a) by lia. exists (length a + n)%nat. rewrite (skipn_app (length a + n) a), (skipn_all2 a) by lia. cbn [app]. f_equal. lia.
Qed.

Section S.
Variables (bs lowat : Z) (takes : pkt -> bool) (env : nat -> sevent) (nowait : bool).
Hypothesis BS : 0 < bs <= 65535.
Hypothesis LW : 0 < lowat.
Hypothesis NT : forall m, takes m = false.
Hypothesis ER : forall k, w_err (env k) <> 0 -> w_queue (env k) = false.     (* an error means nothing was queued *)
Hypothesis OK : forall k, w_err (env k) = 0 -> w_queue (env k) = true.
Variable buf0 : list Z.
Variable l0 : list pkt.

(* n bytes of buf0 are queued, rest is still to be sent, and the buffer is l *)
Definition sent (sb : sbuf) (l : list pkt) (n : Z) (qd : list Z) : Prop :=
  Q sb l /\ 0 <= n <= Z.of_nat (length buf0) /\ qd = firstn (Z.to_nat n) buf0 /\ exists d, bytes l = skipn d (bytes l0 ++ qd).
Definition free (l : list pkt) : Z := 63 - Z.of_nat (length l).

Lemma acked_ok sb l n qd x : sent sb l n qd -> exists sb' l', acked sb x = Ret sb' /\ sent sb' l' n qd /\ free l <= free l'.
Proof.
  intros (H & N & E & d & B). unfold acked. assert (L := q_len _ _ H). rewrite LEN64. destruct (sbdrop_ok l sb x 65 H ltac:(lia)) as (sb' & fr & -> & H').
  cbn [obind]. exists sb', (drop_bytes x l). split; [reflexivity|]. split.
  - split; [exact H'|]. split; [exact N|]. split; [exact E|]. rewrite drop_bytes_stream, B. exists (Z.to_nat x + d)%nat. rewrite skipn_skipn. reflexivity.
  - unfold free. pose proof (drop_bytes_len l x). lia.
Qed.
Lemma queue_ok sb l n qd m c : sent sb l n qd -> 0 <= c -> n + c <= Z.of_nat (length buf0) -> pk_data m = firstn (Z.to_nat c) (skipn (Z.to_nat n) buf0) -> c <= bs -> (c = 0 \/ 1 <= free l) ->
  exists sb' f, put_last takes sb m = (sb', f) /\ ((f = Queued /\ exists l', sent sb' l' (n + c) (qd ++ pk_data m) /\ free l' = free l - 1) \/ (f = Dropped /\ c = 0 /\ sb' = sb)).
Proof.
  intros (H & N & E & d & B) C0 C1 ED C2 FR.
  assert (LM : Z.of_nat (length (pk_data m)) = c). { rewrite ED, firstn_length, skipn_length. lia. }
  destruct (put_last_ok takes sb l m H) as (sb' & f & E1 & H1 & F1); [cbv beta; lia|]. exists sb', f. split; [exact E1|].
  cbn [bspec] in *. rewrite NT in *. unfold ROOM, free in *. destruct (Nat.ltb_spec (length l) 63) as [LT|GE].
  - left. cbn [fst snd] in *. inversion F1. split; [reflexivity|]. exists (l ++ [m]). split; [|unfold free; rewrite app_length; cbn [length]; lia].
    split; [exact H1|]. split; [lia|]. split.
    + rewrite E, ED. replace (Z.to_nat (n + c)) with (Z.to_nat n + Z.to_nat c)%nat by lia. rewrite <- (firstn_skipn (Z.to_nat n) buf0) at 3. rewrite firstn_app, firstn_firstn. replace (Nat.min (Z.to_nat n + Z.to_nat c) (Z.to_nat n)) with (Z.to_nat n) by lia. f_equal.
      f_equal. rewrite firstn_length. lia.
    + rewrite bytes_app, bytes_cons, B. cbn [bytes map concat]. rewrite app_nil_r. rewrite app_assoc.
      destruct (skipn_skipn_app (bytes l0 ++ qd) (pk_data m) 0 d) as (d' & X). cbn [skipn] in X. exists d'. exact X.
  - right. cbn [fst snd] in *. inversion F1. split; [reflexivity|]. destruct FR; [|lia]. split; [assumption|]. unfold put_last in E1. rewrite NT, (Q_full _ _ H) in E1. unfold ROOM in E1. replace (length l <? 63)%nat with false in E1 by (symmetry; apply Nat.ltb_ge; lia). cbn [negb] in E1. inversion E1. reflexivity.
Qed.

Lemma send_inner_ok : forall fuel k sb l n qd space, sent sb l n qd -> space <= bs * free l -> 0 <= space -> (0 < space \/ n = Z.of_nat (length buf0)) ->
  match send_inner bs takes env fuel k sb (skipn (Z.to_nat n) buf0) space (Z.of_nat (length buf0) - n) qd [] with
  | Diverge => True
  | UB => False
  | Ret (k', err, sb', buf', ures, qd', lost) => exists l' n', sent sb' l' n' qd' /\ n <= n' /\ ures = Z.of_nat (length buf0) - n' /\ lost = [] /\
      (err = 0 -> buf' = skipn (Z.to_nat n') buf0)
  end.
Proof.
  induction fuel as [|f IH]; intros k sb l n qd space ST SP S0 PR; [exact I|]. cbn [send_inner].
  assert (N := proj1 (proj2 ST)).
  destruct (w_alloc (env k)); cbn [negb]; [|exists l, n; repeat split; try lia; try apply ST].
  set (rest := skipn (Z.to_nat n) buf0). assert (LR : Z.of_nat (length rest) = Z.of_nat (length buf0) - n) by (unfold rest; rewrite skipn_length; lia).
  set (c1 := if Z.of_nat (length rest) >? bs then bs else Z.of_nat (length rest)). set (c := if c1 >? space then space else c1).
  assert (HC : 0 <= c <= bs /\ c <= space /\ c <= Z.of_nat (length rest)).
  { unfold c, c1. rewrite !Z.gtb_ltb. destruct (Z.ltb_spec bs (Z.of_nat (length rest))); [destruct (Z.ltb_spec space bs)|destruct (Z.ltb_spec space (Z.of_nat (length rest)))]; lia. }
  assert (HC2 : c = bs \/ c = space \/ c = Z.of_nat (length rest)).
  { unfold c, c1. rewrite !Z.gtb_ltb. destruct (Z.ltb_spec bs (Z.of_nat (length rest))); [destruct (Z.ltb_spec space bs)|destruct (Z.ltb_spec space (Z.of_nat (length rest)))]; lia. }
  clearbody c. destruct (acked_ok _ _ _ _ (w_drop (env k)) ST) as (sb1 & l1 & -> & ST1 & FR). cbn [obind].
  assert (SK : skipn (Z.to_nat c) rest = skipn (Z.to_nat (n + c)) buf0). { unfold rest. rewrite skipn_skipn. f_equal. lia. }
  assert (FP : c = 0 \/ 1 <= free l1). { destruct (Z.eq_dec c 0) as [|NZ]; [left; assumption|right]. nia. }
  destruct (Z.eqb_spec (w_err (env k)) 0) as [E0|E0]; cbn [negb].
  - rewrite (OK _ E0). destruct (queue_ok _ _ _ _ (mkPk k (firstn (Z.to_nat c) rest)) c ST1) as (sb2 & fa & E1 & X); try lia; try reflexivity; try exact FP.
    rewrite E1. replace (length (skipn (Z.to_nat c) rest)) with (length (skipn (Z.to_nat (n + c)) buf0)) by (rewrite SK; reflexivity). rewrite SK.
    assert (LS : Z.of_nat (length (skipn (Z.to_nat (n + c)) buf0)) = Z.of_nat (length rest) - c) by (rewrite skipn_length; lia).
    destruct X as [(-> & l2 & ST2 & F2)|(-> & C0 & ->)].
    + replace (Z.of_nat (length buf0) - n - c) with (Z.of_nat (length buf0) - (n + c)) by lia.
      destruct ((Z.of_nat (length (skipn (Z.to_nat (n + c)) buf0)) >? 0) && (space - c >? 0)) eqn:G.
      * apply andb_prop in G. destruct G as (G1 & G2). apply Z.gtb_lt in G1, G2. assert (c = bs) by lia.
        assert (X := IH (S k) sb2 l2 (n + c) _ (space - c) ST2 ltac:(nia) ltac:(lia) ltac:(lia)).
        destruct (send_inner bs takes env f (S k) sb2 (skipn (Z.to_nat (n + c)) buf0) (space - c) (Z.of_nat (length buf0) - (n + c)) (qd ++ pk_data (mkPk k (firstn (Z.to_nat c) rest))) []) as [[[[[[[k' err] sb'] buf'] ures] qd'] lost]| |]; [|exact X|exact X].
        destruct X as (l' & n' & X1 & X2 & X3). exists l', n'. split; [exact X1|]. split; [lia|exact X3].
      * exists l2, (n + c). split; [exact ST2|]. split; [lia|]. split; [reflexivity|]. split; [reflexivity|]. reflexivity.
    + subst c. assert (NF : n = Z.of_nat (length buf0)) by lia. rewrite Z.add_0_r, Z.sub_0_r in *. cbn [app]. rewrite LS.
      replace (Z.of_nat (length rest) >? 0) with false by (symmetry; rewrite Z.gtb_ltb; apply Z.ltb_ge; lia). cbn [andb].
      exists l1, n. split; [exact ST1|]. split; [lia|]. split; [lia|]. split; [reflexivity|]. reflexivity.
  - rewrite (ER _ E0). exists l1, n. split; [exact ST1|]. split; [lia|]. split; [lia|]. split; [reflexivity|]. intros X. contradiction.
Qed.
Lemma send_outer_ok : forall fuel k sb l n qd, sent sb l n qd ->
  match send_outer bs lowat takes env nowait false fuel k sb (skipn (Z.to_nat n) buf0) (Z.of_nat (length buf0) - n) qd [] with
  | Diverge => True
  | UB => False
  | Ret s => s_lost s = [] /\ exists l' n', sent (s_sb s) l' n' (s_queued s) /\ n <= n' /\ s_resid s = Z.of_nat (length buf0) - n' /\ (s_err s = 0 -> n' = Z.of_nat (length buf0))
  end.
Proof.
  induction fuel as [|f IH]; intros k sb l n qd ST; [exact I|]. cbn [send_outer]. assert (N := proj1 (proj2 ST)). assert (H := proj1 ST). assert (LN := q_len _ _ H).
  destruct (w_cant (env k)). { split; [reflexivity|]. exists l, n. cbn [s_sb s_queued s_resid s_err]. split; [exact ST|]. split; [lia|]. split; [reflexivity|]. unfold EPIPE. lia. }
  rewrite (sbspace_ok _ _ _ H), Z.add_0_r. rewrite skipn_length.
  destruct ((bs * (63 - Z.of_nat (length l)) <? Z.of_nat (length buf0 - Z.to_nat n)) && (bs * (63 - Z.of_nat (length l)) <? lowat)) eqn:G.
  - destruct nowait. { split; [reflexivity|]. exists l, n. cbn [s_sb s_queued s_resid s_err]. split; [exact ST|]. split; [lia|]. split; [reflexivity|]. unfold EWOULDBLOCK. lia. }
    destruct (acked_ok _ _ _ _ (w_drop (env k)) ST) as (sb1 & l1 & -> & ST1 & FR). cbn [obind].
    destruct (Z.eqb_spec (w_wait (env k)) 0) as [W|W]; cbn [negb].
    + apply (IH (S k) sb1 l1 n qd ST1).
    + split; [reflexivity|]. exists l1, n. cbn [s_sb s_queued s_resid s_err]. split; [exact ST1|]. split; [lia|]. split; [reflexivity|]. intros X. contradiction.
  - apply andb_false_iff in G.
    assert (X := send_inner_ok (S f) (S k) sb l n qd (bs * (63 - Z.of_nat (length l))) ST ltac:(unfold free; lia) ltac:(nia)).
    assert (PR : 0 < bs * (63 - Z.of_nat (length l)) \/ n = Z.of_nat (length buf0)). { destruct G as [G|G]; apply Z.ltb_ge in G; lia. }
    specialize (X PR).
    destruct (send_inner bs takes env (S f) (S k) sb (skipn (Z.to_nat n) buf0) (bs * (63 - Z.of_nat (length l))) (Z.of_nat (length buf0) - n) qd []) as [[[[[[[k' err] sb'] buf'] ures] qd'] lost]| |]; [|exact X|exact X].
    destruct X as (l' & n' & X1 & X2 & X3 & -> & X5). cbn [obind].
    destruct (Z.eqb_spec err 0) as [E0|E0]; cbn [negb].
    + specialize (X5 E0). assert (N' := proj1 (proj2 X1)). destruct buf' as [|b buf'].
      * split; [reflexivity|]. exists l', n'. cbn [s_sb s_queued s_resid s_err]. split; [exact X1|]. split; [lia|]. split; [exact X3|]. intros _. apply (f_equal (@length Z)) in X5. rewrite skipn_length in X5. cbn [length] in X5. lia.
      * rewrite X5, X3. assert (Y := IH k' sb' l' n' qd' X1). destruct (send_outer bs lowat takes env nowait false f k' sb' (skipn (Z.to_nat n') buf0) (Z.of_nat (length buf0) - n') qd' []) as [s| |]; [|exact Y|exact Y].
        destruct Y as (Y0 & l2 & n2 & Y1 & Y2 & Y3). split; [exact Y0|]. exists l2, n2. split; [exact Y1|]. split; [lia|exact Y3].
    + split; [reflexivity|]. exists l', n'. cbn [s_sb s_queued s_resid s_err]. split; [exact X1|]. split; [lia|]. split; [exact X3|]. intros X. contradiction.
Qed.
End S.
