From Verif Require Import Base TcpSeqModel TcpSeqProps SackModel SackSpec SackProof SackProof2 SackProof3.
Ltac Zify.zify_post_hook ::= idtac.

(* ---- the life of a connection ---- *)
Record LI (maxh : Z) (c : conn) (l : list hole) (f : Z) : Prop := {
  li_a : A (c_sb c) l f (c_una c) (c_una c) (c_max c);
  li_old : forall x, x < c_una c -> c_rep c x;
  li_rep : forall x, c_una c <= x < f -> ~ inh x l -> c_rep c x;
  li_n : numholes (c_sb c) <= maxh }.
Lemma una_after_max c ak : una (c_sb c) = wire (c_una c) -> smax (c_sb c) = wire (c_max c) -> c_una c <= c_max c < c_una c + 2147483648 -> c_max c - 2147483648 <= ak <= c_max c ->
  una_after c (wire ak) = Z.max (c_una c) ak /\ too_new (c_sb c) (wire ak) = false.
Proof.
  intros Hu Hm Hw Hk. unfold una_after, too_new. rewrite Hu, Hm, d_gt by lia. destruct (Z.ltb_spec (c_max c) ak); [lia|]. cbn [orb]. split; [|reflexivity]. rewrite d_le by lia. destruct (Z.leb_spec ak (c_una c)); [lia|]. rewrite q_sub by lia. lia.
Qed.
Lemma acc_accepted c opt ak b : una_after c (wire ak) = Z.max (c_una c) ak -> acc (c_una c) (c_max c) ak opt b <-> accepted c opt (wire ak) (fst b) (snd b).
Proof. intros E. unfold acc, accepted. rewrite E. reflexivity. Qed.
Lemma ack_li maxh c l f av opt ack t : LI maxh c l f -> ev_ok c (EAck av opt ack) -> on_ack maxh av (c_sb c) opt ack = Ret t ->
  exists l' f', LI maxh (mkConn t (una_after c ack) (c_max c) (rep_after c opt ack)) l' f' /\
    ((too_new (c_sb c) ack = true /\ t = c_sb c /\ l' = l) \/
     exists bl, (forall b, In b bl <-> accepted c opt ack (fst b) (snd b)) /\ Step l f (una_after c ack) bl l' f' /\ (numholes (c_sb c) + 5 <= maxh -> 5 <= av -> Exact l f (una_after c ack) bl l')).
Proof.
  intros [Ha Ho Hr Hn] [Hw Hop] E. pose proof (a_u _ _ _ _ _ _ Ha) as Hu. pose proof (a_m _ _ _ _ _ _ Ha) as Hm. pose proof (a_w _ _ _ _ _ _ Ha) as Hwd.
  destruct (ack_split (c_max c) ack Hw) as [T|(T & ak & -> & Lk)].
  - unfold on_ack in E. rewrite Hm, T in E. injection E as <-. assert (Tn : too_new (c_sb c) ack = true) by (unfold too_new; rewrite Hm; exact T). assert (Ua : una_after c ack = c_una c) by (unfold una_after; rewrite Tn; reflexivity).
    exists l, f. split; [|left; auto]. rewrite Ua. constructor; cbn [c_sb c_una c_max c_rep]; auto; intros x Hx; unfold rep_after; auto.
  - destruct (una_after_max c ak Hu Hm ltac:(lia) Lk) as [Ua Tn]. destruct (on_ack_ok maxh av (c_sb c) l f (c_una c) (c_max c) ak opt Ha Lk Hop) as (t' & l' & f' & bl & E' & A' & Sb & St & Nm & Ex).
    rewrite E in E'. injection E' as <-. exists l', f'. rewrite Ua. split.
    + constructor; cbn [c_sb c_una c_max c_rep]; [exact A'| | |apply Nm; exact Hn].
      * intros x Hx. unfold rep_after. rewrite Ua. auto.
      * intros x Hx Nx. unfold rep_after. destruct (st_rep _ _ _ _ _ _ St x Hx Nx) as [(K1 & K2 & K3)|(b & K1 & K2)].
        -- left. apply Hr; [lia|exact K3].
        -- right. right. split; [exact Tn|]. apply Sb in K1. destruct K1 as (B1 & B2 & B3 & bs & B4 & B5). unfold cov in K2. split; [lia|]. exists bs, (wb b). split; [exact B4|]. split; [exact B5|]. unfold wb. cbn [fst snd]. apply in_range_wire; lia.
    + right. exists bl. split; [|auto]. intros b. rewrite Sb. apply acc_accepted. exact Ua.
Qed.
Lemma send_a t l f lo au am n : A t l f lo au am -> 0 < n -> am + n - au < 2147483648 -> A (mkSb (holes t) (hint t) (numholes t) (rexb t) (fack t) (una t) (u32 (smax t + n)) (nid t)) l f lo au (am + n).
Proof. intros Ha H1 H2. destruct Ha. constructor; cbn [holes hint numholes rexb fack una smax nid]; try assumption; try lia. rewrite a_m, q_add. reflexivity. Qed.
Lemma step_li maxh c e c' l f : 0 <= maxh -> LI maxh c l f -> ev_ok c e -> ev_step maxh c e c' -> exists l' f', LI maxh c' l' f'.
Proof.
  intros Hm I Ok St. destruct St as [c av opt ack t E|c n t|c cwin recover mss sent t r E|c].
  - destruct (ack_li maxh c l f av opt ack t I Ok E) as (l' & f' & I' & _). exists l', f'. exact I'.
  - destruct Ok as [O1 O2]. change (2 ^ 31) with 2147483648 in O2. exists l, f. destruct I as [Ha Ho Hr Hn]. constructor; cbn [c_sb c_una c_max c_rep]; auto. apply send_a; assumption.
  - destruct Ok as (O1 & O2 & rr & -> & O3). destruct I as [Ha Ho Hr Hn]. destruct (retransmit_ok _ _ _ _ _ _ cwin rr mss sent Ha O1 O2 O3) as (t' & l' & res & E' & A' & Ln & Ih & _). rewrite E in E'. injection E' as <- <-.
    exists l', f. constructor; cbn [c_sb c_una c_max c_rep]; auto; [intros x Hx Nx; apply Hr; [exact Hx|rewrite <- Ih; exact Nx]|]. rewrite (a_n _ _ _ _ _ _ A'), Ln, <- (a_n _ _ _ _ _ _ Ha). exact Hn.
  - destruct I as [Ha Ho Hr Hn]. destruct (free_ok _ _ _ _ _ _ Ha) as [Ha' Hn']. exists [], (c_una c). constructor; cbn [c_sb c_una c_max c_rep]; auto; lia.
Qed.
Lemma life_li maxh c : 0 <= maxh -> life maxh c -> exists l f, LI maxh c l f.
Proof.
  intros Hm L. induction L as [x f|c e c' L IH Ok St].
  - exists [], x. constructor; cbn [conn0 c_sb c_una c_max c_rep]; auto; [|intros; lia]. constructor; cbn; try reflexivity; try lia; try congruence; constructor.
  - destruct IH as (l & f & I). apply (step_li maxh c e c' l f Hm I Ok St).
Qed.
Lemma li_returns maxh c l f e : LI maxh c l f -> ev_ok c e -> ev_returns maxh c e.
Proof.
  intros [Ha Ho Hr Hn] Ok. destruct e as [av opt ack|n|cwin recover mss sent|].
  - destruct Ok as [Hw Hop]. pose proof (a_m _ _ _ _ _ _ Ha) as Hm. destruct (ack_split (c_max c) ack Hw) as [T|(T & ak & -> & Lk)].
    + eexists. apply s_ack. unfold on_ack. rewrite Hm, T. reflexivity.
    + destruct (on_ack_ok maxh av (c_sb c) l f (c_una c) (c_max c) ak opt Ha Lk Hop) as (t' & _ & _ & _ & E & _). eexists. apply s_ack. exact E.
  - eexists. apply s_send.
  - destruct Ok as (O1 & O2 & rr & -> & O3). destruct (retransmit_ok _ _ _ _ _ _ cwin rr mss sent Ha O1 O2 O3) as (t' & l' & res & E & _). eexists. eapply s_rexmit. exact E.
  - eexists. apply s_timeout.
Qed.
Lemma below_lt maxh c l f x : LI maxh c l f -> l <> [] -> c_una c <= x < c_max c -> below_fack (c_sb c) x <-> x < f.
Proof.
  intros [Ha Ho Hr Hn] Ne Hx. unfold below_fack. rewrite (a_k _ _ _ _ _ _ Ha Ne). pose proof (a_w _ _ _ _ _ _ Ha). pose proof (a_f _ _ _ _ _ _ Ha). pose proof (chain_le _ _ _ (a_c _ _ _ _ _ _ Ha)). rewrite q_lt by lia. apply Z.ltb_lt.
Qed.
Lemma holes_nil t l f lo au am : A t l f lo au am -> (holes t = [] <-> l = []).
Proof. intros Ha. rewrite (a_h _ _ _ _ _ _ Ha). destruct l; cbn; split; intros; congruence. Qed.

(* ---- receiver ---- *)
Fixpoint amerge (nxt : Z) (hd : Z * Z) (l : list (Z * Z)) : (Z * Z) * list (Z * Z) :=
  match l with
  | [] => (hd, [])
  | b :: l =>
    if fst b <=? nxt then amerge nxt hd l
    else if (fst hd <=? snd b) && (fst b <=? snd hd) then amerge nxt (Z.min (fst hd) (fst b), Z.max (snd hd) (snd b)) l
    else let r := amerge nxt hd l in (fst r, b :: snd r)
  end.
Definition apart (b c : Z * Z) : Prop := snd b < fst c \/ snd c < fst b.
Definition inw (n : Z) (b : Z * Z) : Prop := n <= fst b /\ fst b < snd b /\ snd b <= n + 1073741824.
Lemma merge_wb n nxt l : forall hd, n <= nxt <= n + 1073741824 -> inw n hd -> Forall (inw n) l -> merge (wire nxt) (wb hd) (map wb l) = (wb (fst (amerge nxt hd l)), map wb (snd (amerge nxt hd l))).
Proof.
  induction l as [|b l IH]; intros hd Hn Hh Hl; [reflexivity|]. inversion Hl as [|? ? Hb Hl']; subst. unfold inw in *. cbn [map merge amerge]. change (fst (wb b)) with (wire (fst b)). change (snd (wb b)) with (wire (snd b)). change (fst (wb hd)) with (wire (fst hd)). change (snd (wb hd)) with (wire (snd hd)).
  rewrite (q_ge (fst b) (snd b)), (q_le (fst b) nxt), (q_le (fst hd) (snd b)), (q_ge (snd hd) (fst b)), (q_gt (fst hd) (fst b)), (q_lt (snd hd) (snd b)) by lia.
  destruct (Z.leb_spec (snd b) (fst b)); [lia|]. cbn [orb]. destruct (fst b <=? nxt); [apply IH; assumption|].
  destruct ((fst hd <=? snd b) && (fst b <=? snd hd)).
  - rewrite <- (IH (Z.min (fst hd) (fst b), Z.max (snd hd) (snd b))) by (cbn [fst snd]; try assumption; lia). f_equal. unfold wb. cbn [fst snd]. f_equal; [destruct (Z.ltb_spec (fst b) (fst hd))|destruct (Z.ltb_spec (snd hd) (snd b))]; f_equal; lia.
  - cbv zeta. rewrite IH by assumption. reflexivity.
Qed.
Lemma amerge_apart nxt l c : Forall (fun b => fst b < snd b) l -> fst c < snd c -> forall hd, fst hd < snd hd -> apart c hd -> Forall (apart c) l -> apart c (fst (amerge nxt hd l)).
Proof.
  intros Hv Hc. induction l as [|b l IH]; intros hd Hh Ha Hl; [exact Ha|]. inversion Hl as [|? ? Hb Hl']; subst. inversion Hv as [|? ? Vb Vl]; subst. cbn [amerge]. destruct (fst b <=? nxt); [apply IH; assumption|].
  destruct ((fst hd <=? snd b) && (fst b <=? snd hd)) eqn:E; [|cbv zeta; apply IH; assumption]. apply andb_prop in E. destruct E as [E1 E2]. apply Z.leb_le in E1. apply Z.leb_le in E2.
  apply IH; [exact Vl|cbn [fst snd]; lia| |exact Hl']. unfold apart in *. cbn [fst snd]. lia.
Qed.
Lemma amerge_ok nxt l : Forall (fun b => fst b < snd b) l -> ForallOrdPairs apart l -> forall hd, fst hd < snd hd -> let r := amerge nxt hd l in
  (forall b, In b (snd r) -> In b l /\ nxt < fst b /\ apart b (fst r)) /\ ForallOrdPairs apart (snd r) /\ (length (snd r) <= length l)%nat /\
  fst (fst r) <= fst hd /\ snd hd <= snd (fst r) /\ (forall x, cov (fst r) x -> cov hd x \/ exists b, In b l /\ cov b x) /\
  (forall b x, In b l -> nxt < fst b -> cov b x -> cov (fst r) x \/ exists c, In c (snd r) /\ cov c x) /\
  (forall m, m <= fst hd -> Forall (fun b => m <= fst b) l -> m <= fst (fst r)) /\ (forall m, snd hd <= m -> Forall (fun b => snd b <= m) l -> snd (fst r) <= m).
Proof.
  intros Hv Hp. induction l as [|b l IH]; intros hd Hh.
  - cbn. split; [intros b []|]. split; [constructor|]. split; [lia|]. split; [lia|]. split; [lia|]. split; [auto|]. split; [intros b x []|]. auto.
  - inversion Hv as [|? ? Vb Vl]; subst. inversion Hp as [|? ? Pb Pl]; subst. cbn [amerge]. destruct (Z.leb_spec (fst b) nxt) as [Q|Q].
    + destruct (IH Vl Pl hd Hh) as (I1 & I2 & I3 & I4 & I5 & I6 & I7 & I8 & I9). cbv zeta. split; [intros c Hc; destruct (I1 c Hc); cbn; auto|]. split; [exact I2|]. split; [cbn; lia|]. split; [exact I4|]. split; [exact I5|].
      split; [intros x Hx; destruct (I6 x Hx) as [K|(c & K1 & K2)]; [auto|right; exists c; cbn; auto]|]. split; [intros c x [<-|Hc] Hn Hx; [lia|apply (I7 c x Hc Hn Hx)]|].
      split; intros m Hm Fm; inversion Fm; subst; [apply I8|apply I9]; assumption.
    + destruct ((fst hd <=? snd b) && (fst b <=? snd hd)) eqn:E.
      * apply andb_prop in E. destruct E as [E1 E2]. apply Z.leb_le in E1. apply Z.leb_le in E2. set (h2 := (Z.min (fst hd) (fst b), Z.max (snd hd) (snd b))).
        destruct (IH Vl Pl h2 ltac:(cbn; lia)) as (I1 & I2 & I3 & I4 & I5 & I6 & I7 & I8 & I9). cbv zeta. unfold h2 in I4, I5, I6, I8, I9. cbn [fst snd] in I4, I5, I8, I9. fold h2 in I4, I5, I6, I8, I9. split; [intros c Hc; destruct (I1 c Hc); cbn; auto|]. split; [exact I2|]. split; [cbn; lia|]. split; [lia|]. split; [lia|].
        split; [intros x Hx; destruct (I6 x Hx) as [K|(c & K1 & K2)]; [|right; exists c; cbn; auto]|].
        { unfold cov, h2 in K. cbn [fst snd] in K. destruct (Z_lt_ge_dec x (snd hd)) as [L1|L1]; [destruct (Z_le_gt_dec (fst hd) x) as [L2|L2]; [left; unfold cov; lia|]|]; right; exists b; (split; [left; reflexivity|unfold cov; lia]). }
        split; [intros c x [<-|Hc] Hn Hx; [left; unfold cov in *; lia|apply (I7 c x Hc Hn Hx)]|].
        split; intros m Hm Fm; inversion Fm; subst; [apply I8|apply I9]; try assumption; lia.
      * destruct (IH Vl Pl hd Hh) as (I1 & I2 & I3 & I4 & I5 & I6 & I7 & I8 & I9). cbv zeta. cbn [fst snd].
        assert (Ab : apart b hd) by (unfold apart; apply andb_false_iff in E; destruct E as [E|E]; apply Z.leb_gt in E; lia).
        split; [intros c [<-|Hc]; [split; [left; reflexivity|]; split; [exact Q|]; apply amerge_apart; assumption|destruct (I1 c Hc); cbn; auto]|].
        split; [constructor; [|exact I2]; apply Forall_forall; intros c Hc; destruct (I1 c Hc) as [Hc' _]; apply (proj1 (Forall_forall _ _) Pb c Hc')|]. split; [cbn; lia|]. split; [exact I4|]. split; [exact I5|].
        split; [intros x Hx; destruct (I6 x Hx) as [K|(c & K1 & K2)]; [auto|right; exists c; cbn; auto]|].
        split; [intros c x [<-|Hc] Hn Hx; [right; exists b; cbn; auto|destruct (I7 c x Hc Hn Hx) as [K|(d & K1 & K2)]; [auto|right; exists d; cbn; auto]]|].
        split; intros m Hm Fm; inversion Fm; subst; [apply I8|apply I9]; assumption.
Qed.
(* the list, at true positions *)
Record RI (n : Z) (l : list (Z * Z)) (segs : list (Z * Z)) (al : list (Z * Z)) : Prop := {
  ri_l : l = map wb al; ri_w : Forall (fun b => n < fst b /\ fst b < snd b /\ snd b <= n + 1073741824) al;
  ri_p : ForallOrdPairs apart al; ri_n : (length al <= 6)%nat; ri_g : forall b x, In b al -> cov b x -> got segs x }.
Lemma removelast_in {X} (l : list X) x : In x (removelast l) -> In x l.
Proof. induction l as [|a l IH]; [auto|]. cbn [removelast]. destruct l; [intros []|]. intros [->|H]; [left; reflexivity|right; apply IH; exact H]. Qed.
Lemma removelast_pairs {X} (R : X -> X -> Prop) l : ForallOrdPairs R l -> ForallOrdPairs R (removelast l).
Proof. induction 1 as [|a l H1 H2 IH]; [constructor|]. cbn [removelast]. destruct l; [constructor|]. constructor; [|exact IH]. apply Forall_forall. intros z Hz. apply (proj1 (Forall_forall _ _) H1). apply removelast_in. exact Hz. Qed.
Lemma removelast_len {X} (l : list X) : length (removelast l) = (length l - 1)%nat.
Proof. induction l as [|a l IH]; [reflexivity|]. cbn [removelast]. destruct l; [reflexivity|]. cbn [length] in *. lia. Qed.
Lemma removelast_map {X Y} (g : X -> Y) l : removelast (map g l) = map g (removelast l).
Proof. induction l as [|a l IH]; [reflexivity|]. cbn [map removelast]. destruct l; [reflexivity|]. cbn [map] in *. rewrite IH. reflexivity. Qed.
Lemma amerge_low nxt l : forall hd, snd hd <= nxt -> fst (amerge nxt hd l) = hd.
Proof.
  induction l as [|b l IH]; intros hd H; [reflexivity|]. cbn [amerge]. destruct (Z.leb_spec (fst b) nxt); [apply IH; exact H|].
  destruct (Z.leb_spec (fst b) (snd hd)); [lia|]. rewrite andb_false_r. cbn [fst]. apply IH. exact H.
Qed.
Lemma amerge_above nxt l : forall hd, nxt < fst hd -> nxt < fst (fst (amerge nxt hd l)).
Proof.
  induction l as [|b l IH]; intros hd H; [exact H|]. cbn [amerge]. destruct (Z.leb_spec (fst b) nxt); [apply IH; exact H|].
  destruct ((fst hd <=? snd b) && (fst b <=? snd hd)); [apply IH; cbn [fst]; lia|]. cbn [fst]. apply IH. exact H.
Qed.
Lemma update_ok n l segs al n' s e : RI n l segs al -> seg_ok n n' s e -> exists l' al', update_list (wire n') l (wire s) (wire e) = Ret l' /\ RI n' l' ((s, e) :: segs) al' /\
  (n' < s -> match al' with b :: _ => fst b <= s /\ e <= snd b | [] => False end) /\
  (forall b x, In b al -> n' < fst b -> cov b x -> (exists c, In c al' /\ cov c x) \/ length al' = 6%nat).
Proof.
  intros [El Hw Hp Hn Hg] (S1 & S2 & S3 & S4 & S5). change (2 ^ 30) with 1073741824 in *. subst l.
  assert (Hv : Forall (fun b => fst b < snd b) al) by (eapply Forall_impl; [|exact Hw]; cbn; intros; lia).
  assert (Hi : Forall (inw n) al) by (eapply Forall_impl; [|exact Hw]; unfold inw; cbn; intros; lia).
  unfold update_list. change (wire s, wire e) with (wb (s, e)). rewrite (merge_wb n n' al (s, e)) by (try assumption; unfold inw; cbn; lia).
  destruct (amerge_ok n' al Hv Hp (s, e) S2) as (I1 & I2 & I3 & I4 & I5 & I6 & I7 & I8 & I9). cbn [fst snd] in I4, I5.
  pose proof (amerge_low n' al (s, e)) as Low. cbn [snd] in Low.
  set (h := fst (amerge n' (s, e) al)) in *. set (sv := snd (amerge n' (s, e) al)) in *. rewrite map_length. change MAX_BLKS with 6%nat.
  destruct (Nat.ltb_spec 6 (length sv)); [lia|]. change (fst (wb h)) with (wire (fst h)).
  assert (H1 : n <= fst h) by (apply I8; [cbn; lia|]; eapply Forall_impl; [|exact Hw]; cbn; intros; lia).
  assert (H2 : snd h <= n + 1073741824) by (apply I9; [cbn; lia|]; eapply Forall_impl; [|exact Hw]; cbn; intros; lia).
  rewrite q_gt by lia.
  assert (Gs : forall b x, In b sv -> cov b x -> got ((s, e) :: segs) x). { intros b x Hb Hx. destruct (I1 b Hb) as (Hb' & _). destruct (Hg b x Hb' Hx) as (g & G1 & G2). exists g. split; [right; exact G1|exact G2]. }
  assert (Ws : forall b, In b sv -> n' < fst b /\ fst b < snd b /\ snd b <= n' + 1073741824). { intros b Hb. destruct (I1 b Hb) as (Hb' & Hb2 & _). pose proof (proj1 (Forall_forall _ _) Hw b Hb') as Q. cbn in Q. lia. }
  destruct (Z.ltb_spec n' (fst h)) as [Q|Q].
  - assert (Gh : forall x, cov h x -> got ((s, e) :: segs) x). { intros x Hx. destruct (I6 x Hx) as [K|(b & K1 & K2)]; [exists (s, e); split; [left; reflexivity|exact K]|]. destruct (Hg b x K1 K2) as (g & G1 & G2). exists g. split; [right; exact G1|exact G2]. }
    set (sv' := if Nat.leb 6 (length sv) then removelast sv else sv).
    assert (Sin : forall b, In b sv' -> In b sv) by (intros b; unfold sv'; destruct (Nat.leb 6 (length sv)); [apply removelast_in|auto]).
    exists (wb h :: map wb sv'), (h :: sv'). split; [unfold sv'; destruct (Nat.leb 6 (length sv)); [rewrite removelast_map|]; reflexivity|]. split; [|split; [intros _; split; lia|]].
    + constructor.
      * reflexivity.
      * constructor; [lia|]. apply Forall_forall. intros b Hb. apply Ws, Sin, Hb.
      * constructor; [apply Forall_forall; intros b Hb; destruct (I1 b (Sin b Hb)) as (_ & _ & K); unfold apart in *; lia|]. unfold sv'. destruct (Nat.leb 6 (length sv)); [apply removelast_pairs|]; exact I2.
      * unfold sv'. cbn [length]. destruct (Nat.leb_spec 6 (length sv)); [rewrite removelast_len|]; lia.
      * intros b x [<-|Hb] Hx; [apply Gh; exact Hx|apply (Gs b x (Sin b Hb) Hx)].
    + intros b x Hb Hb2 Hx. destruct (I7 b x Hb Hb2 Hx) as [K|(c & K1 & K2)]; [left; exists h; split; [left; reflexivity|exact K]|]. unfold sv'. destruct (Nat.leb_spec 6 (length sv)) as [L|L]; [right; cbn [length]; rewrite removelast_len; lia|left; exists c; split; [right; exact K1|exact K2]].
  - assert (Ne : e <= n'). { destruct S5 as [S5|S5]; [|exact S5]. exfalso. assert (n' < fst h); [|lia]. apply (amerge_above n' al (s, e)). exact S5. }
    exists (map wb sv), sv. split; [reflexivity|]. split; [|split; [intros K; lia|]].
    + constructor; [reflexivity|apply Forall_forall; exact Ws|exact I2|lia|exact Gs].
    + intros b x Hb Hb2 Hx. left. destruct (I7 b x Hb Hb2 Hx) as [K|K]; [|exact K]. rewrite (Low Ne) in K. unfold cov in *. cbn in K. lia.
Qed.
Lemma rlife_ri n l segs : rlife n l segs -> exists al, RI n l segs al.
Proof.
  intros R. induction R as [n|n l segs n' s e l' R (al & IH) Ok E|n l segs n' R IH L].
  - exists []. constructor; [reflexivity|constructor|constructor|cbn; lia|intros b x []].
  - destruct (update_ok n l segs al n' s e IH Ok) as (l1 & al' & E' & I' & _). rewrite E in E'. injection E' as <-. exists al'. exact I'.
  - exists []. constructor; [reflexivity|constructor|constructor|cbn; lia|intros b x []].
Qed.
Lemma classic_rtx x l : rtx x l \/ ~ rtx x l.
Proof.
  induction l as [|h l [IH|IH]]; [right; apply rtx_nil|left; rewrite rtx_cons; right; exact IH|].
  destruct (Z_le_gt_dec (hs h) x) as [L1|L1]; [|right; rewrite rtx_cons; intros [K|K]; [lia|contradiction]].
  destruct (Z_lt_ge_dec x (hr h)) as [L2|L2]; [left; rewrite rtx_cons; left; lia|right; rewrite rtx_cons; intros [K|K]; [lia|contradiction]].
Qed.
