(* C75-C77: the SYN cache and SYN cookies. *)
From Verif Require Import Base TcpSeqModel TcpOptModel SynModel SynSpec SynProof SynConn SynLook SynCookie SynFinal.
Ltac Zify.zify_post_hook ::= idtac.

(* ---------- C75 ---------- *)

(* For every history of segments, ICMP errors and overlapping SYN calls: the
   count of pending connections the stack reports is the number of entries,
   never more than 30 per hash value; every allocated entry is in the table or
   in the hands of a running call; and every further call completes. *)
Theorem syn_cache_accounted : forall H c s, reach H c s ->
  pcbcount s = Z.of_nat (length (table s)) /\ s_cnt s = Z.of_nat (length (table s)) /\ Z.of_nat (length (table s)) <= 30720 /\
  (forall i, (length (row s i) <= 30)%nat) /\
  s_live s = Z.of_nat (length (table s)) + in_hand s /\
  forall o, op_ok o -> exists s' v, step H c o s = Ret (s', v).
Proof.
  intros H c s R. pose proof (reach_inv _ _ _ R) as I. destruct (pcbcount_table s I) as (A & B). pose proof I as (Ro & _ & Cn & Lv).
  split; [exact A|]. split; [rewrite Cn, <- length_W; apply u32_small; lia|]. split; [exact B|].
  split; [intro i; apply (Ro (bucket i))|]. split; [rewrite Lv, length_W; reflexivity|].
  intros o Ho. destruct (inv_step H c o s I Ho) as (s' & v & E & _). eauto.
Qed.
Print Assumptions syn_cache_accounted.

(* One entry per connection, and the lookup finds it. *)
Theorem syn_cache_one_entry : forall H c s, reach_seq H c s ->
  (forall x y, In x (table s) -> In y (table s) -> same_conn (sc_inc x) (sc_inc y) -> x = y) /\
  (forall i x, inc_ok i -> not_compat i -> lookup s i = Some x <-> In x (table s) /\ same_conn i (sc_inc x)).
Proof.
  intros H c s R. pose proof (reach_seq_sinv _ _ _ R) as S. pose proof S as (I & _ & D). split.
  - intros x y Hx Hy E. rewrite table_row in Hx, Hy by auto. unfold row in *. rewrite <- (same_conn_bucket _ _ E) in Hy. eapply distinct_in; eauto.
  - intros. apply lookup_table; auto.
Qed.
Print Assumptions syn_cache_one_entry.

(* A first SYN, with memory for the entry and a packet that goes out, is
   answered by a SYN|ACK acknowledging it and leaves an entry that the ACK
   will find, holding what was announced. *)
Theorem syn_answered : forall H c s k e i g,
  reach_seq H c s -> op_ok (Seg k e i g) -> not_compat i -> plain_syn g = true -> syn_sane i g = true -> lookup s i = None ->
  e_a1 e = true -> e_out e = true -> c_cook c && c_only c = false ->
  exists s' q x, step H c (Seg k e i g) s = Ret (s', ESent q) /\ lookup s' i = Some x /\
    sc_inc x = i /\ sc_irs x = g_seq g /\ sc_iss x = k_seq q /\ sc_wnd x = k_win q /\
    k_inc q = i /\ k_ack q = (g_seq g + 1) mod 4294967296 /\ k_win q = Z.min (Z.max (e_space e) 0) 65535 /\
    (e_noopt e = true -> k_mss q = None /\ k_ws q = None /\ k_sack q = false /\ k_ts q = None) /\
    (e_noopt e = false ->
       k_sack q = o_sackok (g_to g) /\ f_sack x = k_sack q /\
       (k_ws q <> None <-> c_1323 c = true /\ o_ws (g_to g) <> None) /\
       (forall w, k_ws q = Some w -> sc_r x = w /\ o_ws (g_to g) = Some (sc_s x)) /\
       (k_ts q <> None <-> c_1323 c = true /\ o_ts (g_to g) <> None) /\
       (forall t v, k_ts q = Some (t, v) -> f_tst x = true /\ sc_ts x = t /\ exists u, o_ts (g_to g) = Some (v, u))).
Proof.
  intros H c s k e i g R (He & Hi & Hg) Hn P Sa L A1 Out On. pose proof (reach_seq_sinv _ _ _ R) as S. pose proof S as (I & Pn & D).
  destruct (inv_step H c (Seg k e i g) s I (conj He (conj Hi Hg))) as (s' & v & E & I').
  pose proof (sinv_step H c (Seg k e i g) s s' v S (conj He (conj Hi Hg)) Logic.I Hn E) as S'.
  pose proof E as E0. rewrite syn_step in E by auto. pose proof L as T. apply lookup_none_take in T.
  destruct (syn_new H c e k i g s s' v I Pn Hi Hn T E) as (_ & N & _). destruct (N A1 Out On) as (-> & RW).
  set (y := entry H c e s i g) in *.
  assert (Yi : sc_inc y = i) by (unfold y, entry, generate; destruct (c_cook c); reflexivity).
  assert (Yr : sc_irs y = g_seq g) by (unfold y, entry, generate; destruct (c_cook c); reflexivity).
  assert (Yw : sc_wnd y = Z.min (Z.max (e_space e) 0) 65535) by (unfold y, entry, generate; destruct (c_cook c); reflexivity).
  assert (Yn : f_noopt y = e_noopt e) by (unfold y, entry, generate; destruct (c_cook c); reflexivity).
  assert (Yk : f_sack y = o_sackok (g_to g)) by (unfold y, entry, generate; destruct (c_cook c); reflexivity).
  assert (Yf : f_ws y = if c_1323 c then match o_ws (g_to g) with Some _ => true | None => false end else false)
    by (unfold y, entry, generate; destruct (c_cook c); reflexivity).
  assert (Yt : f_tst y = if c_1323 c then match o_ts (g_to g) with Some _ => true | None => false end else false)
    by (unfold y, entry, generate; destruct (c_cook c); reflexivity).
  assert (Ys : f_ws y = true -> o_ws (g_to g) = Some (sc_s y)).
  { rewrite Yf. intro F. destruct (c_1323 c) eqn:C1; [|discriminate]. destruct (o_ws (g_to g)) as [w|] eqn:OW; [|discriminate]. f_equal.
    assert (0 <= w <= 14) by (destruct Hg as (_ & _ & (_ & O & _)); auto).
    assert (sc_s y = w mod 16) as -> by (unfold y, entry, generate, fill; destruct (c_cook c); cbn [snd sc_s]; rewrite OW, C1; reflexivity).
    rewrite Z.mod_small; lia. }
  assert (Yv : f_tst y = true -> exists u, o_ts (g_to g) = Some (sc_tsreflect y, u)).
  { rewrite Yt. intro F. destruct (c_1323 c) eqn:C1; [|discriminate]. destruct (o_ts (g_to g)) as [[w u]|] eqn:OW; [|discriminate]. exists u. repeat f_equal.
    unfold y, entry, generate, fill; destruct (c_cook c); cbn [snd sc_tsreflect]; rewrite OW, C1; reflexivity. }
  clearbody y.
  exists s', (respond c e y), (timeout y). split; [exact E0|]. split.
  { apply look_iff; auto. rewrite RW. split; [left; reflexivity|]. change (sc_inc (timeout y)) with (sc_inc y). rewrite Yi. apply same_conn_refl. }
  unfold timeout, respond. cbn [sc_inc sc_irs sc_iss sc_wnd k_seq k_win k_inc k_ack k_mss k_ws k_sack k_ts f_sack sc_r sc_s f_tst sc_ts].
  rewrite Yi, Yr, Yw, Yn. repeat (split; [reflexivity|]). split; intros ->.
  { repeat split; reflexivity. }
  split; [exact Yk|]. split; [reflexivity|]. split.
  { rewrite Yf. destruct (c_1323 c), (o_ws (g_to g)); split; try (intros (? & ?)); intro; try split; try congruence; try discriminate; auto. }
  split. { intros w Hw. destruct (f_ws y) eqn:F; [|discriminate]. split; [congruence|auto]. }
  split. { rewrite Yt. destruct (c_1323 c), (o_ts (g_to g)); split; try (intros (? & ?)); intro; try split; try congruence; try discriminate; auto. }
  intros t v Hv. destruct (f_tst y) eqn:F; [|discriminate]. destruct (Yv eq_refl) as (u & Hu). inversion Hv; subst. eauto.
Qed.
Print Assumptions syn_answered.

(* A repeated SYN (any sequence number, any options) does not renegotiate: the
   entry keeps the two initial sequence numbers, the window and the scales,
   and the SYN|ACK sent again is about them. *)
Theorem syn_repeated : forall H c s k e i g x,
  reach_seq H c s -> op_ok (Seg k e i g) -> not_compat i -> plain_syn g = true -> syn_sane i g = true -> lookup s i = Some x ->
  exists s' v y, step H c (Seg k e i g) s = Ret (s', v) /\ lookup s' i = Some y /\
    sc_inc y = sc_inc x /\ sc_irs y = sc_irs x /\ sc_iss y = sc_iss x /\ sc_wnd y = sc_wnd x /\ sc_mss y = sc_mss x /\
    sc_s y = sc_s x /\ sc_r y = sc_r x /\ f_ws y = f_ws x /\ f_sack y = f_sack x /\ sc_ts y = sc_ts x /\
    pcbcount s' = pcbcount s /\
    if e_out e then exists q, v = ESent q /\ k_inc q = sc_inc x /\ k_seq q = sc_iss x /\ k_ack q = u32 (sc_irs x + 1) /\ k_win q = sc_wnd x
    else v = ENone.
Proof.
  intros H c s k e i g x R (He & Hi & Hg) Hn P Sa L. pose proof (reach_seq_sinv _ _ _ R) as S. pose proof S as (I & Pn & D).
  destruct (inv_step H c (Seg k e i g) s I (conj He (conj Hi Hg))) as (s' & v & E & I').
  apply lookup_take in L as (r & T).
  rewrite syn_step in E by auto. unfold syn, syn_begin in E. pose proof T as T0. unfold row in T0. rewrite T0 in E.
  cbn [fst snd] in E.
  set (y := dup g x) in *. set (y' := if e_out e then timeout (reset_rxmits y) else y) in *.
  match type of E with Ret (?a, ?b) = Ret (?a', ?b') => assert (ES : a' = a) by congruence; assert (EV : b' = b) by congruence end.
  exists s', v, y'. split; [rewrite syn_step by auto; unfold syn, syn_begin; rewrite T0; cbn [fst snd]; exact E|].
  assert (Y : sc_inc y = sc_inc x /\ sc_irs y = sc_irs x /\ sc_iss y = sc_iss x /\ sc_wnd y = sc_wnd x /\ sc_mss y = sc_mss x /\
    sc_s y = sc_s x /\ sc_r y = sc_r x /\ f_ws y = f_ws x /\ f_sack y = f_sack x /\ sc_ts y = sc_ts x).
  { unfold y, dup. destruct (o_ts (g_to g)) as [[a b]|]; [destruct (f_tst x)|]; repeat split; reflexivity. }
  assert (Y' : sc_inc y' = sc_inc y /\ sc_irs y' = sc_irs y /\ sc_iss y' = sc_iss y /\ sc_wnd y' = sc_wnd y /\ sc_mss y' = sc_mss y /\
    sc_s y' = sc_s y /\ sc_r y' = sc_r y /\ f_ws y' = f_ws y /\ f_sack y' = f_sack y /\ sc_ts y' = sc_ts y).
  { unfold y'. destruct (e_out e); repeat split; reflexivity. }
  clearbody y' . clearbody y.
  destruct Y as (Y1 & Y2 & Y3 & Y4 & Y5 & Y6 & Y7 & Y8 & Y9 & Y10). destruct Y' as (Z1 & Z2 & Z3 & Z4 & Z5 & Z6 & Z7 & Z8 & Z9 & Z10).
  split. { rewrite ES. apply (modified s i x r (fun _ => y') S Hi Hn T). congruence. }
  split; [congruence|]. split; [congruence|]. split; [congruence|]. split; [congruence|]. split; [congruence|]. split; [congruence|].
  split; [congruence|]. split; [congruence|]. split; [congruence|]. split; [congruence|]. split.
  { unfold pcbcount. f_equal. rewrite ES. cbn [s_b]. generalize (seq 0 1024). intro ns. generalize 0. induction ns as [|n ns IH]; intro a; cbn [fold_left]; [reflexivity|].
    rewrite IH. f_equal. unfold upd. destruct (Z.of_nat n =? bucket i) eqn:B; [|reflexivity]. apply Z.eqb_eq in B. rewrite B. reflexivity. }
  rewrite EV. destruct (e_out e); [|reflexivity]. eexists. split; [reflexivity|]. unfold respond. cbn [k_inc k_seq k_ack k_win]. rewrite Y1, Y2, Y3, Y4. auto.
Qed.
Print Assumptions syn_repeated.

(* Traffic about one connection never touches the entry of another, except
   that a first SYN that needs room evicts the oldest entry with its hash; and
   it never creates an entry for another connection. *)
Definition about (o : op) : option inc := match o with Seg _ _ i _ | SynBegin _ _ i _ | Unreach i _ => Some i | SynEnd _ _ => None end.
Theorem syn_cache_isolated : forall H c s o j s' v i,
  reach_seq H c s -> op_ok o -> whole o -> compat_free o -> about o = Some j -> inc_ok i -> not_compat i -> ~ same_conn i j ->
  step H c o s = Ret (s', v) ->
  (lookup s i = None -> lookup s' i = None) /\
  (forall x, lookup s i = Some x -> lookup s' i = Some x \/
     exists k e g l, o = Seg k e j g /\ plain_syn g = true /\ lookup s j = None /\ bucket i = bucket j /\ row s i = l ++ [x] /\
       (e_a1 e = false \/ length (row s j) = 30%nat)).
Proof.
  intros H c s o j s' v i R Ho Hw Hc Ab Hi Hn N E. pose proof (reach_seq_sinv _ _ _ R) as S.
  pose proof (sinv_step H c o s s' v S Ho Hw Hc E) as S'.
  assert (M : match o with Seg _ _ i _ | Unreach i _ => i = j | _ => False end) by (destruct o; cbn [about whole] in *; try contradiction; congruence).
  pose proof (seq_step H c o j s s' v S Ho Hw Hc M E) as Ef.
  assert (Hj : inc_ok j /\ not_compat j).
  { destruct o; try contradiction; cbn [op_ok compat_free] in *; subst; tauto. }
  split; [eapply other_none; eauto|]. intros x L.
  destruct (other_some s s' i j (evicting o s) x S S' Ef Hi Hn (proj1 Hj) (proj2 Hj) N L) as [K|(Ev & B & Lj & l & Rw)]; [auto|].
  right. destruct o as [k e j' g|k e j' g|k e|j' q]; try contradiction. cbn [evicting] in Ev. subst j'. destruct Ev as (P & Ev).
  exists k, e, g, l. repeat split; auto.
Qed.
Print Assumptions syn_cache_isolated.

(* Under a flood of first SYNs with one hash value, exactly the newest thirty
   are remembered. *)
Definition first_syn (b : Z) (o : op) : Prop :=
  op_ok o /\ compat_free o /\ match o with
  | Seg k e i g => plain_syn g = true /\ syn_sane i g = true /\ e_a1 e = true /\ e_out e = true /\ bucket i = b
  | _ => False end.
Definition inc_of (o : op) : inc := match o with Seg _ _ i _ | SynBegin _ _ i _ | Unreach i _ => i | SynEnd _ _ => mkInc false 0 0 0 (0,0,0,0) (0,0,0,0) end.
Definition strangers (a : inc) (l : list inc) : Prop := Forall (fun b => ~ same_conn a b) l.
Fixpoint all_new (l : list inc) : Prop := match l with [] => True | a :: r => strangers a r /\ all_new r end.

Lemma keep_thirty : forall (A : Type) (y : A) l, (length l <= 30)%nat ->
  y :: (if 30 <=? Z.of_nat (length l) then removelast l else l) = firstn 30 (y :: l).
Proof.
  intros A y l Hl. destruct (Z.leb_spec 30 (Z.of_nat (length l))).
  - assert (E : length l = 30%nat) by lia. destruct (@exists_last A l) as (m & z & ->); [intro; subst; discriminate|].
    rewrite removelast_last. rewrite app_length in E. cbn [length] in E. assert (Em : length m = 29%nat) by lia.
    rewrite (firstn_cons 29). f_equal. rewrite <- Em, firstn_app, Nat.sub_diag, firstn_all. cbn [firstn]. rewrite app_nil_r. reflexivity.
  - symmetry. apply firstn_all2. cbn [length]. lia.
Qed.
Lemma firstn_inner : forall (A : Type) n (a l : list A), firstn n (a ++ firstn n l) = firstn n (a ++ l).
Proof. intros. rewrite !firstn_app, firstn_firstn. do 2 f_equal. lia. Qed.

Theorem newest_thirty : forall H c b l s s' evs,
  reach_seq H c s -> c_cook c && c_only c = false -> Forall (first_syn b) l ->
  all_new (map inc_of l) -> Forall (fun o => strangers (inc_of o) (map sc_inc (h_l (s_b s b)))) l ->
  run H c l s = Ret (s', evs) ->
  map sc_inc (h_l (s_b s' b)) = firstn 30 (rev (map inc_of l) ++ map sc_inc (h_l (s_b s b))) /\
  Forall (fun v => exists q, v = ESent q) evs.
Proof.
  intros H c b l. assert (G : forall s s' evs, SInv s -> c_cook c && c_only c = false -> Forall (first_syn b) l ->
    all_new (map inc_of l) -> Forall (fun o => strangers (inc_of o) (map sc_inc (h_l (s_b s b)))) l ->
    run H c l s = Ret (s', evs) ->
    map sc_inc (h_l (s_b s' b)) = firstn 30 (rev (map inc_of l) ++ map sc_inc (h_l (s_b s b))) /\ Forall (fun v => exists q, v = ESent q) evs).
  2:{ intros. eapply G; eauto. eapply reach_seq_sinv; eauto. }
  induction l as [|o l IH]; intros s s' evs S On F N St E.
  - inversion E; subst. split; [|constructor]. cbn [map rev app]. symmetry. apply firstn_all2. rewrite map_length. destruct S as (I & _). apply I.
  - inversion F as [|? ? F1 F2]; subst. inversion St as [|? ? St1 St2]; subst. cbn [map] in N. destruct N as (N1 & N2).
    destruct F1 as (Ho & Hc & F1). destruct o as [k e i g|k e i g|k e|i q]; try contradiction. destruct F1 as (P & Sa & A1 & Out & B). cbn [inc_of compat_free] in *.
    pose proof S as (I & Pn & D). destruct (inv_step H c (Seg k e i g) s I Ho) as (s1 & v & E1 & I1).
    assert (S1 : SInv s1) by (eapply sinv_step; [exact S|exact Ho|exact Logic.I|exact Hc|exact E1]).
    cbn [run] in E. rewrite E1 in E. cbn [obind fst snd] in E. destruct (run H c l s1) as [[s2 ev2]| |] eqn:E2; try discriminate. cbn [obind fst snd] in E.
    assert (s' = s2) as -> by congruence. assert (evs = v :: ev2) as -> by congruence. clear E.
    destruct Ho as (He & Hi & Hg).
    assert (T : take (matches i) (h_l (s_b s (bucket i))) = None).
    { apply lookup_none_take. apply look_none; auto. intros y Hy Sy. unfold row in Hy. rewrite B in Hy. unfold strangers in St1. rewrite Forall_forall in St1.
      apply (St1 (sc_inc y)); auto. apply in_map. auto. }
    rewrite syn_step in E1 by auto. destruct (syn_new H c e k i g s s1 v I Pn Hi Hc T E1) as (_ & Nw & _). destruct (Nw A1 Out On) as (-> & RW).
    rewrite keep_thirty in RW by (apply I).
    assert (RB : map sc_inc (h_l (s_b s1 b)) = firstn 30 (i :: map sc_inc (h_l (s_b s b)))).
    { rewrite <- B. unfold row in RW. rewrite RW, <- firstn_map. rewrite map_cons. do 2 f_equal.
      change (sc_inc (timeout (entry H c e s i g))) with (sc_inc (entry H c e s i g)). unfold entry, generate. destruct (c_cook c); reflexivity. }
    destruct (IH s1 s2 ev2 S1 On F2 N2) as (R1 & R2); [|exact E2|].
    { rewrite Forall_forall. intros o Ho. unfold strangers. rewrite RB, Forall_forall. intros a Ha.
      assert (In a (i :: map sc_inc (h_l (s_b s b)))) as [<-|Ha'] by (rewrite <- (firstn_skipn 30); apply in_or_app; auto).
      - intro C. unfold strangers in N1. rewrite Forall_forall in N1. apply (N1 (inc_of o)); [apply in_map; auto|apply same_conn_sym; auto].
      - rewrite Forall_forall in St2. specialize (St2 o Ho). unfold strangers in St2. rewrite Forall_forall in St2. apply St2. auto. }
    split; [|constructor; eauto]. rewrite R1, RB, firstn_inner. f_equal. cbn [map rev]. rewrite <- app_assoc. reflexivity.
Qed.
Print Assumptions newest_thirty.

(* ---------- C76 ---------- *)

(* the ACK of a handshake answers the SYN|ACK remembered: it acknowledges our
   initial sequence number, lies in the window offered after the peer's SYN
   and echoes our timestamp if it carries one *)
Definition answers (x : sc) (g : sseg) : Prop :=
  g_ack g = (sc_iss x + 1) mod 4294967296 /\ 1 <= dist (sc_irs x) (g_seq g) <= sc_wnd x /\
  (forall v r, o_ts (g_to g) = Some (v, r) -> f_tst x = true /\ r = sc_ts x).
Lemma answers_valid : forall x g, 0 <= sc_wnd x <= 65535 -> valid x g = true <-> answers x g.
Proof.
  intros x g Hw. rewrite valid_iff by auto. unfold answers, ts_agree, u32. destruct (o_ts (g_to g)) as [[v r]|].
  - split; intros (A & B & C); (split; [exact A|split; [exact B|]]).
    + intros v' r' Q. inversion Q; subst; exact C.
    + exact (C v r eq_refl).
  - split; intros (A & B & C); (split; [exact A|split; [exact B|]]); [discriminate|exact Logic.I].
Qed.

(* With an entry, an ACK creates a connection exactly when it answers the
   SYN|ACK (and a socket can be had), the connection starts where the
   handshake left off, and in every case the entry is gone afterwards. *)
Theorem ack_completes : forall H c s k e i g x,
  reach_seq H c s -> op_ok (Seg k e i g) -> not_compat i -> pure_ack g -> lookup s i = Some x ->
  exists s' v, step H c (Seg k e i g) s = Ret (s', v) /\ lookup s' i = None /\ Z.of_nat (length (table s')) = Z.of_nat (length (table s)) - 1 /\
  (answers x g /\ e_sock e = true <-> exists n, v = EConn n) /\ (~ answers x g <-> v = EReject) /\
  forall n, v = EConn n ->
    same_conn i (n_inc n) /\ n_iss n = sc_iss x /\ n_irs n = sc_irs x /\ n_una n = sc_iss x /\ n_nxt n = g_ack g /\ n_max n = g_ack g /\
    n_rnxt n = (sc_irs x + 1) mod 4294967296 /\ dist (n_rnxt n) (n_adv n) = sc_wnd x /\ n_wnd n = sc_wnd x /\ n_offer n = sc_mss x /\
    (f_noopt x = false -> n_ws n = (if f_ws x then Some (sc_s x, sc_r x) else None) /\ n_sack n = f_sack x /\ (n_ts n <> None <-> f_tst x = true)) /\
    (f_noopt x = true -> n_ws n = None /\ n_sack n = false /\ n_ts n = None) /\ n_slow n = false.
Proof.
  intros H c s k e i g x R Ho Hn A L. pose proof (reach_seq_sinv _ _ _ R) as S. pose proof S as (I & Pn & D).
  destruct (inv_step H c (Seg k e i g) s I Ho) as (s' & v & E & I'). pose proof Ho as (He & Hi & Hg).
  exists s', v. split; [exact E|]. split; [eapply ack_consumes; eauto|].
  pose proof L as L0. apply look_iff in L0 as (Hx & Sx); auto.
  assert (X : (sc_ok x /\ sc_rxmits x = 1) /\ bucket (sc_inc x) = bucket i).
  { destruct I as (Ro & _). destruct (Ro (bucket i)) as (_ & _ & F). rewrite Forall_forall in F. apply F. exact Hx. }
  destruct X as ((Xok & X1) & Xb). pose proof Xok as (_ & Xr & Xi & Xw & _).
  apply lookup_take in L as (r & T). rewrite ack_step in E by auto. unfold expand in E. unfold row in T. rewrite T in E.
  assert (s' = drop_row s (bucket i) r) as -> by congruence. assert (v = finish e x g) as -> by congruence. clear E.
  split.
  { apply take_some in T as (l1 & l2 & El & -> & _). rewrite !length_W.
    pose proof (W_drop (fun _ _ _ => true) s (bucket i) l1 x l2 (bucket_range i) El) as WD. unfold key_of in WD. lia. }
  unfold finish. pose proof (answers_valid x g Xw) as AV. destruct (valid x g).
  - assert (An : answers x g) by (apply AV; auto). split; [|split].
    + destruct (e_sock e); split; intros Q; eauto; [destruct Q; discriminate|destruct Q; discriminate].
    + split; [contradiction|destruct (e_sock e); discriminate].
    + intros n En. destruct (e_sock e); [|discriminate]. inversion En as [En']. unfold socket_of.
      cbn [n_inc n_iss n_irs n_una n_nxt n_max n_rnxt n_wnd n_adv n_offer n_ws n_sack n_ts n_slow].
      destruct An as (Aa & Ad & _).
      split; [exact Sx|]. split; [reflexivity|]. split; [reflexivity|]. split; [reflexivity|]. split; [rewrite Aa; reflexivity|]. split; [rewrite Aa; reflexivity|].
      split; [reflexivity|]. split.
      { unfold dist, u32. rewrite Zminus_mod_idemp_l. match goal with |- ?a mod _ = _ => replace a with (sc_wnd x) by lia end. apply Z.mod_small. lia. }
      split; [reflexivity|]. split; [reflexivity|]. split; [|split].
      * intros ->. split; [reflexivity|]. split; [reflexivity|]. destruct (f_tst x); split; congruence.
      * intros ->. auto.
      * rewrite X1. reflexivity.
  - assert (An : ~ answers x g) by (intro Q; apply AV in Q; discriminate). split; [|split].
    + split; [tauto|intros (n & Q); discriminate].
    + tauto.
    + discriminate.
Qed.
Print Assumptions ack_completes.

(* Without an entry and without cookies an ACK is refused and changes nothing. *)
Theorem ack_unknown : forall H c s k e i g, lookup s i = None -> c_cook c = false -> pure_ack g ->
  step H c (Seg k e i g) s = Ret (s, EReject).
Proof.
  intros H c s k e i g L C A. rewrite ack_step by auto. unfold expand. apply lookup_none_take in L. unfold row in L. rewrite L, C. reflexivity.
Qed.
Print Assumptions ack_unknown.

(* A reset removes the entry exactly when it carries no ACK, SYN or FIN and
   its sequence number is in the window; it never causes a packet. *)
Theorem rst_decides : forall H c s k e i g x,
  reach_seq H c s -> op_ok (Seg k e i g) -> not_compat i -> g_frst g = true -> lookup s i = Some x ->
  exists s', step H c (Seg k e i g) s = Ret (s', ENone) /\
  lookup s' i = if (g_fack g || g_fsyn g || g_ffin g) || negb (dist (sc_irs x) (g_seq g) <=? sc_wnd x) then Some x else None.
Proof.
  intros H c s k e i g x R Ho Hn Fr L. pose proof (reach_seq_sinv _ _ _ R) as S. pose proof S as (I & Pn & D). pose proof Ho as (He & Hi & Hg).
  pose proof L as L0. apply look_iff in L0 as (Hx & Sx); auto.
  assert (Xw : 0 <= sc_wnd x <= 65535).
  { destruct I as (Ro & _). destruct (Ro (bucket i)) as (_ & _ & F). rewrite Forall_forall in F. destruct (F x Hx) as ((Ok & _) & _). apply Ok. }
  cbn [step]. unfold listen_input. rewrite Fr, andb_false_r. cbn [andb]. eexists. split; [reflexivity|].
  unfold chkrst. destruct (g_fack g || g_fsyn g || g_ffin g); [exact L|]. cbn [orb].
  pose proof L as L1. apply lookup_take in L1 as (r & T). unfold row in T. rewrite T.
  pose proof (window_rst (sc_irs x) (g_seq g) (sc_wnd x) Xw) as WR.
  destruct (Z.leb_spec (dist (sc_irs x) (g_seq g)) (sc_wnd x)) as [Le|Gt]; cbn [negb].
  - rewrite (proj2 WR Le). eapply removed; eauto.
  - destruct (SEQ_GEQ _ _ && SEQ_LEQ _ _); [pose proof (proj1 WR eq_refl); lia|exact L].
Qed.
Print Assumptions rst_decides.

(* No ICMP error, however often repeated, removes a pending connection. *)
Theorem unreach_harmless : forall H c s i q, reach_seq H c s -> inc_ok i -> not_compat i -> w32 q ->
  exists s', step H c (Unreach i q) s = Ret (s', ENone) /\ length (table s') = length (table s) /\
  forall j x, inc_ok j -> not_compat j -> lookup s j = Some x ->
    exists y, lookup s' j = Some y /\ sc_iss y = sc_iss x /\ sc_irs y = sc_irs x /\ sc_wnd y = sc_wnd x /\ sc_ts y = sc_ts x /\ f_tst y = f_tst x.
Proof.
  intros H c s i q R Hi Hn Hq. pose proof (reach_seq_sinv _ _ _ R) as S. pose proof S as (I & Pn & D).
  cbn [step]. eexists. split; [reflexivity|].
  assert (SS : SInv (unreach i q s)) by (apply (sinv_step H c (Unreach i q) s _ ENone S (conj Hi Hq) Logic.I Hn eq_refl)).
  unfold unreach in *.
  destruct (take (matches i) (h_l (s_b s (bucket i)))) as [[x r]|] eqn:T; [|split; [reflexivity|intros; eauto 10]].
  destruct (negb (q =? sc_iss x)); [split; [reflexivity|intros; eauto 10]|].
  destruct (take_row s i x r I Hi Hn T) as (l1 & l2 & El & _ & Sx & _).
  assert (X1 : sc_rxmits x = 1).
  { destruct I as (Ro & _). destruct (Ro (bucket i)) as (_ & _ & F). rewrite Forall_forall in F. apply F. rewrite El. apply in_elt. }
  rewrite X1 in *. change (1 <? 3 + 1) with true in *. rewrite orb_true_r in *.
  pose proof (take_some _ _ _ _ T) as (m1 & m2 & Em & _ & Mx & Fm).
  split.
  - apply Nat2Z.inj. pose proof (W_modify (fun _ _ _ => true) s (bucket i) (matches i) set_unreach (bucket_range i) ltac:(intro; reflexivity)) as WM.
    rewrite !length_W. unfold key_of in WM. unfold set_row in *. cbn [s_b] in *. exact WM.
  - intros j y Hj Hnj Lj. apply look_iff in Lj as (A & B); auto. unfold row in A.
    destruct (Z.eq_dec (bucket j) (bucket i)) as [Eb|Nb].
    2:{ exists y. split; [|auto]. apply look_iff; auto. split; auto. unfold row, upd. cbn [s_b]. apply Z.eqb_neq in Nb. rewrite Nb. exact A. }
    rewrite Eb, Em in A. apply in_app_or in A.
    assert (K : y = x \/ In y (m1 ++ m2)) by (destruct A as [A|[A|A]]; [right; apply in_or_app; auto|left; auto|right; apply in_or_app; auto]).
    destruct K as [->|K].
    + exists (set_unreach x). split; [|repeat split; reflexivity]. apply look_iff; auto. split; [|exact B].
      unfold row, upd. cbn [s_b]. rewrite Eb, Z.eqb_refl. unfold set_row; cbn [h_l]. rewrite Em, modify_split by auto. apply in_elt.
    + exists y. split; [|auto]. apply look_iff; auto. split; [|exact B].
      unfold row, upd. cbn [s_b]. rewrite Eb, Z.eqb_refl. unfold set_row; cbn [h_l]. rewrite Em, modify_split by auto. apply in_app_or in K. apply in_or_app. simpl. tauto.
Qed.
Print Assumptions unreach_harmless.

(* With cookies off, for every history (overlapping calls included) and every
   set P of (endpoints, our first sequence number, the peer's next): the
   connections created plus those still pending never exceed the SYN|ACKs sent. *)
Theorem connections_were_invited : forall P H c l s evs, c_cook c = false -> Forall op_ok l -> run H c l init = Ret (s, evs) ->
  count (conn_of P) evs + count (key_of P) (table s) <= count (sent_of P) evs.
Proof. intros P H c l s evs C F E. pose proof (run_count_table P H c l s evs C F E). lia. Qed.
Print Assumptions connections_were_invited.

(* A SYN|ACK is only sent for a SYN without ACK or RST that is not a broadcast,
   is not between a point and itself and has unicast addresses. *)
Theorem synack_only_for_syn : forall H c k e i g s s' q, step H c (Seg k e i g) s = Ret (s', ESent q) ->
  plain_syn g = true /\ g_bcast g = false /\ addr_sane i = true.
Proof.
  intros H c k e i g s s' q E. cbn [step] in E. unfold listen_input in E.
  destruct (g_fack g && negb (g_frst g) && negb (g_fsyn g)).
  { unfold expand in E. exfalso. assert (Fi : forall x, finish e x g <> ESent q).
    { intro x. unfold finish. destruct (valid x g); [destruct (e_sock e)|]; discriminate. }
    destruct (take _ _) as [[x r]|]; [apply (Fi x); congruence|]. destruct (negb (c_cook c)); [discriminate|].
    destruct (cookie_lookup H e _ i g) as [x|]; [apply (Fi x); congruence|discriminate]. }
  destruct (g_frst g) eqn:R; [discriminate|]. destruct (g_fsyn g) eqn:S; [|discriminate]. cbn [negb] in E.
  destruct (g_fack g) eqn:A; [discriminate|]. destruct (syn_sane i g) eqn:SS; [|discriminate].
  unfold plain_syn. rewrite R, S, A. unfold syn_sane in SS. apply andb_true_iff in SS as (B & C). apply negb_true_iff in B. auto.
Qed.
Print Assumptions synack_only_for_syn.

(* One ACK that does not answer, or one SYN|ACK, from anybody who knows the
   four numbers, ends the handshake: the genuine ACK is then refused. *)
Theorem bad_ack_ends_handshake_refuted : forall H c s k e i g x,
  reach_seq H c s -> op_ok (Seg k e i g) -> not_compat i -> c_cook c = false -> lookup s i = Some x -> pure_ack g -> ~ answers x g ->
  exists s', step H c (Seg k e i g) s = Ret (s', EReject) /\
  forall k2 e2 g2, pure_ack g2 -> step H c (Seg k2 e2 i g2) s' = Ret (s', EReject).
Proof.
  intros H c s k e i g x R Ho Hn C L A N. destruct (ack_completes H c s k e i g x R Ho Hn A L) as (s' & v & E & L' & _ & _ & V & _).
  apply V in N. subst v. exists s'. split; [exact E|]. intros. apply ack_unknown; auto.
Qed.
Print Assumptions bad_ack_ends_handshake_refuted.

(* With cookies off the initial sequence number is always 31415. *)
Theorem iss_predictable_refuted : forall H c s k e i g s' q, c_cook c = false -> lookup s i = None ->
  step H c (Seg k e i g) s = Ret (s', ESent q) -> k_seq q = 31415.
Proof.
  intros H c s k e i g s' q C L E. destruct (synack_only_for_syn _ _ _ _ _ _ _ _ _ E) as (P & B & A).
  rewrite syn_step in E; [|auto|unfold syn_sane; rewrite B, A; reflexivity].
  destruct (syn_sent _ _ _ _ _ _ _ _ _ L E) as (-> & _). unfold entry. rewrite C. reflexivity.
Qed.
Print Assumptions iss_predictable_refuted.

(* ---------- C77 ---------- *)

(* the values a cookie can carry; the one used is the largest not above m *)
Definition mss_values : list Z := [0; 256; 468; 536; 996; 1452; 1460; 8960].
Definition rounded_mss (m v : Z) : Prop := In v mss_values /\ v <= m /\ forall w, In w mss_values -> w <= m -> w <= v.
Lemma mss_index_rounded : forall m, 0 <= m -> rounded_mss m (nth (Z.to_nat (mss_index 7 m)) msstab 0).
Proof.
  intros m Hm. unfold mss_index, msstab. cbn [nth].
  destruct (Z.leb_spec 8960 m); [|destruct (Z.leb_spec 1460 m); [|destruct (Z.leb_spec 1452 m); [|destruct (Z.leb_spec 996 m); [|destruct (Z.leb_spec 536 m);
    [|destruct (Z.leb_spec 468 m); [|destruct (Z.leb_spec 256 m)]]]]]];
  unfold rounded_mss, mss_values; simpl; (split; [tauto|split; [lia|intros w; lia]]).
Qed.

Definition clock_ok (o : op) : Prop := young o.   (* the tick counter has not wrapped: 248 days *)
Definition until (T : Z) (o : op) : Prop := match env_of o with Some e => e_ticks e / 100 <= T | None => True end.

(* For every digest: a SYN|ACK sent with cookies on, whose entry is lost, is
   still honoured 16 seconds later, whatever (overlapping) calls came between;
   the connection gets the sequence numbers, and the MSS rounded down; with the
   timestamp echoed and SACK or a scale announced also SACK and the scales. *)
Theorem cookie_honoured : forall H c l0 s ev0 k0 e0 i g0 s' q l s2 evs k2 e2 g2,
  c_cook c = true -> 0 <= c_minmss c ->
  Forall clock_ok l0 -> run H c l0 init = Ret (s, ev0) ->
  env_ok e0 -> inc_ok i -> seg_ok g0 -> plain_syn g0 = true -> lookup s i = None -> 0 <= e_ticks e0 ->
  step H c (Seg k0 e0 i g0) s = Ret (s', ESent q) ->
  Forall clock_ok l -> Forall (until (e_ticks e0 / 100 + 16)) l -> run H c l s' = Ret (s2, evs) -> lookup s2 i = None ->
  env_ok e2 -> 0 <= e_ticks e2 -> e_ticks e2 / 100 <= e_ticks e0 / 100 + 16 -> e_sock e2 = true -> 1 <= e_space e2 ->
  pure_ack g2 -> g_ack g2 = (k_seq q + 1) mod 4294967296 -> g_seq g2 = k_ack q ->
  (o_ts (g_to g2) <> None -> (k_sack q = true \/ exists w, k_ws q = Some w /\ w <> 0) /\
     exists t p v, k_ts q = Some (t, p) /\ o_ts (g_to g2) = Some (v, t)) ->
  exists n, step H c (Seg k2 e2 i g2) s2 = Ret (s2, EConn n) /\
    n_inc n = i /\ n_iss n = k_seq q /\ n_rnxt n = k_ack q /\ n_nxt n = g_ack g2 /\
    rounded_mss (Z.max (Z.min (match o_mss (g_to g0) with Some m => m | None => 0 end) (e_mssopt e0)) (c_minmss c)) (n_offer n) /\
    (o_ts (g_to g2) <> None -> n_sack n = k_sack q /\ n_ts n <> None /\
       forall w, k_ws q = Some w -> w <> 0 -> exists sw, o_ws (g_to g0) = Some sw /\ n_ws n = Some (sw, w)).
Proof.
  intros H c l0 s ev0 k0 e0 i g0 s' q l s2 evs k2 e2 g2 C Mm F0 R0 He Hi Hg P L T0 E F1 F2 R L2 He2 T2 Hu Sk Sp A EA ES TS.
  assert (UP : forall t, 0 <= t < 2147483648 -> uptime t = t / 100).
  { intros t Ht. unfold uptime, u64. rewrite Z.mod_small by lia. reflexivity. }
  assert (Y0 : 0 <= e_ticks e0 < 2147483648) by (destruct He; lia). assert (Y2 : 0 <= e_ticks e2 < 2147483648) by (destruct He2; lia).
  assert (F3 : Forall (within (uptime (e_ticks e0) + LIFETIME)) l).
  { rewrite Forall_forall in *. intros o Ho. specialize (F1 o Ho). specialize (F2 o Ho). unfold clock_ok, young, until, within in *.
    destruct (env_of o); [|exact Logic.I]. rewrite !UP by lia. exact F2. }
  destruct (synack_only_for_syn _ _ _ _ _ _ _ _ _ E) as (_ & Bc & Ad).
  assert (Sa : syn_sane i g0 = true) by (unfold syn_sane; rewrite Bc, Ad; reflexivity).
  assert (Sm : forall b, sg_small (sg (s_b s b))).
  { eapply small_run; [exact F0|exact R0|]. intro b. unfold sg_small, sg. cbn. lia. }
  pose proof (cookie_end_to_end H c e0 i g0 s s' k0 q l s2 evs e2 g2 k2 C Sm He Hi Hg Y0 P Sa L E F1 F3 R L2 Y2 ltac:(rewrite !UP by lia; exact Hu) Sk Sp A EA ES) as CE.
  assert (MS : cookie_mss c e0 (fill c e0 i g0) = nth (Z.to_nat (mss_index 7 (Z.max (Z.min (match o_mss (g_to g0) with Some m => m | None => 0 end) (e_mssopt e0)) (c_minmss c)))) msstab 0) by reflexivity.
  destruct (o_ts (g_to g2)) as [[v r]|].
  - destruct (TS ltac:(discriminate)) as (SW & t & p & v' & KT & EQ). assert (r = t) as -> by congruence.
    destruct (CE t p KT eq_refl SW) as (n & N0 & N1 & N2 & N3 & N4 & N5 & N6 & (off & N7) & N8).
    exists n. split; [exact N0|]. split; [exact N1|]. split; [exact N2|]. split; [exact N3|]. split; [exact N4|].
    split; [rewrite N5, MS; apply mss_index_rounded; lia|]. intros _. split; [exact N6|]. split; [rewrite N7; discriminate|exact N8].
  - destruct CE as (n & N0 & N1 & N2 & N3 & N4 & N5).
    exists n. split; [exact N0|]. split; [exact N1|]. split; [exact N2|]. split; [exact N3|]. split; [exact N4|].
    split; [rewrite N5, MS; apply mss_index_rounded; lia|]. intro Q. contradiction.
Qed.
Print Assumptions cookie_honoured.

(* The secrets start as zeros: in the first 16 seconds anybody who can compute
   the digest opens a connection from any address without ever seeing a
   SYN|ACK. *)
Theorem zero_secret_refuted : forall H c i seq, c_cook c = true -> inc_ok i -> w32 seq ->
  exists ack, forall k e g, 0 <= e_ticks e <= 1600 -> e_sock e = true -> 1 <= e_space e -> pure_ack g ->
    g_ack g = ack -> g_seq g = (seq + 1) mod 4294967296 -> o_ts (g_to g) = None ->
    exists n, step H c (Seg k e i g) init = Ret (init, EConn n) /\ n_inc n = i.
Proof.
  intros H c i sq C Hi Hs.
  set (h := mkHead [] 0 false (repeat 0 8) (repeat 0 8) 1000000).
  set (e0 := mkEnv 0 [] true true true true 1460 1000 false).
  set (x := mkSc i 0 0 0 0 sq 0 1460 1000 0 0 false false false false false false false).
  set (y := snd (generate H c e0 h x)).
  exists (u32 (sc_iss y + 1)). intros k e g Ht Sk Sp A EA ES TS.
  assert (Ok : sc_ok x). { unfold sc_ok, x, w32; cbn [sc_inc sc_irs sc_iss sc_wnd sc_mss sc_s sc_r sc_ts]. split; [exact Hi|]. split; [exact Hs|]. lia. }
  assert (Up : uptime (e_ticks e) <= 16).
  { unfold uptime, u64. rewrite Z.mod_small by lia. pose proof (Z.div_le_mono (e_ticks e) 1600 100 ltac:(lia) ltac:(lia)). change (1600 / 100) with 16 in *. lia. }
  assert (P : h_odd (fst (generate H c e0 h x)) = false) by reflexivity.
  pose proof (cookie_back H c e0 h x e head0 g Ok) as CB. cbv zeta in CB. rewrite P, TS in CB. fold y in CB.
  destruct CB as (z & EZ & Z1 & Z2 & Z3 & Z4 & Z5 & Z6 & Z7 & Z8 & Z9); [reflexivity|cbn [head0 h_reseed]; unfold LIFETIME, u32; lia|exact EA|exact ES|].
  change (sc_inc x) with i in *. change (sc_irs x) with sq in *.
  exists (socket_of z). split; [|exact Z1]. rewrite ack_step by auto. unfold expand. change (s_b init (bucket i)) with head0. cbn [head0 h_l take].
  rewrite C. cbn [negb]. change (mkHead [] 0 false (repeat 0 8) (repeat 0 8) 0) with head0. rewrite EZ. unfold finish.
  replace (valid z g) with true; [rewrite Sk; reflexivity|]. symmetry. apply valid_iff; [rewrite Z5; unfold MAXWIN; lia|].
  rewrite Z2, Z3. split; [exact EA|]. split; [|unfold ts_agree; rewrite TS; exact Logic.I]. rewrite ES. change ((sq + 1) mod 4294967296) with (u32 (sq + 1)).
  rewrite u32_dist1 by auto. rewrite Z5. unfold MAXWIN. lia.
Qed.
Print Assumptions zero_secret_refuted.

(* Once the tick counter (an int) has gone negative, after 2^31 ticks, no
   cookie is accepted, however fresh. *)
Theorem cookies_stop_refuted : forall H c s k e i g, -2147483648 <= e_ticks e < 0 -> lookup s i = None -> pure_ack g ->
  step H c (Seg k e i g) s = Ret (s, EReject).
Proof.
  intros H c s k e i g Ht L A. rewrite ack_step by auto. unfold expand. apply lookup_none_take in L. unfold row in L. rewrite L.
  destruct (negb (c_cook c)); [reflexivity|]. unfold cookie_lookup. cbv zeta.
  assert (U : 4294967296 <= uptime (e_ticks e)).
  { unfold uptime, u64. rewrite <- (Z_mod_plus_full _ 1), Z.mod_small by lia.
    pose proof (Z.div_le_mono 429496729600 (e_ticks e + 1 * 18446744073709551616) 100 ltac:(lia) ltac:(lia)). change (429496729600 / 100) with 4294967296 in *. lia. }
  assert (B : u32 (h_reseed (s_b s (bucket i)) + LIFETIME) < 4294967296) by (apply Z.mod_pos_bound; lia).
  destruct (Z.ltb_spec (u32 (h_reseed (s_b s (bucket i)) + LIFETIME)) (uptime (e_ticks e))); [reflexivity|lia].
Qed.
Print Assumptions cookies_stop_refuted.

(* ---------- concrete histories ---------- *)
Definition H0 : digest := fun sec off i q d k =>
  (fold_left (fun a b => a * 31 + b) sec 7 + off * 101 + i_fport i * 65537 + w3 (i_fa i) * 3 + q * 7919 + d * 40503 + k * 12345677) * 2654435761.
Definition c_off : cfg := mkCfg false false true false 216 262144.
Definition c_on : cfg := mkCfg true false true false 216 262144.
Definition ev (t : Z) : env := mkEnv t [3;1;4;1;5;9;2;t mod 256] true true true true 1460 32768 false.
Definition lost (t : Z) : env := mkEnv t [3;1;4;1;5;9;2;t mod 256] false false true true 1460 32768 false.
Definition peer (a p : Z) : inc := mkInc false 0 p 80 (0,0,0,a) (0,0,0,16777226).
Definition topts (m : Z) : topt := mkOpt (Some m) (Some 7) true (Some (5000, 0)) false None.
Definition tsyn (q : Z) (t : topt) : sseg := mkSseg q 0 true false false false false false t.
Definition tack (q a : Z) (t : topt) : sseg := mkSseg q a false true false false false false t.
Definition evs_of {A B} (r : outcome (A * B)) : option B := match r with Ret (_, b) => Some b | _ => None end.
Definition st_of {B} (r : outcome (st * B)) : st := match r with Ret (s, _) => s | _ => init end.
Definition is_conn (v : sev) : bool := match v with EConn _ => true | _ => false end.
Definition is_sent (v : sev) : bool := match v with ESent _ => true | _ => false end.
Definition sent_seq (v : sev) : option Z := match v with ESent q => Some (k_seq q) | _ => None end.
Definition sent_ts (v : sev) : option (Z * Z) := match v with ESent q => k_ts q | _ => None end.

(* a handshake: SYN with options at 5 s, ACK at 6 s *)
Example handshake : exists n, evs_of (run H0 c_off [Seg 1 (ev 500) (peer 1 4000) (tsyn 4294967295 (topts 1200));
    Seg 2 (ev 600) (peer 1 4000) (tack 0 31416 (mkOpt None None false (Some (5100, 5000)) false None))] init)
  = Some [ESent (mkSynack (peer 1 4000) 31415 0 32768 false (Some 1200) (Some 3) true (Some (5000, 5000))); EConn n]
  /\ n_ws n = Some (7, 3) /\ n_sack n = true /\ n_offer n = 1200 /\ n_rnxt n = 0 /\ n_adv n = 32768.
Proof. eexists. vm_compute. repeat split; reflexivity. Qed.
(* the state in between meets the hypotheses of the C76 theorems *)
Definition mid : st := st_of (run H0 c_off [Seg 1 (ev 500) (peer 1 4000) (tsyn 4294967295 (topts 1200))] init).
Lemma peer_ok : forall a p, w32 a -> 0 <= p < 65536 -> inc_ok (peer a p) /\ not_compat (peer a p).
Proof. intros. unfold inc_ok, peer, addr_ok, low_only, not_compat, w32 in *; cbn [i_fa i_la i_fport i_lport i_fib i_v6]. split; [|discriminate]. repeat split; lia. Qed.
Lemma topts_ok : forall m, 0 <= m < 65536 -> opt_ok (topts m).
Proof. intros m Hm. unfold opt_ok, topts; cbn [o_mss o_ws o_ts]. unfold w32. repeat split; intros; match goal with H : Some _ = Some _ |- _ => inversion H; subst; lia end. Qed.
Lemma ev_ok : forall t, 0 <= t < 2147483648 -> env_ok (ev t).
Proof. intros. unfold env_ok, ev; cbn [e_ticks e_mssopt]. lia. Qed.
Example mid_reach : reach_seq H0 c_off mid /\ lookup mid (peer 1 4000) <> None /\ lookup mid (peer 2 4000) = None.
Proof.
  split; [|split; [vm_compute; discriminate|vm_compute; reflexivity]].
  exists [Seg 1 (ev 500) (peer 1 4000) (tsyn 4294967295 (topts 1200))]. eexists. split; [|split; [|split; [|vm_compute; reflexivity]]].
  - constructor; [|constructor]. cbn [op_ok]. split; [apply ev_ok; lia|]. split; [apply peer_ok; unfold w32; lia|].
    unfold seg_ok, tsyn, w32; cbn [g_seq g_ack g_to]. split; [lia|split; [lia|apply topts_ok; lia]].
  - constructor; [exact Logic.I|constructor].
  - constructor; [apply peer_ok; unfold w32; lia|constructor].
Qed.
(* a good and a bad ACK *)
Example good_ack : evs_of (step H0 c_off (Seg 2 (ev 600) (peer 1 4000) (tack 100 31416 no_opt)) mid) <> Some EReject /\
  evs_of (step H0 c_off (Seg 2 (ev 600) (peer 1 4000) (tack 100 31417 no_opt)) mid) = Some EReject /\
  evs_of (step H0 c_off (Seg 2 (ev 600) (peer 1 4000) (tack 32768 31416 no_opt)) mid) = Some EReject /\
  lookup (st_of (step H0 c_off (Seg 2 (ev 600) (peer 1 4000) (tack 100 31417 no_opt)) mid)) (peer 1 4000) = None.
Proof. repeat split; vm_compute; try reflexivity. discriminate. Qed.
(* thirty-one SYNs with one hash value: ports 4000 + 1024 k *)
Definition flood (n : nat) : list op := map (fun k => Seg 1 (ev 500) (peer 1 (4000 + 1024 * Z.of_nat k)) (tsyn 5 no_opt)) (seq 0 n).
Example flooded : let s := st_of (run H0 c_off (flood 31) init) in
  pcbcount s = 30 /\ lookup s (peer 1 4000) = None /\ lookup s (peer 1 5024) <> None /\ lookup s (peer 1 34720) <> None.
Proof. cbv zeta. repeat split; vm_compute; try reflexivity; discriminate. Qed.
(* a cookie at work: no memory for the entry; echoed timestamp; 16.99 s later *)
Definition ck0 : op := Seg 1 (lost 500) (peer 1 4000) (tsyn 77 (topts 1459)).
Definition ck_ev : option (list sev) := Eval vm_compute in evs_of (run H0 c_on [ck0] init).
Definition ck_seq : Z := Eval vm_compute in match ck_ev with Some [ESent q] => k_seq q | _ => 0 end.
Definition ck_ts : Z := Eval vm_compute in match ck_ev with Some [ESent q] => match k_ts q with Some (t, _) => t | None => 0 end | _ => 0 end.
Example cookie_works : exists q n,
  evs_of (run H0 c_on [ck0; Seg 2 (ev 2199) (peer 1 4000) (tack 78 (ck_seq + 1) (mkOpt None None false (Some (6000, ck_ts)) false None))] init)
  = Some [ESent q; EConn n] /\ n_ws n = Some (7, 3) /\ n_sack n = true /\ n_offer n = 1452 /\ n_rnxt n = 78.
Proof. do 2 eexists. vm_compute. repeat split; reflexivity. Qed.
(* ... refused one second later; and without the timestamp the scale and SACK announced are forgotten *)
Example cookie_expires : exists q, evs_of (run H0 c_on [ck0; Seg 2 (ev 3800) (peer 1 4000) (tack 78 (ck_seq + 1) no_opt)] init) = Some [ESent q; EReject].
Proof. eexists. vm_compute. reflexivity. Qed.
Theorem cookie_scale_lost_refuted : exists q n,
  evs_of (run H0 c_on [ck0; Seg 2 (ev 600) (peer 1 4000) (tack 78 (ck_seq + 1) no_opt)] init) = Some [ESent q; EConn n] /\
  k_ws q = Some 3 /\ k_sack q = true /\ n_ws n = None /\ n_sack n = false.
Proof. do 2 eexists. vm_compute. repeat split; reflexivity. Qed.
(* one SYN|ACK, two connections: the ACK can be replayed *)
Theorem cookie_replay_refuted : exists q n,
  let a := Seg 2 (ev 600) (peer 1 4000) (tack 78 (ck_seq + 1) no_opt) in
  evs_of (run H0 c_on [ck0; a; a] init) = Some [ESent q; EConn n; EConn n].
Proof. do 2 eexists. vm_compute. reflexivity. Qed.
(* a cookie 11 days old is accepted, because an unrelated SYN with the same
   hash renewed only the other secret *)
Theorem cookie_ancient_refuted : exists q q2 n,
  evs_of (run H0 c_on [ck0; Seg 2 (ev 100000500) (peer 1 5024) (tsyn 5 no_opt); Seg 3 (ev 100000600) (peer 1 4000) (tack 78 (ck_seq + 1) no_opt)] init)
  = Some [ESent q; ESent q2; EConn n].
Proof. do 3 eexists. vm_compute. reflexivity. Qed.
(* the peer's MSS 200 comes back as 0: the connection will use the default 536 *)
Theorem cookie_small_mss_refuted : exists q n, let o := Seg 1 (lost 500) (peer 1 4000) (tsyn 77 (mkOpt (Some 200) None false None false None)) in
  exists a, evs_of (run H0 c_on [o; Seg 2 (ev 600) (peer 1 4000) (tack 78 a no_opt)] init) = Some [ESent q; EConn n] /\ n_offer n = 0.
Proof.
  pose (a := match evs_of (run H0 c_on [Seg 1 (lost 500) (peer 1 4000) (tsyn 77 (mkOpt (Some 200) None false None false None))] init) with
             | Some [ESent q] => k_seq q + 1 | _ => 0 end).
  vm_compute in a. do 2 eexists. exists a. subst a. vm_compute. split; reflexivity.
Qed.
(* after the first reseed one of the two secrets of the bucket is still zero *)
Theorem half_secret_zero_refuted : exists q n a,
  evs_of (run H0 c_on [Seg 1 (ev 5000000) (peer 1 4000) (tsyn 77 no_opt); Seg 2 (ev 5000100) (peer 9 4008) (tack 1235 a no_opt)] init)
  = Some [ESent q; EConn n] /\ a = 1 + u32 (Z.shiftl (u32 (H0 (repeat 0 8) 0 (peer 9 4008) 1234 0 0)) 7) /\ bucket (peer 9 4008) = bucket (peer 1 4000).
Proof. do 2 eexists. exists (1 + u32 (Z.shiftl (u32 (H0 (repeat 0 8) 0 (peer 9 4008) 1234 0 0)) 7)). vm_compute. repeat split; reflexivity. Qed.
(* two overlapping calls for one connection leave two entries *)
Theorem overlapping_duplicates_refuted : exists s evs x y r,
  run H0 c_off [SynBegin 1 (ev 500) (peer 1 4000) (tsyn 77 no_opt); SynBegin 2 (ev 500) (peer 1 4000) (tsyn 77 no_opt); SynEnd 1 (ev 500); SynEnd 2 (ev 500)] init
  = Ret (s, evs) /\ row s (peer 1 4000) = x :: y :: r /\ sc_inc x = sc_inc y.
Proof. do 5 eexists. split; [vm_compute; reflexivity|]. vm_compute. split; reflexivity. Qed.
(* the VRF is not part of the match: a SYN in VRF 7 is taken for a repetition of one in VRF 0 *)
Theorem vrf_ignored_refuted : exists q1 q2,
  evs_of (run H0 c_off [Seg 1 (ev 500) (peer 1 4000) (tsyn 77 no_opt);
    Seg 2 (ev 500) (mkInc false 7 4000 80 (0,0,0,1) (0,0,0,16777226)) (tsyn 9999 no_opt)] init)
  = Some [ESent q1; ESent q2] /\ i_fib (k_inc q2) = 0 /\ k_ack q2 = 78.
Proof. do 2 eexists. vm_compute. repeat split; reflexivity. Qed.
(* an IPv6 segment from ::1.0.0.0 takes the entry of the IPv4 peer 1.0.0.0 *)
Theorem ipv4_compatible_refuted : exists q1 n,
  evs_of (run H0 c_off [Seg 1 (ev 500) (peer 1 4000) (tsyn 77 no_opt);
    Seg 2 (ev 500) (mkInc true 0 4000 80 (0,0,0,1) (0,0,0,16777226)) (tack 78 31416 no_opt)] init)
  = Some [ESent q1; EConn n] /\ i_v6 (n_inc n) = false.
Proof. do 2 eexists. vm_compute. repeat split; reflexivity. Qed.
