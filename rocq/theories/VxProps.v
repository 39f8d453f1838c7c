(* C104: the MAC table of VXLAN. *)
From Verif Require Import Base VxModel VxSpec.
Ltac Zify.zify_post_hook ::= idtac.

#[local] Opaque Z.to_nat.
Lemma N_pos : 0 < N. Proof. reflexivity. Qed.
Lemma home_range : forall m, 0 <= home m < N.
Proof. intros m. apply Z.mod_pos_bound, N_pos. Qed.
Lemma next_range : forall i, 0 <= (i + 1) mod N < N.
Proof. intros. apply Z.mod_pos_bound, N_pos. Qed.
Lemma mac_ne : forall m, is_mac m -> m <> FREE /\ m <> RECYCLED.
Proof. intros m H. unfold is_mac, FREE, RECYCLED in *. lia. Qed.
Lemma recy_free : RECYCLED <> FREE. Proof. discriminate. Qed.
Lemma put_same : forall t i s, put t i s i = s. Proof. intros. unfold put. rewrite Z.eqb_refl. reflexivity. Qed.
Lemma put_other : forall t i s j, j <> i -> put t i s j = t j. Proof. intros t i s j H. unfold put. apply Z.eqb_neq in H. rewrite H. reflexivity. Qed.
Lemma fuel_S : exists f, Z.to_nat N = S f.
Proof. pose proof N_pos. destruct (Z.to_nat N) eqn:E; [lia|]. exists n. reflexivity. Qed.

(* the last write of a call: the entry, and whether it got the key *)
Definition wrote (t t' : table) (k m dst now : Z) : Prop :=
  0 <= k < N /\ (forall j, j <> k -> t' j = t j) /\ t' k = mkSlot m dst ((now + AGE) mod W).
Lemma stores : forall t i x dst y j, store_tmo (store_addr (put t i x) i dst) i y j = if j =? i then mkSlot (key x) dst y else t j.
Proof. intros. unfold store_tmo, store_addr. rewrite !put_same. cbn [key addr tmo]. unfold put. destruct (j =? i); reflexivity. Qed.
Lemma stores0 : forall t i dst y j, store_tmo (store_addr t i dst) i y j = if j =? i then mkSlot (key (t i)) dst y else t j.
Proof. intros. unfold store_tmo, store_addr. rewrite !put_same. cbn [key addr tmo]. unfold put. destruct (j =? i); reflexivity. Qed.
Lemma last_cons2 : forall A (a : A) l d, l <> [] -> last (a :: l) d = last l d.
Proof. intros A a l d H. destruct l; [contradiction|reflexivity]. Qed.
Lemma loop_ne : forall f t i h m d now old, set_loop f t i h m d now old <> [].
Proof.
  intros [|f] t i h m d now old; cbn [set_loop]; [discriminate|]. destruct (cas t i old m) as [t1 o1]. destruct (_ || _); [discriminate|].
  destruct (cas t1 i RECYCLED m) as [t2 o2]. destruct (_ || _); [discriminate|]. cbv zeta. destruct (_ =? h); discriminate.
Qed.

Definition effect (t t' : table) (m d now : Z) : Prop :=
  t' = t \/ (exists k, wrote t t' k m d now) \/ (exists k, key (t k) = FREE /\ wrote t t' k FREE d now).
Lemma set_effect : forall f t i h m d now old z, is_mac m -> 0 <= i < N -> old <> m -> old <> RECYCLED ->
  effect t (last (set_loop f t i h m d now old) z) m d now.
Proof.
  induction f as [|f IH]; intros t i h m d now old z M I O1 O2; cbv zeta; cbn [set_loop]; [left; reflexivity|]. destruct (mac_ne m M) as [M1 M2].
  unfold cas at 1. destruct (key (t i) =? old) eqn:Q.
  - apply Z.eqb_eq in Q. replace (old =? m) with false by (symmetry; apply Z.eqb_neq; exact O1). destruct (old =? FREE) eqn:F; cbn [orb].
    + cbn [last]. right. left. exists i. split; [exact I|]. split; [intros j J; rewrite stores; apply Z.eqb_neq in J; rewrite J; reflexivity|]. rewrite stores, Z.eqb_refl. reflexivity.
    + unfold cas. rewrite put_same. cbn [key]. replace (m =? RECYCLED) with false by (symmetry; apply Z.eqb_neq; exact M2). rewrite Z.eqb_refl, orb_true_r. cbn [last].
      right. left. exists i. split; [exact I|]. split; [intros j J; rewrite stores; apply Z.eqb_neq in J; rewrite J; reflexivity|]. rewrite stores, Z.eqb_refl. reflexivity.
  - destruct (key (t i) =? FREE) eqn:F; [|destruct (key (t i) =? m) eqn:K]; cbn [orb].
    + cbn [last]. apply Z.eqb_eq in F. right. right. exists i. split; [exact F|]. split; [exact I|].
      split; [intros j J; rewrite stores0; apply Z.eqb_neq in J; rewrite J; reflexivity|]. rewrite stores0, Z.eqb_refl, F. reflexivity.
    + cbn [last]. apply Z.eqb_eq in K. right. left. exists i. split; [exact I|]. split; [intros j J; rewrite stores0; apply Z.eqb_neq in J; rewrite J; reflexivity|]. rewrite stores0, Z.eqb_refl, K. reflexivity.
    + unfold cas. destruct (key (t i) =? RECYCLED) eqn:R.
      * rewrite Z.eqb_refl. cbn [orb last]. right. left. exists i. split; [exact I|].
        split; [intros j J; rewrite stores; apply Z.eqb_neq in J; rewrite J; reflexivity|]. rewrite stores, Z.eqb_refl. reflexivity.
      * rewrite R, K. cbn [orb]. cbv zeta. destruct (_ =? h).
        -- left. reflexivity.
        -- rewrite last_cons2 by discriminate. rewrite last_cons2 by apply loop_ne. apply IH; [exact M|apply next_range|apply Z.eqb_neq; exact K|apply Z.eqb_neq; exact R].
Qed.

(* ---- histories ---- *)
Lemma ticks_app : forall h g, ticks (h ++ g) = ticks h + ticks g.
Proof. induction h as [|[m d|] h IH]; intros g; cbn [app ticks]; rewrite ?IH; lia. Qed.
Lemma ticks_nonneg : forall h, 0 <= ticks h.
Proof. induction h as [|[m d|] h IH]; cbn [ticks]; lia. Qed.
Lemma learned_app : forall h g m now, learned (h ++ g) m now = learned h m now ++ learned g m (now + ticks h).
Proof.
  induction h as [|[k d|] h IH]; intros g m now; cbn [app learned ticks].
  - rewrite Z.add_0_r. reflexivity.
  - rewrite IH, app_assoc. reflexivity.
  - rewrite IH. f_equal. f_equal. lia.
Qed.
Lemma last_app : forall h g m now acc, last_learned (h ++ g) m now acc = last_learned g m (now + ticks h) (last_learned h m now acc).
Proof.
  induction h as [|[k d|] h IH]; intros g m now acc; cbn [app last_learned ticks].
  - rewrite Z.add_0_r. reflexivity.
  - apply IH.
  - rewrite IH. f_equal. lia.
Qed.
Lemma run_snoc : forall h e s, run (h ++ [e]) s = step e (run h s).
Proof. intros. unfold run. rewrite fold_left_app. reflexivity. Qed.
Lemma learns_snoc : forall h e, learns (h ++ [e]) -> learns h /\ forall m d, e = Learn m d -> is_mac m.
Proof. intros h e H. split; [intros m d I; apply (H m d); apply in_or_app; left; exact I|]. intros m d ->. apply (H m d). apply in_or_app. right. left. reflexivity. Qed.

Definition live (s : slot) : Prop := key s <> FREE /\ key s <> RECYCLED.
(* ticks since entry i was last checked *)
Definition since (s : mem) (i : Z) : Z := (next_check s - 1 - i) mod N.
Lemma since_range : forall s i, 0 <= since s i < N.
Proof. intros. apply Z.mod_pos_bound, N_pos. Qed.
Lemma since_next : forall nx i, 0 <= nx < N -> 0 <= i < N -> i <> nx -> ((nx + 1) mod N - 1 - i) mod N = (nx - 1 - i) mod N + 1.
Proof.
  intros nx i A B C. pose proof N_pos as P.
  assert (E : (nx + 1) mod N - 1 - i = (nx - i) + (- ((nx + 1) / N)) * N) by (pose proof (Z.div_mod (nx + 1) N ltac:(lia)); lia).
  rewrite E, Z.mod_add by lia. destruct (Z_lt_ge_dec nx i).
  - rewrite <- (Z.mod_unique (nx - i) N (-1) (nx - i + N)) by lia. rewrite <- (Z.mod_unique (nx - 1 - i) N (-1) (nx - 1 - i + N)) by lia. lia.
  - rewrite (Z.mod_small (nx - i)) by lia. rewrite (Z.mod_small (nx - 1 - i)) by lia. lia.
Qed.

Definition Inv (h : list ev) (s : mem) : Prop :=
  0 <= next_check s < N /\ tick s = ticks h /\
  forall i, 0 <= i < N -> live (tbl s i) ->
    exists t, In (addr (tbl s i), t) (learned h (key (tbl s i)) 0) /\ tmo (tbl s i) = t + AGE /\ 0 <= t <= ticks h /\ ticks h - 1 - since s i <= t + 2 * AGE.

Lemma time_small : forall h, ticks h + AGE < W -> 0 <= ticks h < W /\ (ticks h + AGE) mod W = ticks h + AGE.
Proof. intros h H. pose proof (ticks_nonneg h). unfold AGE, W in *. split; [lia|]. apply Z.mod_small. lia. Qed.

Lemma set_next : forall m d s, next_check (set m d s) = next_check s /\ tick (set m d s) = tick s. Proof. split; reflexivity. Qed.

Lemma inv_run : forall h, learns h -> ticks h + AGE < W -> Inv h (run h init).
Proof.
  induction h as [|e h IH] using rev_ind; intros L B.
  - pose proof N_pos. split; [cbn; lia|]. split; [reflexivity|]. intros i _ [X _]. cbn in X. unfold FREE in X. lia.
  - apply learns_snoc in L. destruct L as [L LE]. rewrite ticks_app in B. rewrite run_snoc. pose proof (ticks_nonneg [e]) as TE. specialize (IH L ltac:(lia)).
    destruct IH as (I1 & I2 & I3). destruct (time_small h ltac:(lia)) as [T1 T2]. destruct e as [m d|]; cbn [step ticks] in *.
    + split; [exact I1|]. split; [rewrite ticks_app; cbn [ticks set tick]; lia|]. intros i Hi Li. unfold set in *. cbn [tbl tick next_check] in *. unfold since. cbn [next_check].
      rewrite ticks_app. cbn [ticks]. rewrite Z.add_0_r. set (s := run h init) in *. rewrite learned_app. cbn [learned].
      assert (E : effect (tbl s) (last (set_trace m d s) (tbl s)) m d (tick s)).
      { unfold set_trace. apply set_effect; [exact (LE m d eq_refl)|apply home_range| |discriminate]. intros X. apply (proj1 (mac_ne m (LE m d eq_refl))). symmetry. exact X. }
      unfold effect in E. set (t' := last (set_trace m d s) (tbl s)) in *.
      assert (OLD : live (tbl s i) -> t' i = tbl s i -> exists t, In (addr (t' i), t) (learned h (key (t' i)) 0 ++ (if m =? key (t' i) then [(d, 0 + ticks h)] else []) ++ []) /\ tmo (t' i) = t + AGE /\ 0 <= t <= ticks h /\ ticks h - 1 - (next_check s - 1 - i) mod N <= t + 2 * AGE).
      { intros Lo Eq. rewrite Eq. destruct (I3 i Hi Lo) as (t & J1 & J2 & J3 & J4). exists t. split; [apply in_or_app; left; exact J1|]. auto. }
      destruct E as [E | [(k & K1 & K2 & K3) | (k & K0 & K1 & K2 & K3)]].
      * apply OLD; [rewrite <- E; exact Li|rewrite E; reflexivity].
      * destruct (Z.eq_dec i k) as [-> | J]; [|apply OLD; [rewrite <- (K2 i J); exact Li|apply K2; exact J]].
        rewrite K3. cbn [key addr tmo]. rewrite Z.eqb_refl, I2, T2. exists (ticks h). split; [apply in_or_app; right; left; reflexivity|].
        pose proof (Z.mod_pos_bound (next_check s - 1 - k) N N_pos). unfold AGE. split; [lia|]. split; lia.
      * destruct (Z.eq_dec i k) as [-> | J]; [|apply OLD; [rewrite <- (K2 i J); exact Li|apply K2; exact J]]. exfalso. rewrite K3 in Li. destruct Li as [X _]. apply X. reflexivity.
    + unfold Inv, timeout. set (s := run h init) in *. rewrite ticks_app. cbn [ticks]. split; [apply next_range|]. cbn [tick tbl next_check].
      split; [rewrite I2; apply Z.mod_small; unfold AGE in *; lia|]. intros i Hi Li. unfold since. cbn [next_check]. rewrite learned_app. cbn [learned]. rewrite app_nil_r.
      destruct (Z.eq_dec i (next_check s)) as [-> | J].
      * destruct (negb (key (tbl s (next_check s)) =? FREE) && negb (key (tbl s (next_check s)) =? RECYCLED) && (tmo (tbl s (next_check s)) + AGE <? tick s)) eqn:G.
        -- exfalso. rewrite put_same in Li. destruct Li as [_ X]. apply X. reflexivity.
        -- destruct (I3 _ Hi Li) as (t & J1 & J2 & J3 & J4). exists t. split; [exact J1|]. split; [exact J2|]. split; [lia|]. destruct Li as [X1 X2].
           apply Z.eqb_neq in X1. apply Z.eqb_neq in X2. rewrite X1, X2 in G. cbn [negb andb] in G. apply Z.ltb_ge in G. rewrite J2, I2 in G. pose proof (Z.mod_pos_bound ((next_check s + 1) mod N - 1 - next_check s) N N_pos). lia.
      * assert (E : (if negb (key (tbl s (next_check s)) =? FREE) && negb (key (tbl s (next_check s)) =? RECYCLED) && (tmo (tbl s (next_check s)) + AGE <? tick s)
           then put (tbl s) (next_check s) (mkSlot RECYCLED (addr (tbl s (next_check s))) (tmo (tbl s (next_check s)))) else tbl s) i = tbl s i) by (destruct (_ && _); [apply put_other; exact J|reflexivity]).
        rewrite E in *. destruct (I3 i Hi Li) as (t & J1 & J2 & J3 & J4). exists t. split; [exact J1|]. split; [exact J2|]. split; [lia|].
        rewrite since_next by assumption. unfold since in J4. lia.
Qed.

Lemma get_loop_in : forall f t i h m, 0 <= i < N -> m <> FREE -> get_loop f t i h m = 0 \/ exists k, 0 <= k < N /\ key (t k) = m /\ get_loop f t i h m = addr (t k).
Proof.
  induction f as [|f IH]; intros t i h m I M; cbn [get_loop]; [left; reflexivity|]. destruct (key (t i) =? m) eqn:K.
  - right. exists i. apply Z.eqb_eq in K. auto.
  - destruct (_ =? FREE); [left; reflexivity|]. cbv zeta. destruct (_ =? h); [left; reflexivity|]. apply IH; [apply next_range|exact M].
Qed.

(* C104: an address found was learned for that MAC, less than two hours and three
   minutes ago *)
Theorem vxlan_get_sound : forall h m, learns h -> ticks h + AGE < W -> is_mac m ->
  get m (run h init) = 0 \/ exists a t, get m (run h init) = a /\ In (a, t) (learned h m 0) /\ ticks h - t <= 2 * AGE + N.
Proof.
  intros h m L B M. destruct (inv_run h L B) as (I1 & I2 & I3). destruct (mac_ne m M) as [M1 M2]. unfold get, get_in.
  destruct (get_loop_in (Z.to_nat N) (tbl (run h init)) (home m) (home m) m (home_range m) M1) as [E | (k & K1 & K2 & K3)]; [left; exact E|]. right.
  destruct (I3 k K1 ltac:(split; rewrite K2; assumption)) as (t & J1 & J2 & J3 & J4). rewrite K2 in J1. exists (addr (tbl (run h init) k)), t. split; [exact K3|]. split; [exact J1|].
  pose proof (since_range (run h init) k). lia.
Qed.
Print Assumptions vxlan_get_sound.

(* ---- without collisions ---- *)
Lemma set_home : forall m d s, is_mac m -> key (tbl s (home m)) = FREE \/ key (tbl s (home m)) = RECYCLED \/ key (tbl s (home m)) = m ->
  forall j, tbl (set m d s) j = if j =? home m then mkSlot m d ((tick s + AGE) mod W) else tbl s j.
Proof.
  intros m d s M H j. destruct (mac_ne m M) as [M1 M2]. unfold set, set_trace. cbn [tbl]. destruct fuel_S as (f & ->). cbn [set_loop]. unfold cas at 1.
  destruct (key (tbl s (home m)) =? FREE) eqn:F.
  - cbn [orb last]. change (FREE =? FREE) with true. cbn [orb last]. rewrite stores. reflexivity.
  - rewrite F. cbn [orb]. destruct (key (tbl s (home m)) =? m) eqn:K; cbn [last].
    + rewrite stores0. apply Z.eqb_eq in K. rewrite K. reflexivity.
    + destruct H as [H|[H|H]]; [rewrite H in F; discriminate| |rewrite H, Z.eqb_refl in K; discriminate]. unfold cas. rewrite H, Z.eqb_refl. rewrite Z.eqb_refl. cbn [orb last]. rewrite stores. reflexivity.
Qed.

Definition Ex (h : list ev) (s : mem) : Prop :=
  (forall i, 0 <= i < N -> live (tbl s i) -> home (key (tbl s i)) = i /\ is_mac (key (tbl s i)) /\ (exists d, In (Learn (key (tbl s i)) d) h) /\
     exists t, last_learned h (key (tbl s i)) 0 None = Some (addr (tbl s i), t) /\ tmo (tbl s i) = t + AGE /\ ticks h - 1 - since s i <= t + 2 * AGE) /\
  (forall m a t, is_mac m -> last_learned h m 0 None = Some (a, t) -> ticks h - t <= 2 * AGE -> key (tbl s (home m)) = m) /\
  (forall m a t, last_learned h m 0 None = Some (a, t) -> t <= ticks h).

Lemma nc_snoc : forall h e, no_collision (h ++ [e]) -> no_collision h.
Proof. intros h e H m d k x A B. apply (H m d k x); apply in_or_app; left; assumption. Qed.

Lemma ex_run : forall h, learns h -> no_collision h -> ticks h + AGE < W -> Ex h (run h init).
Proof.
  induction h as [|e h IH] using rev_ind; intros L C B.
  - split; [|split].
    + intros i _ [X _]. cbn in X. unfold FREE in X. lia.
    + discriminate.
    + discriminate.
  - pose proof (inv_run h ltac:(apply learns_snoc in L; apply L) ltac:(rewrite ticks_app in B; pose proof (ticks_nonneg [e]); lia)) as (I1 & I2 & _).
    apply learns_snoc in L. destruct L as [L LE]. rewrite ticks_app in B. rewrite run_snoc. pose proof (ticks_nonneg [e]) as TE. specialize (IH L (nc_snoc _ _ C) ltac:(lia)).
    destruct IH as (E1 & E2 & E3). destruct (time_small h ltac:(lia)) as [T1 T2]. set (s := run h init) in *. destruct e as [m d|]; cbn [step ticks] in *.
    + assert (M : is_mac m) by (apply (LE m d eq_refl)).
      assert (HM : key (tbl s (home m)) = FREE \/ key (tbl s (home m)) = RECYCLED \/ key (tbl s (home m)) = m).
      { destruct (Z.eq_dec (key (tbl s (home m))) FREE) as [?|F]; [auto|]. destruct (Z.eq_dec (key (tbl s (home m))) RECYCLED) as [?|R]; [auto|]. right. right.
        destruct (E1 (home m) (home_range m) (conj F R)) as (H1 & _ & (x & H2) & _). apply (C _ x m d); [apply in_or_app; left; exact H2|apply in_or_app; right; left; reflexivity|exact H1]. }
      pose proof (set_home m d s M HM) as S. assert (LL : forall k, last_learned (h ++ [Learn m d]) k 0 None = if m =? k then Some (d, ticks h) else last_learned h k 0 None).
      { intros k. rewrite last_app. cbn [last_learned]. reflexivity. }
      split; [|split].
      * intros i Hi Li. rewrite (S i) in *. unfold since. cbn [set next_check]. rewrite LL, ticks_app. cbn [ticks]. rewrite Z.add_0_r.
        pose proof (Z.mod_pos_bound (next_check s - 1 - i) N N_pos) as MB. destruct (i =? home m) eqn:Q.
        -- apply Z.eqb_eq in Q. cbn [key addr tmo]. rewrite Z.eqb_refl. split; [congruence|]. split; [exact M|]. split; [exists d; apply in_or_app; right; left; reflexivity|].
           exists (ticks h). split; [reflexivity|]. rewrite I2, T2. split; [reflexivity|]. unfold AGE. lia.
        -- destruct (E1 i Hi Li) as (H1 & H2 & (x & H3) & t & H4 & H5 & H6). split; [exact H1|]. split; [exact H2|]. split; [exists x; apply in_or_app; left; exact H3|].
           exists t. destruct (m =? key (tbl s i)) eqn:K; [|split; [exact H4|]; split; [exact H5|exact H6]].
           exfalso. apply Z.eqb_eq in K. apply Z.eqb_neq in Q. apply Q. rewrite K. symmetry. exact H1.
      * intros k a t Mk HL HT. rewrite LL in HL. rewrite ticks_app in HT. cbn [ticks] in HT. rewrite (S (home k)). destruct (home k =? home m) eqn:Q.
        -- apply Z.eqb_eq in Q. cbn [key]. destruct (m =? k) eqn:K; [apply Z.eqb_eq in K; exact K|]. specialize (E2 k a t Mk HL ltac:(lia)).
           destruct (mac_ne k Mk) as [Mk1 Mk2]. destruct (E1 (home k) (home_range k) ltac:(split; rewrite E2; assumption)) as (_ & _ & (x & H3) & _). rewrite E2 in H3.
           symmetry. apply (C k x m d); [apply in_or_app; left; exact H3|apply in_or_app; right; left; reflexivity|exact Q].
        -- destruct (m =? k) eqn:K; [apply Z.eqb_eq in K; subst k; rewrite Z.eqb_refl in Q; discriminate|]. apply (E2 k a t Mk HL). lia.
      * intros k a t HL. rewrite LL in HL. rewrite ticks_app. cbn [ticks]. destruct (m =? k); [injection HL as <- <-; lia|]. specialize (E3 k a t HL). lia.
    + assert (LL : forall k, last_learned (h ++ [Tick]) k 0 None = last_learned h k 0 None) by (intros k; rewrite last_app; reflexivity).
      assert (TB : forall i, (i = next_check s /\ tmo (tbl s i) + AGE < tick s /\ tbl (timeout s) i = mkSlot RECYCLED (addr (tbl s i)) (tmo (tbl s i))) \/
                             (tbl (timeout s) i = tbl s i /\ (i = next_check s -> live (tbl s i) -> tick s <= tmo (tbl s i) + AGE))).
      { intros i. unfold timeout. cbn [tbl]. destruct (Z.eq_dec i (next_check s)) as [-> | J].
        - destruct (negb _ && negb _ && _) eqn:G; [left|right].
          + apply andb_true_iff in G. destruct G as [_ G]. apply Z.ltb_lt in G. split; [reflexivity|]. split; [exact G|]. apply put_same.
          + split; [reflexivity|]. intros _ [X1 X2]. apply Z.eqb_neq in X1. apply Z.eqb_neq in X2. rewrite X1, X2 in G. cbn [negb andb] in G. apply Z.ltb_ge in G. exact G.
        - right. split; [destruct (_ && _); [apply put_other; exact J|reflexivity]|]. intros X. contradiction. }
      split; [|split].
      * intros i Hi Li. rewrite LL, ticks_app. cbn [ticks]. destruct (TB i) as [(_ & _ & E) | (E & V)].
        -- exfalso. rewrite E in Li. destruct Li as [_ X]. apply X. reflexivity.
        -- rewrite E in *. destruct (E1 i Hi Li) as (H1 & H2 & (x & H3) & t & H4 & H5 & H6). split; [exact H1|]. split; [exact H2|]. split; [exists x; apply in_or_app; left; exact H3|].
           exists t. split; [exact H4|]. split; [exact H5|]. unfold since, timeout. cbn [next_check]. destruct (Z.eq_dec i (next_check s)) as [J|J].
           ++ specialize (V J Li). pose proof (Z.mod_pos_bound ((next_check s + 1) mod N - 1 - i) N N_pos). lia.
           ++ rewrite since_next by assumption. unfold since in H6. lia.
      * intros k a t Mk HL HT. rewrite LL in HL. rewrite ticks_app in HT. cbn [ticks] in HT. specialize (E2 k a t Mk HL ltac:(lia)). destruct (TB (home k)) as [(_ & G & E) | (E & _)]; [|rewrite E; exact E2].
        exfalso. destruct (mac_ne k Mk) as [Mk1 Mk2]. destruct (E1 (home k) (home_range k) ltac:(split; rewrite E2; assumption)) as (_ & _ & _ & t' & H4 & H5 & _). rewrite E2, HL in H4. assert (t' = t) by congruence. lia.
      * intros k a t HL. rewrite LL in HL. rewrite ticks_app. cbn [ticks]. specialize (E3 k a t HL). lia.
Qed.

(* C104, for MACs that do not share a home: the address last learned is found for
   two hours; it is gone three minutes later *)
Theorem vxlan_exact_partial : forall h m, learns h -> no_collision h -> ticks h + AGE < W -> is_mac m ->
  match last_learned h m 0 None with
  | None => get m (run h init) = 0
  | Some (a, t) => (ticks h - t <= 2 * AGE -> get m (run h init) = a) /\ (2 * AGE + N < ticks h - t -> get m (run h init) = 0) /\ (get m (run h init) = a \/ get m (run h init) = 0)
  end.
Proof.
  intros h m L C B M. destruct (ex_run h L C B) as (E1 & E2 & E3). destruct (mac_ne m M) as [M1 M2]. set (s := run h init) in *.
  assert (G : get m s = 0 \/ (key (tbl s (home m)) = m /\ get m s = addr (tbl s (home m)))).
  { unfold get, get_in. destruct (get_loop_in (Z.to_nat N) (tbl s) (home m) (home m) m (home_range m) M1) as [E | (k & K1 & K2 & K3)]; [left; exact E|]. right.
    destruct (E1 k K1 ltac:(split; rewrite K2; assumption)) as (H1 & _). rewrite K2 in H1. rewrite <- H1 in K2, K3. split; [exact K2|exact K3]. }
  assert (LV : key (tbl s (home m)) = m -> exists t, last_learned h m 0 None = Some (addr (tbl s (home m)), t) /\ ticks h - 1 - since s (home m) <= t + 2 * AGE).
  { intros K. destruct (E1 (home m) (home_range m) ltac:(split; rewrite K; assumption)) as (_ & _ & _ & t & H4 & _ & H6). rewrite K in H4. exists t. split; assumption. }
  assert (GH : key (tbl s (home m)) = m -> get m s = addr (tbl s (home m))).
  { intros K. unfold get, get_in. destruct fuel_S as (f & ->). cbn [get_loop]. rewrite K, Z.eqb_refl. reflexivity. }
  destruct (last_learned h m 0 None) as [[a t]|] eqn:HL.
  - split; [|split].
    + intros T. specialize (E2 m a t M HL T). rewrite (GH E2). destruct (LV E2) as (t' & X & _). congruence.
    + intros T. destruct G as [G|[K _]]; [exact G|]. exfalso. destruct (LV K) as (t' & X & Y). assert (t' = t) by congruence. pose proof (since_range s (home m)). lia.
    + destruct G as [G|[K G]]; [right; exact G|left]. destruct (LV K) as (t' & X & _). congruence.
  - destruct G as [G|[K _]]; [exact G|]. destruct (LV K) as (t' & X & _). discriminate.
Qed.
Print Assumptions vxlan_exact_partial.
