(* C100, C101: where the code does something else, and a history that meets the
   hypotheses of the theorems.  Limits as in the code: 128, 512, 4095. *)
From Verif Require Import Base McastModel McastSpec McastMerge McastGroup McastInv McastStep McastProps McastMode.
Ltac Zify.zify_post_hook ::= idtac.

Definition G : Z := 3758096640.                      (* 224.0.1.0 *)
Notation go := (run 128 512 4095).
Notation sgo := (srun 128 4095).
Definition final (h : list ev) (n : nat) : st := match go h (init n) with Ret (x, _) => x | _ => init 0 end.
Definition sfinal (h : list ev) (n : nat) : spec := fst (sgo h (repeat [] n)).

(* three sockets on two interfaces *)
Definition hist : list ev :=
  [Join 0 1 G None true; Block 0 (Some 1) G 7 false; Join 1 1 G (Some 8) true; Join 1 1 G (Some 9) true; Igmp 1 G;
   Join 2 1 G (Some 8) false; Set_filter 2 1 G Exc [7; 11] true; Join 0 2 G (Some 5) true; Leave 1 None G (Some 9) true;
   Join 1 1 G None true; Unblock 0 (Some 1) G 8 true; Block 2 None G 8 true; Close 2 true; Leave 0 (Some 2) G None true; Join 5 1 G None true].
Example hist_fits : fits 128 512 4095 [5; 7; 8; 9; 11] 3 hist.
Proof.
  split; [cbn [length]; lia|]. split.
  - unfold hist. repeat (apply Forall_cons; [cbn [names]; intros a H; cbn [In] in *; tauto|]). apply Forall_nil.
  - vm_compute. repeat split; try congruence; try lia.
Qed.
Example hist_results : exists x, go hist (init 3) = Ret (x, [Ok; Ok; Ok; Ok; Ok; Ok; Ok; Ok; Ok; EINVAL; EADDRNOTAVAIL; Ok; Ok; Ok; EBADF]) /\
  map (@length mem) (socks x) = [1%nat; 1%nat; 0%nat] /\
  (exists u, glook (1, G) (mus x) = Some u /\ refc u = 2 /\ iex u = 1 /\ gx u 7 = 1 /\ gn u 8 = 1 /\ gn u 9 = 0 /\ fmode u = Exc /\ ims_mode u 8 = Inc /\ ims_mode u 7 = Exc) /\ glook (2, G) (mus x) = None.
Proof. eexists. split; [vm_compute; reflexivity|]. split; [vm_compute; reflexivity|]. split; [|vm_compute; reflexivity]. eexists. vm_compute. repeat split. Qed.
Example hist_never_emptied : never_emptied 128 4095 hist (repeat [] 3).
Proof.
  assert (T : forall e h x b, fst (sstep 128 4095 e x) = b -> forallb (forallb (fun m => negb (meq (s_mode m) Inc) || negb (emp (s_src m)))) b = true -> never_emptied 128 4095 h b -> never_emptied 128 4095 (e :: h) x).
  { intros e h x b E F N. cbn [never_emptied]. rewrite E. split; [|exact N]. apply Forall_forall. intros l X. apply Forall_forall. intros m Y M. rewrite forallb_forall in F.
    specialize (F l X). rewrite forallb_forall in F. specialize (F m Y). rewrite M in F. cbn [meq negb orb] in F. destruct (s_src m); [discriminate|congruence]. }
  unfold hist. repeat (eapply T; [vm_compute; reflexivity|vm_compute; reflexivity|]). exact Logic.I.
Qed.

(* a source a socket blocks is delivered all the same *)
Definition h_block : list ev := [Join 0 1 G None true; Block 0 (Some 1) G 7 true].
Theorem mcast_block_refuted :
  snd (sgo h_block (repeat [] 1)) = [Ok; Ok] /\ wanted (nth 0 (sfinal h_block 1) []) 1 G 7 = NotSource /\
  multi_filter (nth 0 (socks (final h_block 1)) []) 1 G 7 = Pass.
Proof. vm_compute. repeat split. Qed.
Print Assumptions mcast_block_refuted.

(* setsourcefilter with no sources does not drop those of before: INCLUDE of
   nothing still takes them, EXCLUDE of nothing takes all but them *)
Definition h_inc0 : list ev := [Join 0 1 G (Some 7) true; Set_filter 0 1 G Inc [] true].
Definition h_exc0 : list ev := [Join 0 1 G (Some 7) true; Set_filter 0 1 G Exc [] true].
Theorem mcast_set_empty_refuted :
  (wanted (nth 0 (sfinal h_inc0 1) []) 1 G 7 = NotSource /\ multi_filter (nth 0 (socks (final h_inc0 1)) []) 1 G 7 = Pass) /\
  (wanted (nth 0 (sfinal h_exc0 1) []) 1 G 7 = Pass /\ multi_filter (nth 0 (socks (final h_exc0 1)) []) 1 G 7 = NotSource) /\
  (go h_inc0 (init 1) <> UB /\ go h_exc0 (init 1) <> UB).
Proof. split; [vm_compute; repeat split|]. split; [vm_compute; repeat split|]. split; vm_compute; discriminate. Qed.
Print Assumptions mcast_set_empty_refuted.

(* a filter of 100 sources cannot be replaced by another: ENOSPC, with 128 allowed *)
Definition zs (a b : nat) : list Z := map Z.of_nat (seq a b).
Definition h_full : list ev := [Join 0 1 G None true; Set_filter 0 1 G Exc (zs 1 100) true; Set_filter 0 1 G Exc (zs 101 100) true].
Theorem mcast_set_replace_refuted :
  snd (sgo h_full (repeat [] 1)) = [Ok; Ok; Ok] /\ exists x, go h_full (init 1) = Ret (x, [Ok; Ok; ENOSPC]).
Proof. split; [vm_compute; reflexivity|]. eexists. vm_compute. reflexivity. Qed.
Print Assumptions mcast_set_replace_refuted.

(* five sockets that block 128 sources each: the fifth runs into the limit of
   the group, and then undefined behaviour *)
Definition h_limit : list ev :=
  concat (map (fun s => [Join s 1 G None true; Set_filter s 1 G Exc (zs (1 + 128 * s) 128) true]) (seq 0 5)).
Theorem mcast_group_limit_refuted : snd (sgo h_limit (repeat [] 5)) = repeat Ok 10 /\ go h_limit (init 5) = UB.
Proof. vm_compute. split; reflexivity. Qed.
Print Assumptions mcast_group_limit_refuted.

(* a socket leaves its last source, then the group: the group forgets the other
   socket's INCLUDE; leaving while alone and joining again wraps the count *)
Definition h_mode : list ev := [Join 0 1 G (Some 7) true; Join 1 1 G (Some 8) true; Leave 0 (Some 1) G (Some 7) true; Leave 0 (Some 1) G None true].
Theorem mcast_group_mode_refuted :
  members (sfinal h_mode 2) 1 G = [mkSm 1 G Inc [8]] /\
  exists u, glook (1, G) (mus (final h_mode 2)) = Some u /\ iin u = 0 /\ fmode u = Und.
Proof. split; [vm_compute; reflexivity|]. eexists. vm_compute. repeat split. Qed.
Print Assumptions mcast_group_mode_refuted.
Definition h_mode2 : list ev := h_mode ++ [Leave 1 None G (Some 8) true; Join 0 1 G None true; Leave 1 None G None true].
Theorem mcast_group_include_count_refuted :
  members (sfinal h_mode2 2) 1 G = [mkSm 1 G Exc []] /\ exists u, glook (1, G) (mus (final h_mode2 2)) = Some u /\ iin u = 65534.
Proof. split; [vm_compute; reflexivity|]. eexists. vm_compute. repeat split. Qed.
Print Assumptions mcast_group_include_count_refuted.

(* the same empty filter set twice counts one listener twice *)
Definition h_asm : list ev := [Join 0 1 G None true; Set_filter 0 1 G Exc [] true].
Theorem mcast_group_asm_refuted :
  members (sfinal h_asm 1) 1 G = [mkSm 1 G Exc []] /\ exists u, glook (1, G) (mus (final h_asm 1)) = Some u /\ refc u = 1 /\ iasm u = 2.
Proof. split; [vm_compute; reflexivity|]. eexists. vm_compute. repeat split. Qed.
Print Assumptions mcast_group_asm_refuted.

(* one socket includes a source that another excludes: the source is reported as excluded *)
Definition h_rep : list ev := [Join 0 1 G None true; Block 0 (Some 1) G 7 true; Join 1 1 G (Some 7) true].
Theorem mcast_source_mode_refuted :
  in_report (members (sfinal h_rep 2) 1 G) 7 <> Exc /\ exists u, glook (1, G) (mus (final h_rep 2)) = Some u /\ ims_mode u 7 = Exc.
Proof. split; [vm_compute; discriminate|]. eexists. vm_compute. repeat split. Qed.
Print Assumptions mcast_source_mode_refuted.
