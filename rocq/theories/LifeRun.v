(* Executable runs, for the examples and the refutations. *)
From Verif Require Import Base LifeModel LifeSpec.

Definition liveb (s : st) (p : Z) (ok : Z -> bool) : bool :=
  match s_pcb s p with Some q => negb (p_tw q) && negb (p_dropped q) && ok (p_state q) | None => false end.
Definition call_eqb (a b : call) : bool :=
  match a, b with
  | CNone, CNone | CClose1, CClose1 | CClose2, CClose2 | CAccept, CAccept | CAbort1, CAbort1 | CAbort2, CAbort2 | CLost, CLost => true
  | _, _ => false
  end.
Definition nilb (l : list Z) : bool := match l with [] => true | _ => false end.

Definition legalb (s : st) (o : op) : bool :=
  match o with
  | Socket _ => true
  | Listen fd _ => s_user s fd && match s_so s fd with Some so => so_qinit so && negb (so_disced so) | None => true end
  | Connect fd _ | Shutdown fd | ShutRd fd | SetLinger fd _ | SetNbio fd _
  | AcceptTake fd | Close1 fd => s_user s fd
  | AcceptEnd i => call_eqb (s_call s i) CAccept
  | Close2 i => call_eqb (s_call s i) CClose1
  | Drain i => call_eqb (s_call s i) CClose2
  | Close3 i => call_eqb (s_call s i) CClose2 &&
      match s_so s i with Some so => negb (so_accept so) || (nilb (so_incq so) && nilb (so_compq so)) | None => true end
  | Abort1 i => call_eqb (s_call s i) CAbort1
  | Abort2 i => call_eqb (s_call s i) CAbort2
  | NewConn fd _ _ =>
      match s_so s fd with
      | Some so => match so_pcb so with
        | Some p => match s_pcb s p with
          | Some q => match p_sock q with Some j => (j =? fd) && negb (p_dropped q) && (p_state q =? T_LISTEN) | None => false end
          | None => false end
        | None => false end
      | None => false end
  | PConnected p => liveb s p (fun x => (x =? T_SYN_SENT) || (x =? T_SYN_RECEIVED))
  | PFin p => liveb s p (fun x => (x =? T_SYN_SENT) || (T_ESTABLISHED <=? x))
  | PFinAcked p => liveb s p (fun x => x =? T_FIN_WAIT_1)
  | PDrop p _ => liveb s p (fun _ => true)
  | PTwStart p _ => liveb s p (fun x => (x =? T_FIN_WAIT_1) || (x =? T_CLOSING) || (x =? T_FIN_WAIT_2))
  | PTwClose p => match s_pcb s p with Some q => p_tw q && negb (p_dropped q) | None => false end
  end.

Lemma call_eqb_true : forall a b, call_eqb a b = true -> a = b.
Proof. intros [] []; discriminate || reflexivity. Qed.

Lemma liveb_live : forall s p okb (ok : Z -> Prop), (forall x, okb x = true -> ok x) -> liveb s p okb = true -> live s p ok.
Proof.
  intros s p okb ok H L. unfold liveb in L. destruct (s_pcb s p) as [q |] eqn:E; [| discriminate].
  apply andb_true_iff in L. destruct L as [L L3]. apply andb_true_iff in L. destruct L as [L1 L2].
  apply negb_true_iff in L1, L2. exists q. auto.
Qed.

Lemma legalb_legal : forall s o, legalb s o = true -> legal s o.
Proof.
  intros s o H. destruct o; cbn [legalb legal] in *; try exact Logic.I; try exact H; try (apply call_eqb_true; exact H).
  - apply andb_true_iff in H. destruct H as [H1 H2]. split; [exact H1 |]. intros so E. rewrite E in H2.
    apply andb_true_iff in H2. destruct H2 as [H2 H3]. apply negb_true_iff in H3. auto.
  - apply andb_true_iff in H. destruct H as [H1 H2]. split; [apply call_eqb_true; exact H1 |]. intros so E A. rewrite E, A in H2. cbn [negb orb] in H2.
    apply andb_true_iff in H2. destruct H2 as [H2 H3]. destruct (so_incq so); [| discriminate]. destruct (so_compq so); [auto | discriminate].
  - destruct (s_so s fd) as [so |]; [| discriminate]. destruct (so_pcb so) as [p |]; [| discriminate].
    destruct (s_pcb s p) as [q |] eqn:E; [| discriminate]. destruct (p_sock q) as [j |] eqn:E2; [| discriminate].
    apply andb_true_iff in H. destruct H as [H H3]. apply andb_true_iff in H. destruct H as [H1 H2]. apply negb_true_iff in H2.
    exists p, q. split; [exact E |]. apply Z.eqb_eq in H1, H3. subst j. auto.
  - eapply liveb_live; [| exact H]. cbn. intros x K. lia.
  - eapply liveb_live; [| exact H]. cbn. intros x K. lia.
  - eapply liveb_live; [| exact H]. cbn. intros x K. lia.
  - eapply liveb_live; [| exact H]. auto.
  - eapply liveb_live; [| exact H]. cbn. intros x K. lia.
  - destruct (s_pcb s p) as [q |] eqn:E; [| discriminate]. apply andb_true_iff in H. destruct H as [H1 H2]. apply negb_true_iff in H2. eauto.
Qed.

(* run the operations; None if one of them is not legal or goes wrong *)
Fixpoint exec (M : Z) (s : st) (l : list op) : option (st * list (op * res)) :=
  match l with
  | [] => Some (s, [])
  | o :: l =>
    if legalb s o then
      match step M s o with
      | Ret (s1, r) => match exec M s1 l with Some (s2, tr) => Some (s2, (o, r) :: tr) | None => None end
      | _ => None
      end
    else None
  end.

Lemma exec_run : forall M l s s' tr, exec M s l = Some (s', tr) -> run M s tr s'.
Proof.
  intros M l. induction l as [| o l IH]; intros s s' tr E; cbn [exec] in E.
  - injection E as <- <-. constructor.
  - destruct (legalb s o) eqn:L; [| discriminate]. destruct (step M s o) as [[s1 r] | |] eqn:ST; try discriminate.
    destruct (exec M s1 l) as [[s2 tr2] |] eqn:E2; [| discriminate]. injection E as <- <-.
    econstructor; eauto. apply legalb_legal; exact L.
Qed.

Lemma run_app : forall M s t1 s1 t2 s2, run M s t1 s1 -> run M s1 t2 s2 -> run M s (t1 ++ t2) s2.
Proof. intros M s t1 s1 t2 s2 R. revert t2 s2. induction R; intros t2 s' R2; cbn; [exact R2 |]. econstructor; eauto. Qed.

Lemma exec_reach : forall N M l s' tr, exec M (init N) l = Some (s', tr) -> reach N M s'.
Proof. intros N M l s' tr E. exists tr. eapply exec_run; exact E. Qed.
