(* Vocabulary of the socket life-time properties. *)
From Verif Require Import Base LifeModel.

(* What a correct application, and a TCP that follows the protocol, may do in
   state [s].  The application uses a descriptor between the call that returned
   it and close(); it calls listen() only on a descriptor it got from socket(),
   whose connection (if any) has not ended.  The parts of a system call follow
   each other.  The protocol acts on a connection only in the states in which
   the TCP state machine has that transition. *)
Definition live (s : st) (p : Z) (ok : Z -> Prop) : Prop :=
  exists q, s_pcb s p = Some q /\ p_tw q = false /\ p_dropped q = false /\ ok (p_state q).

Definition legal (s : st) (o : op) : Prop :=
  match o with
  | Socket _ => True
  | Listen fd _ => s_user s fd = true /\
      forall so, s_so s fd = Some so -> so_qinit so = true /\ so_disced so = false
  | Connect fd _ | Shutdown fd | ShutRd fd | SetLinger fd _ | SetNbio fd _
  | AcceptTake fd | Close1 fd => s_user s fd = true
  | AcceptEnd i => s_call s i = CAccept
  | Close2 i => s_call s i = CClose1
  | Drain i => s_call s i = CClose2
  | Close3 i => s_call s i = CClose2 /\
      forall so, s_so s i = Some so -> so_accept so = true -> so_incq so = [] /\ so_compq so = []
  | Abort1 i => s_call s i = CAbort1
  | Abort2 i => s_call s i = CAbort2
  | NewConn fd _ _ => exists p q, s_pcb s p = Some q /\ p_sock q = Some fd /\ p_dropped q = false /\ p_state q = T_LISTEN
  | PConnected p => live s p (fun x => x = T_SYN_SENT \/ x = T_SYN_RECEIVED)
  | PFin p => live s p (fun x => x = T_SYN_SENT \/ T_ESTABLISHED <= x)
  | PFinAcked p => live s p (fun x => x = T_FIN_WAIT_1)
  | PDrop p _ => live s p (fun _ => True)
  | PTwStart p _ => live s p (fun x => x = T_FIN_WAIT_1 \/ x = T_CLOSING \/ x = T_FIN_WAIT_2)
  | PTwClose p => exists q, s_pcb s p = Some q /\ p_tw q = true /\ p_dropped q = false
  end.

(* a run of legal operations, with what each of them reported *)
Inductive run (M : Z) : st -> list (op * res) -> st -> Prop :=
| run_nil s : run M s [] s
| run_cons s o s1 r tr s2 :
    legal s o -> step M s o = Ret (s1, r) -> run M s1 tr s2 -> run M s ((o, r) :: tr) s2.

Definition reach (N : nat) (M : Z) (s : st) : Prop := exists tr, run M (init N) tr s.

(* ---- who holds a socket slot ---- *)

(* on a queue of a listening socket *)
Definition pending (s : st) (i : Z) : Prop :=
  exists h hs, s_so s h = Some hs /\ In i (so_incq hs ++ so_compq hs).
(* kept by the protocol, which has not finished with the connection *)
Definition kept_by_tcp (s : st) (i : Z) : Prop :=
  exists p q, s_pcb s p = Some q /\ p_sock q = Some i /\ p_dropped q = false /\ p_sockref q = true.

Inductive owner := OFree | OUser | OCall | OPending | OTcp | OLost.

Definition owned (s : st) (i : Z) (o : owner) : Prop :=
  match o with
  | OFree => In i (s_free s)
  | OUser => s_user s i = true
  | OCall => s_call s i <> CNone /\ s_call s i <> CLost
  | OPending => pending s i
  | OTcp => s_user s i = false /\ s_call s i = CNone /\ kept_by_tcp s i
  | OLost => s_call s i = CLost
  end.

(* ---- histories of one listening socket ---- *)

(* connections that became ready to be accepted on [h], read off the run:
   PConnected reported RFd when it put the socket on the queue of its head *)
Fixpoint taken (h : Z) (tr : list (op * res)) : list Z :=
  match tr with
  | [] => []
  | (AcceptTake fd, RFd i) :: tr => if fd =? h then i :: taken h tr else taken h tr
  | _ :: tr => taken h tr
  end.

(* the same with the state at the time, to know the listener of a connection *)
Definition listener_of (s : st) (p : Z) : option Z :=
  match s_pcb s p with
  | Some q => match p_sock q with
              | Some i => match s_so s i with Some so => so_head so | None => None end
              | None => None end
  | None => None
  end.

Inductive completed (M : Z) (h : Z) : st -> list (op * res) -> list Z -> st -> Prop :=
| co_nil s : completed M h s [] [] s
| co_ready s p i s1 tr l s2 :
    legal s (PConnected p) -> step M s (PConnected p) = Ret (s1, RFd i) -> listener_of s p = Some h ->
    completed M h s1 tr l s2 -> completed M h s ((PConnected p, RFd i) :: tr) (i :: l) s2
| co_other s o s1 r tr l s2 :
    legal s o -> step M s o = Ret (s1, r) ->
    (forall p i, o = PConnected p -> r = RFd i -> listener_of s p <> Some h) ->
    completed M h s1 tr l s2 -> completed M h s ((o, r) :: tr) l s2.

(* the application does not close [h] (a call of close() is under way at no
   point of the run) *)
Definition not_closed (h : Z) (tr : list (op * res)) : Prop := forall r, ~ In (Close1 h, r) tr.
