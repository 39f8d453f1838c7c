(* C102: the theorem on groups applied to a history of multicast calls. *)
From Verif Require Import Base McastModel McastSpec McastMerge McastGroup McastInv McastStep McastProps McastRefuted UdpModel UdpSpec UdpProps.
Ltac Zify.zify_post_hook ::= idtac.

Definition hist_sp : spec := fst (srun 128 4095 hist (repeat [] 3)).
Definition dg2 (src : Z) : dgram := mkD 1 src G 1000 53 64 true 14 20 100.
(* who hears what after the history *)
Example hist_wanted : map (fun a => map (fun s => wanted (nth s hist_sp []) 1 G a) [0; 1; 2]%nat) [7; 8; 9]
  = [[NotSource; NotSource; NotGroup]; [Pass; Pass; NotGroup]; [Pass; NotSource; NotGroup]].
Proof. vm_compute. reflexivity. Qed.
Lemma wf2 : well_formed (dg2 8).
Proof. repeat split; cbn; lia. Qed.
Lemma ex8 : forall s j m, In s [2; 0; 1]%nat -> member (nth s hist_sp []) (Some 1) G = Some (j, m) -> excluding 8 m = false.
Proof. intros s j m I. cbn [In] in I. destruct I as [<-|[<-|[<-|[]]]]; vm_compute; intros X; try discriminate; injection X as <- <-; reflexivity. Qed.
Lemma w8 : wanted (nth 0 hist_sp []) 1 G 8 = Pass /\ wanted (nth 1 hist_sp []) 1 G 8 = Pass /\ wanted (nth 2 hist_sp []) 1 G 8 <> Pass.
Proof. vm_compute. repeat split. discriminate. Qed.
(* source 8 is heard by sockets 0 and 1 *)
Example hist_delivery : forall lookup, exists x e r, run 128 512 4095 hist (init 3) = Ret (x, snd (srun 128 4095 hist (repeat [] 3))) /\
  input okall true (pcbs [2; 0; 1]%nat (fun _ => k0 53 true []) (socks x)) lookup (dg2 8) = Ret (e, r) /\
  times 0 e = 1%nat /\ times 1 e = 1%nat /\ times 2 e = 0%nat.
Proof.
  intros lookup. destruct (udp_multicast_partial 128 512 4095 _ 3 hist hist_fits) as (x & E & P). exists x.
  assert (AD : addressed (dg2 8) (k0 53 true [])) by (repeat split; cbn; auto).
  specialize (P (fun _ => k0 53 true []) [2; 0; 1]%nat true lookup (dg2 8)). cbv zeta in P. fold hist_sp in P.
  assert (P' := P ltac:(clear; repeat constructor; cbn [In]; intuition discriminate) ltac:(clear; intros s I; cbn [In] in I; lia) wf2 eq_refl ltac:(clear; intros s _ _; split; reflexivity) ex8). clear P.
  destruct P' as (e & r & EI & T). exists e, r. split; [exact E|]. split; [exact EI|]. destruct w8 as (W0 & W1 & W2).
  destruct (T 0%nat) as [T0 _]; [clear; cbn; tauto|]. destruct (T 1%nat) as [T1 _]; [clear; cbn; tauto|]. destruct (T 2%nat) as [_ T2]; [clear; cbn; tauto|].
  split; [exact (T0 (conj AD W0))|]. split; [exact (T1 (conj AD W1))|]. apply T2. intros [_ X]. exact (W2 X).
Qed.
