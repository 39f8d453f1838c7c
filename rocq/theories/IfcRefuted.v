(* C98, C99: what fails outside the preconditions of IfcMain.v, and a concrete
   history that meets them. *)
From Verif Require Import Base IfcModel IfcSpec IfcMain.

Definition ok3 (h : list ev) (s : st) : Prop := exists rs, run 4294967295 3 h (init 2) = Ret (s, rs) /\ Forall (eq Done) rs.
Definition p0 : key := (0, 0).
Definition eight : list ev := Up p0 0 100 24 :: map (fun i => AddIp p0 0 (100 + 256 * i) 24) [1; 2; 3; 4; 5; 6; 7].
Ltac okrun := eexists; split; [eexists; split; [vm_compute; reflexivity|repeat constructor]|].

(* Eight addresses fit, but then none can be deleted: the call fails after it
   has removed the routes of the address, and leaves the address. *)
Theorem ifc_del_when_full_refuted : exists s, ok3 eight s /\ has_ip p0 868 s = true /\ rt s 0 868 32 = Some (Local p0) /\
  exists s', del_ip 4294967295 3 p0 868 24 s = Ret (s', NotRemoved) /\ has_ip p0 868 s' = true /\ rt s' 0 868 32 = None /\ rt s' 0 768 24 = None.
Proof. okrun. vm_compute. split; [reflexivity|]. split; [reflexivity|]. eexists. repeat split. Qed.
Print Assumptions ifc_del_when_full_refuted.

(* ... and taking the interface down leaves its addresses. *)
Theorem ifc_down_when_full_refuted : exists s, ok3 (eight ++ [Down p0]) s /\ has_ip p0 868 s = true /\ rt s 0 868 32 = None.
Proof. okrun. vm_compute. split; reflexivity. Qed.
Print Assumptions ifc_down_when_full_refuted.

(* A ninth address is refused, but the refused call removes the subnet route of
   an address that is there. *)
Theorem ifc_refused_add_refuted : exists s, ok3 eight s /\ rt s 0 0 24 = Some (Net p0) /\
  exists s', add_ip 4294967295 3 p0 0 101 24 s = Ret (s', NotAdded) /\ has_ip p0 100 s' = true /\ rt s' 0 0 24 = None.
Proof. okrun. vm_compute. split; [reflexivity|]. eexists. repeat split. Qed.
Print Assumptions ifc_refused_add_refuted.

(* Two addresses in one subnet: deleting one removes the route of both. *)
Theorem ifc_same_subnet_refuted : exists s, ok3 [Up p0 0 100 24; AddIp p0 0 101 24; DelIp p0 101 24] s /\
  has_ip p0 100 s = true /\ rt s 0 0 24 = None.
Proof. okrun. vm_compute. split; reflexivity. Qed.
Print Assumptions ifc_same_subnet_refuted.

(* An interface with a 32-bit mask: its own address has no local route (packets
   to it are sent out again), and bringing it up again lists the address twice. *)
Theorem ifc_masklen32_refuted :
  (exists s, ok3 [Up p0 0 100 32] s /\ has_ip p0 100 s = true /\ rt s 0 100 32 = Some (Net p0)) /\
  (exists s, ok3 [Up p0 0 100 32; Up p0 0 100 32] s /\ map s_a (firstn 3 (slots p0 s)) = [100; 100; 0]).
Proof. split; okrun; vm_compute; [split|]; reflexivity. Qed.
Print Assumptions ifc_masklen32_refuted.

(* Making an address that is already there the primary one: listed twice, the
   old primary address is lost. *)
Theorem ifc_up_secondary_refuted : exists s, ok3 [Up p0 0 100 24; AddIp p0 0 300 24; Up p0 0 300 24] s /\
  map s_a (firstn 3 (slots p0 s)) = [300; 300; 0] /\ has_ip p0 100 s = false.
Proof. okrun. vm_compute. split; reflexivity. Qed.
Print Assumptions ifc_up_secondary_refuted.

(* Bringing up a VLAN interface that has no address (its last one was deleted)
   deletes the user's default route; so does moving one to another VRF, in VRF 0. *)
Theorem ifc_default_route_lost_refuted :
  (exists s, ok3 [Route 1 0 0 9; Up (0, 5) 1 100 24; DelIp (0, 5) 100 24] s /\ rt s 1 0 0 = Some (User 9)) /\
  (exists s, ok3 [Route 1 0 0 9; Up (0, 5) 1 100 24; DelIp (0, 5) 100 24; Up (0, 5) 1 200 24] s /\ rt s 1 0 0 = None) /\
  (exists s, ok3 [Route 0 0 0 9; Up (0, 5) 1 100 24; Up (0, 5) 2 100 24] s /\ rt s 0 0 0 = None).
Proof. split; [|split]; okrun; vm_compute; reflexivity. Qed.
Print Assumptions ifc_default_route_lost_refuted.

(* One VLAN interface more than there is memory for: a null pointer is written. *)
Theorem ifc_vlan_exhausted_refuted : run 4294967295 3 [Up (0, 5) 1 100 24; Up (0, 6) 1 1000 24; Up (0, 7) 1 2000 24] (init 2) = UB.
Proof. vm_compute. reflexivity. Qed.
Print Assumptions ifc_vlan_exhausted_refuted.

(* add_ip takes the VRF of the routes from its argument: the address is the
   interface's, which is in VRF 0, the routes are in VRF 1; deletion leaves them. *)
Theorem ifc_add_other_vrf_refuted : exists s, ok3 [Up p0 0 100 24; AddIp p0 1 300 24] s /\
  has_ip p0 300 s = true /\ rt s 0 300 32 = None /\ rt s 1 300 32 = Some (Local p0) /\
  exists s', down 4294967295 3 p0 s = Ret (s', Done) /\ has_ip p0 300 s' = true /\ rt s' 1 300 32 = Some (Local p0).
Proof. okrun. vm_compute. split; [reflexivity|]. split; [reflexivity|]. split; [reflexivity|]. eexists. repeat split. Qed.
Print Assumptions ifc_add_other_vrf_refuted.

(* Down shifts a 32-bit mask by 32 (it reads mask lengths from the list it is
   emptying): where such a shift gives 0 - not x86, not AArch64 - a subnet route
   stays. *)
Theorem ifc_down_shift_refuted :
  clean_all 3 2 [Up p0 0 100 24; AddIp p0 0 300 25; AddIp p0 0 600 26; Down p0] conf0 = true /\
  exists s rs, run 0 3 [Up p0 0 100 24; AddIp p0 0 300 25; AddIp p0 0 600 26; Down p0] (init 2) = Ret (s, rs) /\
    rt s 0 256 25 = Some (Net p0) /\ look p0 (ifs s) = Some no_addr.
Proof. split; [vm_compute; reflexivity|]. eexists. eexists. split; [vm_compute; reflexivity|]. vm_compute. split; reflexivity. Qed.
Print Assumptions ifc_down_shift_refuted.

(* C99.  A secondary address is not found; neither is an address added to an
   interface that had none. *)
Theorem ifc_elem_get_refuted :
  (exists s, ok3 [Up p0 0 100 24; AddIp p0 0 300 24] s /\ has_ip p0 300 s = true /\ elem_get 0 300 s = None) /\
  (exists s, ok3 [Up p0 0 100 24; DelIp p0 100 24; AddIp p0 0 100 24] s /\ has_ip p0 100 s = true /\ rt s 0 100 32 = Some (Local p0) /\ elem_get 0 100 s = None).
Proof. split; okrun; vm_compute; repeat split. Qed.
Print Assumptions ifc_elem_get_refuted.

(* A history that meets the preconditions of IfcMain.v: interfaces without and
   with VLAN, several addresses, three VRFs, user routes, a change of VRF. *)
Definition hist : list ev :=
  [Route 0 0 0 7; Up p0 0 2561 24; AddIp p0 0 2817 24; AddIp p0 0 3073 25; Up (1, 0) 1 2561 24; Up (1, 9) 1 5121 26; AddIp (1, 9) 1 7681 26;
   Route 1 8192 22 5; DelIp p0 2561 24; Up (2, 4) 2 2561 16; Up p0 0 4097 24; Down (2, 4); Unroute 1 8192 22; Up (1, 0) 0 65537 24; Up (3, 4) 2 2561 24; AddIp p0 0 10241 24; DelIp p0 2817 24].
Example hist_clean : clean_all 3 2 hist conf0 = true /\
  map (fun k => addrs_of k (after hist conf0)) [p0; (1, 0); (1, 9); (2, 4); (3, 4)] =
    [[(4097, 24); (10241, 24)]; [(65537, 24)]; [(5121, 26); (7681, 26)]; []; [(2561, 24)]] /\
  exists s, ok3 hist s /\ map s_a (firstn 3 (slots p0 s)) = [4097; 10241; 0] /\ rt s 0 4096 24 = Some (Net p0) /\ rt s 0 0 0 = Some (User 7) /\
    rt s 0 2816 24 = None /\ rt s 1 2561 32 = None /\ rt s 0 65537 32 = Some (Local (1, 0)) /\ elem_get 2 2561 s = Some (3, 4) /\ freev s = O.
Proof. split; [vm_compute; reflexivity|]. split; [vm_compute; reflexivity|]. okrun. vm_compute. repeat split. Qed.

(* A ninth address in a subnet of its own is refused and leaves no route. *)
Example ninth : exists s s', ok3 eight s /\ add_ip 4294967295 3 p0 0 5001 24 s = Ret (s', NotAdded) /\
  ifs s' = ifs s /\ rt s' 0 5001 32 = None /\ rt s' 0 4864 24 = None /\ rt s' 0 0 24 = Some (Net p0) /\ rt s' 0 100 32 = Some (Local p0).
Proof. eexists. eexists. split; [eexists; split; [vm_compute; reflexivity|repeat constructor]|]. vm_compute. repeat split. Qed.
