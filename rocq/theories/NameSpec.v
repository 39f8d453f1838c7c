(* Interface names as an administrator writes them, and the IPv6 link-local address that
   RFC 4291 gives an interface. *)
From Verif Require Import Base.

(* decimal numerals (ASCII digits) *)
Definition digits_ok (ds : list Z) : Prop := ds <> [] /\ Forall (fun d => 48 <= d <= 57) ds.
Definition num_val (ds : list Z) : Z := fold_left (fun v d => v * 10 + (d - 48)) ds 0.
(* without superfluous zeros *)
Definition num_canonical (ds : list Z) : Prop := digits_ok ds /\ (hd 0 ds = 48 -> ds = [48]).

(* ASCII *)
Definition s_fp := [102; 112].
Definition s_gre := [103; 114; 101].
Definition s_vxlan := [118; 120; 108; 97; 110].
Definition s_lo := [108; 111].
Definition dot := 46.

(* ports 0..7 are the physical ones; 8 loopback, 9 VXLAN, 10 GRE (include/ofpi_portconf.h:23-34
   with OFP_FP_INTERFACE_MAX = 8) *)
Definition FP_MAX := 8.
Definition LO := 8.
Definition VXLAN := 9.
Definition GRE := 10.

(* the name [nm] stands for sub-interface [vlan] of [port] *)
Definition names (nm : list Z) (port vlan : Z) : Prop :=
  (0 <= port < FP_MAX /\ vlan = 0 /\
     exists p, num_canonical p /\ num_val p = port /\ nm = s_fp ++ p) \/
  (0 <= port < FP_MAX /\ 0 < vlan /\
     exists p v, num_canonical p /\ num_val p = port /\ num_canonical v /\ num_val v = vlan /\
       nm = s_fp ++ p ++ [dot] ++ v) \/
  (exists pre v, num_canonical v /\ num_val v = vlan /\ nm = pre ++ v /\
     (port = LO /\ pre = s_lo \/ port = VXLAN /\ pre = s_vxlan \/ port = GRE /\ pre = s_gre)).
