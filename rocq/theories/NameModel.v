(* Model of the interface-name functions of src/ofp_util.c and of the libc functions they
   use.  A C string is the list of its characters, without the terminating 0. *)
From Verif Require Import Base.

(* include/ofpi_portconf.h:23-39, include/api/ofp_config.h:100 *)
Definition OFP_FP_INTERFACE_MAX := 8.
Definition NUM_PORTS := OFP_FP_INTERFACE_MAX + 3.
Definition GRE_PORTS := NUM_PORTS - 1.
Definition VXLAN_PORTS := NUM_PORTS - 2.
Definition LOCAL_PORTS := NUM_PORTS - 3.
Definition P_fp := [102; 112].
Definition P_gre := [103; 114; 101].
Definition P_vxlan := [118; 120; 108; 97; 110].
Definition P_lo := [108; 111].

(* libc: sprintf "%d" of an int, at most 10 digits *)
Fixpoint dec_pos (fuel : nat) (n : Z) (acc : list Z) : list Z :=
  match fuel with
  | O => acc
  | S f => if n <? 10 then (48 + n) :: acc else dec_pos f (n / 10) ((48 + n mod 10) :: acc)
  end.
Definition print_d (n : Z) : list Z := if n <? 0 then 45 :: dec_pos 10 (- n) [] else dec_pos 10 n [].

(* libc: atoi = (int)strtol(s, NULL, 10): skips white space, one sign, digits; saturates at
   LONG_MIN/LONG_MAX (64 bits), then the conversion to int keeps the low 32 bits *)
Definition is_space (c : Z) : bool := (c =? 32) || ((9 <=? c) && (c <=? 13)).
Definition is_digit (c : Z) : bool := (48 <=? c) && (c <=? 57).
Fixpoint skip_space (s : list Z) : list Z :=
  match s with c :: t => if is_space c then skip_space t else s | [] => [] end.
Fixpoint read_digits (s : list Z) (v : Z) : Z :=
  match s with c :: t => if is_digit c then read_digits t (v * 10 + (c - 48)) else v | [] => v end.
Definition to_int (v : Z) : Z :=
  let w := v mod 4294967296 in if w <? 2147483648 then w else w - 4294967296.
Definition atoi (s : list Z) : Z :=
  let s := skip_space s in
  let v := match s with
           | c :: t => if c =? 45 then - (read_digits t 0)
                       else if c =? 43 then read_digits t 0
                       else read_digits s 0
           | [] => 0
           end in
  to_int (Z.max (- 2 ^ 63) (Z.min (2 ^ 63 - 1) v)).

(* libc: strncmp(dev, p, strlen(p)) == 0; and dev + strlen(p) *)
Fixpoint has_prefix (p s : list Z) : bool :=
  match p, s with
  | [], _ => true
  | a :: p', b :: s' => (a =? b) && has_prefix p' s'
  | _, [] => false
  end.
(* libc: strchr(dev, '.') + 1 *)
Fixpoint after_dot (s : list Z) : option (list Z) :=
  match s with [] => None | c :: t => if c =? 46 then Some t else after_dot t end.

(* src/ofp_util.c:181-230.  Result: the port and *vlan (None: not written); a NULL argument is
   not modelled. *)
Definition ofp_name_to_port_vlan (dev : list Z) : Z * option Z :=
  if has_prefix P_gre dev then (GRE_PORTS, Some (atoi (skipn 3 dev)))
  else if has_prefix P_vxlan dev then
    let n := skipn 5 dev in
    let c := nth 0 n 0 in
    if (c <? 48) || (57 <? c) then (-1, None) else (VXLAN_PORTS, Some (atoi n))
  else if has_prefix P_lo dev then
    let n := skipn 2 dev in
    let c := nth 0 n 0 in
    if (c <? 48) || (57 <? c) then (-1, None) else (LOCAL_PORTS, Some (atoi n))
  else if negb (has_prefix P_fp dev) then (-1, None)
  else
    let port := atoi (skipn 2 dev) in
    match after_dot dev with
    | Some p => (port, Some (atoi p))
    | None => (port, Some 0)
    end.

(* src/ofp_util.c:232-261; the string written into buf[sel] (18 bytes) *)
Definition IFNAME_BUF := 18%nat.
Definition ofp_port_vlan_to_ifnet_name (port vlan : Z) : list Z :=
  if port =? LOCAL_PORTS then P_lo ++ print_d vlan
  else if port =? GRE_PORTS then P_gre ++ print_d vlan
  else if port =? VXLAN_PORTS then P_vxlan ++ print_d vlan
  else if negb (vlan =? 0) then P_fp ++ print_d port ++ [46] ++ print_d vlan
  else P_fp ++ print_d port.
(* sprintf writes the string and a terminating 0 *)
Definition name_overflows (port vlan : Z) : bool :=
  (IFNAME_BUF <? length (ofp_port_vlan_to_ifnet_name port vlan) + 1)%nat.

(* src/ofp_util.c:124-134 *)
Definition ofp_mac_to_link_local (mac : list Z) : list Z :=
  let l := repeat 0 16 in
  let l := firstn 8 l ++ firstn 3 mac ++ skipn 11 l in            (* memcpy(lladdr + 8, mac, 3) *)
  let l := firstn 13 l ++ firstn 3 (skipn 3 mac) in               (* memcpy(lladdr + 13, mac + 3, 3) *)
  let put i v l := firstn i l ++ [v] ++ skipn (S i) l in
  let l := put 8%nat (Z.lxor (nth 8 l 0) 2) l in
  let l := put 11%nat 255 l in
  let l := put 12%nat 254 l in
  let l := put 0%nat 254 l in
  put 1%nat 128 l.
