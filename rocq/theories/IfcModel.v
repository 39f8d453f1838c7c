(* Model of the configuration of IPv4 addresses on Ethernet interfaces:
   src/ofp_portconf.c (up_v4, add_ip_v4, del_ip_v4, down, the address list of an
   interface, allocation of VLAN interfaces, the list of interfaces with an
   address) and add_route/del_route of src/ofp_route.c.  One thread.
   Simplified: addresses are host-order integers; a routing table is a partial
   map from (VRF, prefix, length) to next hop, which is what C02-C04 prove of the
   trees while their node pool lasts; ARP entries of routes, IPv6, the Linux
   commands (SP) and other interface fields are left out. *)
From Verif Require Import Base.

Definition key := (Z * Z)%type.                     (* port, VLAN *)
Definition key_eqb (a b : key) : bool := (fst a =? fst b) && (snd a =? snd b).

(* include/ofpi_portconf.h:111-115 *)
Record slot := mkSl { s_a : Z; s_ml : Z; s_bc : Z }.
Definition zslot : slot := mkSl 0 0 0.
(* vrf, ip_addr_info *)
Record ifc := mkI { i_vrf : Z; i_sl : list slot }.
(* OFP_NUM_IFNET_IP_ADDRS: include/api/ofp_config.h:106 *)
Definition NIP : nat := 8.
(* what a route points to: an interface with OFP_RTF_LOCAL, an interface with
   OFP_RTF_NET, or what the user gave *)
Inductive nhop := Local (k : key) | Net (k : key) | User (x : Z).

Definition table := Z -> Z -> Z -> option nhop.
Definition upd_rt (t : table) (v d l : Z) (x : option nhop) : table :=
  fun v' d' l' => if (v' =? v) && (d' =? d) && (l' =? l) then x else t v' d' l'.

(* routes; interfaces that exist; ofp_get_ifaddrhead(); VLAN interfaces free *)
Record st := mkS { rt : table; ifs : list (key * ifc); ifl : list key; freev : nat }.

Fixpoint look {A} (k : key) (l : list (key * A)) : option A :=
  match l with [] => None | (k', x) :: l => if key_eqb k k' then Some x else look k l end.
Fixpoint put {A} (k : key) (x : A) (l : list (key * A)) : list (key * A) :=
  match l with [] => [(k, x)] | (k', y) :: l => if key_eqb k k' then (k, x) :: l else (k', y) :: put k x l end.
Definition del {A} (k : key) (l : list (key * A)) : list (key * A) := filter (fun p => negb (key_eqb k (fst p))) l.

(* ---- ip_addr_info[] ---- *)
Fixpoint upd {A} (l : list A) (i : nat) (x : A) : list A :=
  match l, i with [], _ => [] | _ :: l, O => x :: l | y :: l, S i => y :: upd l i x end.
(* ofp_ifnet_ip_find: portconf.c:2085-2093 *)
Fixpoint ip_find (l : list slot) (a : Z) : option nat :=
  match l with
  | [] => None
  | s :: l => if s_a s =? 0 then None else if a =? s_a s then Some O else option_map S (ip_find l a)
  end.
(* get_first_free_ifnet_pos: 2037-2045 *)
Fixpoint first_free (l : list slot) : nat := match l with [] => O | s :: l => if s_a s =? 0 then O else S (first_free l) end.
(* ofp_ifnet_ip_add: 2047-2059 *)
Definition ip_add (l : list slot) (a : Z) : list slot :=
  let i := first_free l in
  if (i <? NIP)%nat then upd l i (mkSl a (s_ml (nth i l zslot)) (s_bc (nth i l zslot))) else l.
(* ofp_ifnet_ip_remove: 2061-2083 *)
Definition ip_remove (l : list slot) (a : Z) : list slot :=
  match ip_find l a with
  | None => l
  | Some i =>
    let f := first_free l in
    if (f =? NIP)%nat then l
    else let f := (f - 1)%nat in upd (if (f =? i)%nat then l else upd l i (nth f l zslot)) f zslot
  end.
(* ofp_set_first_ifnet_addr: 2098-2123 *)
Definition set_first (l : list slot) (a bc ml : Z) : list slot :=
  match ip_find l a with
  | None => l
  | Some O => upd l 0 (mkSl (s_a (nth 0 l zslot)) ml bc)
  | Some i => upd (upd l i (nth 0 l zslot)) 0 (mkSl a ml bc)
  end.
(* ofp_ifnet_ip_find_update_fields: 2142-2155; None: -1 *)
Definition update_fields (l : list slot) (a ml bc : Z) : option (list slot) :=
  match ip_find l a with None => None | Some i => Some (upd l i (mkSl (s_a (nth i l zslot)) ml bc)) end.

(* ---- masks ---- *)
Section Env.
(* what the machine computes for ~0 << 32 on 32 bits (undefined in C: x86 and
   AArch64 give ~0); number of VRFs; number of VLAN interfaces in shared memory *)
Variable sh32 : Z.
Variable num_vrf : Z.

(* mask << (32 - masklen) *)
Definition mask (n : Z) : outcome Z :=
  if (n <? 0) || (32 <? n) then UB else Ret (if n =? 0 then sh32 else 4294967296 - 2 ^ (32 - n)).
(* the first n bits of an address, as a prefix *)
Definition netof (a n : Z) : Z := a / 2 ^ (32 - n) * 2 ^ (32 - n).

(* ofp_vlan_alloc: 153-168 and the part of ofp_get_create_ifnet that follows:
   1372-1415; memset of a null pointer when no VLAN interface is left *)
Definition get_create (k : key) (s : st) : outcome (ifc * st) :=
  match look k (ifs s) with
  | Some i => Ret (i, s)
  | None =>
    match freev s with
    | O => UB
    | S f => let i := mkI 0 (repeat zslot NIP) in Ret (i, mkS (rt s) (put k i (ifs s)) (ifl s ++ [k]) f)
    end
  end.
Definition set_sl (k : key) (l : list slot) (s : st) : st :=
  match look k (ifs s) with
  | Some i => mkS (rt s) (put k (mkI (i_vrf i) l) (ifs s)) (ifl s) (freev s)
  | None => s
  end.

(* ofp_set_route_msg, add_route: route.c:185-244, 479-491; the tree takes the
   first masklen bits of the address *)
Definition add_route (v d l : Z) (x : nhop) (s : st) : outcome st :=
  if num_vrf <=? v then Ret s
  else
    let s := mkS (upd_rt (rt s) v (netof d l) l (Some x)) (ifs s) (ifl s) (freev s) in
    match x with
    | Local k => if l =? 32 then obind (get_create k s) (fun '(i, s) => Ret (set_sl k (ip_add (i_sl i) d) s)) else Ret s
    | _ => Ret s
    end.
(* del_route: route.c:246-284 *)
Definition del_route (v d l : Z) (s : st) : outcome st :=
  if num_vrf <=? v then Ret s
  else
    let old := rt s v (netof d l) l in
    let s := mkS (upd_rt (rt s) v (netof d l) l None) (ifs s) (ifl s) (freev s) in
    match old with
    | Some (Local k) => match look k (ifs s) with None => Ret s | Some i => Ret (set_sl k (ip_remove (i_sl i) d) s) end
    | _ => Ret s
    end.

(* ofp_ifaddr_elem_add, ofp_ifaddr_elem_del: 1957-1989 *)
Definition ifl_add (k : key) (s : st) : st :=
  mkS (rt s) (ifs s) (if existsb (key_eqb k) (ifl s) then ifl s else ifl s ++ [k]) (freev s).
Definition ifl_del (k : key) (s : st) : st := mkS (rt s) (ifs s) (filter (fun q => negb (key_eqb k q)) (ifl s)) (freev s).

(* dev->ip_addr_info of interface k now *)
Definition slots (k : key) (s : st) : list slot := match look k (ifs s) with Some i => i_sl i | None => [] end.

(* ofp_free_ifnet_ip_list: 2157-2199; saved: the copy made first, i: the index *)
Fixpoint free_loop (k : key) (v : Z) (saved : list slot) (i : nat) (s : st) : outcome st :=
  match saved with
  | [] => Ret s
  | x :: saved =>
    if s_a x =? 0 then Ret s
    else
      obind (mask (s_ml (nth i (slots k s) zslot))) (fun m =>
      obind (del_route v (Z.land (s_a x) m) (s_ml x) s) (fun s =>
      obind (del_route v (s_a x) 32 s) (free_loop k v saved (S i))))
  end.
Definition free_list (k : key) (v : Z) (s : st) : outcome st := free_loop k v (firstn (first_free (slots k s)) (slots k s)) 0 s.

Inductive res := Done | WrongPort | BadVrf | NoInterface | Already | NotAdded | NotFound | OtherMask | NotRemoved.

Definition NUM_PORTS : Z := 11.
Definition IF_MAX : Z := 8.

(* ofp_config_interface_down: 1179-1344.  Port 8 is the loopback port; all other
   ports have an interface without VLAN *)
Definition down (k : key) (s : st) : outcome (st * res) :=
  if (fst k <? 0) || (NUM_PORTS <=? fst k) then Ret (s, WrongPort)
  else match look k (ifs s) with
  | None => Ret (s, NoInterface)
  | Some i =>
    let s := ifl_del k s in
    let a := s_a (nth 0 (i_sl i) zslot) in
    let m := s_ml (nth 0 (i_sl i) zslot) in
    let vlan := negb (snd k =? 0) || (fst k =? 8) in
    obind (if a =? 0 then Ret s
           else if vlan then
             (* 0xFFFFFFFFULL << (32 - m): defined for m = 0 *)
             obind (del_route (i_vrf i) a 32 s) (fun s =>
             obind (del_route (i_vrf i) (netof a m) m s) (free_list k (i_vrf i)))
           else
             obind (del_route (i_vrf i) (netof a m) m s) (fun s =>
             obind (del_route (i_vrf i) a 32 s) (free_list k (i_vrf i)))) (fun s =>
    Ret (if vlan then mkS (rt s) (del k (ifs s)) (ifl s) (S (freev s)) else s, Done))
  end.

(* ofp_config_interface_up_v4: 490-626 *)
Definition up (k : key) (v a n : Z) (s : st) : outcome (st * res) :=
  if (fst k <? 0) || (IF_MAX <=? fst k) then Ret (s, WrongPort)
  else if num_vrf <=? v then Ret (s, BadVrf)
  else
  obind (mask n) (fun m =>
  (* data->vrf != vrf *)
  obind (match look k (ifs s) with
         | Some i => if i_vrf i =? v then Ret s
                     else obind (down k s) (fun '(s, _) => obind (get_create k s) (fun '(_, s) => Ret s))
         | None => Ret s
         end) (fun s =>
  obind (match look k (ifs s) with
         | None => obind (get_create k s) (fun '(_, s) => Ret s)        (* data == NULL *)
         | Some i =>
           let a0 := s_a (nth 0 (i_sl i) zslot) in
           let m0 := s_ml (nth 0 (i_sl i) zslot) in
           if (snd k =? 0) && (a0 =? 0) then Ret s
           else (* the second call reads ip_addr_info[0] again *)
             obind (del_route (i_vrf i) a0 m0 s) (fun s =>
             del_route (i_vrf i) (s_a (nth 0 (slots k s) zslot)) 32 s)
         end) (fun s =>
  match look k (ifs s) with
  | None => UB
  | Some i =>
    let s := mkS (rt s) (put k (mkI v (i_sl i)) (ifs s)) (ifl s) (freev s) in
    let s := if snd k =? 0 then ifl_add k s else s in
    obind (add_route v a 32 (Local k) s) (fun s =>
    obind (add_route v (Z.land a m) n (Net k) s) (fun s =>
    Ret (set_sl k (set_first (slots k s) a (Z.lor a (4294967295 - m)) n) s, Done)))
  end))).

(* ofp_config_interface_add_ip_v4: 628-675 *)
Definition add_ip (k : key) (v a n : Z) (s : st) : outcome (st * res) :=
  if (fst k <? 0) || (IF_MAX <=? fst k) then Ret (s, WrongPort)
  else match look k (ifs s) with
  | None => Ret (s, NoInterface)
  | Some i =>
    match ip_find (i_sl i) a with
    | Some _ => Ret (s, Already)
    | None =>
      obind (mask n) (fun m =>
      obind (add_route v a 32 (Local k) s) (fun s =>
      obind (add_route v (Z.land a m) n (Net k) s) (fun s =>
      match update_fields (slots k s) a n (Z.lor a (4294967295 - m)) with
      | Some l => Ret (set_sl k l s, Done)
      | None => obind (del_route v (Z.land a m) n s) (fun s => obind (del_route v a 32 s) (fun s => Ret (s, NotAdded)))
      end)))
    end
  end.

(* ofp_config_interface_del_ip_v4: 677-736 *)
Definition del_ip (k : key) (a n : Z) (s : st) : outcome (st * res) :=
  if (fst k <? 0) || (IF_MAX <=? fst k) then Ret (s, WrongPort)
  else match look k (ifs s) with
  | None => Ret (s, NoInterface)
  | Some i =>
    match ip_find (i_sl i) a with
    | None => Ret (s, NotFound)
    | Some j =>
      let n0 := s_ml (nth j (i_sl i) zslot) in
      obind (mask n0) (fun m =>
      if negb (n =? n0) then Ret (s, OtherMask)
      else
        obind (del_route (i_vrf i) (Z.land a m) n s) (fun s =>
        obind (del_route (i_vrf i) a 32 s) (fun s =>
        match ip_find (slots k s) a with
        | Some _ => Ret (s, NotRemoved)
        | None => Ret (if s_a (nth 0 (slots k s) zslot) =? 0 then ifl_del k s else s, Done)
        end)))
    end
  end.

(* what a user does; Route and Unroute: ofp_set_route_params with a gateway *)
Inductive ev :=
| Up (k : key) (v a n : Z)
| AddIp (k : key) (v a n : Z)
| DelIp (k : key) (a n : Z)
| Down (k : key)
| Route (v d l x : Z)
| Unroute (v d l : Z).
Definition step (e : ev) (s : st) : outcome (st * res) :=
  match e with
  | Up k v a n => up k v a n s
  | AddIp k v a n => add_ip k v a n s
  | DelIp k a n => del_ip k a n s
  | Down k => down k s
  | Route v d l x => obind (add_route v d l (User x) s) (fun s => Ret (s, Done))
  | Unroute v d l => obind (del_route v d l s) (fun s => Ret (s, Done))
  end.
Fixpoint run (l : list ev) (s : st) : outcome (st * list res) :=
  match l with
  | [] => Ret (s, [])
  | e :: l => obind (step e s) (fun '(s, r) => obind (run l s) (fun '(s, rs) => Ret (s, r :: rs)))
  end.
End Env.

(* ofp_portconf_init_global: 1816-1897, ofp_vlan_init_global: 1899-1914 *)
Definition no_addr : ifc := mkI 0 (repeat zslot NIP).
Definition init (vlans : nat) : st :=
  mkS (fun _ _ _ => None) (map (fun p => ((p, 0), no_addr)) [0; 1; 2; 3; 4; 5; 6; 7; 9; 10]) [] vlans.

(* ---- readers ---- *)
(* ofp_ifaddr_elem_get: 1991-2005 *)
Definition elem_get (v a : Z) (s : st) : option key :=
  find (fun k => match look k (ifs s) with Some i => (s_a (nth 0 (i_sl i) zslot) =? a) && (i_vrf i =? v) | None => false end) (ifl s).
(* is the address one of the interface's (ofp_ifnet_ip_find): 2085-2093 *)
Definition has_ip (k : key) (a : Z) (s : st) : bool := match ip_find (slots k s) a with Some _ => true | None => false end.
