(* Model of the IPv4 route table of the default (MTRIE) build: src/ofp_rt_mtrie_lookup.c and the
   calls made by src/ofp_route.c.  Every access to these functions is under the route write lock
   (lookups are lock free in this build; they are modelled as atomic).
   A table is an array of struct ofp_rtl_node (include/ofpi_rt_lookup.h:38-50): 65536 entries for
   the root of a VRF, 256 for the others.  Entry 0 of a table also is its header: [root], [ref],
   and, while the table is free, [next] is the free-list link.  The array contents survive a free.
   ofp_nh_entry is one integer token. *)
From Verif Require Import Base RadixSpec.

(* addresses of tables: root table of VRF v (large_list[v]), or small_list[i] *)
Inductive tid := TR (v : nat) | TS (i : nat).
Definition tid_eqb (a b : tid) : bool :=
  match a, b with TR v, TR w => Nat.eqb v w | TS i, TS j => Nat.eqb i j | _, _ => false end.

(* include/ofpi_rt_lookup.h:38-50; flags is not used by the MTRIE code but for being cleared *)
Record entry := mkEnt { e_data : Z; e_mlen : Z; e_root : bool; e_ref : Z; e_next : option nat }.
Definition zero_entry : entry := mkEnt 0 0 false 0 None.
Definition set_leaf (e : entry) (d m : Z) := mkEnt d m (e_root e) (e_ref e) (e_next e).
Definition set_mlen (e : entry) (m : Z) := mkEnt (e_data e) m (e_root e) (e_ref e) (e_next e).
Definition set_next (e : entry) (n : option nat) := mkEnt (e_data e) (e_mlen e) (e_root e) (e_ref e) n.
Definition set_ref (e : entry) (r : Z) := mkEnt (e_data e) (e_mlen e) (e_root e) r (e_next e).

Definition mem := tid -> Z -> entry.
Definition updm (m : mem) (t : tid) (i : Z) (e : entry) : mem :=
  fun t' i' => if tid_eqb t' t && (i' =? i) then e else m t' i'.

(* struct ofp_rt_rule, include/ofpi_rt_lookup.h:23-34 *)
Record rule := mkRule { r_vrf : nat; r_addr : Z; r_mlen : Z; r_data : Z }.

(* src/ofp_rt_mtrie_lookup.c:45-64: [rules] is what the AVL tree holds, [cap] = NUM_RT_RULES *)
Record st := mkSt { tb : mem; ffirst : option nat; flast : option nat; nalloc : Z;
                    rules : list rule; cap : nat }.
Definition set_tb (s : st) (m : mem) := mkSt m (ffirst s) (flast s) (nalloc s) (rules s) (cap s).
Definition set_rules (s : st) (r : list rule) := mkSt (tb s) (ffirst s) (flast s) (nalloc s) r (cap s).

(* src/ofp_rt_mtrie_lookup.c:71-82 *)
Definition NODEFREE (s : st) (t : tid) : st :=
  match t with
  | TS i =>
    if e_root (tb s t 0) then s else
    let m := updm (tb s) t 0 (set_next (tb s t 0) None) in
    match flast s with
    | Some l => mkSt (updm m (TS l) 0 (set_next (m (TS l) 0) (Some i))) (ffirst s) (Some i)
                     (nalloc s - 1) (rules s) (cap s)
    | None => mkSt m (Some i) (Some i) (nalloc s - 1) (rules s) (cap s)
    end
  | TR _ => s                           (* root->root == 1, set by ofp_rtl_root_init *)
  end.

(* src/ofp_rt_mtrie_lookup.c:86-108 *)
Definition NODEALLOC (s : st) : option nat * st :=
  match ffirst s with
  | None => (None, s)
  | Some i =>
    let e := tb s (TS i) 0 in
    let f := e_next e in
    let l := match f with None => None | Some _ => flast s end in
    (Some i, mkSt (updm (tb s) (TS i) 0 (mkEnt (e_data e) (e_mlen e) false 0 None)) f l
                  (nalloc s + 1) (rules s) (cap s))
  end.

(* src/ofp_rt_mtrie_lookup.c:850-893 and 115-133 (root_init of every VRF): zeroed memory, the
   small tables linked in order, roots marked *)
Definition init_tb (N : nat) : mem := fun t i =>
  match t with
  | TR _ => if i =? 0 then mkEnt 0 0 true 0 None else zero_entry
  | TS k => if (i =? 0) && (S k <? N)%nat then set_next zero_entry (Some (S k)) else zero_entry
  end.
Definition init_st (N R : nat) : st :=
  match N with
  | O => mkSt (init_tb 0) None None 0 [] R
  | S k => mkSt (init_tb N) (Some O) (Some k) 0 [] R
  end.

(* 32-bit shifts; the count is reduced modulo 32 as x86-64 and AArch64 do for counts >= 32
   (undefined in C; only masklen = 0 reaches it, see ofp_rtl_insert below) *)
Definition shr32 (x n : Z) : Z := Z.shiftr x (n mod 32).
Definition shl32 (x n : Z) : Z := u32 (Z.shiftl x (n mod 32)).

(* src/ofp_rt_mtrie_lookup.c:439-442 *)
Definition to_network_prefix (a masklen : Z) : Z :=
  Z.land a (u32 (Z.shiftl 4294967295 (32 - masklen))).
(* src/ofp_rt_mtrie_lookup.c:386-390 *)
Definition shift_lsb (a masklen : Z) : Z := shr32 a (32 - masklen).
(* src/ofp_rt_mtrie_lookup.c:444-449 *)
Definition ip_range_helper (a masklen low high : Z) : Z :=
  shr32 (shl32 a (32 - masklen + low)) (low + 32 - high).
(* src/ofp_rt_mtrie_lookup.c:451-456 *)
Definition ip_range_begin (a masklen low high : Z) : Z :=
  ip_range_helper (shift_lsb a masklen) masklen low high.
(* src/ofp_rt_mtrie_lookup.c:458-465 *)
Definition ip_range_end (a masklen low high : Z) : Z :=
  let e := ip_range_helper (u32 (shift_lsb a masklen + 1)) masklen low high in
  if e =? 0 then Z.shiftl 1 (high - low) else e.
(* src/ofp_rt_mtrie_lookup.c:467-471 *)
Definition find_node (a low high : Z) : Z := shr32 (shl32 a low) (low + 32 - high).

(* src/ofp_rt_mtrie_lookup.c:422-425 *)
Definition inc_use_reference (s : st) (t : tid) : st :=
  set_tb s (updm (tb s) t 0 (set_ref (tb s t 0) (u16 (e_ref (tb s t 0) + 1)))).
(* src/ofp_rt_mtrie_lookup.c:427-431 *)
Definition dec_use_reference (s : st) (t : tid) : st :=
  let r := u16 (e_ref (tb s t 0) - 1) in
  let s := set_tb s (updm (tb s) t 0 (set_ref (tb s t 0) r)) in
  if r =? 0 then NODEFREE s t else s.

(* src/ofp_rt_mtrie_lookup.c:488-493: n = index_end - index *)
Fixpoint fill (m : mem) (t : tid) (index : Z) (n : nat) (masklen high d : Z) : mem :=
  match n with
  | O => m
  | S n' =>
    let e := m t index in
    let m := if (e_mlen e <=? masklen) || (e_mlen e >? high) then updm m t index (set_leaf e d masklen) else m in
    fill m t (index + 1) n' masklen high d
  end.

(* the levels visited by "for (; high <= IPV4_LENGTH; low = high, high += IPV4_LEVEL)" *)
Definition levels : list (Z * Z) := [(0, 16); (16, 24); (24, 32)].

(* src/ofp_rt_mtrie_lookup.c:481-510.  false = "return data" (NODEALLOC failed) *)
Fixpoint insert_levels (lv : list (Z * Z)) (s : st) (t : tid) (addr masklen d : Z) : st * bool :=
  match lv with
  | [] => (s, true)
  | (low, high) :: lv' =>
    let s := inc_use_reference s t in
    if masklen <=? high then
      let index := ip_range_begin addr masklen low high in
      let index_end := ip_range_end addr masklen low high in
      (set_tb s (fill (tb s) t index (Z.to_nat (index_end - index)) masklen high d), true)
    else
      let ix := find_node addr low high in
      let '(nx, s) :=
        match e_next (tb s t ix) with
        | Some j => (Some j, s)
        | None =>
          match NODEALLOC s with
          | (Some j, s) => (Some j, set_tb s (updm (tb s) t ix (set_next (tb s t ix) (Some j))))
          | (None, s) => (None, s)
          end
        end in
      match nx with
      | None => (s, false)
      | Some j =>
        let s := if e_mlen (tb s t ix) =? 0
                 then set_tb s (updm (tb s) t ix (set_mlen (tb s t ix) masklen)) else s in
        insert_levels lv' s (TS j) addr masklen d
      end
  end.

(* src/ofp_rt_mtrie_lookup.c:473-513.  masklen 0 shifts a uint32_t by 32 (lines 389, 447): UB in C
   ([hw] = false); with [hw] = true the hardware's modulo-32 shift is used. *)
Definition ofp_rtl_insert (hw : bool) (s : st) (v : nat) (a masklen d : Z) : outcome (st * bool) :=
  if (masklen <? 0) || (masklen >? 32) || ((masklen =? 0) && negb hw) then UB
  else Ret (insert_levels levels s (TR v) (to_network_prefix a masklen) masklen d).

(* src/ofp_rt_mtrie_lookup.c:199-210; the AVL search is a search by key *)
Definition rule_search (rs : list rule) (v : nat) (a masklen : Z) : option rule :=
  find (fun r => Nat.eqb (r_vrf r) v && (r_addr r =? to_network_prefix a masklen) && (r_mlen r =? masklen)) rs.

(* src/ofp_rt_mtrie_lookup.c:239-283; avl_insert is taken to succeed *)
Definition rule_add (s : st) (v : nat) (a masklen d : Z) : st :=
  match rule_search (rules s) v a masklen with
  | Some _ => set_rules s (map (fun r =>
      if Nat.eqb (r_vrf r) v && (r_addr r =? to_network_prefix a masklen) && (r_mlen r =? masklen)
      then mkRule (r_vrf r) (r_addr r) (r_mlen r) d else r) (rules s))
  | None =>
    if (length (rules s) <? cap s)%nat
    then set_rules s (mkRule v (to_network_prefix a masklen) masklen d :: rules s)
    else s
  end.

(* src/ofp_rt_mtrie_lookup.c:285-304 *)
Definition rule_remove (s : st) (v : nat) (a masklen : Z) : st :=
  set_rules s (filter (fun r =>
    negb (Nat.eqb (r_vrf r) v && (r_addr r =? to_network_prefix a masklen) && (r_mlen r =? masklen))) (rules s)).

(* src/ofp_rt_mtrie_lookup.c:399-415: mask = masklen - 1 downwards while > low *)
Fixpoint find_prefix_match (rs : list rule) (v : nat) (a : Z) (mask : nat) (low : Z) : option rule :=
  match mask with
  | O => None
  | S m' =>
    if Z.of_nat mask >? low then
      match rule_search rs v a (Z.of_nat mask) with
      | Some r => Some r
      | None => find_prefix_match rs v a m' low
      end
    else None
  end.

(* src/ofp_rt_mtrie_lookup.c:541-550 *)
Fixpoint clear (m : mem) (fl : option nat) (t : tid) (index : Z) (n : nat) (masklen high d : Z) : mem :=
  match n with
  | O => m
  | S n' =>
    let e := m t index in
    let is_last := match t, fl with TS i, Some l => Nat.eqb i l && (index =? 0) | _, _ => false end in
    let m :=
      if (e_mlen e =? masklen) && (e_data e =? d) then
        updm m t index (set_mlen e (match e_next e with
                                    | None => if is_last then high + 1 else 0
                                    | Some _ => high + 1 end))
      else m in
    clear m fl t (index + 1) n' masklen high d
  end.

Inductive rm_res := RmBreak (ins : option rule) | RmNull | RmEnd.

(* src/ofp_rt_mtrie_lookup.c:535-571 *)
Fixpoint remove_levels (lv : list (Z * Z)) (s : st) (t : tid) (v : nat) (addr masklen d : Z)
  : outcome (st * rm_res) :=
  match lv with
  | [] => Ret (s, RmEnd)
  | (low, high) :: lv' =>
    let s := dec_use_reference s t in
    if masklen <=? high then
      let index := ip_range_begin addr masklen low high in
      let index_end := ip_range_end addr masklen low high in
      let s := set_tb s (clear (tb s) (flast s) t index (Z.to_nat (index_end - index)) masklen high d) in
      Ret (s, RmBreak (find_prefix_match (rules s) v addr (Z.to_nat (masklen - 1)) low))
    else
      let ix := find_node addr low high in
      let elem := tb s t ix in
      if e_mlen elem =? 0 then Ret (s, RmNull)
      else
        match e_next elem with
        | None => UB                                          (* node = NULL; node->ref *)
        | Some j =>
          let s := if (e_ref (tb s (TS j) 0) =? 1) && (e_mlen elem >? high)
                   then set_tb s (updm (tb s) t ix (set_next (set_mlen elem 0) None)) else s in
          remove_levels lv' s (TS j) v addr masklen d
        end
  end.

(* src/ofp_rt_mtrie_lookup.c:515-582; result None = NULL, Some d = pointer to the rule's data *)
Definition ofp_rtl_remove (hw : bool) (s : st) (v : nat) (a masklen : Z) : outcome (st * option Z) :=
  match rule_search (rules s) v a masklen with
  | None => Ret (s, None)
  | Some r =>
    if (masklen <? 0) || (masklen >? 32) || ((masklen =? 0) && negb hw) then UB else
    obind (remove_levels levels s (TR v) v (to_network_prefix a masklen) masklen (r_data r)) (fun '(s, res) =>
    match res with
    | RmNull => Ret (s, None)
    | RmEnd => Ret (s, Some (r_data r))
    | RmBreak None => Ret (s, Some (r_data r))
    | RmBreak (Some ir) =>
      obind (ofp_rtl_insert hw s v (r_addr ir) (r_mlen ir) (r_data ir)) (fun '(s, _) => Ret (s, Some (r_data r)))
    end)
  end.

(* src/ofp_rt_mtrie_lookup.c:585-606 *)
Fixpoint search_levels (lv : list (Z * Z)) (m : mem) (t : tid) (addr : Z) (nh : option Z) : option Z :=
  match lv with
  | [] => nh
  | (low, high) :: lv' =>
    let e := m t (find_node addr low high) in
    if e_mlen e =? 0 then nh
    else
      let nh := if e_mlen e <=? high then Some (e_data e) else nh in
      match e_next e with None => nh | Some j => search_levels lv' m (TS j) addr nh end
  end.
Definition ofp_rtl_search (s : st) (v : nat) (addr : Z) : option Z := search_levels levels (tb s) (TR v) addr None.

(* src/ofp_route.c:183-249 (add_route) and 251-283 (del_route), without ARP and interface
   updates: the rule is added even when the insertion failed. *)
Definition exec (hw : bool) (s : st) (o : rop Z) : outcome (st * rres) :=
  match o with
  | Add v a n nh =>
      obind (ofp_rtl_insert hw s v a (Z.of_nat n) nh) (fun '(s, ok) =>
      Ret (rule_add s v a (Z.of_nat n) nh, if ok then Added else NoMemory))
  | Del v a n =>
      obind (ofp_rtl_remove hw s v a (Z.of_nat n)) (fun '(s, r) =>
      Ret (rule_remove s v a (Z.of_nat n), match r with Some d => Deleted d | None => NotFound end))
  end.
Fixpoint run (hw : bool) (s : st) (os : list (rop Z)) : outcome (st * list rres) :=
  match os with
  | [] => Ret (s, [])
  | o :: os' => obind (exec hw s o) (fun '(s, r) =>
                obind (run hw s os') (fun '(s, rs) => Ret (s, r :: rs)))
  end.
