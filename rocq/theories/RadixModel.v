(* Model of the binary route tries of src/ofp_rt_lookup.c: the IPv6 trie (identical text in
   src/ofp_rt_mtrie_lookup.c:130-170, 610-768) and the IPv4 trie of the non-MTRIE build.
   Memory is explicit: a heap maps node indices (position in node_list / node_list6) to nodes;
   pointers are [option nat].  The contents of struct ofp_nh_entry / ofp_nh6_entry are one
   integer token [data].  The reader/writer lock (OFP_LOCK_*(route)) makes each call atomic. *)
From Verif Require Import Base.

(* include/ofpi_rt_lookup.h:47-58, 70-76 (struct ofp_rtl_node, struct ofp_rtl6_node) *)
Record node := mkNode { flags : Z; data : Z; left : option nat; right : option nat }.
Definition VALID : Z := 1.                       (* OFP_RTL_FLAGS_VALID_DATA *)
Definition is_valid (n : node) : bool := negb (Z.land (flags n) VALID =? 0).
Definition zero_node : node := mkNode 0 0 None None.              (* memset 0 *)

Definition heap := nat -> node.
Definition upd (h : heap) (p : nat) (n : node) : heap :=
  fun q => if Nat.eqb q p then n else h q.
Definition set_left (n : node) (o : option nat) := mkNode (flags n) (data n) o (right n).
Definition set_right (n : node) (o : option nat) := mkNode (flags n) (data n) (left n) o.
Definition set_flags (n : node) (f : Z) := mkNode f (data n) (left n) (right n).

(* src/ofp_rt_lookup.c:38-48: pool state.  IPv6 uses [ffirst] as free_nodes6 and not [flast];
   IPv4 uses both ends (struct ofp_rtl_tailq).  global_stack is only written and read inside
   one call, it is a local list of the functions below. *)
Record pool := mkPool { hp : heap; ffirst : option nat; flast : option nat;
                        nalloc : Z; nmax : Z }.
Definition set_hp (s : pool) (h : heap) := mkPool h (ffirst s) (flast s) (nalloc s) (nmax s).

(* src/ofp_rt_lookup.c:83-90 *)
Definition NODEFREE6 (s : pool) (p : nat) : pool :=
  let h := upd (hp s) p (mkNode (flags (hp s p)) (data (hp s p)) None (ffirst s)) in
  let h := match ffirst s with Some q => upd h q (set_left (h q) (Some p)) | None => h end in
  mkPool h (Some p) (flast s) (nalloc s - 1) (nmax s).

(* src/ofp_rt_lookup.c:92-103 *)
Definition NODEALLOC6 (s : pool) : option nat * pool :=
  match ffirst s with
  | None => (None, s)
  | Some p =>
    let h := upd (hp s) p (set_left (hp s p) None) in
    let n := nalloc s + 1 in
    (Some p, mkPool h (right (h p)) (flast s) n (if n >? nmax s then n else nmax s))
  end.

(* src/ofp_rt_lookup.c:55-65 *)
Definition NODEFREE4 (s : pool) (p : nat) : pool :=
  let h := upd (hp s) p (mkNode (flags (hp s p)) (data (hp s p)) (flast s) None) in
  match flast s with
  | Some l => mkPool (upd h l (set_right (h l) (Some p))) (ffirst s) (Some p) (nalloc s - 1) (nmax s)
  | None => mkPool h (Some p) (Some p) (nalloc s - 1) (nmax s)
  end.

(* src/ofp_rt_lookup.c:67-81 *)
Definition NODEALLOC4 (s : pool) : option nat * pool :=
  match ffirst s with
  | None => (None, s)
  | Some p =>
    let f := right (hp s p) in
    let n := nalloc s + 1 in
    let m := if n >? nmax s then n else nmax s in
    match f with
    | Some q => (Some p, mkPool (upd (hp s) q (set_left (hp s q) None)) f (flast s) n m)
    | None => (Some p, mkPool (hp s) f None n m)
    end
  end.

(* src/ofp_rt_lookup.c:646-672: the pool of N nodes after ofp_rt_lookup_init_global.
   (N = ROUTE4_NODES = ROUTE6_NODES = 65536 in include/api/ofp_config.h:130-134; the theorems
   hold for every N.) *)
Definition init_heap (N : nat) : heap := fun i =>
  if (i <? N)%nat
  then mkNode 0 0 (if Nat.eqb i 0 then None else Some (i - 1)%nat)
                  (if Nat.eqb i (N - 1) then None else Some (i + 1)%nat)
  else zero_node.
Definition init_pool (N : nat) : pool :=
  match N with
  | O => mkPool (init_heap 0) None None 0 0
  | S k => mkPool (init_heap N) (Some O) (Some k) 0 0
  end.

(* src/ofp_rt_lookup.c:110-123 (ofp_rtl6_init) and 125-140 (ofp_rtl_root_init) *)
Definition root_init (alloc : pool -> option nat * pool) (s : pool) : option nat * pool :=
  match alloc s with
  | (None, s) => (None, s)
  | (Some p, s) => (Some p, set_hp s (upd (hp s) p (mkNode 0 (data (hp s p)) None None)))
  end.

(* include/ofpi_rt_lookup.h:140-145.  The address is the memory at p: a list of bytes, reading
   beyond it is UB. *)
Definition rt_bit_set (m : list Z) (bit : Z) : outcome bool :=
  match nth_error m (Z.to_nat (bit / 8)) with
  | Some b => Ret (negb (Z.land b (Z.shiftl 1 (7 - bit mod 8)) =? 0))
  | None => UB
  end.

Definition child (n : node) (b : bool) : option nat := if b then right n else left n.
Definition set_child (n : node) (b : bool) (o : option nat) : node :=
  if b then set_right n o else set_left n o.

(* ------------------------------------------------------------------ IPv6 *)

(* src/ofp_rt_lookup.c:402-408 and 497-506: the descent.  [k] = masklen - depth; [bit] = depth.
   Returns node, the nodes passed (last one first: stack[depth-1]..stack[0]), and depth. *)
Fixpoint walk6 (m : list Z) (h : heap) (k : nat) (bit : Z) (nd : option nat) (stack : list nat)
  : outcome (option nat * list nat * Z) :=
  match k, nd with
  | S k', Some p =>
      obind (rt_bit_set m bit) (fun b => walk6 m h k' (bit + 1) (child (h p) b) (p :: stack))
  | _, _ => Ret (nd, stack, bit)
  end.

(* src/ofp_rt_lookup.c:434-451: the chain of inner nodes, k = masklen - depth of them.
   inl = finished (node, bit), inr = goto nomem. *)
Fixpoint chain6 (m : list Z) (s : pool) (k : nat) (bit : Z) (nd : nat)
  : outcome (pool * (nat * Z) * bool) :=
  match k with
  | O => Ret (s, (nd, bit), true)
  | S k' =>
    match NODEALLOC6 s with
    | (None, s) => Ret (s, (nd, bit), false)
    | (Some t, s) =>
      obind (rt_bit_set m bit) (fun b =>
      let s := set_hp s (upd (hp s) t (set_child zero_node b (Some nd))) in
      chain6 m s k' (bit - 1) t)
    end
  end.

(* src/ofp_rt_lookup.c:467-481 *)
Fixpoint nomem6 (m : list Z) (fuel : nat) (s : pool) (nd : option nat) (bit : Z) : outcome pool :=
  match nd with
  | None => Ret s
  | Some p =>
    match fuel with
    | O => Diverge
    | S f =>
      let bit := bit + 1 in
      obind (rt_bit_set m bit) (fun b =>
      let tmp := child (hp s p) b in
      nomem6 m f (NODEFREE6 s p) tmp bit)
    end
  end.

(* result of the insert functions: NULL, the data argument, or the entry already stored *)
Inductive ins_ret := InsNULL | InsData | InsExisting (p : nat).

(* src/ofp_rt_lookup.c:390-484 *)
Definition ofp_rtl_insert6 (s : pool) (root : option nat) (m : list Z) (masklen : Z) (d : Z)
  : outcome (pool * ins_ret) :=
  obind (walk6 m (hp s) (Z.to_nat masklen) 0 root []) (fun '(nd, stack, depth) =>
  match nd with
  | Some p =>
      if flags (hp s p) =? VALID then Ret (s, InsExisting p)
      else Ret (set_hp s (upd (hp s) p (mkNode VALID d (left (hp s p)) (right (hp s p)))), InsNULL)
  | None =>
    match NODEALLOC6 s with
    | (None, s) => Ret (s, InsData)
    | (Some p, s) =>
      let s := set_hp s (upd (hp s) p (mkNode VALID d None None)) in
      let bit := u32 (masklen - 1) in
      obind (chain6 m s (Z.to_nat (masklen - depth)) bit p) (fun '(s, (nd, bit), ok) =>
      if ok then
        match stack with
        | [] => Ret (s, InsData)                              (* "!last" *)
        | last :: _ =>
          obind (rt_bit_set m bit) (fun b =>
          Ret (set_hp s (upd (hp s) last (set_child (hp s last) b (Some nd))), InsNULL))
        end
      else obind (nomem6 m (S (Z.to_nat masklen)) s (Some nd) bit) (fun s => Ret (s, InsData)))
    end
  end).

(* src/ofp_rt_lookup.c:524-543: the do loop; [stack] is stack[depth]..stack[0] *)
Fixpoint unwind6 (m : list Z) (s : pool) (stack : list nat) (bit : Z) : outcome pool :=
  match stack with
  | [] => UB                                                  (* stack[-1] *)
  | p :: rest =>
    obind (rt_bit_set m bit) (fun b =>
    let h := upd (hp s) p (set_child (hp s p) b None) in
    let s := set_hp s h in
    match child (h p) (negb b), is_valid (h p), rest with
    | Some _, _, _ => Ret s
    | None, true, _ => Ret s
    | None, false, [] => Ret s                                (* depth == 0 *)
    | None, false, _ => unwind6 m (NODEFREE6 s p) rest (bit - 1)
    end)
  end.

(* src/ofp_rt_lookup.c:486-546.  Returns the index of the node whose data is returned, or NULL.
   global_stack6 has 129 entries (line 45): a longer descent would be an overflow. *)
Definition ofp_rtl_remove6 (s : pool) (root : option nat) (m : list Z) (masklen : Z)
  : outcome (pool * option nat) :=
  obind (walk6 m (hp s) (Z.to_nat masklen) 0 root []) (fun '(nd, stack, depth) =>
  if (129 <? length stack)%nat then UB else
  match nd with
  | None => Ret (s, None)
  | Some p =>
    if negb (is_valid (hp s p)) then Ret (s, None)
    else
      let s := set_hp s (upd (hp s) p (set_flags (hp s p) 0)) in
      match left (hp s p), right (hp s p) with
      | None, None =>
        if depth =? 0 then Ret (s, Some p)
        else obind (unwind6 m (NODEFREE6 s p) stack (masklen - 1)) (fun s => Ret (s, Some p))
      | _, _ => Ret (s, Some p)
      end
  end).

(* include/ofpi_rt_lookup.h:166-177; [fuel] bounds the for loop *)
Fixpoint search6 (m : list Z) (h : heap) (fuel : nat) (nd : option nat) (bit : Z) (mt : option nat)
  : outcome (option nat) :=
  match nd with
  | None => Ret mt
  | Some p =>
    match fuel with
    | O => Diverge
    | S f =>
      let mt := if is_valid (h p) then Some p else mt in
      obind (rt_bit_set m bit) (fun b => search6 m h f (child (h p) b) (bit + 1) mt)
    end
  end.
(* the data of the matched node, as the caller reads it *)
Definition ofp_rtl_search6 (fuel : nat) (s : pool) (root : option nat) (m : list Z) : outcome (option Z) :=
  obind (search6 m (hp s) fuel root 0 None) (fun mt =>
  Ret (match mt with Some p => Some (data (hp s p)) | None => None end)).

(* ------------------------------------------------------------------ IPv4, non-MTRIE *)
(* Addresses are uint32_t in host order (odp_be_to_cpu_32 applied by the caller of the model). *)

(* src/ofp_rt_lookup.c:155-166, 259-268, 290-299 *)
Fixpoint walk4 (addr : Z) (h : heap) (k : nat) (mask : Z) (depth : Z) (nd : option nat) (stack : list nat)
  : option nat * list nat * Z :=
  match k, nd with
  | S k', Some p =>
      walk4 addr h k' (Z.shiftr mask 1) (depth + 1)
            (child (h p) (negb (Z.land addr mask =? 0))) (p :: stack)
  | _, _ => (nd, stack, depth)
  end.

(* src/ofp_rt_lookup.c:188-208 *)
Fixpoint chain4 (addr : Z) (s : pool) (k : nat) (mask : Z) (nd : nat) : pool * (nat * Z) * bool :=
  match k with
  | O => (s, (nd, mask), true)
  | S k' =>
    match NODEALLOC4 s with
    | (None, s) => (s, (nd, mask), false)
    | (Some t, s) =>
      let s := set_hp s (upd (hp s) t (set_child zero_node (negb (Z.land addr mask =? 0)) (Some nd))) in
      chain4 addr s k' (u32 (Z.shiftl mask 1)) t
    end
  end.

(* src/ofp_rt_lookup.c:224-238 *)
Fixpoint nomem4 (addr : Z) (fuel : nat) (s : pool) (nd : option nat) (mask : Z) : outcome pool :=
  match nd with
  | None => Ret s
  | Some p =>
    match fuel with
    | O => Diverge
    | S f =>
      let mask := Z.shiftr mask 1 in
      let tmp := child (hp s p) (negb (Z.land addr mask =? 0)) in
      nomem4 addr f (NODEFREE4 s p) tmp mask
    end
  end.

(* src/ofp_rt_lookup.c:144-242.  (~0U) << (32-masklen) is UB unless 1 <= masklen <= 32 (line
   152).  Line 187 shifts the int 1 by up to 31; gcc gives 0x80000000 for 31, modelled so. *)
Definition ofp_rtl_insert4 (s : pool) (root : option nat) (a : Z) (masklen : Z) (d : Z)
  : outcome (pool * ins_ret) :=
  if (masklen <? 1) || (masklen >? 32) then UB else
  let addr := Z.land a (u32 (Z.shiftl 4294967295 (32 - masklen))) in
  let '(nd, stack, depth) := walk4 addr (hp s) (Z.to_nat masklen) 2147483648 0 root [] in
  match nd with
  | Some p => Ret (set_hp s (upd (hp s) p (mkNode VALID d (left (hp s p)) (right (hp s p)))), InsNULL)
  | None =>
    match NODEALLOC4 s with
    | (None, s) => Ret (s, InsData)
    | (Some p, s) =>
      let s := set_hp s (upd (hp s) p (mkNode VALID d None None)) in
      let mask := u32 (Z.shiftl 1 (32 - masklen)) in
      let '(s, (nd, mask), ok) := chain4 addr s (Z.to_nat (masklen - depth)) mask p in
      if ok then
        match stack with
        | [] => Ret (s, InsData)
        | last :: _ =>
          Ret (set_hp s (upd (hp s) last
                 (set_child (hp s last) (negb (Z.land addr mask =? 0)) (Some nd))), InsNULL)
        end
      else obind (nomem4 addr (S (Z.to_nat masklen)) s (Some nd) mask) (fun s => Ret (s, InsData))
    end
  end.

(* src/ofp_rt_lookup.c:319-339 *)
Fixpoint unwind4 (addr : Z) (s : pool) (stack : list nat) (mask : Z) : outcome pool :=
  match stack with
  | [] => UB
  | p :: rest =>
    let b := negb (Z.land addr mask =? 0) in
    let h := upd (hp s) p (set_child (hp s p) b None) in
    let s := set_hp s h in
    match child (h p) (negb b), is_valid (h p), rest with
    | Some _, _, _ => Ret s
    | None, true, _ => Ret s
    | None, false, [] => Ret s
    | None, false, _ => unwind4 addr (NODEFREE4 s p) rest (u32 (Z.shiftl mask 1))
    end
  end.

(* src/ofp_rt_lookup.c:278-342; global_stack has 65 entries (line 39).  The address is not
   masked here: only its first masklen bits are looked at. *)
Definition ofp_rtl_remove4 (s : pool) (root : option nat) (addr : Z) (masklen : Z)
  : outcome (pool * option nat) :=
  let '(nd, stack, depth) := walk4 addr (hp s) (Z.to_nat masklen) 2147483648 0 root [] in
  if (65 <? length stack)%nat then UB else
  match nd with
  | None => Ret (s, None)
  | Some p =>
    if negb (is_valid (hp s p)) then Ret (s, None)
    else
      let s := set_hp s (upd (hp s) p (set_flags (hp s p) 0)) in
      match left (hp s p), right (hp s p) with
      | None, None =>
        if depth =? 0 then Ret (s, Some p)
        else obind (unwind4 addr (NODEFREE4 s p) stack (u32 (Z.shiftl 1 (32 - depth)))) (fun s => Ret (s, Some p))
      | _, _ => Ret (s, Some p)
      end
  end.

(* include/ofpi_rt_lookup.h:106-131; match_table has 65 entries *)
Fixpoint search4 (addr : Z) (h : heap) (fuel : nat) (nd : option nat) (mask : Z) (mt : list nat)
  : outcome (list nat) :=
  match nd with
  | None => Ret mt
  | Some p =>
    match fuel with
    | O => Diverge
    | S f =>
      let mt := if is_valid (h p) then p :: mt else mt in
      if (65 <? length mt)%nat then UB else
      search4 addr h f (child (h p) (negb (Z.land addr mask =? 0))) (Z.shiftr mask 1) mt
    end
  end.
Definition ofp_rtl_search4 (fuel : nat) (s : pool) (root : option nat) (addr : Z) : outcome (option Z) :=
  obind (search4 addr (hp s) fuel root 2147483648 []) (fun mt =>
  Ret (match mt with p :: _ => Some (data (hp s p)) | [] => None end)).

(* src/ofp_rt_lookup.c:246-275: no test of the VALID flag *)
Definition ofp_rtl_search_exact (s : pool) (root : option nat) (addr : Z) (masklen : Z) : option Z :=
  let '(nd, _, _) := walk4 addr (hp s) (Z.to_nat masklen) 2147483648 0 root [] in
  match nd with Some p => Some (data (hp s p)) | None => None end.
