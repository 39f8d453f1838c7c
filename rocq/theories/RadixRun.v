(* Histories of calls on the tries, as the route layer (src/ofp_route.c) makes them.
   IPv6: one table (default_routes_6) whatever the VRF (src/ofp_route.c:124-137, 285-335).
   IPv4: one root per VRF, one shared node pool (src/ofp_route.c:640-642). *)
From Verif Require Import Base RadixModel RadixSpec.

(* src/ofp_route.c:632 -> ofp_rtl6_init after ofp_rt_lookup_init_global *)
Definition init6 (N : nat) : option nat * pool := root_init NODEALLOC6 (init_pool N).

(* src/ofp_route.c:285-310 (add_route6), 312-335 (del_route6): one trie call under the write
   lock; the VRF of the message is ignored.  The answer is the trie's (add_route6 itself
   returns 0 whatever happens). *)
Definition exec6 (s : pool) (root : option nat) (o : rop (list Z)) : outcome (pool * rres) :=
  match o with
  | Add _ m n nh =>
      obind (ofp_rtl_insert6 s root m (Z.of_nat n) nh) (fun '(s, r) =>
      Ret (s, match r with InsNULL => Added | InsExisting _ => AlreadyThere | InsData => NoMemory end))
  | Del _ m n =>
      obind (ofp_rtl_remove6 s root m (Z.of_nat n)) (fun '(s, r) =>
      Ret (s, match r with Some p => Deleted (data (hp s p)) | None => NotFound end))
  end.

Fixpoint run6 (s : pool) (root : option nat) (os : list (rop (list Z))) : outcome (pool * list rres) :=
  match os with
  | [] => Ret (s, [])
  | o :: os' => obind (exec6 s root o) (fun '(s, r) =>
                obind (run6 s root os') (fun '(s, rs) => Ret (s, r :: rs)))
  end.

(* src/ofp_route.c:124-137: ofp_get_next_hop6 ignores its vrf argument *)
Definition ofp_get_next_hop6 (fuel : nat) (s : pool) (root : option nat) (vrf : nat) (m : list Z) : outcome (option Z) :=
  ofp_rtl_search6 fuel s root m.

(* src/ofp_route.c:640-642: ofp_rtl_root_init for each of the nvrf VRFs *)
Fixpoint init_roots (s : pool) (n : nat) : list (option nat) * pool :=
  match n with
  | O => ([], s)
  | S n' => let '(r, s) := root_init NODEALLOC4 s in
            let '(rs, s) := init_roots s n' in (r :: rs, s)
  end.
Definition init4 (N nvrf : nat) : list (option nat) * pool := init_roots (init_pool N) nvrf.

(* src/ofp_route.c:183-283 (add_route, del_route), without the ARP and interface updates;
   vrf_shm->fib[vrf] beyond the allocated VRFs is out of bounds *)
Definition exec4 (s : pool) (roots : list (option nat)) (o : rop Z) : outcome (pool * rres) :=
  match o with
  | Add v a n nh =>
      match nth_error roots v with
      | None => UB
      | Some root =>
        obind (ofp_rtl_insert4 s root a (Z.of_nat n) nh) (fun '(s, r) =>
        Ret (s, match r with InsNULL => Added | InsExisting _ => AlreadyThere | InsData => NoMemory end))
      end
  | Del v a n =>
      match nth_error roots v with
      | None => UB
      | Some root =>
        obind (ofp_rtl_remove4 s root a (Z.of_nat n)) (fun '(s, r) =>
        Ret (s, match r with Some p => Deleted (data (hp s p)) | None => NotFound end))
      end
  end.

Fixpoint run4 (s : pool) (roots : list (option nat)) (os : list (rop Z)) : outcome (pool * list rres) :=
  match os with
  | [] => Ret (s, [])
  | o :: os' => obind (exec4 s roots o) (fun '(s, r) =>
                obind (run4 s roots os') (fun '(s, rs) => Ret (s, r :: rs)))
  end.

(* src/ofp_route.c:443-460 *)
Definition ofp_get_next_hop4 (fuel : nat) (s : pool) (roots : list (option nat)) (vrf : nat) (a : Z)
  : outcome (option Z) :=
  match nth_error roots vrf with
  | None => UB
  | Some root => ofp_rtl_search4 fuel s root a
  end.
