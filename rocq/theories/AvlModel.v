(* The AVL tree of src/ofp_avl.c, include/ofpi_avl.h, pointer by pointer.
   Nodes live in one pool shared by all trees; a node is named by its index in
   node_list + 1 and 0 is NULL. Keys are the void pointers as integers, 0 = NULL.
   rank_and_balance is kept as two fields; the rank has 30 bits. A write lock is
   held over every function that writes, so a call is one step. *)
From Verif Require Import Base AvlSpec.

(* ofpi_avl.h:30-47 *)
Record anode := mkN { n_key : Z; n_left : nat; n_right : nat; n_parent : nat; n_rank : Z; n_bal : Z }.
Notation heap := (nat -> anode).
Definition upd (h : heap) (a : nat) (n : anode) : heap := fun x => if Nat.eqb x a then n else h x.

Definition w_key n v := mkN v (n_left n) (n_right n) (n_parent n) (n_rank n) (n_bal n).
Definition w_left n v := mkN (n_key n) v (n_right n) (n_parent n) (n_rank n) (n_bal n).
Definition w_right n v := mkN (n_key n) (n_left n) v (n_parent n) (n_rank n) (n_bal n).
Definition w_parent n v := mkN (n_key n) (n_left n) (n_right n) v (n_rank n) (n_bal n).
Definition w_rank n v := mkN (n_key n) (n_left n) (n_right n) (n_parent n) (v mod 1073741824) (n_bal n).
Definition w_bal n v := mkN (n_key n) (n_left n) (n_right n) (n_parent n) (n_rank n) v.
(* x->key = v and so on; AVL_SET_RANK and AVL_SET_BALANCE of ofpi_avl.h:49-59 *)
Definition set_key (h : heap) a v := upd h a (w_key (h a) v).
Definition set_left (h : heap) a v := upd h a (w_left (h a) v).
Definition set_right (h : heap) a v := upd h a (w_right (h a) v).
Definition set_parent (h : heap) a v := upd h a (w_parent (h a) v).
Definition set_rank (h : heap) a v := upd h a (w_rank (h a) v).
Definition set_bal (h : heap) a v := upd h a (w_bal (h a) v).
(* if (x) x->parent = v *)
Definition set_parent_nn (h : heap) a v := if Nat.eqb a 0 then h else set_parent h a v.

(* statements executed in order *)
Fixpoint run (fs : list (heap -> heap)) (h : heap) : heap := match fs with [] => h | f :: fs => run fs (f h) end.

(* the pool, ofp_avl.c:59-66; free_nodes as a list (the C links it by ->right) *)
Record apool := mkPool { p_heap : heap; p_free : list nat }.
(* ofpi_avl.h:72-83; comparison function kept apart *)
Record atree := mkTree { t_root : nat; t_height : Z; t_length : Z }.

(* 74-79 *)
Definition node_free (h : heap) (free : list nat) (x : nat) : heap * list nat :=
  (set_right h x (hd 0%nat free), x :: free).
(* 81-91, 108-129 *)
Definition node_new (h : heap) (free : list nat) (key : Z) (parent : nat) : option (heap * list nat * nat) :=
  match free with
  | [] => None
  | q :: free' => Some (upd h q (mkN key 0 0 parent 1 0), free', q)
  end.

Definition avl_tree_new (p : apool) : option (apool * atree) :=      (* 131-155 *)
  match node_new (p_heap p) (p_free p) 0 0 with
  | None => None
  | Some (h, free, r) => Some (mkPool h free, mkTree r 0 0)
  end.

(* avl_tree_free_helper 157-174: in order, frees the keys and then the nodes;
   returns the keys handed to free_key_fun *)
Fixpoint free_helper (fuel : nat) (h : heap) (free : list nat) (x : nat) : outcome (heap * list nat * list Z) :=
  match fuel with
  | O => Diverge
  | S f =>
    if Nat.eqb x 0 then UB else
    obind (if Nat.eqb (n_left (h x)) 0 then Ret (h, free, []) else free_helper f h free (n_left (h x))) (fun '(h1, fr1, k1) =>
    obind (if Nat.eqb (n_right (h1 x)) 0 then Ret (h1, fr1, []) else free_helper f h1 fr1 (n_right (h1 x))) (fun '(h2, fr2, k2) =>
    let '(h3, fr3) := node_free h2 fr2 x in
    Ret (h3, fr3, k1 ++ n_key (h1 x) :: k2)))
  end.
Definition avl_tree_free (fuel : nat) (p : apool) (t : atree) : outcome (apool * list Z) :=     (* 176-191 *)
  obind (if t_length t =? 0 then Ret (p_heap p, p_free p, []) else
         free_helper fuel (p_heap p) (p_free p) (n_right (p_heap p (t_root t)))) (fun '(h, fr, ks) =>
  let '(h', fr') := node_free h fr (t_root t) in Ret (mkPool h' fr', ks)).

Section CMP.
Variable cmp : Z -> Z -> Z.     (* compare_fun with its compare_arg *)

(* the loop 218-262; result: heap, t, s, p, and whether q is p's left child *)
Fixpoint ins_walk (fuel : nat) (h : heap) (k : Z) (t s p : nat) : outcome (heap * nat * nat * nat * bool) :=
  match fuel with
  | O => Diverge
  | S f =>
    if Nat.eqb p 0 then UB else
    if cmp k (n_key (h p)) <? 1 then
      let h := set_rank h p (n_rank (h p) + 1) in
      let q := n_left (h p) in
      if Nat.eqb q 0 then Ret (h, t, s, p, true)
      else if negb (n_bal (h q) =? 0) then ins_walk f h k p q q else ins_walk f h k t s q
    else
      let q := n_right (h p) in
      if Nat.eqb q 0 then Ret (h, t, s, p, false)
      else if negb (n_bal (h q) =? 0) then ins_walk f h k p q q else ins_walk f h k t s q
  end.

(* 272-280 *)
Fixpoint ins_bal (fuel : nat) (h : heap) (k : Z) (p q : nat) : outcome heap :=
  match fuel with
  | O => Diverge
  | S f =>
    if Nat.eqb p q then Ret h else if Nat.eqb p 0 then UB else
    if cmp k (n_key (h p)) <? 1 then let h := set_bal h p (-1) in ins_bal f h k (n_left (h p)) q
    else let h := set_bal h p 1 in ins_bal f h k (n_right (h p)) q
  end.

(* 303-325 *)
Definition ins_single (h : heap) (a : Z) (s r : nat) : heap :=
  run ((if a =? -1 then
      [fun h => set_left h s (n_right (h r));
       fun h => set_parent_nn h (n_right (h r)) s;
       fun h => set_right h r s;
       fun h => set_parent h s r;
       fun h => set_rank h s (n_rank (h s) - n_rank (h r))]
    else
      [fun h => set_right h s (n_left (h r));
       fun h => set_parent_nn h (n_left (h r)) s;
       fun h => set_left h r s;
       fun h => set_parent h s r;
       fun h => set_rank h r (n_rank (h r) + n_rank (h s))]) ++
    [fun h => set_bal h s 0; fun h => set_bal h r 0]) h.

(* 326-373 *)
Definition ins_double (h : heap) (a : Z) (s r : nat) : outcome (heap * nat) :=
  let p := if a =? -1 then n_right (h r) else n_left (h r) in
  if Nat.eqb p 0 then UB else
  let h := run (if a =? -1 then
      [fun h => set_right h r (n_left (h p));
       fun h => set_parent_nn h (n_left (h p)) r;
       fun h => set_left h p r;
       fun h => set_parent h r p;
       fun h => set_left h s (n_right (h p));
       fun h => set_parent_nn h (n_right (h p)) s;
       fun h => set_right h p s;
       fun h => set_parent h s p;
       fun h => set_rank h p (n_rank (h p) + n_rank (h r));
       fun h => set_rank h s (n_rank (h s) - n_rank (h p))]
    else
      [fun h => set_left h r (n_right (h p));
       fun h => set_parent_nn h (n_right (h p)) r;
       fun h => set_right h p r;
       fun h => set_parent h r p;
       fun h => set_right h s (n_left (h p));
       fun h => set_parent_nn h (n_left (h p)) s;
       fun h => set_left h p s;
       fun h => set_parent h s p;
       fun h => set_rank h r (n_rank (h r) - n_rank (h p));
       fun h => set_rank h p (n_rank (h p) + n_rank (h s))]) h in
  let '(sb, rb) := if n_bal (h p) =? a then (- a, 0) else if n_bal (h p) =? - a then (0, a) else (0, 0) in
  Ret (run [fun h => set_bal h s sb; fun h => set_bal h r rb; fun h => set_bal h p 0] h, p).

(* 374-381 *)
Definition ins_link (h : heap) (t s p : nat) : heap :=
  let h := if Nat.eqb s (n_right (h t)) then set_right h t p else set_left h t p in
  set_parent h p t.

(* 193-386 *)
Definition avl_insert (fuel : nat) (p : apool) (ob : atree) (k : Z) : outcome (apool * atree * Z) :=
  let h := p_heap p in
  if Nat.eqb (n_right (h (t_root ob))) 0 then
    match node_new h (p_free p) k (t_root ob) with
    | None => Ret (p, ob, -1)
    | Some (h, free, q) =>
        Ret (mkPool (set_right h (t_root ob) q) free, mkTree (t_root ob) (t_height ob) (t_length ob + 1), 0)
    end
  else
    let s0 := n_right (h (t_root ob)) in
    obind (ins_walk fuel h k (t_root ob) s0 s0) (fun '(h, t, s, pp, isleft) =>
    match node_new h (p_free p) k pp with
    | None => Ret (mkPool h (p_free p), ob, -1)
    | Some (h, free, q) =>
      let h := if isleft then set_left h pp q else set_right h pp q in
      let len := t_length ob + 1 in
      let r := if cmp k (n_key (h s)) <? 1 then n_left (h s) else n_right (h s) in
      obind (ins_bal fuel h k r q) (fun h =>
      let a := if cmp k (n_key (h s)) <? 1 then -1 else 1 in
      if n_bal (h s) =? 0 then
        Ret (mkPool (set_bal h s a) free, mkTree (t_root ob) (t_height ob + 1) len, 0)
      else if n_bal (h s) =? - a then
        Ret (mkPool (set_bal h s 0) free, mkTree (t_root ob) (t_height ob) len, 0)
      else if n_bal (h s) =? a then
        obind (if n_bal (h r) =? a then Ret (ins_single h a s r, r)
               else if n_bal (h r) =? - a then ins_double h a s r
               else Ret (h, q)) (fun '(h, p) =>       (* p is then what the loop 272-280 left: q *)
        Ret (mkPool (ins_link h t s p) free, mkTree (t_root ob) (t_height ob) len, 0))
      else Ret (mkPool h free, mkTree (t_root ob) (t_height ob) len, 0))
    end).

(* 388-409, m = index + 1 in 64 bits *)
Fixpoint by_index (fuel : nat) (h : heap) (p : nat) (m : Z) : outcome (option Z) :=
  match fuel with
  | O => Diverge
  | S f =>
    if Nat.eqb p 0 then Ret None else
    if m <? n_rank (h p) then by_index f h (n_left (h p)) m
    else if m >? n_rank (h p) then by_index f h (n_right (h p)) (m - n_rank (h p))
    else Ret (Some (n_key (h p)))
  end.
Definition avl_get_by_index (fuel : nat) (p : apool) (t : atree) (index : Z) : outcome (option Z) :=
  by_index fuel (p_heap p) (n_right (p_heap p (t_root t))) (u64 (index + 1)).

(* 411-447 *)
Fixpoint by_key (fuel : nat) (h : heap) (x : nat) (k : Z) : outcome (option Z) :=
  match fuel with
  | O => Diverge
  | S f =>
    if Nat.eqb x 0 then Ret None else
    let c := cmp k (n_key (h x)) in
    if c <? 0 then by_key f h (n_left (h x)) k
    else if c >? 0 then by_key f h (n_right (h x)) k
    else Ret (Some (n_key (h x)))
  end.
Definition avl_get_by_key (fuel : nat) (p : apool) (t : atree) (k : Z) : outcome (option Z) :=
  by_key fuel (p_heap p) (n_right (p_heap p (t_root t))) k.

(* 449-485: search for the node to delete *)
Inductive dfound := DFound (x : nat) | DMissL (x : nat) | DMissR (x : nat).
Fixpoint del_walk (fuel : nat) (h : heap) (k : Z) (x : nat) : outcome (heap * dfound) :=
  match fuel with
  | O => Diverge
  | S f =>
    if Nat.eqb x 0 then UB else
    let c := cmp k (n_key (h x)) in
    if c <? 0 then
      let h := set_rank h x (n_rank (h x) - 1) in
      if negb (Nat.eqb (n_left (h x)) 0) then del_walk f h k (n_left (h x)) else Ret (h, DMissL x)
    else if c >? 0 then
      if negb (Nat.eqb (n_right (h x)) 0) then del_walk f h k (n_right (h x)) else Ret (h, DMissR x)
    else Ret (h, DFound x)
  end.
(* 458-464, 472-478: undo the rank changes up to the root *)
Fixpoint del_undo (fuel : nat) (h : heap) (x top : nat) : outcome heap :=
  match fuel with
  | O => Diverge
  | S f =>
    if Nat.eqb x top then Ret h else
    let p := n_parent (h x) in
    if Nat.eqb p 0 then UB else
    let h := if Nat.eqb (n_left (h p)) x then set_rank h p (n_rank (h p) + 1) else h in
    del_undo f h p top
  end.

(* 496-498 *)
Fixpoint rightmost (fuel : nat) (h : heap) (y : nat) : outcome nat :=
  match fuel with
  | O => Diverge
  | S f => if Nat.eqb (n_right (h y)) 0 then Ret y else rightmost f h (n_right (h y))
  end.
Fixpoint leftmost (fuel : nat) (h : heap) (y : nat) : outcome nat :=
  match fuel with
  | O => Diverge
  | S f => if Nat.eqb (n_left (h y)) 0 then Ret y else leftmost f h (n_left (h y))
  end.

(* the two single rotations of cases 3a, 3b: 568-588, 595-615 *)
Definition del_single (h : heap) (side : Z) (p q : nat) : heap :=
  run (if side =? -1 then
    [fun h => set_parent h q (n_parent (h p));
     fun h => set_right h p (n_left (h q));
     fun h => set_parent_nn h (n_left (h q)) p;
     fun h => set_left h q p;
     fun h => set_parent h p q;
     fun h => set_rank h q (n_rank (h q) + n_rank (h p))]
  else
    [fun h => set_parent h q (n_parent (h p));
     fun h => set_left h p (n_right (h q));
     fun h => set_parent_nn h (n_right (h q)) p;
     fun h => set_right h q p;
     fun h => set_parent h p q;
     fun h => set_rank h p (n_rank (h p) - n_rank (h q))]) h.

(* case 3c: 622-674 *)
Definition del_double (h : heap) (side : Z) (p q : nat) : outcome (heap * nat) :=
  let r := if side =? 1 then n_right (h q) else n_left (h q) in
  if Nat.eqb r 0 then UB else
  let h := run ((fun h => set_parent h r (n_parent (h p))) :: if side =? 1 then
      [fun h => set_right h q (n_left (h r));
       fun h => set_parent_nn h (n_left (h r)) q;
       fun h => set_left h r q;
       fun h => set_parent h q r;
       fun h => set_left h p (n_right (h r));
       fun h => set_parent_nn h (n_right (h r)) p;
       fun h => set_right h r p;
       fun h => set_parent h p r;
       fun h => set_rank h r (n_rank (h r) + n_rank (h q));
       fun h => set_rank h p (n_rank (h p) - n_rank (h r))]
    else
      [fun h => set_left h q (n_right (h r));
       fun h => set_parent_nn h (n_right (h r)) q;
       fun h => set_right h r q;
       fun h => set_parent h q r;
       fun h => set_right h p (n_left (h r));
       fun h => set_parent_nn h (n_left (h r)) p;
       fun h => set_left h r p;
       fun h => set_parent h p r;
       fun h => set_rank h q (n_rank (h q) - n_rank (h r));
       fun h => set_rank h r (n_rank (h r) + n_rank (h p))]) h in
  let '(qb, pb) := if n_bal (h r) =? side then (- side, 0) else if n_bal (h r) =? - side then (0, side) else (0, 0) in
  Ret (run [fun h => set_bal h q qb; fun h => set_bal h p pb; fun h => set_bal h r 0] h, r).

(* the loop 545-697 *)
Fixpoint del_climb (fuel : nat) (h : heap) (p : nat) (side : Z) : outcome heap :=
  match fuel with
  | O => Diverge
  | S f =>
    if Nat.eqb p 0 then UB else
    if Nat.eqb (n_parent (h p)) 0 then Ret h else
    obind (if n_bal (h p) =? 0 then
             Ret (set_bal h p (if side =? -1 then 1 else -1), p, false)
           else if n_bal (h p) =? side then Ret (set_bal h p 0, p, true)
           else
             let top := n_parent (h p) in
             let q := if side =? 1 then n_left (h p) else n_right (h p) in
             if Nat.eqb q 0 then UB else
             obind (if n_bal (h q) =? 0 then
                      Ret (set_bal (set_bal (del_single h side p q) q side) p (- side), q, false)
                    else if n_bal (h q) =? n_bal (h p) then
                      Ret (set_bal (set_bal (del_single h side p q) q 0) p 0, q, true)
                    else obind (del_double h side p q) (fun '(h, r) => Ret (h, r, true))) (fun '(h, q, sh) =>
             Ret (if Nat.eqb (n_left (h top)) p then set_left h top q else set_right h top q, q, sh))) (fun '(h, x, shorter) =>
    let p := n_parent (h x) in
    let side := if Nat.eqb x (n_left (h p)) then -1 else 1 in
    if shorter then del_climb f h p side else Ret h)
  end.

(* 449-702; the third component: the key handed to free_key_fun *)
Definition avl_delete (fuel : nat) (p : apool) (t : atree) (k : Z) : outcome (apool * atree * option Z) :=
  let h := p_heap p in
  let top := n_right (h (t_root t)) in
  if Nat.eqb top 0 then Ret (p, t, None) else
  obind (del_walk fuel h k top) (fun '(h, d) =>
  match d with
  | DMissL x | DMissR x =>
      obind (del_undo fuel (set_rank h x (n_rank (h x) + 1)) x top) (fun h => Ret (mkPool h (p_free p), t, None))
  | DFound x =>
    obind (if negb (Nat.eqb (n_left (h x)) 0) && negb (Nat.eqb (n_right (h x)) 0) then
             obind (rightmost fuel h (n_left (h x))) (fun y =>
             let kx := n_key (h x) in
             let h := set_key h x (n_key (h y)) in
             let h := set_key h y kx in
             Ret (set_rank h x (n_rank (h x) - 1), y))
           else Ret (h, x)) (fun '(h, x) =>
    let c := if negb (Nat.eqb (n_left (h x)) 0) then n_left (h x) else n_right (h x) in
    let h := set_parent_nn h c (n_parent (h x)) in
    let par := n_parent (h x) in
    let side := if Nat.eqb x (n_left (h par)) then -1 else 1 in
    let h := if Nat.eqb x (n_left (h par)) then set_left h par c else set_right h par c in
    let kx := n_key (h x) in
    let '(h, free) := node_free h (p_free p) x in
    obind (del_climb fuel h par side) (fun h =>
    Ret (mkPool h free, mkTree (t_root t) (t_height t) (t_length t - 1), Some kx)))
  end).

(* 704-740; result: the keys iter_fun was called on, in order, until it returns non-zero *)
Fixpoint iter_inorder (fuel : nat) (h : heap) (x : nat) (iter : Z -> Z) : outcome (list Z * Z) :=
  match fuel with
  | O => Diverge
  | S f =>
    if Nat.eqb x 0 then UB else
    obind (if Nat.eqb (n_left (h x)) 0 then Ret ([], 0) else iter_inorder f h (n_left (h x)) iter) (fun '(l1, r1) =>
    if negb (r1 =? 0) then Ret (l1, r1) else
    let r := iter (n_key (h x)) in
    if negb (r =? 0) then Ret (l1 ++ [n_key (h x)], r) else
    obind (if Nat.eqb (n_right (h x)) 0 then Ret ([], 0) else iter_inorder f h (n_right (h x)) iter) (fun '(l2, r2) =>
    Ret (l1 ++ n_key (h x) :: l2, r2)))
  end.
Definition avl_iterate_inorder (fuel : nat) (p : apool) (t : atree) (iter : Z -> Z) : outcome (list Z * Z) :=
  if t_length t =? 0 then Ret ([], 0) else iter_inorder fuel (p_heap p) (n_right (p_heap p (t_root t))) iter.

(* 742-753, 755-797 *)
Definition avl_get_first (fuel : nat) (p : apool) (t : atree) : outcome nat :=
  let h := p_heap p in
  let x := n_right (h (t_root t)) in
  if Nat.eqb x 0 then Ret 0%nat else if n_key (h x) =? 0 then Ret 0%nat else leftmost fuel h x.
Fixpoint up_next (fuel : nat) (h : heap) (node : nat) : outcome nat :=
  match fuel with
  | O => Diverge
  | S f =>
    let par := n_parent (h node) in
    if Nat.eqb par 0 then Ret 0%nat else if n_key (h par) =? 0 then Ret 0%nat else
    if Nat.eqb node (n_left (h par)) then Ret par else up_next f h par
  end.
Definition avl_get_next (fuel : nat) (h : heap) (node : nat) : outcome nat :=
  if negb (Nat.eqb (n_right (h node)) 0) then leftmost fuel h (n_right (h node)) else up_next fuel h node.
Fixpoint up_prev (fuel : nat) (h : heap) (node : nat) : outcome nat :=
  match fuel with
  | O => Diverge
  | S f =>
    let par := n_parent (h node) in
    if Nat.eqb par 0 then Ret 0%nat else if n_key (h par) =? 0 then Ret 0%nat else
    if Nat.eqb node (n_right (h par)) then Ret par else up_prev f h par
  end.
Definition avl_get_prev (fuel : nat) (h : heap) (node : nat) : outcome nat :=
  if negb (Nat.eqb (n_left (h node)) 0) then rightmost fuel h (n_left (h node)) else up_prev fuel h node.

(* 801-842: iter_fun is called with low + 1, low + 2, ... and the key *)
Fixpoint seek_rank (fuel : nat) (h : heap) (node : nat) (m : Z) : outcome nat :=
  match fuel with
  | O => Diverge
  | S f =>
    if Nat.eqb node 0 then UB else
    if m <? n_rank (h node) then seek_rank f h (n_left (h node)) m
    else if m >? n_rank (h node) then seek_rank f h (n_right (h node)) (m - n_rank (h node))
    else Ret node
  end.
Fixpoint range_loop (fuel : nat) (n : nat) (h : heap) (node : nat) (idx : Z) (iter : Z -> Z -> Z) : outcome (list (Z * Z) * Z) :=
  match n with
  | O => Ret ([], 0)
  | S n' =>
    if Nat.eqb node 0 then UB else
    let kk := n_key (h node) in
    if negb (iter (idx + 1) kk =? 0) then Ret ([(idx + 1, kk)], -1) else
    obind (avl_get_next fuel h node) (fun nx =>
    obind (range_loop fuel n' h nx (idx + 1) iter) (fun '(l, r) => Ret ((idx + 1, kk) :: l, r)))
  end.
Definition avl_iterate_index_range (fuel : nat) (p : apool) (t : atree) (iter : Z -> Z -> Z) (low high : Z) : outcome (list (Z * Z) * Z) :=
  if high >? t_length t then Ret ([], -1) else
  obind (seek_rank fuel (p_heap p) (n_right (p_heap p (t_root t))) (u64 (low + 1))) (fun node =>
  range_loop fuel (Z.to_nat (u64 (high - low))) (p_heap p) node low iter).

(* 849-888; None for the uninitialised index of the empty tree *)
Fixpoint idx_key (fuel : nat) (h : heap) (x : nat) (k : Z) (m : Z) : outcome (nat * Z) :=
  match fuel with
  | O => Diverge
  | S f =>
    let c := cmp k (n_key (h x)) in
    if c <? 0 then
      if negb (Nat.eqb (n_left (h x)) 0) then idx_key f h (n_left (h x)) k (u64 (m - n_rank (h x) + n_rank (h (n_left (h x)))))
      else Ret (0%nat, u64 (m - 2))
    else if c >? 0 then
      if negb (Nat.eqb (n_right (h x)) 0) then idx_key f h (n_right (h x)) k (u64 (m + n_rank (h (n_right (h x)))))
      else Ret (0%nat, u64 (m - 1))
    else Ret (x, u64 (m - 1))
  end.
Definition avl_get_index_by_key (fuel : nat) (p : apool) (t : atree) (k : Z) : outcome (option (nat * Z)) :=
  let x := n_right (p_heap p (t_root t)) in
  if Nat.eqb x 0 then Ret None else
  obind (idx_key fuel (p_heap p) x k (n_rank (p_heap p x))) (fun r => Ret (Some r)).

(* 892-935 *)
Fixpoint span_left (fuel : nat) (h : heap) (left : nat) (k i : Z) : outcome Z :=
  match fuel with
  | O => Diverge
  | S f =>
    if Nat.eqb left 0 then Ret i else
    if (i >? 0) && (cmp k (n_key (h left)) =? 0) then
      obind (avl_get_prev f h left) (fun l => span_left f h l k (i - 1))
    else Ret i
  end.
Fixpoint span_right (fuel : nat) (h : heap) (right : nat) (k j len : Z) : outcome Z :=
  match fuel with
  | O => Diverge
  | S f =>
    if Nat.eqb right 0 then Ret j else
    if (j <=? len) && (cmp k (n_key (h right)) =? 0) then
      obind (avl_get_next f h right) (fun l => span_right f h l k (j + 1) len)
    else Ret j
  end.
Definition avl_get_span_by_key (fuel : nat) (p : apool) (t : atree) (k : Z) : outcome (Z * Z) :=
  obind (avl_get_index_by_key fuel p t k) (fun o =>
  match o with
  | None => UB                      (* low = high = m, m never written *)
  | Some (x, m) =>
    if Nat.eqb x 0 then Ret (m, m) else
    obind (avl_get_prev fuel (p_heap p) x) (fun l =>
    obind (span_left fuel (p_heap p) l k m) (fun i =>
    obind (avl_get_next fuel (p_heap p) x) (fun r =>
    obind (span_right fuel (p_heap p) r k m (t_length t)) (fun j =>
    Ret (i, u64 (j + 1))))))
  end).

(* 991-1032: v is *value_address, 0 = NULL *)
Fixpoint key_most (fuel : nat) (h : heap) (x : nat) (k v : Z) : outcome Z :=
  match fuel with
  | O => Diverge
  | S f =>
    if Nat.eqb x 0 then Ret v else
    let c := cmp k (n_key (h x)) in
    if c =? 0 then Ret (n_key (h x))
    else if c <? 0 then key_most f h (n_left (h x)) k v
    else key_most f h (n_right (h x)) k (n_key (h x))
  end.
Definition avl_get_item_by_key_most (fuel : nat) (p : apool) (t : atree) (k : Z) : outcome (option Z) :=
  obind (key_most fuel (p_heap p) (n_right (p_heap p (t_root t))) k 0) (fun v => Ret (if v =? 0 then None else Some v)).
(* 1034-1075 *)
Fixpoint key_least (fuel : nat) (h : heap) (x : nat) (k v : Z) : outcome Z :=
  match fuel with
  | O => Diverge
  | S f =>
    if Nat.eqb x 0 then Ret v else
    let c := cmp k (n_key (h x)) in
    if c =? 0 then Ret (n_key (h x))
    else if c <? 0 then key_least f h (n_left (h x)) k (n_key (h x))
    else key_least f h (n_right (h x)) k v
  end.
Definition avl_get_item_by_key_least (fuel : nat) (p : apool) (t : atree) (k : Z) : outcome (option Z) :=
  obind (key_least fuel (p_heap p) (n_right (p_heap p (t_root t))) k 0) (fun v => Ret (if v =? 0 then None else Some v)).
End CMP.

(* 1338-1345: node_list[i] linked in order *)
Definition avl_init (n : nat) : apool := mkPool (fun _ => mkN 0 0 0 0 0 0) (seq 1 n).

(* ---------- several trees ---------- *)
(* All trees share the node pool and the NUM_TREES tree records (39-66); the
   records on the free list are only counted. A call on a tree that is not live is not made. *)
Record world := mkW { w_pool : apool; w_trees : list (option atree); w_tfree : nat }.
Definition NUM_TREES : nat := 64.
Definition winit (n : nat) : world := mkW (avl_init n) [] NUM_TREES.
Definition wput (w : world) (p : apool) (i : nat) (o : option atree) : world := mkW p (put i o (w_trees w)) (w_tfree w).

Definition wstep (cmpf : nat -> Z -> Z -> Z) (fuel : nat) (w : world) (op : aop) : outcome (world * ares) :=
  match op with
  | ONew =>                                                     (* 131-155 *)
      match w_tfree w with
      | O => Ret (w, RTree None)
      | S f =>
          match avl_tree_new (w_pool w) with
          | None => Ret (mkW (w_pool w) (w_trees w) f, RTree None)
          | Some (p, ob) => Ret (mkW p (w_trees w ++ [Some ob]) f, RTree (Some (length (w_trees w))))
          end
      end
  | OFree i =>                                                  (* 176-191 *)
      match nth i (w_trees w) None with
      | None => Ret (w, RNone)
      | Some ob => obind (avl_tree_free fuel (w_pool w) ob) (fun '(p, ks) =>
          Ret (mkW p (put i None (w_trees w)) (S (w_tfree w)), RKeys ks))
      end
  | OIns i k =>
      match nth i (w_trees w) None with
      | None => Ret (w, RNone)
      | Some ob => obind (avl_insert (cmpf i) fuel (w_pool w) ob k) (fun '(p, ob, rc) => Ret (wput w p i (Some ob), RRc rc))
      end
  | ODel i k =>
      match nth i (w_trees w) None with
      | None => Ret (w, RNone)
      | Some ob => obind (avl_delete (cmpf i) fuel (w_pool w) ob k) (fun '(p, ob, o) => Ret (wput w p i (Some ob), RDel o))
      end
  end.
Fixpoint wruns (cmpf : nat -> Z -> Z -> Z) (fuel : nat) (w : world) (ops : list aop) : outcome (world * list ares) :=
  match ops with
  | [] => Ret (w, [])
  | op :: ops => obind (wstep cmpf fuel w op) (fun '(w, r) => obind (wruns cmpf fuel w ops) (fun '(w, rs) => Ret (w, r :: rs)))
  end.
