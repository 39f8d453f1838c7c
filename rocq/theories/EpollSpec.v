(* What an epoll set and a descriptor set mean. *)
From Verif Require Import Base EpollModel.

(* an epoll set is a map from descriptor to event with at most 16 entries *)
Definition emap := list (Z * ev).
Definition mem (fd : Z) (m : emap) : bool := existsb (fun x => fst x =? fd) m.
Definition remove (fd : Z) (m : emap) : emap := filter (fun x => negb (fst x =? fd)) m.
Inductive eop := Add (fd : Z) (e : ev) | Del (fd : Z) | Mod (fd : Z) (e : ev).
Definition spec_ctl (m : emap) (o : eop) : emap * (Z + Z) :=
  match o with
  | Add fd e => if mem fd m then (m, inr OFP_EEXIST)
                else if (length m <? 16)%nat then ((fd, e) :: m, inl 0) else (m, inr OFP_ENOSPC)
  | Del fd => if mem fd m then (remove fd m, inl 0) else (m, inr OFP_ENOENT)
  | Mod fd e => if mem fd m then ((fd, e) :: remove fd m, inl 0) else (m, inr OFP_ENOENT)
  end.
Fixpoint spec_run (m : emap) (h : list eop) : emap * list (Z + Z) :=
  match h with
  | [] => (m, [])
  | o :: r => let '(m1, x) := spec_ctl m o in let '(m2, xs) := spec_run m1 r in (m2, x :: xs)
  end.

(* the same history on the code: calls of ofp_epoll_ctl on descriptor epfd *)
Definition op_fd (o : eop) : Z := match o with Add fd _ | Del fd | Mod fd _ => fd end.
Definition do_op (epfd : Z) (s : esock) (o : eop) : outcome (esock * (Z + Z)) :=
  match o with
  | Add fd e => epoll_ctl epfd s CTL_ADD fd (Some e)
  | Del fd => epoll_ctl epfd s CTL_DEL fd None
  | Mod fd e => epoll_ctl epfd s CTL_MOD fd (Some e)
  end.
Fixpoint do_ops (epfd : Z) (s : esock) (h : list eop) : outcome (esock * list (Z + Z)) :=
  match h with
  | [] => Ret (s, [])
  | o :: r => obind (do_op epfd s o) (fun '(s1, x) => obind (do_ops epfd s1 r) (fun '(s2, xs) => Ret (s2, x :: xs)))
  end.

(* registered descriptors of the slots *)
Definition registered (s : esock) (fd : Z) (e : ev) : Prop := fd <> -1 /\ In (mkSlot fd e) (es_set s).
Definition same_map (s : esock) (m : emap) : Prop := forall fd e, registered s fd e <-> In (fd, e) m.

(* a registered descriptor that waits for input and is readable *)
Definition ready (rd : Z -> bool) (s : esock) (fd : Z) (e : ev) : Prop :=
  registered s fd e /\ Z.odd (ev_events e) = true /\ rd fd = true.

(* descriptor sets: the set a buffer stands for *)
Definition in_fdset (OFF : Z) (s : fdset) (fd : Z) : Prop :=
  exists b, nth_error s (Z.to_nat ((fd - OFF) / 8)) = Some b /\ Z.testbit b ((fd - OFF) mod 8) = true.
Definition fd_ok (OFF MAXS fd : Z) : Prop := OFF <= fd < OFF + MAXS.
Definition buf_ok (MAXS : Z) (s : fdset) : Prop := length s = Z.to_nat (MAXS / 8 + 1) /\ bytes_ok s.
