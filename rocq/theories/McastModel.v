(* Model of the IPv4 multicast memberships and source filters of sockets and
   interfaces: src/ofp_in_mcast.c.  One thread.
   Simplified: the trees of sources are lists with distinct keys, in order of
   insertion (the order is seen only by getsourcefilter and IGMP records);
   interfaces are given by number and take multicast; IGMP
   (ofp_igmp_change_state) does not fail, takes no references, and commits the
   state of the group at once or later; allocations do not fail; sources marked
   by IGMP queries (ims_stp) are left out; sources passed to setsourcefilter
   have the right family and length. *)
From Verif Require Import Base.

(* OFP_MCAST_UNDEFINED, INCLUDE, EXCLUDE: include/api/ofp_in.h:539-541 *)
Inductive mode := Und | Inc | Exc.
Definition meq (a b : mode) : bool := match a, b with Und, Und | Inc, Inc | Exc, Exc => true | _, _ => false end.

(* a tree of sources *)
Fixpoint look {A} (a : Z) (l : list (Z * A)) : option A :=
  match l with [] => None | (b, x) :: l => if a =? b then Some x else look a l end.
Fixpoint put {A} (a : Z) (x : A) (l : list (Z * A)) : list (Z * A) :=
  match l with [] => [(a, x)] | (b, y) :: l => if a =? b then (b, x) :: l else (b, y) :: put a x l end.

(* struct ofp_in_mfilter, ofp_in_msource: include/ofpi_in_var.h:74-79, 97-101;
   state at t0 and at t1 *)
Record filt := mkF { f0 : mode; f1 : mode; fs : list (Z * (mode * mode)) }.
(* one entry of imo_membership[] and imo_mfilters[] *)
Record mem := mkM { m_if : Z; m_gr : Z; m_f : filt }.
(* ims_st[0], ims_st[1] of struct ofp_ip_msource: 60-69 *)
Record cnt := mkK { x0 : Z; n0 : Z; x1 : Z; n1 : Z }.
Definition kz : cnt := mkK 0 0 0 0.
(* struct ofp_in_multi: 123-160, state at t1 *)
Record multi := mkMu { refc : Z; iex : Z; iin : Z; iasm : Z; fmode : mode; srcs : list (Z * cnt) }.
(* imo of each socket; the groups of the interfaces *)
Record st := mkS { socks : list (list mem); mus : list ((Z * Z) * multi) }.

Definition w16 (x : Z) : Z := x mod 65536.
Definition is_mc (g : Z) : bool := (3758096384 <=? g) && (g <? 4026531840).   (* 224.0.0.0/4 *)

Section Limits.
(* in_mcast_maxsocksrc, in_mcast_maxgrpsrc (sysctl), OFP_IP_MAX_MEMBERSHIPS
   (imo_grow 311-355 takes the array from 31 to 63, ..., 4095 entries) *)
Variable maxsock maxgrp maxmem : nat.

(* ---- socket layer: 704-893 ---- *)
(* imf_graft: 751-770 *)
Definition graft (f : filt) (a : Z) (m : mode) : filt := mkF (f0 f) (f1 f) (fs f ++ [(a, (Und, m))]).
(* imf_prune: 779-794 *)
Definition prune (f : filt) (a : Z) : option filt :=
  match look a (fs f) with None => None | Some (s, _) => Some (mkF (f0 f) (f1 f) (put a (s, Und) (fs f))) end.
(* imf_get_source: 708-743, and the assignment of imsl_st[1] at 2626 *)
Definition get_set (f : filt) (a : Z) : option filt :=
  match look a (fs f) with
  | Some (s, _) => Some (mkF (f0 f) (f1 f) (put a (s, f1 f) (fs f)))
  | None => if (length (fs f) =? maxsock)%nat then None else Some (graft f a (f1 f))
  end.
(* imf_rollback: 799-822 *)
Definition rollback (f : filt) : filt :=
  mkF (f0 f) (f0 f)
    (map (fun '(a, (s, t)) => (a, (s, s))) (filter (fun '(a, (s, t)) => meq s t || negb (meq s Und)) (fs f))).
(* imf_leave: 827-838 *)
Definition imf_leave (f : filt) : filt := mkF (f0 f) Inc (map (fun '(a, (s, t)) => (a, (s, Und))) (fs f)).
(* imf_commit: 843-854 *)
Definition commit (f : filt) : filt := mkF (f1 f) (f1 f) (map (fun '(a, (s, t)) => (a, (t, t))) (fs f)).
(* imf_reap: 859-875 *)
Definition reap (f : filt) : filt := mkF (f0 f) (f1 f) (filter (fun '(a, (s, t)) => negb (meq s Und && meq t Und)) (fs f)).

(* imo_match_group: 362-392 *)
Fixpoint find_group (l : list mem) (i : option Z) (g : Z) : option nat :=
  match l with
  | [] => None
  | m :: l => if (match i with None => true | Some j => m_if m =? j end) && (m_gr m =? g) then Some O else option_map S (find_group l i g)
  end.

(* ---- group layer ---- *)
Definition count {A} (p : A -> bool) (l : list A) : nat := length (filter p l).
(* ims_merge, not rolled back: 944-975 *)
Definition ims_merge (k : cnt) (s t : mode) : cnt :=
  let k := match s with Exc => mkK (x0 k) (n0 k) (w16 (x1 k - 1)) (n1 k) | Inc => mkK (x0 k) (n0 k) (x1 k) (w16 (n1 k - 1)) | Und => k end in
  match t with Exc => mkK (x0 k) (n0 k) (w16 (x1 k + 1)) (n1 k) | Inc => mkK (x0 k) (n0 k) (x1 k) (w16 (n1 k + 1)) | Und => k end.
(* inm_get_source 907-937 and the loop of inm_merge 1008-1018.  When the group
   has maxgrp sources, the loop that is to undo the merge (1019-1030) starts at
   the last source merged in the group's tree, or at an uninitialised pointer,
   and takes its entries for a socket's: undefined *)
Fixpoint merge_srcs (l : list (Z * (mode * mode))) (s : list (Z * cnt)) : outcome (list (Z * cnt)) :=
  match l with
  | [] => Ret s
  | (a, (t0, t1)) :: l =>
    if meq t0 t1 then merge_srcs l s
    else match look a s with
         | Some k => merge_srcs l (put a (ims_merge k t0 t1) s)
         | None => if (length s =? maxgrp)%nat then UB else merge_srcs l (s ++ [(a, ims_merge kz t0 t1)])
         end
  end.
(* inm_reap: 1136-1151 *)
Definition inm_reap (s : list (Z * cnt)) : list (Z * cnt) :=
  filter (fun '(a, k) => (0 <? x0 k) || (0 <? n0 k) || (0 <? x1 k) || (0 <? n1 k)) s.
(* inm_merge: 990-1112 *)
Definition inm_merge (u : multi) (f : filt) : outcome multi :=
  let c0 := count (fun '(a, (s, t)) => meq s (f0 f)) (fs f) in
  let c1 := count (fun '(a, (s, t)) => meq t (f1 f)) (fs f) in
  obind (merge_srcs (fs f) (srcs u)) (fun s =>
  let s := if existsb (fun '(a, (s, t)) => negb (meq s t)) (fs f) then inm_reap s else s in
  (* INCLUDE {n} to INCLUDE {} *)
  let i := if meq (f0 f) (f1 f) && meq (f1 f) Inc && (c1 =? 0)%nat then w16 (iin u - 1) else iin u in
  (* filter mode transition *)
  let '(x, i) :=
    if meq (f0 f) (f1 f) then (iex u, i)
    else
      let '(x, i) := match f0 f with Exc => (w16 (iex u - 1), i) | Inc => (iex u, w16 (i - 1)) | Und => (iex u, i) end in
      match f1 f with Exc => (w16 (x + 1), i) | Inc => (x, if (0 <? c1)%nat then w16 (i + 1) else i) | Und => (x, i) end in
  let m := if 0 <? x then Exc else if 0 <? i then Inc else Und in
  let a := if meq (f0 f) Exc && (c0 =? 0)%nat && (negb (meq (f1 f) Exc) || (0 <? c1)%nat) then w16 (iasm u - 1) else iasm u in
  let a := if meq (f1 f) Exc && (c1 =? 0)%nat then w16 (a + 1) else a in
  Ret (mkMu (refc u) x i a m s)).
(* ofp_inm_commit: 1118-1131 *)
Definition inm_commit (u : multi) : multi :=
  mkMu (refc u) (iex u) (iin u) (iasm u) (fmode u) (map (fun '(a, k) => (a, mkK (x1 k) (n1 k) (x1 k) (n1 k))) (srcs u)).
(* ofp_igmp_change_state: does it commit now *)
Definition igmp (c : bool) (u : multi) : multi := if c then inm_commit u else u.

Definition keq (a b : Z * Z) : bool := (fst a =? fst b) && (snd a =? snd b).
Fixpoint glook (k : Z * Z) (l : list ((Z * Z) * multi)) : option multi :=
  match l with [] => None | (q, u) :: l => if keq k q then Some u else glook k l end.
Fixpoint gput (k : Z * Z) (x : multi) (l : list ((Z * Z) * multi)) : list ((Z * Z) * multi) :=
  match l with [] => [(k, x)] | (q, y) :: l => if keq k q then (q, x) :: l else (q, y) :: gput k x l end.
Definition gdel (k : Z * Z) (l : list ((Z * Z) * multi)) : list ((Z * Z) * multi) := filter (fun p => negb (keq k (fst p))) l.

(* in_getmulti: 473-579 *)
Definition getmulti (k : Z * Z) (l : list ((Z * Z) * multi)) : multi :=
  match glook k l with
  | Some u => mkMu (refc u + 1) (iex u) (iin u) (iasm u) (fmode u) (srcs u)
  | None => mkMu 1 0 0 0 Und []
  end.
(* ofp_in_joingroup_locked: 1198-1252 *)
Definition joingroup (k : Z * Z) (f : filt) (c : bool) (l : list ((Z * Z) * multi)) : outcome (list ((Z * Z) * multi)) :=
  obind (inm_merge (getmulti k l) f) (fun u => Ret (gput k (igmp c u) l)).
(* the other changes: inm_merge and ofp_igmp_change_state on the membership's
   group; a freed one is undefined *)
Definition change (k : Z * Z) (f : filt) (c : bool) (l : list ((Z * Z) * multi)) : outcome (list ((Z * Z) * multi)) :=
  match glook k l with
  | None => UB
  | Some u => obind (inm_merge u f) (fun u => Ret (gput k (igmp c u) l))
  end.
(* ofp_inm_release_locked: 587-617 *)
Definition release (k : Z * Z) (l : list ((Z * Z) * multi)) : outcome (list ((Z * Z) * multi)) :=
  match glook k l with
  | None => UB
  | Some u => Ret (if refc u - 1 >? 0 then gput k (mkMu (refc u - 1) (iex u) (iin u) (iasm u) (fmode u) (srcs u)) l else gdel k l)
  end.
(* ofp_in_leavegroup_locked: 1286-1333 *)
Definition leavegroup (k : Z * Z) (f : filt) (c : bool) (l : list ((Z * Z) * multi)) : outcome (list ((Z * Z) * multi)) :=
  obind (change k f c l) (release k).

(* ---- setsockopt ---- *)
Inductive res := Ok | EBADF | EINVAL | EADDRINUSE | EADDRNOTAVAIL | ETOOMANYREFS | ENOBUFS | ENOSPC.

Fixpoint upd {A} (l : list A) (i : nat) (x : A) : list A :=
  match l, i with [], _ => [] | _ :: l, O => x :: l | y :: l, S i => y :: upd l i x end.
Definition remove {A} (l : list A) (i : nat) : list A := firstn i l ++ skipn (S i) l.
Definition dm : mem := mkM 0 0 (mkF Und Und []).
Definition key_of (m : mem) : Z * Z := (m_if m, m_gr m).
Definition set_f (l : list mem) (i : nat) (f : filt) : list mem := upd l i (mkM (m_if (nth i l dm)) (m_gr (nth i l dm)) f).

(* inp_join_group: 1929-2219; i: interface; a: source *)
Definition join (s : nat) (i g : Z) (a : option Z) (c : bool) (x : st) : outcome (st * res) :=
  match nth_error (socks x) s with
  | None => Ret (x, EBADF)
  | Some l =>
    if negb (is_mc g) then Ret (x, EINVAL)
    else match find_group l (Some i) g with
    | Some j =>
      let m := nth j l dm in
      match a with
      | None => Ret (x, if meq (f1 (m_f m)) Exc then EADDRINUSE else EINVAL)
      | Some b =>
        if negb (meq (f1 (m_f m)) Inc) then Ret (x, EINVAL)
        else match look b (fs (m_f m)) with
        | Some _ => Ret (x, EADDRNOTAVAIL)
        | None =>
          let f := graft (m_f m) b Inc in
          obind (change (key_of m) f c (mus x)) (fun u => Ret (mkS (upd (socks x) s (set_f l j (commit f))) u, Ok))
        end
      end
    | None =>
      if (length l =? maxmem)%nat then Ret (x, ETOOMANYREFS)
      else
        let f := match a with Some b => graft (mkF Und Inc []) b Inc | None => mkF Und Exc [] end in
        obind (joingroup (i, g) f c (mus x)) (fun u => Ret (mkS (upd (socks x) s (l ++ [mkM i g (commit f)])) u, Ok))
    end
  end.

(* inp_leave_group: 2223-2433; i: interface, or none given *)
Definition leave (s : nat) (i : option Z) (g : Z) (a : option Z) (c : bool) (x : st) : outcome (st * res) :=
  match nth_error (socks x) s with
  | None => Ret (x, EBADF)
  | Some l =>
    if negb (is_mc g) then Ret (x, EINVAL)
    else match find_group l i g with
    | None => Ret (x, EADDRNOTAVAIL)
    | Some j =>
      let m := nth j l dm in
      match a with
      | None => obind (leavegroup (key_of m) (imf_leave (m_f m)) c (mus x)) (fun u => Ret (mkS (upd (socks x) s (remove l j)) u, Ok))
      | Some b =>
        if meq (f0 (m_f m)) Exc then Ret (x, EADDRNOTAVAIL)
        else match prune (m_f m) b with
        | None => Ret (x, EADDRNOTAVAIL)
        | Some f => obind (change (key_of m) f c (mus x)) (fun u => Ret (mkS (upd (socks x) s (set_f l j (reap (commit f)))) u, Ok))
        end
      end
    end
  end.

(* inp_block_unblock_source: 1377-1553 *)
Definition block (d : bool) (s : nat) (i : option Z) (g a : Z) (c : bool) (x : st) : outcome (st * res) :=
  match nth_error (socks x) s with
  | None => Ret (x, EBADF)
  | Some l =>
    if negb (is_mc g) then Ret (x, EINVAL)
    else match find_group l i g with
    | None => Ret (x, EADDRNOTAVAIL)
    | Some j =>
      let m := nth j l dm in
      if negb (meq (f0 (m_f m)) Exc) then Ret (x, EINVAL)
      else
        let go f := obind (change (key_of m) f c (mus x)) (fun u => Ret (mkS (upd (socks x) s (set_f l j (reap (commit f)))) u, Ok)) in
        match look a (fs (m_f m)), d with
        | Some _, true | None, false => Ret (x, EADDRNOTAVAIL)
        | None, true => go (graft (m_f m) a (f0 (m_f m)))
        | Some _, false => match prune (m_f m) a with Some f => go f | None => Ret (x, EADDRNOTAVAIL) end
        end
    end
  end.

(* inp_set_source_filters: 2512-2670; m: INCLUDE or EXCLUDE *)
Fixpoint get_all (f : filt) (l : list Z) : filt * bool :=
  match l with [] => (f, true) | a :: l => match get_set f a with None => (f, false) | Some f => get_all f l end end.
Definition set_filter (s : nat) (i g : Z) (m : mode) (l : list Z) (c : bool) (x : st) : outcome (st * res) :=
  match nth_error (socks x) s with
  | None => Ret (x, EBADF)
  | Some ms =>
    if (maxsock <? length l)%nat then Ret (x, ENOBUFS)
    else if meq m Und || negb (is_mc g) then Ret (x, EINVAL)
    else match find_group ms (Some i) g with
    | None => Ret (x, EADDRNOTAVAIL)
    | Some j =>
      let y := nth j ms dm in
      let f := mkF (f0 (m_f y)) m (fs (m_f y)) in
      let '(f, ok) := match l with
                      | [] => (f, true)
                      | _ => let f := imf_leave f in get_all (mkF (f0 f) m (fs f)) l
                      end in
      if ok then obind (change (key_of y) f c (mus x)) (fun u => Ret (mkS (upd (socks x) s (set_f ms j (reap (commit f)))) u, Ok))
      else Ret (mkS (upd (socks x) s (set_f ms j (reap (rollback f)))) (mus x), ENOSPC)
    end
  end.

(* ofp_inp_freemoptions: 1610-1632 *)
Fixpoint free_all (l : list mem) (c : bool) (u : list ((Z * Z) * multi)) : outcome (list ((Z * Z) * multi)) :=
  match l with [] => Ret u | m :: l => obind (leavegroup (key_of m) (imf_leave (m_f m)) c u) (free_all l c) end.
Definition close (s : nat) (c : bool) (x : st) : outcome (st * res) :=
  match nth_error (socks x) s with
  | None => Ret (x, EBADF)
  | Some l => obind (free_all l c (mus x)) (fun u => Ret (mkS (upd (socks x) s []) u, Ok))
  end.

Inductive ev :=
| Join (s : nat) (i g : Z) (a : option Z) (c : bool)          (* IP_ADD_(SOURCE_)MEMBERSHIP, MCAST_JOIN_(SOURCE_)GROUP *)
| Leave (s : nat) (i : option Z) (g : Z) (a : option Z) (c : bool)
| Block (s : nat) (i : option Z) (g a : Z) (c : bool)
| Unblock (s : nat) (i : option Z) (g a : Z) (c : bool)
| Set_filter (s : nat) (i g : Z) (m : mode) (l : list Z) (c : bool)
| Close (s : nat) (c : bool)
| Igmp (i g : Z).                                            (* IGMP commits the group's state *)
Definition step (e : ev) (x : st) : outcome (st * res) :=
  match e with
  | Join s i g a c => join s i g a c x
  | Leave s i g a c => leave s i g a c x
  | Block s i g a c => block true s i g a c x
  | Unblock s i g a c => block false s i g a c x
  | Set_filter s i g m l c => set_filter s i g m l c x
  | Close s c => close s c x
  | Igmp i g => Ret (match glook (i, g) (mus x) with Some u => mkS (socks x) (gput (i, g) (inm_commit u) (mus x)) | None => x end, Ok)
  end.
Fixpoint run (l : list ev) (x : st) : outcome (st * list res) :=
  match l with
  | [] => Ret (x, [])
  | e :: l => obind (step e x) (fun '(x, r) => obind (run l x) (fun '(x, rs) => Ret (x, r :: rs)))
  end.
End Limits.
Definition init (n : nat) : st := mkS (repeat [] n) [].

(* ---- readers ---- *)
(* ofp_imo_multi_filter: 432-464 *)
Inductive verdict := Pass | NotGroup | NotSource.
Definition multi_filter (l : list mem) (i g a : Z) : verdict :=
  match find_group l (Some i) g with
  | None => NotGroup
  | Some j =>
    let f := m_f (nth j l dm) in
    match look a (fs f) with
    | None => match f1 f with Inc => NotSource | _ => Pass end
    | Some (s, _) => if meq s (f1 f) then Pass else NotSource
    end
  end.
(* inp_get_source_filters: 1638-1749: mode and sources *)
Definition get_filter (l : list mem) (i g : Z) : option (mode * list Z) :=
  match find_group l (Some i) g with
  | None => None
  | Some j => let f := m_f (nth j l dm) in
    Some (f1 f, map fst (filter (fun '(a, (s, t)) => negb (meq s Und) && meq s (f0 f)) (fs f)))
  end.
(* ims_get_mode: include/ofpi_in_var.h:171-184, at t1, of a source of the group *)
Definition ims_mode (u : multi) (a : Z) : mode :=
  match look a (srcs u) with
  | None => Und
  | Some k => if (0 <? iex u) && (iex u =? x1 k) then Exc else if (0 <? n1 k) && (x1 k =? 0) then Inc else Und
  end.
