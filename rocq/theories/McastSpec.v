(* C100, C101: memberships as RFC 3678 has them: a socket is a member of a group
   on an interface in mode INCLUDE (it wants the sources listed) or EXCLUDE (all
   but those listed). *)
From Verif Require Import Base McastModel.

Record smem := mkSm { s_if : Z; s_gr : Z; s_mode : mode; s_src : list Z }.
Definition spec := list (list smem).                 (* per socket, oldest first *)

Definition isin (a : Z) (l : list Z) : bool := existsb (Z.eqb a) l.
(* which membership a call is about *)
Definition about (i : option Z) (g : Z) (m : smem) : bool := (match i with None => true | Some j => s_if m =? j end) && (s_gr m =? g).
Fixpoint member (l : list smem) (i : option Z) (g : Z) : option (nat * smem) :=
  match l with
  | [] => None
  | m :: l => if about i g m then Some (O, m) else option_map (fun '(j, m) => (S j, m)) (member l i g)
  end.
Definition with_src (m : smem) (md : mode) (l : list Z) : smem := mkSm (s_if m) (s_gr m) md l.

(* what a call does to the memberships of its socket, and its result *)
Definition scall (maxsock maxmem : nat) (e : ev) (l : list smem) : list smem * res :=
  match e with
  | Join _ i g a _ =>
    if negb (is_mc g) then (l, EINVAL) else
    match member l (Some i) g, a with
    | None, _ =>
      if (length l =? maxmem)%nat then (l, ETOOMANYREFS)
      else (l ++ [match a with None => mkSm i g Exc [] | Some b => mkSm i g Inc [b] end], Ok)
    | Some (_, m), None => (l, if meq (s_mode m) Exc then EADDRINUSE else EINVAL)
    | Some (j, m), Some b =>
      if meq (s_mode m) Exc then (l, EINVAL)
      else if isin b (s_src m) then (l, EADDRNOTAVAIL)
      else (upd l j (with_src m Inc (s_src m ++ [b])), Ok)
    end
  | Leave _ i g a _ =>
    if negb (is_mc g) then (l, EINVAL) else
    match member l i g, a with
    | None, _ => (l, EADDRNOTAVAIL)
    | Some (j, _), None => (remove l j, Ok)
    | Some (j, m), Some b =>
      if meq (s_mode m) Exc || negb (isin b (s_src m)) then (l, EADDRNOTAVAIL)
      else (upd l j (with_src m Inc (filter (fun y => negb (y =? b)) (s_src m))), Ok)
    end
  | Block _ i g a _ =>
    if negb (is_mc g) then (l, EINVAL) else
    match member l i g with
    | None => (l, EADDRNOTAVAIL)
    | Some (j, m) =>
      if negb (meq (s_mode m) Exc) then (l, EINVAL)
      else if isin a (s_src m) then (l, EADDRNOTAVAIL)
      else (upd l j (with_src m Exc (s_src m ++ [a])), Ok)
    end
  | Unblock _ i g a _ =>
    if negb (is_mc g) then (l, EINVAL) else
    match member l i g with
    | None => (l, EADDRNOTAVAIL)
    | Some (j, m) =>
      if negb (meq (s_mode m) Exc) then (l, EINVAL)
      else if isin a (s_src m) then (upd l j (with_src m Exc (filter (fun y => negb (y =? a)) (s_src m))), Ok)
      else (l, EADDRNOTAVAIL)
    end
  | Set_filter _ i g md srcs _ =>
    if (maxsock <? length srcs)%nat then (l, ENOBUFS)
    else if meq md Und || negb (is_mc g) then (l, EINVAL)
    else match member l (Some i) g with
    | None => (l, EADDRNOTAVAIL)
    | Some (j, m) => (upd l j (with_src m md (nodup Z.eq_dec srcs)), Ok)
    end
  | Close _ _ => ([], Ok)
  | Igmp _ _ => (l, Ok)
  end.
Definition sock_of (e : ev) : option nat :=
  match e with Join s _ _ _ _ | Leave s _ _ _ _ | Block s _ _ _ _ | Unblock s _ _ _ _ | Set_filter s _ _ _ _ _ | Close s _ => Some s | Igmp _ _ => None end.
Definition sstep (maxsock maxmem : nat) (e : ev) (x : spec) : spec * res :=
  match sock_of e with
  | None => (x, Ok)
  | Some s => match nth_error x s with None => (x, EBADF) | Some l => let '(l, r) := scall maxsock maxmem e l in (upd x s l, r) end
  end.
Fixpoint srun (maxsock maxmem : nat) (h : list ev) (x : spec) : spec * list res :=
  match h with
  | [] => (x, [])
  | e :: h => let '(x, r) := sstep maxsock maxmem e x in let '(x, rs) := srun maxsock maxmem h x in (x, r :: rs)
  end.

(* setsourcefilter: with at least one source, and room for the old ones too *)
Definition clean (maxsock : nat) (e : ev) (x : spec) : Prop :=
  match e with
  | Set_filter s i g md srcs _ =>
    srcs <> [] /\
    match nth_error x s with
    | None => True
    | Some l => match member l (Some i) g with None => True | Some (_, m) => (length (s_src m) + length srcs <= maxsock)%nat end
    end
  | _ => True
  end.
Fixpoint clean_all (maxsock maxmem : nat) (h : list ev) (x : spec) : Prop :=
  match h with [] => True | e :: h => clean maxsock e x /\ clean_all maxsock maxmem h (fst (sstep maxsock maxmem e x)) end.

(* sources that calls name *)
Definition names (e : ev) : list Z :=
  match e with
  | Join _ _ _ (Some a) _ | Block _ _ _ a _ => [a]
  | Set_filter _ _ _ _ l _ => l
  | _ => []
  end.

(* RFC 3678: is a datagram from a to group g on interface i for this socket *)
Definition wanted (l : list smem) (i g a : Z) : verdict :=
  match member l (Some i) g with
  | None => NotGroup
  | Some (_, m) => if eqb (isin a (s_src m)) (meq (s_mode m) Inc) then Pass else NotSource
  end.

(* the members of a group on an interface, of all sockets *)
Definition members (x : spec) (i g : Z) : list smem := filter (about (Some i) g) (concat x).
Definition excluding (a : Z) (m : smem) : bool := meq (s_mode m) Exc && isin a (s_src m).
Definition including (a : Z) (m : smem) : bool := meq (s_mode m) Inc && isin a (s_src m).

(* no call removes the last source of an INCLUDE membership *)
Definition full (m : smem) : Prop := s_mode m = Inc -> s_src m <> [].
Fixpoint never_emptied (maxsock maxmem : nat) (h : list ev) (x : spec) : Prop :=
  match h with
  | [] => True
  | e :: h => Forall (Forall full) (fst (sstep maxsock maxmem e x)) /\ never_emptied maxsock maxmem h (fst (sstep maxsock maxmem e x))
  end.

(* RFC 3376 3.2: a source is excluded on an interface if there are
   members in mode EXCLUDE, all of them exclude it, and no member includes it;
   it is included if a member includes it and none excludes it *)
Definition in_report (mb : list smem) (a : Z) : mode :=
  let ex := filter (fun m => meq (s_mode m) Exc) mb in
  if negb (match ex with [] => true | _ => false end) && forallb (fun m => isin a (s_src m)) ex && negb (existsb (including a) mb) then Exc
  else if existsb (including a) mb && negb (existsb (excluding a) mb) then Inc
  else Und.
