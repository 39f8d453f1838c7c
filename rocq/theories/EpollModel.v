(* epoll and select, src/ofp_epoll.c and src/ofp_syscalls.c:318-427.
   Simplifications: the user data of an event is a number; whether a descriptor
   is readable (is_readable, ofp_uipc_socket.c:2874) is an input, before and
   after the sleep; OFP_SOCK_NUM_OFFSET and OFP_NUM_SOCKETS_MAX are parameters
   (ofp_config.h:64-89). The socket of the epoll descriptor is an in-range
   socket: ofp_get_sock_by_fd (ofp_uipc_socket.c:318-321) does no check and never
   returns NULL, so an out-of-range epoll descriptor reads outside the table. *)
From Verif Require Import Base.

Record ev := mkEv { ev_events : Z; ev_data : Z }.      (* ofp_epoll.h:24-27 *)
Record slot := mkSlot { sl_fd : Z; sl_ev : ev }.       (* ofpi_socketvar.h:149-152 *)
Record esock := mkES { es_epoll : bool; es_set : list slot }.  (* so_type == OFP_SOCK_EPOLL, epoll_set *)

(* results: Inl r = return value, Inr e = -1 with ofp_errno e *)
Definition OFP_ENOENT := 2. Definition OFP_EBADF := 9. Definition OFP_EFAULT := 14.
Definition OFP_EEXIST := 17. Definition OFP_EINVAL := 22. Definition OFP_ENOSPC := 28.
Definition EPOLL_SET_SIZE := 16%nat.                   (* ofp_config.h:96 *)
Definition OFP_EPOLLIN := 1.
Definition CTL_ADD := 1. Definition CTL_DEL := 2. Definition CTL_MOD := 3.

(* ofp_epoll.c:20-36 epoll_socket_creator: the slots of a fresh socket (the
   events are whatever the memory holds) *)
Definition epoll_new (junk : list ev) : esock := mkES true (map (mkSlot (-1)) junk).

(* ofp_epoll.c:80-89 find_fd, as the index of the slot *)
Fixpoint find_fd (l : list slot) (fd : Z) : option nat :=
  match l with
  | [] => None
  | s :: r => if sl_fd s =? fd then Some 0%nat else option_map S (find_fd r fd)
  end.
Definition is_registered (l : list slot) (fd : Z) : bool :=
  match find_fd l fd with Some _ => true | None => false end.
Fixpoint set_nth {A} (i : nat) (x : A) (l : list A) : list A :=
  match l, i with
  | [], _ => []
  | _ :: r, O => x :: r
  | y :: r, S j => y :: set_nth j x r
  end.
(* ofp_epoll.c:96-109 set_fd, modify_epoll_set *)
Definition modify (l : list slot) (old new : Z) (e : ev) : list slot * (Z + Z) :=
  match find_fd l old with
  | None => (l, inr OFP_ENOSPC)
  | Some i => (set_nth i (mkSlot new e) l, inl 0)
  end.

(* ofp_epoll.c:56-62, 111-156. event = None is a NULL pointer. *)
Definition epoll_ctl (epfd : Z) (s : esock) (op fd : Z) (event : option ev) : outcome (esock * (Z + Z)) :=
  if epfd =? fd then Ret (s, inr OFP_EINVAL)
  else if negb (es_epoll s) then Ret (s, inr OFP_EINVAL)
  else
    let l := es_set s in
    let keep (x : list slot * (Z + Z)) := Ret (mkES true (fst x), snd x) in
    if op =? CTL_ADD then
      if is_registered l fd then Ret (s, inr OFP_EEXIST)
      else match find_fd l (-1), event with
           | Some _, None => UB              (* event is dereferenced *)
           | _, None => Ret (s, inr OFP_ENOSPC)
           | _, Some e => keep (modify l (-1) fd e)
           end
    else if op =? CTL_DEL then
      if negb (is_registered l fd) then Ret (s, inr OFP_ENOENT)
      else keep (modify l fd (-1) (mkEv 0 0))
    else if op =? CTL_MOD then
      if negb (is_registered l fd) then Ret (s, inr OFP_ENOENT)
      else match event with None => UB | Some e => keep (modify l fd fd e) end
    else Ret (s, inr OFP_EINVAL).

(* ofp_epoll.c:187-194 is_ready *)
Definition is_ready (readable : Z -> bool) (s : slot) : bool :=
  negb (sl_fd s =? -1) && negb (Z.land (ev_events (sl_ev s)) OFP_EPOLLIN =? 0) && readable (sl_fd s).
(* ofp_epoll.c:196-206 *)
Definition none_of_ready (readable : Z -> bool) (l : list slot) : bool :=
  negb (existsb (is_ready readable) l).
(* ofp_epoll.c:208-219 available_events; n is ready so far *)
Fixpoint available (readable : Z -> bool) (l : list slot) (maxevents n : Z) : list ev :=
  match l with
  | [] => []
  | s :: r => if (n <? maxevents) && is_ready readable s
              then sl_ev s :: available readable r maxevents (n + 1)
              else available readable r maxevents n
  end.

(* ofp_epoll.c:221-243. The result: did it sleep (with which timeout), and
   either the events or the error. events_ok = events is not NULL. rd0, rd1:
   readability when called and after the sleep. *)
Definition epoll_wait (s : esock) (events_ok : bool) (maxevents timeout : Z) (rd0 rd1 : Z -> bool)
  : option Z * (list ev + Z) :=
  if negb (es_epoll s) || (maxevents <? 1) then (None, inr OFP_EINVAL)
  else if negb events_ok then (None, inr OFP_EFAULT)
  else if (timeout <? 0) && negb (timeout =? -1) then (None, inr OFP_EINVAL)
  else if negb (timeout =? 0) && none_of_ready rd0 (es_set s)
       then (Some (if timeout =? -1 then 0 else timeout), inl (available rd1 (es_set s) maxevents 0))
       else (None, inl (available rd0 (es_set s) maxevents 0)).

(* ---------- select ---------- *)
Section Select.
Variables (OFF MAXS : Z).     (* OFP_SOCK_NUM_OFFSET, OFP_NUM_SOCKETS_MAX *)

(* ofp_socket.h:441: size of the buffer *)
Definition fdbuf_len : Z := MAXS / 8 + 1.
Definition fdset := list Z.

(* ofp_syscalls.c:386-396: C division and remainder; a negative shift count is
   undefined, the index may be outside the buffer *)
Definition bit_index (fd : Z) : Z := Z.quot (fd - OFF) 8.
Definition bit_shift (fd : Z) : Z := Z.rem (fd - OFF) 8.
Definition fd_access (s : fdset) (fd : Z) : outcome (nat * Z * Z) :=
  let i := bit_index fd in let k := bit_shift fd in
  if (i <? 0) || (k <? 0) then UB
  else match nth_error s (Z.to_nat i) with
       | None => UB
       | Some b => Ret (Z.to_nat i, b, u8 (Z.shiftl 1 k))
       end.
(* ofp_syscalls.c:398-427 *)
Definition FD_CLR (fd : Z) (s : fdset) : outcome fdset :=
  obind (fd_access s fd) (fun '(i, b, m) => Ret (set_nth i (u8 (Z.land b (Z.lnot m))) s)).
Definition FD_ISSET (fd : Z) (s : fdset) : outcome bool :=
  obind (fd_access s fd) (fun '(i, b, m) => Ret (negb (Z.land b m =? 0))).
Definition FD_SET (fd : Z) (s : fdset) : outcome fdset :=
  obind (fd_access s fd) (fun '(i, b, m) => Ret (set_nth i (Z.lor b m) s)).
Definition FD_ZERO : fdset := repeat 0 (Z.to_nat fdbuf_len).

(* ofp_syscalls.c:331-338 set_ready_fd *)
Definition set_ready_fd (readable : Z -> bool) (fd : Z) (s : fdset) : outcome (fdset * Z) :=
  obind (FD_ISSET fd s) (fun b =>
  if b && readable fd then Ret (s, 1) else obind (FD_CLR fd s) (fun s' => Ret (s', 0))).
(* ofp_syscalls.c:341-351 set_ready_fds, n iterations from fd *)
Fixpoint set_ready_loop (readable : Z -> bool) (n : nat) (fd : Z) (s : fdset) (ready : Z) : outcome (fdset * Z) :=
  match n with
  | O => Ret (s, ready)
  | S m => obind (set_ready_fd readable fd s) (fun '(s', r) => set_ready_loop readable m (fd + 1) s' (ready + r))
  end.
(* ofp_syscalls.c:353-363 none_of_ready *)
Fixpoint none_ready_loop (readable : Z -> bool) (n : nat) (fd : Z) (s : fdset) : outcome bool :=
  match n with
  | O => Ret true
  | S m => obind (FD_ISSET fd s) (fun b => if b && readable fd then Ret false else none_ready_loop readable m (fd + 1) s)
  end.
(* ofp_syscalls.c:325-329 to_usec *)
Definition to_usec (t : option (Z * Z)) : Z := match t with Some (s, us) => u32 (s * 1000000 + us) | None => 0 end.
(* ofp_syscalls.c:365-384 _ofp_select with a non-NULL readfds; timeout None is
   NULL. Result: sleep time if it slept, the set, the return value. writefds and
   exceptfds are ignored. *)
Definition select (nfds : Z) (s : fdset) (timeout : option (Z * Z)) (rd0 rd1 : Z -> bool)
  : outcome (option Z * fdset * Z) :=
  let n := Z.to_nat (nfds - OFF) in
  let blocking := match timeout with None => true | Some _ => to_usec timeout >? 0 end in
  obind (if blocking then none_ready_loop rd0 n OFF s else Ret false) (fun sleep =>
  obind (set_ready_loop (if sleep then rd1 else rd0) n OFF s 0) (fun '(s', r) =>
  Ret (if sleep then Some (to_usec timeout) else None, s', r))).
End Select.
