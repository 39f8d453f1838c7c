(* What a socket buffer is: a queue of at most 63 packets, read as one stream of bytes. *)
From Verif Require Import Base SockModel.

Definition bytes (l : list pkt) : list Z := concat (map pk_data l).
Definition ROOM : nat := 63.

(* taking n bytes off the front *)
Fixpoint drop_bytes (n : Z) (l : list pkt) : list pkt :=
  match l with
  | [] => []
  | m :: r => if n <=? 0 then l else if plen m <=? n then drop_bytes (n - plen m) r else pull_head m n :: r
  end.

(* calls on one buffer *)
Inductive bop := BPut (m : pkt) | BAppend (m : pkt) | BFirst | BCopy (off len : Z) | BDrop (n : Z) | BDropRec | BCount | BSpace.
Inductive bres := BFate (f : fate) | BRc (z : Z) | BPkt (o : option pkt) | BBytes (l : list Z) | BNone.

Definition bspec (takes : pkt -> bool) (bs : Z) (l : list pkt) (op : bop) : list pkt * bres :=
  match op with
  | BPut m => if takes m then (l, BFate Taken) else if (length l <? ROOM)%nat then (l ++ [m], BFate Queued) else (l, BFate Dropped)
  | BAppend m => if (length l <? ROOM)%nat then (l ++ [m], BRc 1) else (l, BRc 0)
  | BFirst => (l, BPkt (hd_error l))
  | BCopy off len => (l, BBytes (firstn (Z.to_nat len) (skipn (Z.to_nat off) (bytes l))))
  | BDrop n => (drop_bytes n l, BNone)
  | BDropRec => (tl l, BNone)
  | BCount => (l, BRc (Z.of_nat (length (bytes l))))
  | BSpace => (l, BRc (bs * (Z.of_nat ROOM - Z.of_nat (length l))))
  end.
Fixpoint bspecs (takes : pkt -> bool) (bs : Z) (l : list pkt) (ops : list bop) : list pkt * list bres :=
  match ops with
  | [] => (l, [])
  | op :: ops => let '(l, r) := bspec takes bs l op in let '(l, rs) := bspecs takes bs l ops in (l, r :: rs)
  end.
(* packets of at most 64 KiB; offsets and lengths are not negative *)
Definition legal (op : bop) : Prop :=
  match op with
  | BPut m | BAppend m => Z.of_nat (length (pk_data m)) <= 65535
  | BCopy off len => 0 <= off /\ 0 <= len
  | _ => True
  end.

(* running the calls of bop on the modelled buffer *)
Definition FUEL : nat := 65.
Definition brun1 (takes : pkt -> bool) (bs : Z) (sb : sbuf) (op : bop) : outcome (sbuf * bres) :=
  match op with
  | BPut m => let '(sb, f) := put_last takes sb m in Ret (sb, BFate f)
  | BAppend m => let '(sb, z) := append_addr sb m in Ret (sb, BRc z)
  | BFirst => Ret (sb, BPkt (get_first sb))
  | BCopy off len => obind (copy_out FUEL sb off len) (fun d => Ret (sb, BBytes d))
  | BDrop n => obind (sbdrop FUEL sb n) (fun '(sb, _) => Ret (sb, BNone))
  | BDropRec => Ret (fst (sbdroprecord sb), BNone)
  | BCount => Ret (sb, BRc (sb_cc sb))
  | BSpace => Ret (sb, BRc (sbspace bs sb))
  end.
Fixpoint bruns (takes : pkt -> bool) (bs : Z) (sb : sbuf) (ops : list bop) : outcome (sbuf * list bres) :=
  match ops with
  | [] => Ret (sb, [])
  | op :: ops => obind (brun1 takes bs sb op) (fun '(sb, r) => obind (bruns takes bs sb ops) (fun '(sb, rs) => Ret (sb, r :: rs)))
  end.

(* a is what is left of b when some elements are taken out *)
Inductive sub {A} : list A -> list A -> Prop :=
| sub_nil : sub [] []
| sub_keep x a b : sub a b -> sub (x :: a) (x :: b)
| sub_skip x a b : sub a b -> sub a (x :: b).
(* the packets that arrive in the windows k, k+1, ..., k+n-1 *)
Fixpoint arrivals (env : nat -> event) (k n : nat) : list pkt :=
  match n with O => [] | S n => v_pkts (env k) ++ arrivals env (S k) n end.

(* datagrams: a queue; each receive takes the oldest one *)
Inductive dop := DArrive (m : pkt) | DRecv (room : Z).
Inductive dres := DQueued (ok : bool) | DNothing | DGot (d : list Z) (cut : bool).
Fixpoint dspec (payload : pkt -> list Z) (l : list pkt) (ops : list dop) : list dres :=
  match ops with
  | [] => []
  | DArrive m :: ops => if (length l <? ROOM)%nat then DQueued true :: dspec payload (l ++ [m]) ops else DQueued false :: dspec payload l ops
  | DRecv room :: ops =>
    match l with
    | [] => DNothing :: dspec payload l ops
    | m :: l => DGot (firstn (Z.to_nat room) (payload m)) (Z.of_nat (length (payload m)) >? room) :: dspec payload l ops
    end
  end.
Fixpoint druns (body : pkt -> list Z) (ulen : pkt -> Z) (r : rsock) (ops : list dop) : outcome (list dres) :=
  match ops with
  | [] => Ret []
  | DArrive m :: ops =>
    let '(sb, z) := append_addr (r_sb r) m in
    obind (druns body ulen (mkR sb (r_cant r) (r_err r) (r_oob r)) ops) (fun t => Ret (DQueued (z =? 1) :: t))
  | DRecv room :: ops =>
    obind (recv_dgram true body ulen r room) (fun o =>
    match o with
    | Some (e, d, cut, fr, r) => obind (druns body ulen r ops) (fun t => Ret ((match fr with [] => DNothing | _ => DGot d cut end) :: t))
    | None => Diverge
    end)
  end.
