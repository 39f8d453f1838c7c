(* IPv6 extension headers (RFC 2460 4) as they are put on the wire. *)
From Verif Require Import Base NdSpec.

Inductive ext :=
| Options (proto k : Z) (body : list Z)       (* 0 hop-by-hop or 60 destination options *)
| Auth (k : Z) (body : list Z)                (* 51, RFC 4302 *)
| Routing (k type segleft : Z) (body : list Z) (* 43 *)
| FirstFragment (res flags : Z) (ident : list Z).  (* 44 with fragment offset 0 *)

Definition ext_proto (e : ext) : Z :=
  match e with Options p _ _ => p | Auth _ _ => 51 | Routing _ _ _ _ => 43 | FirstFragment _ _ _ => 44 end.

(* the header's bytes, given the protocol of what follows *)
Definition ext_bytes (e : ext) (nxt : Z) : list Z :=
  match e with
  | Options _ k body => nxt :: k :: body
  | Auth k body => nxt :: k :: body
  | Routing k ty sl body => nxt :: k :: ty :: sl :: body
  | FirstFragment r fl ident => nxt :: r :: 0 :: fl :: ident
  end.

(* the length fields are right *)
Definition ext_ok (e : ext) : Prop :=
  match e with
  | Options p k body => (p = 0 \/ p = 60) /\ is_byte k /\ Z.of_nat (length body) = 8 * (k + 1) - 2
  | Auth k body => is_byte k /\ Z.of_nat (length body) = 4 * (k + 2) - 2
  | Routing k ty sl body => is_byte k /\ is_byte ty /\ is_byte sl /\ Z.of_nat (length body) = 8 * (k + 1) - 4
  | FirstFragment r fl ident => 0 <= fl < 8 /\ length ident = 4%nat
  end.

(* the chain, followed by an upper-layer protocol *)
Definition chain_first (es : list ext) (upper : Z) : Z :=
  match es with [] => upper | e :: _ => ext_proto e end.
Fixpoint chain_bytes (es : list ext) (upper : Z) : list Z :=
  match es with
  | [] => []
  | e :: t => ext_bytes e (chain_first t upper) ++ chain_bytes t upper
  end.

(* the destination the packet finally goes to: the last address of the last type 0 routing
   header with segments left (and a whole number of addresses), else the header's *)
Fixpoint chain_dst (es : list ext) (dst : list Z) : list Z :=
  match es with
  | [] => dst
  | Routing k ty sl body :: t =>
    chain_dst t (if (ty =? 0) && negb (sl =? 0) && (k mod 2 =? 0) && negb (k =? 0)
                 then skipn (length body - 16) body else dst)
  | _ :: t => chain_dst t dst
  end.

Definition is_ext (p : Z) : Prop := p = 0 \/ p = 43 \/ p = 44 \/ p = 51 \/ p = 60.
