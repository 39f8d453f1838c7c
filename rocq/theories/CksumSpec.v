(* The Internet checksum as RFC 1071 defines it: the one's complement of the one's
   complement sum of the big-endian 16-bit words of the data, the data being padded with a
   zero byte if its length is odd. *)
From Verif Require Import Base.

Fixpoint be_words (l : list Z) : list Z :=
  match l with
  | [] => []
  | [x] => [x * 256]
  | x :: y :: t => (x * 256 + y) :: be_words t
  end.

(* 16-bit one's complement addition: end-around carry *)
Definition ones_add (a b : Z) : Z :=
  if a + b >? 65535 then a + b - 65535 else a + b.

Definition rfc1071_sum (l : list Z) : Z := fold_left ones_add (be_words l) 0.
Definition rfc1071 (l : list Z) : Z := 65535 - rfc1071_sum l.

(* the two bytes of a 16-bit value on the wire *)
Definition net16 (x : Z) : list Z := [x / 256; x mod 256].

(* all the bytes of a packet given as its segment contents *)
Definition flat (segs : list (list Z)) : list Z := concat segs.

(* RFC 768/793 pseudo header for IPv4 followed by the upper-layer bytes *)
Definition pseudo4 (src dst : list Z) (proto : Z) (payload : list Z) : list Z :=
  src ++ dst ++ [0; proto] ++ net16 (Z.of_nat (length payload)) ++ payload.
