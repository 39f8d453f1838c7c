(* MD5 as RFC 1321 defines it, on a message of any length: padding, 64-byte
   blocks, 64 steps per block.  Nothing here comes from Md5Model. *)
From Verif Require Import Base.

(* RFC 1321 section 3.4: auxiliary functions on 32-bit words *)
Definition not32 (x : Z) : Z := 4294967295 - x.
Definition sel (x y z : Z) : Z := Z.lor (Z.land x y) (Z.ldiff z x). (* if x then y else z, bit by bit *)
Definition aux (i : nat) (b c d : Z) : Z :=
  match (i / 16)%nat with
  | 0%nat => sel b c d
  | 1%nat => sel d b c
  | 2%nat => Z.lxor b (Z.lxor c d)
  | _ => Z.lxor c (Z.lor b (not32 d))
  end.
(* which word of the block step i uses *)
Definition word_index (i : nat) : nat :=
  match (i / 16)%nat with
  | 0%nat => i
  | 1%nat => 5 * i + 1
  | 2%nat => 3 * i + 5
  | _ => 7 * i
  end mod 16.
(* how far step i rotates *)
Definition amount (i : nat) : Z :=
  nth (i mod 4) (nth (i / 16) [[7; 12; 17; 22]; [5; 9; 14; 20]; [4; 11; 16; 23]; [6; 10; 15; 21]] []) 0.
Definition rotl (x s : Z) : Z := x * 2 ^ s mod 4294967296 + x / 2 ^ (32 - s).

(* T[i] = floor (2^32 * |sin i|), i in radians, 1 <= i <= 64: the Taylor series
   of sine in fixed point with 240 binary digits, 160 terms *)
Fixpoint sine_terms (k : nat) (j n t acc : Z) : Z :=
  match k with
  | O => acc
  | S k => sine_terms k (j + 2) n (- (t * n * n / ((j + 1) * (j + 2)))) (acc + t)
  end.
Definition sine240 (n : Z) : Z := sine_terms 160 1 n (n * 2 ^ 240) 0.
Definition T (i : Z) : Z := Z.abs (sine240 i) / 2 ^ 208.

Definition quad : Type := Z * Z * Z * Z.

(* one of the 64 steps: the registers move up by one *)
Definition one_step (x : nat -> Z) (v : quad) (i : nat) : quad :=
  let '(a, b, c, d) := v in
  (d, (b + rotl ((a + aux i b c d + x (word_index i) + T (Z.of_nat i + 1)) mod 4294967296) (amount i)) mod 4294967296, b, c).

(* section 3.4: process a block of sixteen little-endian words *)
Definition word (block : list Z) (k : nat) : Z :=
  nth (4 * k) block 0 + 2 ^ 8 * nth (4 * k + 1) block 0 + 2 ^ 16 * nth (4 * k + 2) block 0 + 2 ^ 24 * nth (4 * k + 3) block 0.
Definition compress (v : quad) (block : list Z) : quad :=
  let '(a, b, c, d) := v in
  let '(a', b', c', d') := fold_left (one_step (word block)) (seq 0 64) v in
  ((a + a') mod 4294967296, (b + b') mod 4294967296, (c + c') mod 4294967296, (d + d') mod 4294967296).

(* sections 3.1, 3.2: a one bit, zeros up to 56 bytes modulo 64, the length in
   bits modulo 2^64 as eight little-endian bytes *)
Fixpoint little (n : nat) (x : Z) : list Z :=
  match n with O => [] | S n => x mod 256 :: little n (x / 256) end.
Definition padded (m : list Z) : list Z :=
  let n := Z.of_nat (length m) in
  m ++ [128] ++ repeat 0 (Z.to_nat ((55 - n) mod 64)) ++ little 8 (8 * n mod 2 ^ 64).

(* section 3.3: A, B, C, D as little-endian bytes 01 23 45 67 89 ab cd ef fe dc ... *)
Definition iv : quad := (0x67452301, 0xefcdab89, 0x98badcfe, 0x10325476).

Definition block_of (m : list Z) (i : nat) : list Z := firstn 64 (skipn (64 * i) m).
Definition chain (m : list Z) (n : nat) : quad := fold_left (fun v i => compress v (block_of m i)) (seq 0 n) iv.

(* section 3.5 *)
Definition md5_of (m : list Z) : list Z :=
  let p := padded m in
  let '(a, b, c, d) := chain p (length p / 64) in
  little 4 a ++ little 4 b ++ little 4 c ++ little 4 d.
