(* Model of src/ofp_md5c.c (MD5, little-endian build: Encode and Decode are
   memcpy, lines 40-42) and of the functions of src/ofp_tcp_subr.c that make
   initial sequence numbers from it. *)
From Verif Require Import Base.

Definition zl (l : list Z) : Z := Z.of_nat (length l).

(* F, G, H, I: ofp_md5c.c:86-90; arguments are uint32_t *)
Definition fF (x y z : Z) : Z := Z.lor (Z.land x y) (Z.land (u32 (Z.lnot x)) z).
Definition fG (x y z : Z) : Z := Z.lor (Z.land x z) (Z.land y (u32 (Z.lnot z))).
Definition fH (x y z : Z) : Z := Z.lxor (Z.lxor x y) z.
Definition fI (x y z : Z) : Z := Z.lxor y (Z.lor x (u32 (Z.lnot z))).

(* ROTATE_LEFT: ofp_md5c.c:93 *)
Definition rotate_left (x n : Z) : Z := Z.lor (u32 (Z.shiftl x n)) (Z.shiftr x (32 - n)).

(* the macros FF, GG, HH, II: ofp_md5c.c:95-118 *)
Inductive macro := FF | GG | HH | II.
Definition mfun (m : macro) : Z -> Z -> Z -> Z :=
  match m with FF => fF | GG => fG | HH => fH | II => fI end.
Definition mstep (m : macro) (a b c d x s ac : Z) : Z :=
  let a := u32 (a + u32 (mfun m b c d + x + ac)) in
  let a := rotate_left a s in
  u32 (a + b).

(* the four local variables a, b, c, d, and the order in which a macro call
   names them; the first one named is the one it assigns *)
Record regs := mkR { ra : Z; rb : Z; rc : Z; rd : Z }.
Inductive order := ABCD | DABC | CDAB | BCDA.
Definition call (m : macro) (o : order) (x s ac : Z) (r : regs) : regs :=
  match o with
  | ABCD => mkR (mstep m (ra r) (rb r) (rc r) (rd r) x s ac) (rb r) (rc r) (rd r)
  | DABC => mkR (ra r) (rb r) (rc r) (mstep m (rd r) (ra r) (rb r) (rc r) x s ac)
  | CDAB => mkR (ra r) (rb r) (mstep m (rc r) (rd r) (ra r) (rb r) x s ac) (rd r)
  | BCDA => mkR (ra r) (mstep m (rb r) (rc r) (rd r) (ra r) x s ac) (rc r) (rd r)
  end.

(* the 64 macro calls of MD5Transform in order: macro, argument order, index
   into x, rotation (S11..S44 substituted), constant: ofp_md5c.c:236-317 *)
Definition calls : list (macro * order * Z * Z * Z) :=
 [(FF, ABCD, 0, 7, 3614090360);
  (FF, DABC, 1, 12, 3905402710);
  (FF, CDAB, 2, 17, 606105819);
  (FF, BCDA, 3, 22, 3250441966);
  (FF, ABCD, 4, 7, 4118548399);
  (FF, DABC, 5, 12, 1200080426);
  (FF, CDAB, 6, 17, 2821735955);
  (FF, BCDA, 7, 22, 4249261313);
  (FF, ABCD, 8, 7, 1770035416);
  (FF, DABC, 9, 12, 2336552879);
  (FF, CDAB, 10, 17, 4294925233);
  (FF, BCDA, 11, 22, 2304563134);
  (FF, ABCD, 12, 7, 1804603682);
  (FF, DABC, 13, 12, 4254626195);
  (FF, CDAB, 14, 17, 2792965006);
  (FF, BCDA, 15, 22, 1236535329);
  (GG, ABCD, 1, 5, 4129170786);
  (GG, DABC, 6, 9, 3225465664);
  (GG, CDAB, 11, 14, 643717713);
  (GG, BCDA, 0, 20, 3921069994);
  (GG, ABCD, 5, 5, 3593408605);
  (GG, DABC, 10, 9, 38016083);
  (GG, CDAB, 15, 14, 3634488961);
  (GG, BCDA, 4, 20, 3889429448);
  (GG, ABCD, 9, 5, 568446438);
  (GG, DABC, 14, 9, 3275163606);
  (GG, CDAB, 3, 14, 4107603335);
  (GG, BCDA, 8, 20, 1163531501);
  (GG, ABCD, 13, 5, 2850285829);
  (GG, DABC, 2, 9, 4243563512);
  (GG, CDAB, 7, 14, 1735328473);
  (GG, BCDA, 12, 20, 2368359562);
  (HH, ABCD, 5, 4, 4294588738);
  (HH, DABC, 8, 11, 2272392833);
  (HH, CDAB, 11, 16, 1839030562);
  (HH, BCDA, 14, 23, 4259657740);
  (HH, ABCD, 1, 4, 2763975236);
  (HH, DABC, 4, 11, 1272893353);
  (HH, CDAB, 7, 16, 4139469664);
  (HH, BCDA, 10, 23, 3200236656);
  (HH, ABCD, 13, 4, 681279174);
  (HH, DABC, 0, 11, 3936430074);
  (HH, CDAB, 3, 16, 3572445317);
  (HH, BCDA, 6, 23, 76029189);
  (HH, ABCD, 9, 4, 3654602809);
  (HH, DABC, 12, 11, 3873151461);
  (HH, CDAB, 15, 16, 530742520);
  (HH, BCDA, 2, 23, 3299628645);
  (II, ABCD, 0, 6, 4096336452);
  (II, DABC, 7, 10, 1126891415);
  (II, CDAB, 14, 15, 2878612391);
  (II, BCDA, 5, 21, 4237533241);
  (II, ABCD, 12, 6, 1700485571);
  (II, DABC, 3, 10, 2399980690);
  (II, CDAB, 10, 15, 4293915773);
  (II, BCDA, 1, 21, 2240044497);
  (II, ABCD, 8, 6, 1873313359);
  (II, DABC, 15, 10, 4264355552);
  (II, CDAB, 6, 15, 2734768916);
  (II, BCDA, 13, 21, 1309151649);
  (II, ABCD, 4, 6, 4149444226);
  (II, DABC, 11, 10, 3174756917);
  (II, CDAB, 2, 15, 718787259);
  (II, BCDA, 9, 21, 3951481745)].

(* Decode of a block into x[16] as a memcpy on a little-endian machine:
   ofp_md5c.c:42, 235 *)
Definition le4 (l : list Z) : Z :=
  nth 0 l 0 + 256 * nth 1 l 0 + 65536 * nth 2 l 0 + 16777216 * nth 3 l 0.
Definition xword (block : list Z) (k : Z) : Z := le4 (skipn (Z.to_nat (4 * k)) block).

(* MD5Transform: ofp_md5c.c:229-324 (the zeroing of x, a local, is omitted) *)
Definition transform (state : regs) (block : list Z) : regs :=
  let r := fold_left (fun r '(m, o, k, s, ac) => call m o (xword block k) s ac r) calls state in
  mkR (u32 (ra state + ra r)) (u32 (rb state + rb r)) (u32 (rc state + rc r)) (u32 (rd state + rd r)).

(* MD5_CTX: include/ofpi_md5.h:36-40 *)
Record ctx := mkCtx { state : regs; count0 : Z; count1 : Z; buffer : list Z }.

(* ofp_MD5Init: ofp_md5c.c:122-133; the buffer keeps whatever bytes it had *)
Definition md5_init (garbage : list Z) : ctx :=
  mkCtx (mkR 1732584193 4023233417 2562383102 271733878) 0 0 garbage.

(* reading [len] bytes at [off] of an input of the caller *)
Definition rd_in (input : list Z) (off len : Z) : outcome (list Z) :=
  if (0 <=? off) && (off + len <=? zl input) then Ret (firstn (Z.to_nat len) (skipn (Z.to_nat off) input)) else UB.
(* memcpy of [d] to [off] of the 64-byte buffer *)
Definition wr_buf (b : list Z) (off : Z) (d : list Z) : outcome (list Z) :=
  if (0 <=? off) && (off + zl d <=? 64)
  then Ret (firstn (Z.to_nat off) b ++ d ++ skipn (Z.to_nat (off + zl d)) b) else UB.

(* the loop of ofp_MD5Update: ofp_md5c.c:168-169; unsigned int arithmetic *)
Fixpoint upd_loop (fuel : nat) (s : regs) (input : list Z) (inputLen i : Z) : outcome (regs * Z) :=
  match fuel with
  | O => Diverge
  | S f =>
    if u32 (i + 63) <? inputLen then
      obind (rd_in input i 64) (fun b => upd_loop f (transform s b) input inputLen (u32 (i + 64)))
    else Ret (s, i)
  end.

(* ofp_MD5Update: ofp_md5c.c:141-179 *)
Definition md5_update (c : ctx) (input : list Z) (inputLen : Z) : outcome ctx :=
  let index := Z.land (Z.shiftr (count0 c) 3) 63 in
  let add := u32 (Z.shiftl inputLen 3) in
  let n0 := u32 (count0 c + add) in
  let n1 := if n0 <? add then u32 (count1 c + 1) else count1 c in
  let n1 := u32 (n1 + Z.shiftr inputLen 29) in
  let partLen := u32 (64 - index) in
  obind (if partLen <=? inputLen then
           obind (rd_in input 0 partLen) (fun d =>
           obind (wr_buf (buffer c) index d) (fun b =>
           obind (upd_loop (Z.to_nat (inputLen / 64) + 3) (transform (state c) b) input inputLen partLen) (fun '(s, i) =>
           Ret (s, b, 0, i))))
         else Ret (state c, buffer c, index, 0)) (fun '(s, b, index, i) =>
  obind (rd_in input i (u32 (inputLen - i))) (fun d =>
  obind (wr_buf b index d) (fun b => Ret (mkCtx s n0 n1 b)))).

(* Encode, a memcpy of uint32_t words on a little-endian machine *)
Definition enc4 (w : Z) : list Z := [w mod 256; w / 256 mod 256; w / 65536 mod 256; w / 16777216 mod 256].

(* PADDING: ofp_md5c.c:79-83 *)
Definition PADDING : list Z := 128 :: repeat 0 63.

(* MD5Pad: ofp_md5c.c:184-202 *)
Definition md5_pad_ctx (c : ctx) : outcome ctx :=
  let bits := enc4 (count0 c) ++ enc4 (count1 c) in
  let index := Z.land (Z.shiftr (count0 c) 3) 63 in
  let padLen := if index <? 56 then 56 - index else 120 - index in
  obind (md5_update c PADDING padLen) (fun c => md5_update c bits 8).

(* ofp_MD5Final: ofp_md5c.c:208-221; returns the digest and the context, all
   of whose bytes are now zero *)
Definition md5_final (c : ctx) : outcome (list Z * ctx) :=
  obind (md5_pad_ctx c) (fun c =>
  Ret (enc4 (ra (state c)) ++ enc4 (rb (state c)) ++ enc4 (rc (state c)) ++ enc4 (rd (state c)),
       mkCtx (mkR 0 0 0 0) 0 0 (repeat 0 64))).

(* a caller's use of the three functions: init, any number of updates, final *)
Fixpoint md5_updates (c : ctx) (l : list (list Z)) : outcome ctx :=
  match l with [] => Ret c | x :: l => obind (md5_update c x (zl x)) (fun c => md5_updates c l) end.
Definition md5 (garbage : list Z) (l : list (list Z)) : outcome (list Z * ctx) :=
  obind (md5_updates (md5_init garbage) l) md5_final.
