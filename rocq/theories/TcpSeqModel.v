(* Model of include/ofpi_tcp_seq.h:36-56. tcp_seq is uint32_t; a and b are given as
   Z values in [0,2^32). *)
From Verif Require Import Base.

(* include/ofpi_tcp_seq.h:43  #define SEQ_LT(a,b) ((int)((a)-(b)) < 0) *)
Definition SEQ_LT (a b : Z) : bool := s32 (u32 (a - b)) <? 0.
(* include/ofpi_tcp_seq.h:44 *)
Definition SEQ_LEQ (a b : Z) : bool := s32 (u32 (a - b)) <=? 0.
(* include/ofpi_tcp_seq.h:45 *)
Definition SEQ_GT (a b : Z) : bool := s32 (u32 (a - b)) >? 0.
(* include/ofpi_tcp_seq.h:46 *)
Definition SEQ_GEQ (a b : Z) : bool := s32 (u32 (a - b)) >=? 0.
(* include/ofpi_tcp_seq.h:48 *)
Definition SEQ_MIN (a b : Z) : Z := if SEQ_LT a b then a else b.
(* include/ofpi_tcp_seq.h:49 *)
Definition SEQ_MAX (a b : Z) : Z := if SEQ_GT a b then a else b.
(* include/ofpi_tcp_seq.h:52-54 *)
Definition TSTMP_LT (a b : Z) : bool := s32 (u32 (a - b)) <? 0.
Definition TSTMP_GT (a b : Z) : bool := s32 (u32 (a - b)) >? 0.
Definition TSTMP_GEQ (a b : Z) : bool := s32 (u32 (a - b)) >=? 0.
