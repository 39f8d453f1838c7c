(* TCP options: tcp_dooptions, src/ofp_tcp_input.c:3132-3219, and ofp_tcp_addoptions,
   src/ofp_tcp_output.c:1423-1560. Bytes are Z values. *)
From Verif Require Import Base.

(* struct tcpopt, include/ofpi_tcp_var.h:286-303: a present field is one whose flag is set.
   to_sacks is the blocks it points to, in host order *)
Record topt := mkOpt { o_mss : option Z; o_ws : option Z; o_sackok : bool; o_ts : option (Z * Z); o_sig : bool; o_sack : option (list (Z * Z)) }.
Definition no_opt : topt := mkOpt None None false None false None.

(* cp[i]; the option area has exactly the bytes of the list *)
Definition rd (l : list Z) (i : nat) : outcome Z := match nth_error l i with Some b => Ret b | None => UB end.
(* bcopy of a big-endian integer *)
Definition rd16 (l : list Z) (i : nat) : outcome Z := obind (rd l i) (fun a => obind (rd l (S i)) (fun b => Ret (a * 256 + b))).
Definition rd32 (l : list Z) (i : nat) : outcome Z := obind (rd16 l i) (fun a => obind (rd16 l (S (S i))) (fun b => Ret (a * 65536 + b))).
(* the blocks, as ofp_tcp_sack_doack reads them, src/ofp_tcp_sack.c:359-362 *)
Fixpoint rd_blocks (l : list Z) (i : nat) (n : nat) : outcome (list (Z * Z)) :=
  match n with
  | O => Ret []
  | S n => obind (rd32 l i) (fun s => obind (rd32 l (i + 4)) (fun e => obind (rd_blocks l (i + 8) n) (fun r => Ret ((s, e) :: r))))
  end.
(* 3149-3218: the switch; cp is at the option's first byte *)
Definition one_opt (do_sack syn : bool) (cp : list Z) (opt optlen : Z) (to : topt) : outcome topt :=
  if opt =? 2 then
    if negb (optlen =? 4) || negb syn then Ret to else
    obind (rd16 cp 2) (fun v => Ret (mkOpt (Some v) (o_ws to) (o_sackok to) (o_ts to) (o_sig to) (o_sack to)))
  else if opt =? 3 then
    if negb (optlen =? 3) || negb syn then Ret to else
    obind (rd cp 2) (fun v => Ret (mkOpt (o_mss to) (Some (Z.min v 14)) (o_sackok to) (o_ts to) (o_sig to) (o_sack to)))
  else if opt =? 8 then
    if negb (optlen =? 10) then Ret to else
    obind (rd32 cp 2) (fun v => obind (rd32 cp 6) (fun e => Ret (mkOpt (o_mss to) (o_ws to) (o_sackok to) (Some (v, e)) (o_sig to) (o_sack to))))
  else if opt =? 4 then
    if negb (optlen =? 2) || negb syn || negb do_sack then Ret to else Ret (mkOpt (o_mss to) (o_ws to) true (o_ts to) (o_sig to) (o_sack to))
  else if opt =? 5 then
    if (optlen <=? 2) || negb ((optlen - 2) mod 8 =? 0) || syn then Ret to else
    obind (rd_blocks cp 2 (Z.to_nat ((optlen - 2) / 8))) (fun bl => Ret (mkOpt (o_mss to) (o_ws to) (o_sackok to) (o_ts to) (o_sig to) (Some bl)))
  else Ret to.       (* TCP_SIGNATURE (19) is not compiled in *)
(* 3137-3148 *)
Fixpoint dooptions (fuel : nat) (do_sack syn : bool) (cp : list Z) (to : topt) : outcome topt :=
  match fuel with
  | O => Diverge
  | S fuel =>
    match cp with
    | [] => Ret to
    | opt :: _ =>
      if opt =? 0 then Ret to else
      obind (if opt =? 1 then Ret (Some 1) else
             if Z.of_nat (length cp) <? 2 then Ret None else
             obind (rd cp 1) (fun n => if (n <? 2) || (n >? Z.of_nat (length cp)) then Ret None else Ret (Some n))) (fun on =>
      match on with
      | None => Ret to
      | Some n => obind (one_opt do_sack syn cp opt n to) (fun to => dooptions fuel do_sack syn (skipn (Z.to_nat n) cp) to)
      end)
    end
  end.
Definition parse (do_sack syn : bool) (cp : list Z) : outcome topt := dooptions (S (length cp)) do_sack syn cp no_opt.

(* ---- building ---- *)
Definition b16 (v : Z) : list Z := [u8 (v / 256); u8 v].
Definition b32 (v : Z) : list Z := [u8 (v / 16777216); u8 (v / 65536); u8 (v / 256); u8 v].
(* 1432-1435, 1444-1447, 1454-1457 ...: NOPs until the length fits; at most four are needed *)
Fixpoint nops (n : nat) (ok : Z -> bool) (out : list Z) : list Z :=
  match n with O => out | S n => if ok (Z.of_nat (length out)) then out else nops n ok (out ++ [1]) end.
Definition room (out : list Z) : Z := 40 - Z.of_nat (length out).
(* one option: align, then append if it fits; nothing once the area is full (1429-1430) *)
Definition put (want : bool) (ok : Z -> bool) (need : Z) (bytes : list Z -> list Z) (out : list Z) : list Z :=
  if negb want || (Z.of_nat (length out) =? 40) then out else
  let out := nops 4 ok out in
  if room out <? need then out else out ++ bytes out.
Definition is_so {A} (o : option A) : bool := match o with Some _ => true | None => false end.
Definition blk_bytes (b : Z * Z) : list Z := b32 (fst b) ++ b32 (snd b).
Definition sack_bytes (bl : list (Z * Z)) (out : list Z) : list Z :=
  let n := Z.min (Z.of_nat (length bl)) ((40 - (Z.of_nat (length out) + 2)) / 8) in
  [5; 2 + n * 8] ++ flat_map blk_bytes (firstn (Z.to_nat n) bl).
Definition al4 (n : Z) : bool := n mod 4 =? 0.
Definition al2 (n : Z) : bool := n mod 2 =? 0.
Definition al1 (n : Z) : bool := negb (n =? 0) && (n mod 2 =? 1).
Definition al42 (n : Z) : bool := negb (n =? 0) && (n mod 4 =? 2).
(* 1539-1554: end and pad with zeros *)
Definition pad_end (out : list Z) : list Z := out ++ repeat 0 (Z.to_nat ((- Z.of_nat (length out)) mod 4)).
Definition addoptions (to : topt) : list Z :=
  let out := put (is_so (o_mss to)) al4 4 (fun _ => [2; 4] ++ b16 (match o_mss to with Some v => v | None => 0 end)) [] in
  let out := put (is_so (o_ws to)) al1 3 (fun _ => [3; 3; match o_ws to with Some v => v | None => 0 end]) out in
  let out := put (o_sackok to) al2 2 (fun _ => [4; 2]) out in
  let out := put (is_so (o_ts to)) al42 10 (fun _ => [8; 10] ++ match o_ts to with Some (v, e) => b32 v ++ b32 e | None => [] end) out in
  let out := put (o_sig to) al42 18 (fun _ => [19; 18] ++ repeat 0 16) out in
  let out := put (is_so (o_sack to)) al42 10 (sack_bytes (match o_sack to with Some l => l | None => [] end)) out in
  pad_end out.
