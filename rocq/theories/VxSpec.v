(* C104: what a table of learned addresses should remember. *)
From Verif Require Import Base VxModel.

Definition is_mac (m : Z) : Prop := 0 < m < 281474976710656.        (* not 00:00:00:00:00:00 *)
Definition learns (h : list ev) : Prop := forall m d, In (Learn m d) h -> is_mac m.
(* the time now, in ticks, and when and with what address m was last learned *)
Fixpoint ticks (h : list ev) : Z := match h with [] => 0 | Tick :: h => 1 + ticks h | _ :: h => ticks h end.
Fixpoint last_learned (h : list ev) (m now : Z) (acc : option (Z * Z)) : option (Z * Z) :=
  match h with
  | [] => acc
  | Tick :: h => last_learned h m (now + 1) acc
  | Learn k d :: h => last_learned h m now (if k =? m then Some (d, now) else acc)
  end.
(* all times and addresses it was learned with *)
Fixpoint learned (h : list ev) (m now : Z) : list (Z * Z) :=
  match h with
  | [] => []
  | Tick :: h => learned h m (now + 1)
  | Learn k d :: h => (if k =? m then [(d, now)] else []) ++ learned h m now
  end.
(* no two addresses learned share a home *)
Definition no_collision (h : list ev) : Prop := forall m d k e, In (Learn m d) h -> In (Learn k e) h -> home m = home k -> m = k.
