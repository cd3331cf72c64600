(** What the pace of the simulator should be. *)
From Verif Require Import Base.
Local Open Scope Z_scope.

(** Every two frames in a row satisfy [R]: start and end of the first, start of the second. *)
Fixpoint in_a_row (R : Z -> Z -> Z -> Prop) (l : list (Z * Z)) : Prop :=
  match l with
  | (s, e) :: (((s', _) :: _) as r) => R s e s' /\ in_a_row R r
  | _ => True
  end.
