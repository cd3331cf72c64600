(** How a number is read in a file name. *)
From Verif Require Import Base NameModel.
Local Open Scope N_scope.

(** The number a text of decimal digits stands for. *)
Fixpoint numeral (acc : N) (l : list ascii) : option N :=
  match l with
  | [] => Some acc
  | c :: r => let d := N_of_ascii c in if (48 <=? d) && (d <=? 57) then numeral (10 * acc + (d - 48)) r else None
  end.
