(** Settings in messages to configure a plugin. *)
From Coq Require Import String Ascii.
From Verif Require Import Base JsonModel JsonSpec.
Local Open Scope string_scope.
Local Open Scope list_scope.
Local Open Scope Z_scope.

(** Values of a type.  Texts end at the first zero. *)
Definition number_in (lo hi : Z) (y : json) : option Z := match y with JInt z => if (lo <=? z) && (z <? hi) then Some z else None | _ => None end.
Definition as_u64 : json -> option Z := number_in 0 (2 ^ 64).
Definition as_uint : json -> option Z := number_in 0 (2 ^ 32).
Definition as_int : json -> option Z := number_in (- 2 ^ 31) (2 ^ 31).
Definition as_text (y : json) : option string := match y with JStr t => Some (cstr t) | _ => None end.
Definition as_bool (y : json) : option bool := match y with JBool b => Some b | _ => None end.
Definition as_part (y : json) : option json := Some y.
Fixpoint all_some {A} (l : list (option A)) : option (list A) := match l with [] => Some [] | Some a :: t => match all_some t with Some r => Some (a :: r) | None => None end | None :: _ => None end.
Definition as_list {A} (rd : json -> option A) (y : json) : option (list A) := match y with JArr l => all_some (map rd l) | _ => None end.
Definition omap {A B} (f : A -> B) (rd : json -> option A) (y : json) : option B := match rd y with Some a => Some (f a) | None => None end.
(** The value at the path [q] is the new one; the old one stays if there is none. *)
Definition given {A} (x : json) (q : list string) (rd : json -> option A) (old new : A) : Prop :=
  (exists y, leads q x y /\ rd y = Some new) \/ ((forall y, ~ leads q x y) /\ new = old).
