(** Two documents that differ in their doubles only, and documents with doubles that have no text. *)
From Coq Require Import String Ascii.
From Verif Require Import Base JsonModel.
Local Open Scope list_scope.

Section Like.
  Variable R : Z -> Z -> Prop.
  Inductive like : json -> json -> Prop :=
  | lk_null : like JNull JNull
  | lk_bool b : like (JBool b) (JBool b)
  | lk_int z : like (JInt z) (JInt z)
  | lk_double b b' : R b b' -> like (JDouble b) (JDouble b')
  | lk_str s : like (JStr s) (JStr s)
  | lk_arr l l' : all_like l l' -> like (JArr l) (JArr l')
  | lk_obj l l' : members_like l l' -> like (JObj l) (JObj l')
  with all_like : list json -> list json -> Prop :=
  | al_nil : all_like [] []
  | al_cons x y l l' : like x y -> all_like l l' -> all_like (x :: l) (y :: l')
  with members_like : list (string * json) -> list (string * json) -> Prop :=
  | ml_nil : members_like [] []
  | ml_cons n x y l l' : like x y -> members_like l l' -> members_like ((n, x) :: l) ((n, y) :: l').
End Like.
(** The numbers in a document *)
Inductive occurs : json -> json -> Prop :=
| oc_here x : occurs x x
| oc_arr x y l : In y l -> occurs x y -> occurs x (JArr l)
| oc_obj x n y l : In (n, y) l -> occurs x y -> occurs x (JObj l).
(** The bits of an infinity or a NaN: the eleven bits of the exponent are all set. *)
Definition no_number (b : Z) : Prop := exists s f, (b = s * 2 ^ 63 + 2047 * 2 ^ 52 + f /\ (s = 0 \/ s = 1) /\ 0 <= f < 2 ^ 52)%Z.
(** The values that a document can hold: 64 bits of a double, integers of int64_t or uint64_t *)
Definition machine (x : json) : Prop := forall y, occurs y x -> (forall b, y = JDouble b -> (0 <= b < 2 ^ 64)%Z) /\ (forall z, y = JInt z -> (- 2 ^ 63 <= z < 2 ^ 64)%Z).
