(** When two documents say the same: members of objects in any order. *)
From Coq Require Import String Permutation.
From Verif Require Import Base JsonModel JsonSpec.
Local Open Scope string_scope.
Local Open Scope list_scope.

Section Same.
  (** When a double and another number are the same *)
  Variable num : json -> json -> Prop.
  Definition is_double (x : json) : Prop := exists b, x = JDouble b.
  Definition is_number (x : json) : Prop := is_double x \/ exists z, x = JInt z.
  Inductive same : json -> json -> Prop :=
  | sm_null : same JNull JNull
  | sm_bool b : same (JBool b) (JBool b)
  | sm_int z : same (JInt z) (JInt z)
  | sm_double x y : is_number x -> is_number y -> is_double x \/ is_double y -> num x y -> same x y
  | sm_str s : same (JStr s) (JStr s)
  | sm_arr l l' : Forall2 same l l' -> same (JArr l) (JArr l')
  | sm_obj l l' l'' : Permutation l'' l' -> Forall2 (fun a b => fst a = fst b /\ same (snd a) (snd b)) l l'' -> same (JObj l) (JObj l').
End Same.
(** No object has two members of the same name, and no name has a zero character. *)
Inductive tidy : json -> Prop :=
| td_leaf x : (forall l, x <> JArr l) -> (forall l, x <> JObj l) -> tidy x
| td_arr l : Forall tidy l -> tidy (JArr l)
| td_obj l : NoDup (map fst l) -> Forall (fun e => no_nul (fst e) /\ tidy (snd e)) l -> tidy (JObj l).
