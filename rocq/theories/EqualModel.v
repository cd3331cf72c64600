(** Comparing messages.  common/src/IpcMessage.cpp:462-500; values are compared by rapidjson. *)
From Coq Require Import String.
From Verif Require Import Base JsonModel.
Local Open Scope string_scope.
Local Open Scope list_scope.

Section Equal.
  (** Numbers of which at least one is a double: compared as doubles. *)
  Variable deq : json -> json -> bool.
  (** GenericValue::operator== (documented behaviour): objects of equally many members, where each member on the left has one of the same name and an
      equal value on the right; arrays element by element; strings of the same bytes; integers of the same value. *)
  Fixpoint json_eqb (x y : json) {struct x} : bool :=
    match x, y with
    | JNull, JNull => true
    | JBool a, JBool b => Bool.eqb a b
    | JInt a, JInt b => Z.eqb a b
    | JInt _, JDouble _ | JDouble _, JInt _ | JDouble _, JDouble _ => deq x y
    | JStr a, JStr b => String.eqb a b
    | JArr l, JArr l' => (fix go l l' := match l, l' with [], [] => true | a :: r, b :: r' => json_eqb a b && go r r' | _, _ => false end) l l'
    | JObj l, JObj l' => Nat.eqb (List.length l) (List.length l') &&
        (fix go l := match l with [] => true | (n, v) :: r => match find_member n l' with Some w => json_eqb v w | None => false end && go r end) l
    | _, _ => false
    end.
  (** operator==: type, value, whether there is an object of parameters, then the parameters, looked up by the C string of the name.  Neither the id nor the time. *)
  Definition msg_eqb (a b : msg) : bool :=
    msg_type_eqb (g_type a) (g_type b) && Nat.eqb (val_index (g_val a)) (val_index (g_val b)) && Bool.eqb (has_params (g_doc a)) (has_params (g_doc b)) &&
    match find_member "params" (g_doc a), find_member "params" (g_doc b) with
    | Some (JObj l), Some (JObj l') =>
      Nat.eqb (List.length l) (List.length l') && forallb (fun e => match find_member (cstr (fst e)) l' with Some w => json_eqb (snd e) w | None => false end) l
    | _, _ => true
    end.
End Equal.
