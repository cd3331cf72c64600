(** Parameter containers.  common/src/ParamContainer.cpp, common/include/ParamContainer.h.  Documents are values of rapidjson (JsonModel); parsing text and writing
    it are not modelled, nor that encoded strings refer to the characters of the parameters. *)
From Coq Require Import String Ascii.
From Verif Require Import Base StrOrder JsonModel.
Local Open Scope string_scope.
Local Open Scope list_scope.
Local Open Scope Z_scope.

(** rapidjson::Pointer (documented behaviour): tokens follow '/', "~0" stands for '~', "~1" for '/', any other '~' makes the pointer invalid. *)
Fixpoint unescape (s : string) : option string :=
  match s with
  | EmptyString => Some EmptyString
  | String "~" r => match r with
    | String "0" r' => option_map (String "~") (unescape r')
    | String "1" r' => option_map (String "/") (unescape r')
    | _ => None
    end
  | String c r => option_map (String c) (unescape r)
  end.
Fixpoint all_some {A} (l : list (option A)) : option (list A) :=
  match l with [] => Some [] | Some a :: r => option_map (cons a) (all_some r) | None :: _ => None end.
Definition pointer (s : string) : option (list string) := match s with EmptyString => Some [] | String "/" r => all_some (map unescape (pieces r)) | _ => None end.
(** A token that is a number without leading zeros below 2^32 - 1 is also an index. *)
Definition digit (c : ascii) : option Z := let n := Z.of_nat (nat_of_ascii c) in if (48 <=? n) && (n <=? 57) then Some (n - 48) else None.
Fixpoint number_from (acc : Z) (s : string) : option Z := match s with EmptyString => Some acc | String c r => match digit c with Some d => number_from (acc * 10 + d) r | None => None end end.
Definition index (s : string) : option nat :=
  match s with
  | EmptyString => None
  | String "0" (String _ _) => None
  | _ => match number_from 0 s with Some n => if n <? 2 ^ 32 - 1 then Some (Z.to_nat n) else None | None => None end
  end.
(** Pointer::Get *)
Fixpoint pget (ts : list string) (x : json) : option json :=
  match ts with
  | [] => Some x
  | t :: r => match x with
    | JObj l => match find_member t l with Some y => pget r y | None => None end
    | JArr l => match index t with Some i => match nth_error l i with Some y => pget r y | None => None end | None => None end
    | _ => None
    end
  end.
(** Pointer::Set: what is missing is created; what is in the way becomes an object or an array. *)
Definition set_nth (i : nat) (y : json) (l : list json) : list json := firstn i (l ++ repeat JNull i) ++ y :: skipn (S i) l.
Fixpoint pset (ts : list string) (x v : json) : json :=
  match ts with
  | [] => v
  | t :: r => match x with
    | JArr l =>
      if String.eqb t "-" then JArr (l ++ [pset r JNull v])
      else match index t with Some i => JArr (set_nth i (pset r (nth i l JNull) v) l) | None => JObj [(t, pset r JNull v)] end
    | JObj l => JObj (put_member t (pset r (match find_member t l with Some y => y | None => JNull end) v) l)
    | _ => match index t with Some i => JArr (set_nth i (pset r JNull v) []) | None => JObj [(t, pset r JNull v)] end
    end
  end.

(** Types of parameters, ParamContainer.cpp:188-303; [KVec]: bind_vector_param *)
Inductive scalar := KInt | KUint | KU16 | KI64 | KU64 | KDouble | KBool | KStr.
Inductive kind := KOne (k : scalar) | KDoc | KVec (k : scalar).
(** Values of parameters; a double by its bits *)
Inductive pval := PInt (z : Z) | PDouble (bits : Z) | PBool (b : bool) | PStr (s : string) | PDoc (x : json) | PVec (l : list pval).
(** The variables that parameters are bound to *)
Definition memory := nat -> pval.
Definition store (a : nat) (v : pval) (m : memory) : memory := fun b => if Nat.eqb b a then v else m b.
(** setter_map_ and getter_map_ have the same keys: bind_param and bind_vector_param, ParamContainer.h:126-163 *)
Definition bindings := smap (kind * nat).
Definition bind_param (path : string) (k : kind) (a : nat) (b : bindings) : bindings := sm_put b path (k, a).
(** ParamContainerException: from RAPIDJSON_ASSERT (ParamContainer.h:62) or of update from text *)
Inductive parexc := PAssert | PParse.

Section Container.
  (** The bits of the double next to an integer *)
  Variable near : Z -> Z.

  (** set_value, ParamContainer.cpp:188-295 *)
  Definition ranged (lo hi z : Z) : option pval := if (lo <=? z) && (z <? hi) then Some (PInt z) else None.
  Definition set_scalar (k : scalar) (x : json) : option pval :=
    match k, x with
    | KInt, JInt z => ranged (- 2 ^ 31) (2 ^ 31) z
    | KUint, JInt z => ranged 0 (2 ^ 32) z
    | KU16, JInt z => match ranged 0 (2 ^ 32) z with Some _ => Some (PInt (z mod 2 ^ 16)) | None => None end
    | KI64, JInt z => ranged (- 2 ^ 63) (2 ^ 63) z
    | KU64, JInt z => ranged 0 (2 ^ 64) z
    | KDouble, JDouble b => Some (PDouble b)
    | KDouble, JInt z => Some (PDouble (near z))
    | KBool, JBool b => Some (PBool b)
    | KStr, JStr s => Some (PStr (cstr s))
    | _, _ => None
    end.
  (** vector_param_set, ParamContainer.h:214-229: elements up to the first that cannot be read *)
  Fixpoint set_elements (k : scalar) (l : list json) : list pval * bool :=
    match l with [] => ([], true) | x :: r => match set_scalar k x with Some v => let '(t, ok) := set_elements k r in (v :: t, ok) | None => ([], false) end end.
  (** param_set: the new value, and whether there was no exception *)
  Definition param_set (k : kind) (x : json) (old : pval) : pval * bool :=
    match k with
    | KOne s => match set_scalar s x with Some v => (v, true) | None => (old, false) end
    | KDoc => (PDoc x, true)
    | KVec s => match x with JArr l => let '(v, ok) := set_elements s l in (PVec v, ok) | _ => (PVec [], false) end
    end.
  (** get_value and vector_param_get, ParamContainer.cpp:193-300, ParamContainer.h:242-259 *)
  Fixpoint param_get (v : pval) : json :=
    match v with PInt z => JInt z | PDouble b => JDouble b | PBool b => JBool b | PStr s => JStr (cstr s) | PDoc x => x | PVec l => JArr (map param_get l) end.

  (** pointer_path, ParamContainer.h:302-313.  Of an empty string the first character is read (undefined before it is known to be zero): here there is none. *)
  Definition pointer_path (p : string) : string := match p with String "/" _ => p | _ => String "/" p end.
  (** encode into a document, ParamContainer.cpp:63-89.  The pointers are C strings. *)
  Definition ends_in_slash (s : string) : bool := match rev (list_ascii_of_string s) with c :: _ => Ascii.eqb c "/" | [] => false end.
  Definition pointer_prefix (prefix : string) : string :=
    let p := pointer_path "" in
    match prefix with EmptyString => p | _ => let q := append p prefix in if ends_in_slash q then q else append q "/" end.
  Fixpoint encode_each (prefix : string) (b : bindings) (m : memory) (x : json) : json * outcome parexc unit :=
    match b with
    | [] => (x, Ret tt)
    | (p, (_, a)) :: r => match pointer (cstr (append prefix p)) with Some ts => encode_each prefix r m (pset ts x (param_get (m a))) | None => (x, Throw PAssert) end
    end.
  Definition encode_in (prefix : string) (b : bindings) (m : memory) (x : json) : json * outcome parexc unit := encode_each (pointer_prefix prefix) b m x.
  (** encode(), lines 40-53, before it is written *)
  Definition encode_doc (b : bindings) (m : memory) : json * outcome parexc unit := encode_in "" b m (JObj []).
  (** update from a document, lines 166-184: parameters in the order of their paths *)
  Fixpoint update_doc (b : bindings) (d : json) (m : memory) : memory * outcome parexc unit :=
    match b with
    | [] => (m, Ret tt)
    | (p, (k, a)) :: r => match pointer (cstr (pointer_path p)) with
      | None => (m, Throw PAssert)
      | Some ts => match pget ts d with
        | None => update_doc r d m
        | Some x => let '(v, ok) := param_set k x (m a) in if ok then update_doc r d (store a v m) else (store a v m, Throw PAssert)
        end
      end
    end.
  (** update from text, lines 99-131: [None] is text that is no JSON *)
  Definition update_text (b : bindings) (d : option json) (m : memory) : memory * outcome parexc unit := match d with Some x => update_doc b x m | None => (m, Throw PParse) end.
  (** update from another container, lines 140-148; the document is null at first *)
  Definition update_from (b : bindings) (b' : bindings) (m' : memory) (m : memory) : memory * outcome parexc unit :=
    match encode_in "" b' m' JNull with (d, Ret tt) => update_doc b d m | (_, e) => (m, e) end.
End Container.
