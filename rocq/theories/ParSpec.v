(** Parameter containers, without the functions of the model. *)
From Coq Require Import String Ascii.
From Verif Require Import Base JsonModel JsonSpec ParModel.
Local Open Scope string_scope.
Local Open Scope list_scope.
Local Open Scope Z_scope.

(** Calls of bind_param and bind_vector_param, in order: path, type, variable.  The last call for a path counts. *)
Notation call := (string * (kind * nat))%type.
Definition container (l : list call) : bindings := fold_left (fun b c => bind_param (fst c) (fst (snd c)) (snd (snd c)) b) l [].
Definition bound (l : list call) (p : string) (k : kind) (a : nat) : Prop := exists l1 l2, l = l1 ++ (p, (k, a)) :: l2 /\ ~ In p (map fst l2).
(** Different paths have different variables. *)
Definition own_variables (l : list call) : Prop := forall p k a p' k', bound l p k a -> bound l p' k' a -> p = p'.

(** Names that stand for themselves: no '/', '~' or zero characters, not a number, not "-" *)
Definition is_digit (c : ascii) : Prop := (48 <= nat_of_ascii c <= 57)%nat.
Definition word (n : string) : Prop := no_slash n /\ no_nul n /\ ~ In "~"%char (chars n) /\ (n = "" \/ exists c, In c (chars n) /\ ~ is_digit c) /\ n <> "-".
Definition words (c : list string) : Prop := c <> [] /\ Forall word c.
(** A path is words between '/', with or without one in front. *)
Definition path (p : string) (c : list string) : Prop := words c /\ (p = slashed c /\ hd "" c <> "" \/ p = append "/" (slashed c)).
Definition bare (p : string) (c : list string) : Prop := words c /\ p = slashed c /\ hd "" c <> "".

(** What a value of a document is as a parameter *)
Inductive is_scalar (near : Z -> Z) : scalar -> json -> pval -> Prop :=
| is_int z : - 2 ^ 31 <= z < 2 ^ 31 -> is_scalar near KInt (JInt z) (PInt z)
| is_uint z : 0 <= z < 2 ^ 32 -> is_scalar near KUint (JInt z) (PInt z)
| is_u16 z : 0 <= z < 2 ^ 16 -> is_scalar near KU16 (JInt z) (PInt z)
| is_i64 z : - 2 ^ 63 <= z < 2 ^ 63 -> is_scalar near KI64 (JInt z) (PInt z)
| is_u64 z : 0 <= z < 2 ^ 64 -> is_scalar near KU64 (JInt z) (PInt z)
| is_double b : is_scalar near KDouble (JDouble b) (PDouble b)
| is_near z : is_scalar near KDouble (JInt z) (PDouble (near z))
| is_bool b : is_scalar near KBool (JBool b) (PBool b)
| is_str s : no_nul s -> is_scalar near KStr (JStr s) (PStr s).
Inductive is (near : Z -> Z) : kind -> json -> pval -> Prop :=
| is_one k x v : is_scalar near k x v -> is near (KOne k) x v
| is_doc x : is near KDoc x (PDoc x)
| is_vec k l vs : Forall2 (is_scalar near k) l vs -> is near (KVec k) (JArr l) (PVec vs).
(** What the document has where a parameter is bound can be a value of its type, or cannot be taken for one: 16 bit numbers are in range, strings have no zero characters. *)
Definition fits_scalar (k : scalar) (x : json) : Prop := match k, x with KU16, JInt z => z < 2 ^ 16 \/ 2 ^ 32 <= z | KStr, JStr s => no_nul s | _, _ => True end.
Definition fits (k : kind) (x : json) : Prop := match k, x with KOne s, _ => fits_scalar s x | KVec s, JArr l => Forall (fits_scalar s) l | _, _ => True end.
Definition fitting (l : list call) (d : json) : Prop := forall p k a c x, bound l p k a -> path p c -> leads c d x -> fits k x.
Definition with_paths (l : list call) : Prop := forall p k a, bound l p k a -> exists c, path p c.
Definition with_bare_paths (l : list call) : Prop := forall p k a, bound l p k a -> exists c, bare p c.
(** No path leads to, or through, another. *)
Definition separate (l : list call) : Prop := forall p k a p' k' a' c c', bound l p k a -> bound l p' k' a' -> p <> p' -> bare p c -> bare p' c' -> apart c c'.

(** Exactly the bound parameters that the document has are set. *)
Definition set_at_path (near : Z -> Z) (d : json) (m m' : memory) (p : string) (k : kind) (a : nat) : Prop :=
  forall c, path p c -> (forall x, leads c d x -> is near k x (m' a)) /\ ((forall x, ~ leads c d x) -> m' a = m a).
Definition set_exactly (near : Z -> Z) (l : list call) (d : json) (m m' : memory) : Prop :=
  (forall p k a, bound l p k a -> set_at_path near d m m' p k a) /\ forall a, (forall p k, ~ bound l p k a) -> m' a = m a.
(** Every value has the type of its parameter. *)
Inductive of_scalar : scalar -> pval -> Prop :=
| of_int z : - 2 ^ 31 <= z < 2 ^ 31 -> of_scalar KInt (PInt z)
| of_uint z : 0 <= z < 2 ^ 32 -> of_scalar KUint (PInt z)
| of_u16 z : 0 <= z < 2 ^ 16 -> of_scalar KU16 (PInt z)
| of_i64 z : - 2 ^ 63 <= z < 2 ^ 63 -> of_scalar KI64 (PInt z)
| of_u64 z : 0 <= z < 2 ^ 64 -> of_scalar KU64 (PInt z)
| of_double b : of_scalar KDouble (PDouble b)
| of_bool b : of_scalar KBool (PBool b)
| of_str s : no_nul s -> of_scalar KStr (PStr s).
Inductive of_kind : kind -> pval -> Prop :=
| of_one k v : of_scalar k v -> of_kind (KOne k) v
| of_doc x : of_kind KDoc (PDoc x)
| of_vec k vs : Forall (of_scalar k) vs -> of_kind (KVec k) (PVec vs).
Definition typed_memory (l : list call) (m : memory) : Prop := forall p k a, bound l p k a -> of_kind k (m a).
(** What is given to encode as the place of the parameters *)
Definition place (s : string) (c0 : list string) : Prop := s = "" /\ c0 = [] \/ words c0 /\ last c0 "" <> "" /\ (s = slashed c0 \/ s = append (slashed c0) "/").
