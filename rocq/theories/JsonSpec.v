(** Trees of parameters, without the functions of the model. *)
From Coq Require Import String Ascii.
From Verif Require Import Base JsonModel.
Local Open Scope string_scope.
Local Open Scope list_scope.

(** The names [c], from the top of [x] down, lead to [y]; the first member of a name counts. *)
Inductive leads : list string -> json -> json -> Prop :=
| leads_here x : leads [] x x
| leads_in n r l1 l2 y x : ~ In n (map fst l1) -> leads r y x -> leads (n :: r) (JObj (l1 ++ (n, y) :: l2)) x.
Definition starts (c q : list string) : Prop := exists r, q = c ++ r.
Definition apart (c q : list string) : Prop := ~ starts c q /\ ~ starts q c.
Definition object (x : json) : Prop := exists l, x = JObj l.
(** Nothing in the way of [c]: what stands on the way is an object. *)
Definition clear_way (c : list string) (x : json) : Prop := forall q r y, c = q ++ r -> r <> [] -> leads q x y -> object y.

(** Characters. *)
Fixpoint chars (s : string) : list ascii := match s with EmptyString => [] | String c r => c :: chars r end.
Definition no_slash (s : string) : Prop := ~ In "/"%char (chars s).
Definition no_nul (s : string) : Prop := ~ In zero (chars s).
Definition array_name (s : string) : Prop := exists p, s = append p "[]".
(** A name of two or more characters that does not end in []. *)
Definition plain (s : string) : Prop := 2 <= String.length s /\ ~ array_name s.
Fixpoint slashed (c : list string) : string := match c with [] => "" | [n] => n | n :: r => append n (append "/" (slashed r)) end.

(** Paths whose first and last names are plain; no zero characters. *)
Definition good_path (c : list string) : Prop := c <> [] /\ Forall no_slash c /\ Forall no_nul c /\ plain (hd "" c) /\ plain (last c "").
(** Any path. *)
Definition any_path (c : list string) : Prop := c <> [] /\ Forall no_slash c /\ Forall no_nul c.

(** What a value set by its type is read as by the same type. *)
Inductive reads_as : value -> getter -> result -> Prop :=
| ra_int z : (- 2 ^ 31 <= z < 2 ^ 31)%Z -> reads_as (XInt z) GInt (RInt z)
| ra_uint z : (0 <= z < 2 ^ 32)%Z -> reads_as (XUint z) GUint (RInt z)
| ra_int64 z : (- 2 ^ 63 <= z < 2 ^ 63)%Z -> reads_as (XInt64 z) GInt64 (RInt z)
| ra_uint64 z : (0 <= z < 2 ^ 64)%Z -> reads_as (XUint64 z) GUint64 (RInt z)
| ra_double b : reads_as (XDouble b) GDouble (RDouble b)
| ra_bool b : reads_as (XBool b) GBool (RBool b)
| ra_str s : no_nul s -> reads_as (XStr s) GStr (RStr s).

(** A leaf of [u]: a value that is not an object. *)
Definition leaf (c : list string) (x u : json) : Prop := leads c u x /\ ~ object x.
(** Names of members, down through objects: without '/' and zero characters, plain, and each once. *)
Inductive good_tree : json -> Prop :=
| gt_leaf x : ~ object x -> good_tree x
| gt_obj l : NoDup (map fst l) -> (forall n y, In (n, y) l -> no_slash n /\ no_nul n /\ plain n /\ good_tree y) -> good_tree (JObj l).

(** The message has [x] at the path [c] of its parameters. *)
Definition holds (m : msg) (c : list string) (x : json) : Prop := leads ("params" :: c) (JObj (g_doc m)) x.
(** Everything but the document. *)
Definition same_head (a b : msg) : Prop := g_strict a = g_strict b /\ g_type a = g_type b /\ g_val a = g_val b /\ g_id a = g_id b /\ g_time a = g_time b.
