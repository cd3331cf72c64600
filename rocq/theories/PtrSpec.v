(** Paths of parameters as JSON pointers (RFC 6901), without the functions of the model *)
From Coq Require Import String Ascii.
From Verif Require Import Base JsonModel JsonSpec JsonReadSpec ParModel ParSpec.
Local Open Scope string_scope.
Local Open Scope list_scope.
Local Open Scope Z_scope.

(** Names are written with "~0" for '~' and "~1" for '/'; they have no zero characters. *)
Inductive escaped : string -> string -> Prop :=
| es_nil : escaped "" ""
| es_tilde n e : escaped n e -> escaped (String "~" n) (String "~" (String "0" e))
| es_slash n e : escaped n e -> escaped (String "/" n) (String "~" (String "1" e))
| es_char c n e : c <> "~"%char -> c <> "/"%char -> c <> Ascii.zero -> escaped n e -> escaped (String c n) (String c e).
(** The path of names, with or without a '/' in front *)
Definition bare_points (p : string) (c : list string) : Prop := c <> [] /\ exists es, Forall2 escaped c es /\ p = slashed es /\ hd "" es <> "".
Definition points (p : string) (c : list string) : Prop := bare_points p c \/ c <> [] /\ exists es, Forall2 escaped c es /\ p = append "/" (slashed es).
(** A name that is a number stands for an element of an array, counted from zero. *)
Definition numeral (n : string) (i : nat) : Prop := natural (chars n) /\ decimal (chars n) = Z.of_nat i /\ Z.of_nat i < 2 ^ 32 - 1.
Inductive resolves : list string -> json -> json -> Prop :=
| rs_here x : resolves [] x x
| rs_member n r l1 l2 y x : ~ In n (map fst l1) -> resolves r y x -> resolves (n :: r) (JObj (l1 ++ (n, y) :: l2)) x
| rs_element n r l1 l2 y x : numeral n (List.length l1) -> resolves r y x -> resolves (n :: r) (JArr (l1 ++ y :: l2)) x.
(** A '~' that is not part of "~0" or "~1" *)
Definition lone_tilde (p : string) : Prop := exists u w, p = append u (String "~" w) /\ forall r, w <> String "0" r /\ w <> String "1" r.

Definition with_points (l : list call) : Prop := forall p k a, bound l p k a -> exists c, points p c.
Definition with_bare_points (l : list call) : Prop := forall p k a, bound l p k a -> exists c, bare_points p c.
Definition fitting_points (l : list call) (d : json) : Prop := forall p k a c x, bound l p k a -> points p c -> resolves c d x -> fits k x.
Definition set_at_point (near : Z -> Z) (d : json) (m m' : memory) (p : string) (k : kind) (a : nat) : Prop :=
  forall c, points p c -> (forall x, resolves c d x -> is near k x (m' a)) /\ ((forall x, ~ resolves c d x) -> m' a = m a).
Definition separate_points (l : list call) : Prop := forall p k a p' k' a' c c', bound l p k a -> bound l p' k' a' -> p <> p' -> bare_points p c -> bare_points p' c' -> apart c c'.
