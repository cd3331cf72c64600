(** Port lists as a user writes them. *)
From Coq Require Import String Ascii.
From Verif Require Import Base LiveSpec GapSpec JsonSpec.
Local Open Scope string_scope.
Local Open Scope list_scope.
Local Open Scope Z_scope.

(** A decimal digit *)
Definition is_digit (c : ascii) (d : Z) : Prop := 0 <= d <= 9 /\ Z.of_nat (nat_of_ascii c) = 48 + d.
(** The number a row of digits stands for: each further digit multiplies by ten. *)
Inductive number : list ascii -> Z -> Prop :=
| nu_first c d : is_digit c d -> 1 <= d -> number [c] d
| nu_more l v c d : number l v -> is_digit c d -> number (l ++ [c]) (10 * v + d).
(** An entry of the list: a port number between blanks, or something that is not a number. *)
Inductive entry_text : string -> option Z -> Prop :=
| et_port a t b v : all_blank a -> number (chars t) v -> all_blank b -> 1 <= v <= 65535 -> entry_text (append a (append t b)) (Some v)
| et_none a b : all_blank a -> (forall c r, chars b = c :: r -> ~ is_blank c /\ (forall d, ~ is_digit c d) /\ c <> "-"%char /\ c <> "+"%char) -> entry_text (append a b) None.
Inductive ports_of : list (option Z) -> list Z -> Prop :=
| po_nil : ports_of [] []
| po_some p r l : ports_of r l -> ports_of (Some p :: r) (p :: l)
| po_none r l : ports_of r l -> ports_of (None :: r) l.
(** A list as it is printed: numbers between commas *)
Definition printed (ports : list Z) (s : string) : Prop := exists parts, s = joined "," parts /\ Forall2 (fun p t => number (chars t) p) ports parts.
