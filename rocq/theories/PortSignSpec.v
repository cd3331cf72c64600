(** Numbers in port lists that are not plain decimal. *)
From Coq Require Import String Ascii.
From Verif Require Import Base.
Local Open Scope char_scope.
Local Open Scope list_scope.
Local Open Scope Z_scope.

(** Hexadecimal digits and the number a row of them stands for *)
Definition hex_table : list (ascii * Z) :=
  [("0", 0); ("1", 1); ("2", 2); ("3", 3); ("4", 4); ("5", 5); ("6", 6); ("7", 7); ("8", 8); ("9", 9); ("a", 10); ("b", 11); ("c", 12); ("d", 13);
   ("e", 14); ("f", 15); ("A", 10); ("B", 11); ("C", 12); ("D", 13); ("E", 14); ("F", 15)].
Inductive hex_number : list ascii -> Z -> Prop :=
| hx_first c d : In (c, d) hex_table -> hex_number [c] d
| hx_more l v c d : hex_number l v -> In (c, d) hex_table -> hex_number (l ++ [c]) (16 * v + d).
