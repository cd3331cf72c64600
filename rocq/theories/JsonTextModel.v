(** Documents as text: rapidjson::Writer<StringBuffer> with its default flags, as used by IpcMessage.cpp:299-332 and KafkaProducerPlugin.cpp:302-341.
    The library is vendored in common/include/rapidjson (writer.h, internal/itoa.h). *)
From Coq Require Import String Ascii DecimalString DecimalZ.
From Verif Require Import Base JsonModel.
Local Open Scope list_scope.
Local Open Scope char_scope.

Definition quote : ascii := """".
Definition backslash : ascii := "\".
(** hexDigits *)
Definition hex_digit (n : nat) : ascii := nth n (list_ascii_of_string "0123456789ABCDEF") "0".
(** WriteString: the table of escapes; other bytes are copied. *)
Definition escape (c : ascii) : list ascii :=
  if Ascii.eqb c quote then [backslash; quote] else if Ascii.eqb c backslash then [backslash; backslash]
  else match nat_of_ascii c with
  | 8 => [backslash; "b"] | 9 => [backslash; "t"] | 10 => [backslash; "n"] | 12 => [backslash; "f"] | 13 => [backslash; "r"]
  | n => if Nat.ltb n 32 then [backslash; "u"; "0"; "0"; hex_digit (Nat.div n 16); hex_digit (Nat.modulo n 16)] else [c]
  end.
Definition write_string (s : string) : list ascii := quote :: flat_map escape (list_ascii_of_string s) ++ [quote].
(** Integers in decimal *)
Definition write_int (z : Z) : list ascii := list_ascii_of_string (NilZero.string_of_int (Z.to_int z)).

Section Writer.
  (** The text of a double *)
  Variable double_text : Z -> list ascii.
  Fixpoint write (x : json) : list ascii :=
    match x with
    | JNull => list_ascii_of_string "null"
    | JBool b => list_ascii_of_string (if b then "true" else "false")
    | JInt z => write_int z
    | JDouble b => double_text b
    | JStr s => write_string s
    | JArr l => "[" :: (fix items first l := match l with [] => ["]"] | y :: r => (if first : bool then [] else [","]) ++ write y ++ items false r end) true l
    | JObj l => "{" :: (fix members first l := match l with [] => ["}"] | (n, y) :: r => (if first : bool then [] else [","]) ++ write_string n ++ ":" :: write y ++ members false r end) true l
    end.
End Writer.
