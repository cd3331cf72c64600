(** Texts of documents, after RFC 8259, without white space.  A text is a list of bytes. *)
From Coq Require Import String Ascii DecimalString DecimalZ.
From Verif Require Import Base JsonModel.
Local Open Scope list_scope.
Local Open Scope char_scope.

Definition hex (c : ascii) (n : nat) : Prop :=
  exists k, nat_of_ascii c = k /\ ((48 <= k <= 57 /\ n = k - 48) \/ (65 <= k <= 70 /\ n = k - 55) \/ (97 <= k <= 102 /\ n = k - 87)).
(** One character of a string; [\u] only for ASCII *)
Inductive char_text : ascii -> list ascii -> Prop :=
| ct_plain c : 32 <= nat_of_ascii c -> c <> """" -> c <> "\" -> char_text c [c]
| ct_quote : char_text """" ["\"; """"]
| ct_backslash : char_text "\" ["\"; "\"]
| ct_slash : char_text "/" ["\"; "/"]
| ct_b : char_text (ascii_of_nat 8) ["\"; "b"]
| ct_f : char_text (ascii_of_nat 12) ["\"; "f"]
| ct_n : char_text (ascii_of_nat 10) ["\"; "n"]
| ct_r : char_text (ascii_of_nat 13) ["\"; "r"]
| ct_t : char_text (ascii_of_nat 9) ["\"; "t"]
| ct_u c h l a b : nat_of_ascii c < 128 -> hex h a -> hex l b -> nat_of_ascii c = 16 * a + b -> char_text c ["\"; "u"; "0"; "0"; h; l].
Inductive chars_text : list ascii -> list ascii -> Prop :=
| cs_nil : chars_text [] []
| cs_cons c s t r : char_text c t -> chars_text s r -> chars_text (c :: s) (t ++ r).
Definition string_text (s : string) (t : list ascii) : Prop := exists r, chars_text (list_ascii_of_string s) r /\ t = """" :: r ++ [""""].
(** Decimal integers, read by the standard library *)
Definition int_text (z : Z) (t : list ascii) : Prop := t <> [] /\ exists d, NilZero.int_of_string (string_of_list_ascii t) = Some d /\ Z.of_int d = z.

(** Characters that occur in numbers *)
Definition num_char (c : ascii) : bool := let n := nat_of_ascii c in (Nat.leb 48 n && Nat.leb n 57) || Ascii.eqb c "-" || Ascii.eqb c "+" || Ascii.eqb c "." || Ascii.eqb c "e" || Ascii.eqb c "E".
Definition int_char (c : ascii) : bool := let n := nat_of_ascii c in (Nat.leb 48 n && Nat.leb n 57) || Ascii.eqb c "-".
(** The texts of doubles: one double for a text; a fraction or exponent tells them from integers. *)
Definition doubles_ok (double : Z -> list ascii -> Prop) : Prop :=
  (forall b b' t, double b t -> double b' t -> b = b') /\
  (forall b t, double b t -> t <> [] /\ Forall (fun c => num_char c = true) t /\ Exists (fun c => int_char c = false) t).

Section Text.
  (** The texts of the doubles *)
  Variable double : Z -> list ascii -> Prop.
  Inductive text : json -> list ascii -> Prop :=
  | tx_null : text JNull (list_ascii_of_string "null")
  | tx_true : text (JBool true) (list_ascii_of_string "true")
  | tx_false : text (JBool false) (list_ascii_of_string "false")
  | tx_int z t : int_text z t -> text (JInt z) t
  | tx_double b t : double b t -> text (JDouble b) t
  | tx_str s t : string_text s t -> text (JStr s) t
  | tx_empty_arr : text (JArr []) ["["; "]"]
  | tx_arr x l t r : text x t -> more l r -> text (JArr (x :: l)) ("[" :: t ++ r)
  | tx_empty_obj : text (JObj []) ["{"; "}"]
  | tx_obj n x l s t r : string_text n s -> text x t -> fields l r -> text (JObj ((n, x) :: l)) ("{" :: s ++ ":" :: t ++ r)
  (** After an element of an array *)
  with more : list json -> list ascii -> Prop :=
  | mo_end : more [] ["]"]
  | mo_next x l t r : text x t -> more l r -> more (x :: l) ("," :: t ++ r)
  (** After a member of an object *)
  with fields : list (string * json) -> list ascii -> Prop :=
  | fi_end : fields [] ["}"]
  | fi_next n x l s t r : string_text n s -> text x t -> fields l r -> fields ((n, x) :: l) ("," :: s ++ ":" :: t ++ r).
End Text.
