(** The texts of documents after RFC 8259, with white space and all escapes, without the functions of the reader. *)
From Coq Require Import String Ascii.
From Verif Require Import Base JsonModel JsonTextSpec.
Local Open Scope list_scope.
Local Open Scope char_scope.

Notation num c := (Z.of_nat (nat_of_ascii c)) (only parsing).
(** Space, tab, line feed, carriage return *)
Definition blank (w : list ascii) : Prop := Forall (fun c => In (nat_of_ascii c) [32; 9; 10; 13]) w.

(** Strings.  The bytes of a code point in UTF-8; [\u] with one code unit, or with two surrogates. *)
Inductive utf8_bytes : nat -> list nat -> Prop :=
| u8_1 a : a < 128 -> utf8_bytes a [a]
| u8_2 a b : 2 <= a < 32 -> b < 64 -> utf8_bytes (64 * a + b) [192 + a; 128 + b]
| u8_3 a b c : a < 16 -> b < 64 -> c < 64 -> 32 <= 64 * a + b -> utf8_bytes (64 * (64 * a + b) + c) [224 + a; 128 + b; 128 + c]
| u8_4 a b c d : b < 64 -> c < 64 -> d < 64 -> 16 <= 64 * a + b <= 271 -> utf8_bytes (64 * (64 * (64 * a + b) + c) + d) [240 + a; 128 + b; 128 + c; 128 + d].
Definition hex_unit (t : list ascii) (u : nat) : Prop :=
  exists h1 h2 h3 h4 a b c d, t = ["\"; "u"; h1; h2; h3; h4] /\ hex h1 a /\ hex h2 b /\ hex h3 c /\ hex h4 d /\ u = 16 * (16 * (16 * a + b) + c) + d.
Definition codes (s : list ascii) (l : list nat) : Prop := map nat_of_ascii s = l.
Inductive piece : list ascii -> list ascii -> Prop :=
| pc_plain c : 32 <= nat_of_ascii c -> c <> """" -> c <> "\" -> piece [c] [c]
| pc_quote : piece [""""] ["\"; """"]
| pc_backslash : piece ["\"] ["\"; "\"]
| pc_slash : piece ["/"] ["\"; "/"]
| pc_b s : codes s [8] -> piece s ["\"; "b"]
| pc_f s : codes s [12] -> piece s ["\"; "f"]
| pc_n s : codes s [10] -> piece s ["\"; "n"]
| pc_r s : codes s [13] -> piece s ["\"; "r"]
| pc_t s : codes s [9] -> piece s ["\"; "t"]
| pc_unit s l t u : hex_unit t u -> ~ (55296 <= Z.of_nat u <= 56319)%Z -> utf8_bytes u l -> codes s l -> piece s t
| pc_pair s l t1 t2 a b u hi lo : hex_unit t1 a -> hex_unit t2 b -> (0 <= hi < 1024)%Z -> (0 <= lo < 1024)%Z -> Z.of_nat a = (55296 + hi)%Z -> Z.of_nat b = (56320 + lo)%Z -> Z.of_nat u = (65536 + 1024 * hi + lo)%Z ->
    utf8_bytes u l -> codes s l -> piece s (t1 ++ t2).
Inductive pieces_text : list ascii -> list ascii -> Prop :=
| ps_nil : pieces_text [] []
| ps_cons s t s' t' : piece s t -> pieces_text s' t' -> pieces_text (s ++ s') (t ++ t').
Definition str_text (s : string) (t : list ascii) : Prop := exists r, pieces_text (list_ascii_of_string s) r /\ t = """" :: r ++ [""""].

(** Numbers *)
Definition digits (t : list ascii) : Prop := Forall (fun c => 48 <= nat_of_ascii c <= 57) t.
Definition decimal (t : list ascii) : Z := fold_left (fun v c => v * 10 + (num c - 48))%Z t 0%Z.
(** No zero in front *)
Definition natural (t : list ascii) : Prop := t = ["0"] \/ exists c r, t = c :: r /\ 49 <= nat_of_ascii c <= 57 /\ digits r.
Definition minus_text (minus : bool) : list ascii := if minus then ["-"] else [].
Definition fraction (t : list ascii) : Prop := t = [] \/ exists r, t = "." :: r /\ r <> [] /\ digits r.
Definition exponent_text (t : list ascii) : Prop := t = [] \/ exists e s r, t = e :: s ++ r /\ (e = "e" \/ e = "E") /\ (s = [] \/ s = ["+"] \/ s = ["-"]) /\ r <> [] /\ digits r.
Definition whole_text (z : Z) (t : list ascii) : Prop := exists minus n, t = minus_text minus ++ n /\ natural n /\ z = (if minus then - decimal n else decimal n)%Z.
Definition number_text (t : list ascii) : Prop := exists minus n f e, t = minus_text minus ++ n ++ f ++ e /\ natural n /\ fraction f /\ exponent_text e.
(** The integers of a document: those of int64_t and uint64_t.  Other numbers become doubles. *)
Definition fits (z : Z) : Prop := (- 2 ^ 63 <= z < 2 ^ 64)%Z.
Definition real_text (t : list ascii) : Prop := number_text t /\ ~ exists z, whole_text z t /\ fits z.

Section Grammar.
  (** The double that a text of a number becomes *)
  Variable convert : list ascii -> option Z.
  Inductive rtext : json -> list ascii -> Prop :=
  | rt_null : rtext JNull (list_ascii_of_string "null")
  | rt_true : rtext (JBool true) (list_ascii_of_string "true")
  | rt_false : rtext (JBool false) (list_ascii_of_string "false")
  | rt_int z t : whole_text z t -> fits z -> rtext (JInt z) t
  | rt_real b t : real_text t -> convert t = Some b -> rtext (JDouble b) t
  | rt_str s t : str_text s t -> rtext (JStr s) t
  | rt_empty_arr w : blank w -> rtext (JArr []) ("[" :: w ++ ["]"])
  | rt_arr l w t : blank w -> elements l t -> rtext (JArr l) ("[" :: w ++ t)
  | rt_empty_obj w : blank w -> rtext (JObj []) ("{" :: w ++ ["}"])
  | rt_obj l w t : blank w -> fields l t -> rtext (JObj l) ("{" :: w ++ t)
  (** One or more elements and the bracket *)
  with elements : list json -> list ascii -> Prop :=
  | el_last x t w : rtext x t -> blank w -> elements [x] (t ++ w ++ ["]"])
  | el_next x l t w w' r : rtext x t -> blank w -> blank w' -> elements l r -> elements (x :: l) (t ++ w ++ "," :: w' ++ r)
  with fields : list (string * json) -> list ascii -> Prop :=
  | fi_last n x s w w' t w'' : str_text n s -> blank w -> blank w' -> rtext x t -> blank w'' -> fields [(n, x)] (s ++ w ++ ":" :: w' ++ t ++ w'' ++ ["}"])
  | fi_next n x l s w w' t w'' v r : str_text n s -> blank w -> blank w' -> rtext x t -> blank w'' -> blank v -> fields l r -> fields ((n, x) :: l) (s ++ w ++ ":" :: w' ++ t ++ w'' ++ "," :: v ++ r).
  Definition document (x : json) (t : list ascii) : Prop := exists w u w', t = w ++ u ++ w' /\ blank w /\ rtext x u /\ blank w'.
End Grammar.
