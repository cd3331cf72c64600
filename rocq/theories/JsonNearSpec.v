(** The numbers that texts and bits of doubles stand for, and what a nearest double is. *)
From Coq Require Import String Ascii Reals.
From Verif Require Import Base JsonModel JsonTextSpec JsonReadSpec.
Local Open Scope list_scope.
Local Open Scope char_scope.

(** The exponent that a text ends with *)
Inductive exponent_is : list ascii -> Z -> Prop :=
| ex_none : exponent_is [] 0
| ex_plus c s r : c = "e" \/ c = "E" -> s = [] \/ s = ["+"] -> r <> [] -> digits r -> exponent_is (c :: s ++ r) (decimal r)
| ex_minus c r : c = "e" \/ c = "E" -> r <> [] -> digits r -> exponent_is (c :: "-" :: r) (- decimal r).
(** A text: its sign, its digits as one integer, and the power of ten that goes with them *)
Inductive stands : list ascii -> bool -> Z -> Z -> Prop :=
| st_text minus n f e z : natural n -> fraction f -> exponent_is e z -> stands (minus_text minus ++ n ++ f ++ e) minus (decimal (n ++ tl f)) (z - Z.of_nat (List.length (tl f))).
Definition signed (minus : bool) (x : R) : R := if minus then (- x)%R else x.
(** 10^p *)
Definition ten (p : Z) : R := powerRZ 10 p.
Definition number (minus : bool) (d p : Z) : R := signed minus (IZR d * ten p).

(** Doubles by their bits: sign, exponent, fraction *)
Definition exponent_bits (b : Z) : Z := ((b / 2 ^ 52) mod 2 ^ 11)%Z.
Definition fraction_bits (b : Z) : Z := (b mod 2 ^ 52)%Z.
Definition sign_bit (b : Z) : bool := (2 ^ 63 <=? b)%Z.
Definition finite_bits (b : Z) : Prop := (0 <= b < 2 ^ 64 /\ exponent_bits b < 2047)%Z.
Definition value (b : Z) : R :=
  signed (sign_bit b) (if (exponent_bits b =? 0)%Z then IZR (fraction_bits b) * powerRZ 2 (-1074) else IZR (2 ^ 52 + fraction_bits b) * powerRZ 2 (exponent_bits b - 1075))%R.
(** No double is nearer, and of two that are as near it is the even one. *)
Definition nearest (x : R) (b : Z) : Prop :=
  finite_bits b /\ (forall b', finite_bits b' -> Rabs (value b - x) <= Rabs (value b' - x))%R /\
  forall b', finite_bits b' -> Rabs (value b' - x) = Rabs (value b - x) -> value b' <> value b -> Z.even (fraction_bits b) = true.
