(** Common vocabulary of the model. *)
From Coq Require Export List Arith NArith ZArith Bool Lia.
From Coq Require Export ZifyBool ZifyNat ZifyN.
Export ListNotations.

(** Result of running a piece of C++: a value, a C++ exception carrying [E], or undefined behaviour. *)
Inductive outcome (E A : Type) : Type :=
| Ret (a : A)
| Throw (e : E)
| Undef.
Arguments Ret {E A} a.
Arguments Throw {E A} e.
Arguments Undef {E A}.

Definition obind {E A B} (m : outcome E A) (k : A -> outcome E B) : outcome E B :=
  match m with Ret a => k a | Throw e => Throw e | Undef => Undef end.

Definition is_ret {E A} (m : outcome E A) : bool :=
  match m with Ret _ => true | _ => false end.

(** Two's complement reading of an integer in 32 and 64 bits (C++ conversions to int / int64_t). *)
Definition i32 (z : Z) : Z := ((z + 2^31) mod 2^32 - 2^31)%Z.
Definition i64 (z : Z) : Z := ((z + 2^63) mod 2^64 - 2^63)%Z.
Definition u64 (z : Z) : N := Z.to_N (z mod 2^64)%Z.
Definition u32 (z : Z) : N := Z.to_N (z mod 2^32)%Z.

Definition in_i32 (z : Z) : bool := ((- 2^31 <=? z) && (z <? 2^31))%Z.
Definition in_i64 (z : Z) : bool := ((- 2^63 <=? z) && (z <? 2^63))%Z.
