(** Frames over TCP: what is expected. *)
From Verif Require Import Base TcpModel.
Local Open Scope Z_scope.

(** A connection without end and errors, and the bytes that it brings *)
Definition healthy (c : conn) : Prop := forall a, In a c -> exists l, a = Bytes l.
Fixpoint stream (c : conn) : list Z := match c with Bytes l :: r => l ++ stream r | _ => [] end.
(** The [j]-th frame of a stream: its bytes from 1000 j on *)
Definition frame_of (bytes : list Z) (j : nat) : list Z := firstn 1000 (skipn (1000 * j) bytes).
(** A buffer has the frame at its start. *)
Definition has_frame (s : tcp) (b : Z) (f : list Z) : Prop := forall x, (x < 1000)%nat -> t_mem s (24 + b * 5000 + Z.of_nat x) = nth x f 0.
(** How often connection [k] was served *)
Definition times (k : nat) (l : list nat) : nat := count_occ Nat.eq_dec l k.
