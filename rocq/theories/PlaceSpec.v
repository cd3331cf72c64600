(** What a user expects of frame placement, in closed form and without the writer's functions.

    P processes, F frames per block, B blocks per file.  Blocks of F consecutive frames are dealt to the processes
    in turn; each process fills its files with B of its blocks each; file i belongs to process i mod P and is the
    (i / P)-th file of that process. *)
From Verif Require Import Base.
Local Open Scope N_scope.

(** The frame number that belongs in slot s of file i. *)
Definition frame_at (P F B i s : N) : N :=
  (((i / P) * B + s / F) * P + i mod P) * F + s mod F.

(** The frame number that belongs in slot s of the only file of process r (no limit on blocks per file). *)
Definition frame_at_single (P F r s : N) : N :=
  ((s / F) * P + r) * F + s mod F.

(** Block of a frame. *)
Definition block_of (F off : N) : N := off / F.

(** How many frame numbers below T satisfy a test. *)
Definition count_below (T : nat) (test : N -> bool) : nat :=
  length (filter test (map N.of_nat (seq 0 T))).

(** Sum of f 0 .. f (n-1). *)
Fixpoint sum_below (n : nat) (f : nat -> nat) : nat :=
  match n with O => O | S m => (sum_below m f + f m)%nat end.
