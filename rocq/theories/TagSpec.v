(** What the index attributes of a dataset (image_nr_low, image_nr_high) should say. *)
From Verif Require Import Base PlaceSpec.
Local Open Scope N_scope.

(** Frame [off] is stored in file [n] (P processes, F frames per block, B blocks per file). *)
Definition in_file (P F B n off : N) : Prop := exists s, s < B * F /\ frame_at P F B n s = off.

(** The two attributes name exactly the images of file [n] among [T] images; images count from one, frames from zero. *)
Definition tells_frames (P F B T n : N) (t : Z * Z) : Prop :=
  forall off, off < T -> (in_file P F B n off <-> (fst t <= Z.of_N off + 1 <= snd t)%Z).
