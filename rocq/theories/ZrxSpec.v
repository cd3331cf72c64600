(** What a decoder for ZeroMQ messages should be told. *)
From Verif Require Import Base ZrxModel.

(** Every message: its parts in order, then once that it is complete. *)
Definition story (ms : list (list (list N))) : list told := flat_map (fun m => map Part m ++ [Complete 1]) ms.

(** The decoder always allocates at least [n] bytes. *)
Definition allocates {D} (c : decoder D) (n : N) : Prop := forall d, (n <= snd (snd (d_next c d)))%N.
