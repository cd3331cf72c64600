(** What happened to a timer, read off the events. *)
From Verif Require Import Base ReactorModel.
Local Open Scope Z_scope.

(** The times at which timer [id] fired. *)
Definition fires (id : Z) (l : list event) : list Z := flat_map (fun e => match e with EFire i t => if i =? id then [t] else [] | _ => [] end) l.
Definition removed (id : Z) (l : list event) : Prop := In (ERemove id) l.
(** Turns of the reactor over its timers that began at or after time [t]. *)
Definition passes (t : Z) (l : list event) : nat := length (filter (fun e => match e with EPass s => t <=? s | _ => false end) l).
