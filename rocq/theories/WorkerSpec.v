(** What is observed of a run of a worker: frames queued, taken, and finished, in order. *)
From Verif Require Import Base WorkerModel.

Definition queued {F} (tr : list (wlab F)) : list F := flat_map (fun a => match a with Queue f => [f] | _ => [] end) tr.
Definition taken {F} (tr : list (wlab F)) : list F := flat_map (fun a => match a with Take _ f => [f] | _ => [] end) tr.
Definition finished {F} (tr : list (wlab F)) : list F := flat_map (fun a => match a with Finish _ f => [f] | _ => [] end) tr.
Definition starts {F} (tr : list (wlab F)) : nat := length (filter (fun a => match a with Start => true | _ => false end) tr).
Definition stopped {F} (tr : list (wlab F)) : Prop := In Stop tr.

(** Steps of the worker threads. *)
Definition by_thread {F} (a : wlab F) : bool := match a with Take _ _ | Finish _ _ | Tau _ => true | _ => false end.
(** A run of worker threads only. *)
Inductive wworks {F} : worker F -> list (wlab F) -> worker F -> Prop :=
| ww_nil s : wworks s [] s
| ww_cons a s s1 l s2 : wstep a s s1 -> by_thread a = true -> wworks s1 l s2 -> wworks s (a :: l) s2.
(** No thread can move. *)
Definition idle {F} (s : worker F) : Prop := forall a s', wstep a s s' -> by_thread a = false.
