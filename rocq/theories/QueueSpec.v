(** What users of a work queue expect. *)
From Verif Require Import Base QueueModel.

Section Spec.
Context {T : Type}.
Implicit Types (tr : list (lab T)).

(** Items put in and taken out, in order. *)
Definition added tr : list T := flat_map (fun a => match a with Added _ x => [x] | _ => [] end) tr.
Definition removed tr : list T := flat_map (fun a => match a with Removed _ x => [x] | _ => [] end) tr.
(** Items thread [t] asked to add, and has added. *)
Definition asked t tr : list T := flat_map (fun a => match a with CallAdd u x _ => if Nat.eqb u t then [x] else [] | _ => [] end) tr.
Definition added_by t tr : list T := flat_map (fun a => match a with Added u x => if Nat.eqb u t then [x] else [] | _ => [] end) tr.
Definition all_limited tr : Prop := forall t x, ~ In (CallAdd t x true) tr.

(** In a call and able to go on. *)
Definition runnable (x : th T) : bool := match x with InAdd _ _ | WokeAdd _ | InRem | WokeRem => true | _ => false end.
(** Asleep although what it waits for is there. *)
Definition could_go (s : wq T) (t : nat) : Prop :=
  (q_th s t = SleepRem /\ q_items s <> []) \/ (exists x, q_th s t = SleepAdd x /\ List.length (q_items s) < max_queue_size).
(** Someone is asleep although there is work (or space), and nobody in a call is going to wake them. *)
Definition stuck (s : wq T) : Prop := (exists t, could_go s t) /\ forall t, runnable (q_th s t) = false.

(** One consumer [c]; limited adds are made by the threads [ps] only; anybody else may add without limit. *)
Definition roles (ps : list nat) (c : nat) (a : lab T) : Prop :=
  match a with CallAdd t _ false => In t ps | CallAdd t _ true => t <> c | CallRem t => t = c | _ => True end.

(** The consumer keeps removing, there are no new adds and no spurious wake-ups. *)
Definition draining (c : nat) (a : lab T) : Prop := match a with CallAdd _ _ _ | Spurious _ => False | CallRem t => t = c | _ => True end.
Definition drain_step (c : nat) (s s' : wq T) : Prop := exists a, draining c a /\ qstep a s s'.
End Spec.
