(** What the end of the program is to be, in terms of what is seen of it. *)
From Verif Require Import Base QueueModel LifeModel.
Local Open Scope Z_scope.

(** The notifications: an acknowledged request, the limit of frames; and a wake-up without. *)
Definition cause (e : xevent) : bool := match e with VAck | VLimit | VSpurious => true | _ => false end.
Definition own (l : list xevent) : list xevent := filter (fun e => negb (cause e)) l.
(** All the main thread does with n plugins, in order. *)
Definition course (n : nat) : list xevent := VWaiting :: map VStopped (seq 0 n) ++ [VSent; VCleared; VSelf; VReactor; VJoined; VClosed; VReleased; VTorn].
Definition prefix {A} (a b : list A) : Prop := exists c, b = a ++ c.
(** What may follow. *)
Inductive more (c : conf) (s : life) : life -> Prop :=
| mo_refl : more c s s
| mo_step t a u : more c s t -> xstep c a t = Some u -> more c s u.
(** What may follow when no frames come in and no plugin is loaded any more. *)
Definition outside (a : xlabel) : bool := match a with XInput _ | XLoad => true | _ => false end.
Inductive still (c : conf) (s : life) : life -> Prop :=
| st_refl : still c s s
| st_step t a u : still c s t -> xstep c a t = Some u -> outside a = false -> still c s u.
(** All plugins wait for frames and there are none. *)
Definition calm (s : life) : Prop := forall m, (m < e_n s)%nat -> e_w s m = Wk true [] PRemove.
(** No thread of a plugin can go on. *)
Definition settled (c : conf) (s : life) : Prop := forall m l, xstep c (XWork m l) s = None.
(** As [still], with a main thread that is slower than those of the plugins. *)
Inductive patient (c : conf) (s : life) : life -> Prop :=
| pa_refl : patient c s s
| pa_step t a u : patient c s t -> xstep c a t = Some u -> outside a = false -> (a = XMain -> settled c t) -> patient c s u.
(** Steps of the main thread. *)
Inductive counted (c : conf) (s : life) : nat -> life -> Prop :=
| co_refl : counted c s 0 s
| co_main n t u : counted c s n t -> xstep c XMain t = Some u -> counted c s (S n) u
| co_other n t a u : counted c s n t -> xstep c a t = Some u -> a <> XMain -> counted c s n u.
Fixpoint xgo (c : conf) (l : list xlabel) (s : life) : option life := match l with [] => Some s | a :: r => match xstep c a s with Some t => xgo c r t | None => None end end.
(** No plugin is connected to another; all are to the controller. *)
Definition plain : conf := Conf (fun _ => []) (fun _ => []) (fun _ => true) (fun _ => false).
