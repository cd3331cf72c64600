(** What the reactor is to do, in terms of what was asked of it. *)
From Verif Require Import Base PollModel.
Local Open Scope Z_scope.

(** A request to register, and the requests that concern an item *)
Definition registers (o : op) (i : item) (cb : nat) : Prop := match i with Chan p => o = RegChan p cb | Sock fd => o = RegSock fd cb end.
Definition concerns (o : op) (i : item) : Prop := match o, i with RegChan p _, Chan q | RemChan p, Chan q | RegSock p _, Sock q | RemSock p, Sock q => p = q | _, _ => False end.
(** After the requests [h] the callback of [i] is [cb]: the last request for [i] says so. *)
Definition registered (h : list op) (i : item) (cb : nat) : Prop := exists a o b, h = a ++ o :: b /\ registers o i cb /\ forall o', In o' b -> ~ concerns o' i.
(** The number of timers after the requests *)
Definition timers (h : list op) (n : nat) : Prop := (exists a b, h = a ++ Timers n :: b /\ forall m, ~ In (Timers m) b) \/ (n = 0%nat /\ forall m, ~ In (Timers m) h).
(** Channels before descriptors, each by address or number *)
Definition before (x y : item * nat) : Prop := match fst x, fst y with Chan p, Chan q => p < q | Sock p, Sock q => p < q | Chan _, Sock _ => True | Sock _, Chan _ => False end.
Fixpoint ordered (l : list (item * nat)) : Prop := match l with [] => True | x :: r => Forall (before x) r /\ ordered r end.
(** Each callback of a ready item is called, once, and no other. *)
Definition called (h : list op) (f : item -> bool) (c : list (item * nat)) : Prop := ordered c /\ forall i cb, In (i, cb) c <-> registered h i cb /\ f i = true.
(** The requests of one time around: those of the callbacks called, in order, those of the timers if it came to them *)
Definition asked_by (w : world) (c : list (item * nat)) : list op := flat_map (fun x => fst (w_acts w (fst x) (snd x))) c.
Definition quiet (w : world) : Prop := (w_poll w <> Signal /\ w_poll w <> Error) /\ (forall i cb, snd (w_acts w i cb) = Fine) /\ snd (w_after w) = Fine.
Fixpoint history (ws : list world) (cs : list (list (item * nat))) : list op := match ws, cs with w :: t, c :: u => asked_by w c ++ fst (w_after w) ++ history t u | _, _ => [] end.
