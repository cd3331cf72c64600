(** What a configuration file of the frame receiver shall do. *)
From Coq Require Import String Ascii.
From Verif Require Import Base JsonModel JsonSpec RcvModel RcvSpec AppModel.
Local Open Scope string_scope.
Local Open Scope list_scope.
Local Open Scope Z_scope.

(** Effects but replies *)
Definition seen (l : list effect) : list effect := filter (fun f => match f with FReply _ _ => false | _ => true end) l.
(** Two states of the receiver that differ in replies only *)
Definition alike (s s' : rc) : Prop := exists r o, s' = w_c_out o (w_c_reply r s) /\ seen o = seen (c_out s).
(** The document of a command configure with the given parameters *)
Definition asks_for (d : json) (x : json) : Prop := exists doc, d = JObj doc /\ command "configure" (Some d) /\ clean (Some d) /\ id_valid doc /\ says doc "params" x.
(** A client sends the documents one after the other, the first to the outside [v i]; it may stop when it gets a refusal, and it stops when the process ends.  In the end: it sent all of them. *)
Inductive hands (v : nat -> env) (c : string) : nat -> list json -> rc -> rc -> bool -> Prop :=
| ha_end i s : hands v c i [] s s true
| ha_next i d r s s1 s2 y b : step (v i) (Ctrl c (Some d)) s = (s1, Ret tt) -> answered s s1 c y -> hands v c (S i) r s1 s2 b -> hands v c i (d :: r) s s2 b
| ha_refused i d r s s1 y : step (v i) (Ctrl c (Some d)) s = (s1, Ret tt) -> answered s s1 c y -> refused y -> hands v c i (d :: r) s s1 false
| ha_ended i d r s s1 o : step (v i) (Ctrl c (Some d)) s = (s1, o) -> o <> Ret tt -> hands v c i (d :: r) s s1 false.
(** The messages of a file *)
Definition messages_of (x : json) (l : list json) : Prop := x = JArr l \/ l = [x] /\ forall k, x <> JArr k.
