(** The processing graph a history of commands describes. *)
From Verif Require Import Base StrOrder CtrlModel.
Local Open Scope string_scope.

Definition loaded (h : list cmd) (i : string) : Prop := exists n, In (Load i n true) h.
Definition has_receiver (h : list cmd) : Prop := exists p q, In (Setup p q) h.

(** [b] was connected to [a] when both were loaded, and not disconnected since. *)
Definition edge (h : list cmd) (a b : string) : Prop := exists h1 h2,
  h = (h1 ++ Connect b a :: h2)%list /\ a <> "frame_receiver" /\ loaded h1 a /\ loaded h1 b /\
  ~ In (Disconnect b a) h2 /\ ~ In DisconnectAll h2.

(** [b] was connected to the frame receiver when both existed, not disconnected since, and the endpoints have not been
    changed since. *)
Fixpoint last_ends (h : list cmd) (now : option (string * string)) : option (string * string) :=
  match h with [] => now | Setup p q :: t => last_ends t (Some (p, q)) | _ :: t => last_ends t now end.
Definition fr_edge (h : list cmd) (b : string) : Prop := exists h1 h2,
  h = (h1 ++ Connect b "frame_receiver" :: h2)%list /\ loaded h1 b /\ has_receiver h1 /\ ~ In (Disconnect b "frame_receiver") h2 /\
  forall p q, In (Setup p q) h2 -> Some (p, q) = last_ends h1 None.
