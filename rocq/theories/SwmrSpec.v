(** When a reader of the open file must see a value. *)
From Coq Require Import String.
From Verif Require Import Base SwmrModel.
From Coq Require Import Sorting.Sorted.
Local Open Scope list_scope.
Local Open Scope Z_scope.

(** Of the events [l] after a write to [d], one makes the write visible. *)
Definition visible (d : string) (l : list hev) : Prop := In (EvFlush d) l \/ In EvClose l.

(** The readings of the clock, in order. *)
Definition readings (c : hcall) : list Z :=
  match c with Param _ _ _ now again _ _ _ _ => [now; again] | _ => [] end.
Definition clock_forward (cs : list hcall) : Prop := StronglySorted Z.le (flat_map readings cs).

(** The library flushes whenever it is asked to. *)
Definition flushes_work (c : hcall) : Prop :=
  match c with Frame _ _ _ _ _ fl => fl = true | Param _ _ _ _ _ _ _ _ fl => fl = true | Close _ => True end.

(** The call is no frame of [d], no close, and if it is a parameter of [d], the clock shows less than [t]. *)
Definition quiet (d : string) (t : Z) (c : hcall) : Prop :=
  match c with
  | Frame d' _ _ _ _ _ => d' <> d
  | Param d' _ _ now _ _ _ _ _ => d' = d -> now < t
  | Close _ => False
  end.
