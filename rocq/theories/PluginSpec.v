(** What users of plugin connections, messages and timings expect. *)
From Verif Require Import Base StrOrder PluginModel.

Inductive reg_op (A : Type) := Register (name : string) (cb : A) (blocking : bool) | Remove (name : string) | RemoveAll.
Arguments Register {A}. Arguments Remove {A}. Arguments RemoveAll {A}.

(** To whom a name is connected and how: the first connection under a name counts until it is removed. *)
Fixpoint connected {A} (h : list (reg_op A)) (now : option (bool * A)) (name : string) : option (bool * A) :=
  match h with
  | [] => now
  | Register n cb b :: t =>
      connected t (if String.eqb n name then match now with Some x => Some x | None => Some (b, cb) end else now) name
  | Remove n :: t => connected t (if String.eqb n name then None else now) name
  | RemoveAll :: t => connected t None name
  end.

Definition d_name {A} (d : delivery A) : string := match d with Called n _ | Queued n _ => n end.
Definition d_entry {A} (d : delivery A) : bool * A := match d with Called _ cb => (true, cb) | Queued _ cb => (false, cb) end.

Inductive msg_op := Err (m : string) | Warn (m : string) | Clear.
(** Messages since the last clear, each once, in order of first occurrence. *)
Fixpoint since_clear (h : list msg_op) : list msg_op :=
  match h with
  | [] => []
  | o :: t => if existsb (fun o => match o with Clear => true | _ => false end) h then since_clear t else h
  end.
Definition errs (h : list msg_op) : list string := flat_map (fun o => match o with Err m => [m] | _ => [] end) h.
Definition warns (h : list msg_op) : list string := flat_map (fun o => match o with Warn m => [m] | _ => [] end) h.
(** [l'] lists the elements of [l] once each, in order of first occurrence. *)
Inductive firsts : list string -> list string -> Prop :=
| f_nil : firsts [] []
| f_old l l' m : firsts l l' -> In m l -> firsts (l ++ [m]) l'
| f_new l l' m : firsts l l' -> ~ In m l -> firsts (l ++ [m]) (l' ++ [m]).
