(** What a subscriber is to receive. *)
From Coq Require Import String Ascii.
From Verif Require Import Base PlaceModel NameModel AcqModel JsonModel JsonReadModel PrcModel MetaModel.
Local Open Scope string_scope.
Local Open Scope list_scope.

(** The first part of a message about an acquisition: name of the event; identifier and rank; the total for start and new files. *)
Definition first_part (event : string) (a : acq) (total : bool) : json :=
  JObj [("plugin", JStr "Acquisition"); ("parameter", JStr event); ("type", JStr "string");
        ("header", JObj ([("acqID", JStr (n_acqid (a_naming a))); ("rank", JInt (Z.of_N (g_rank (a_geom a))))] ++ if total then [("totalFrames", JInt (Z.of_N (a_total a)))] else []))].
(** The second part, when there is text in it. *)
Definition second_part (a : acq) (n : note) : option json :=
  match o_event n with
  | EvStart | EvStop => None
  | EvCreate p => Some (JObj [("filePath", JStr p); ("create_duration", JInt (Z.of_N (o_one n)))])
  | EvClose p => Some (JObj [("filePath", JStr p); ("close_duration", JInt (Z.of_N (o_one n)))])
  | EvWrite f off => Some (JObj [("frame", JInt (Z.of_N f)); ("offset", JInt (Z.of_N off)); ("proc", JInt (Z.of_N (g_procs (a_geom a)))); ("write_duration", JInt (Z.of_N (o_one n))); ("flush_duration", JInt (Z.of_N (o_two n)))])
  end.
Definition event_name (e : ev) : string :=
  match e with EvStart => "startacquisition" | EvCreate _ => "createfile" | EvWrite _ _ => "writeframe" | EvClose _ => "closefile" | EvStop => "stopacquisition" end.
Definition gives_total (e : ev) : bool := match e with EvStart | EvCreate _ => true | _ => false end.
(** A message of two parts that tells the event. *)
Definition tells (m : list ascii * list Z) (a : acq) (n : note) : Prop :=
  parse (fst m) = Some (first_part (event_name (o_event n)) a (gives_total (o_event n))) /\
  match second_part a n with None => snd m = [] | Some y => exists t, snd m = octets t /\ parse t = Some y end.
(** Numbers of 64 bits. *)
Definition small (n : N) : Prop := (n < 2 ^ 64)%N.
Definition small_acq (a : acq) : Prop := small (a_total a) /\ small (g_rank (a_geom a)) /\ small (g_procs (a_geom a)).
Definition small_note (n : note) : Prop := small (o_one n) /\ small (o_two n) /\ match o_event n with EvWrite f off => small f /\ small off | _ => True end.

(** The value in the bytes of a message, least significant first. *)
Fixpoint number (l : list Z) : Z := match l with [] => 0 | b :: r => b + 256 * number r end%Z.
Definition signed32 (z : Z) : Z := if (z <? 2 ^ 31)%Z then z else (z - 2 ^ 32)%Z.

(** What a publisher sent, what of it was received, lost. *)
Definition sent (p : nat) (l : list bevent) : list meta := flat_map (fun e => match e with BSent q x => if Nat.eqb q p then [x] else [] | _ => [] end) l.
Definition got (p : nat) (l : list bevent) : list meta := flat_map (fun e => match e with BGot q x => if Nat.eqb q p then [x] else [] | _ => [] end) l.
Definition all_got (l : list bevent) : list meta := flat_map (fun e => match e with BGot _ x => [x] | _ => [] end) l.
Definition lost (l : list bevent) : nat := List.length (filter (fun e => match e with BLost _ _ => true | _ => false end) l).
(** What the publishers asked for. *)
Definition asked (p : nat) (l : list blab) : list meta := flat_map (fun a => match a with Publish q x => if Nat.eqb q p then [x] else [] | _ => [] end) l.
(** Messages that exist. *)
Definition live (s : bus) : list nat := filter (fun id => match b_heap s id with Some _ => true | None => false end) (List.seq 0 (b_next s)).
(** Messages in the pipes of publishers below n. *)
Definition queued (s : bus) (n : nat) : nat := list_sum (map (fun p => List.length (b_pipe s p)) (List.seq 0 n)).
Definition publishers (n : nat) (l : list blab) : Prop := Forall (fun a => match a with Publish p _ => (p < n)%nat | _ => True end) l.
(** Frames reported as written by messages. *)
Definition writes (l : list ev) : list (N * N) := flat_map (fun e => match e with EvWrite f off => [(f, off)] | _ => [] end) l.
