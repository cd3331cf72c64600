(** Specification for C78: what a command line of the simulator says. *)
From Coq Require Import String Ascii.
From Verif Require Import Base OptSpec.
Local Open Scope string_scope.
Local Open Scope list_scope.

(** The simulator's own options with values, and those of the Dummy plugin: texts and integers *)
Definition own_names : list string := ["lib-path"; "debug-level"; "log-config"].
Definition text_names : list string := ["ports"; "interval"; "dest-ip"; "pcap-file"; "drop-fraction"; "drop-packets"].
Definition integer_names : list string := ["frames"; "packet-gap"; "width"; "height"; "packet-len"].
(** An option with its value, in one word or in two *)
Record given := Given { g_name : string; g_joined : bool; g_value : string }.
Definition gwords (g : given) : list string := if g_joined g then [("--" ++ g_name g ++ "=" ++ g_value g)%string] else [("--" ++ g_name g)%string; g_value g].
Definition gproper (g : given) : Prop :=
  In (g_name g) (own_names ++ text_names ++ integer_names) /\ if g_joined g then g_value g <> "" else ~ begins "--" (g_value g).
Definition gline (l : list given) : list string := List.concat (List.map gwords l).
Definition tells (l : list given) (n w : string) : Prop := exists j, In (Given n j w) l.

(** Integers of 32 bits with an optional sign *)
Inductive integer : string -> Z -> Prop :=
| int_plain s n : decimal s n -> (n < 2 ^ 31)%Z -> integer s n
| int_plus s n : decimal s n -> (n < 2 ^ 31)%Z -> integer ("+" ++ s)%string n
| int_minus s n : decimal s n -> (n <= 2 ^ 31)%Z -> integer ("-" ++ s)%string (- n).
Definition readable (l : list given) : Prop :=
  (forall w, tells l "debug-level" w -> exists n, unsigned w n) /\ (forall n w, In n integer_names -> tells l n w -> exists z, integer w z).

(** Settings: what is told, or the default; optional ones *)
Definition text_is (l : list given) (n dflt s : string) : Prop := tells l n s \/ (forall w, ~ tells l n w) /\ s = dflt.
Definition int_is (l : list given) (n : string) (dflt z : Z) : Prop := (exists w, tells l n w /\ integer w z) \/ (forall w, ~ tells l n w) /\ z = dflt.
Definition maybe_text (l : list given) (n : string) (x : option string) : Prop := forall w, x = Some w <-> tells l n w.
Definition maybe_int (l : list given) (n : string) (x : option Z) : Prop := forall z, x = Some z <-> exists w, tells l n w /\ integer w z.
