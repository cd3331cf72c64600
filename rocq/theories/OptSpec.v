(** Specification for C77: what a command line of the receiver or the processor says. *)
From Coq Require Import String Ascii.
From Verif Require Import Base.
Local Open Scope string_scope.
Local Open Scope list_scope.

(** The options with a value, and the two requests *)
Inductive opt := Debug | Log | Io | Ctrl | Config.
Definition long_name (o : opt) : string := match o with Debug => "debug-level" | Log => "log-config" | Io => "io-threads" | Ctrl => "ctrl" | Config => "config" end.
Definition short_name (o : opt) : option ascii := match o with Debug => Some "d"%char | Log => Some "l"%char | Config => Some "c"%char | Io | Ctrl => None end.
Definition long_names : list string := ["help"; "version"; "debug-level"; "log-config"; "io-threads"; "ctrl"; "config"].
Definition short_words : list string := ["-h"; "-v"; "-d"; "-l"; "-c"].

(** [p] is the name or an abbreviation that fits no other option. *)
Definition begins (p s : string) : Prop := exists r, s = (p ++ r)%string.
Definition names (p : string) (o : opt) : Prop := p <> "" /\ begins p (long_name o) /\ forall s, In s long_names -> begins p s -> s = long_name o.

(** The parts of a command line: a value for an option (in the next argument or the same), a request, an argument that is no option *)
Inductive way := Next (p : string) | Equals (p : string) | ShortNext | ShortJoined.
Inductive item := Give (o : opt) (h : way) (w : string) | Ask (v : bool) (short : bool) | Stray (w : string).
Definition letter (o : opt) : string := match short_name o with Some c => String c "" | None => "" end.
Definition words (i : item) : list string :=
  match i with
  | Give o (Next p) w => [("--" ++ p)%string; w]
  | Give o (Equals p) w => [("--" ++ p ++ "=" ++ w)%string]
  | Give o ShortNext w => [("-" ++ letter o)%string; w]
  | Give o ShortJoined w => [("-" ++ letter o ++ w)%string]
  | Ask v short => [match v, short with false, false => "--help" | false, true => "-h" | true, false => "--version" | true, true => "-v" end]
  | Stray w => [w]
  end.

(** A value in an argument of its own must not be a short option, nor end in its first = after two dashes. *)
Fixpoint no_equals (s : string) : Prop := match s with "" => True | String c r => c <> "="%char /\ no_equals r end.
Definition own_word (w : string) : Prop := ~ In w short_words /\ ~ exists p, no_equals p /\ w = ("--" ++ p ++ "=")%string.
Definition no_dash (w : string) : Prop := w = "-" \/ ~ begins "-" w.
Definition proper (i : item) : Prop :=
  match i with
  | Give o (Next p) w => names p o /\ own_word w
  | Give o (Equals p) w => names p o /\ w <> ""
  | Give o ShortNext w => short_name o <> None /\ own_word w
  | Give o ShortJoined w => short_name o <> None /\ w <> ""
  | Ask _ _ => True
  | Stray w => no_dash w
  end.
Definition line (l : list item) : list string := List.concat (List.map words l).

(** Decimal numbers, from the last digit *)
Definition digit_char (k : nat) : ascii := ascii_of_nat (48 + k).
Inductive decimal : string -> Z -> Prop :=
| dec_one k : (k < 10)%nat -> decimal (String (digit_char k) "") (Z.of_nat k)
| dec_more s n k : decimal s n -> (k < 10)%nat -> decimal (s ++ String (digit_char k) "")%string (10 * n + Z.of_nat k).
(** What is read as an unsigned number: a plain number below 2^32, with or without a sign *)
Inductive unsigned : string -> Z -> Prop :=
| un_plain s n : decimal s n -> (n < 2 ^ 32)%Z -> unsigned s n
| un_plus s n : decimal s n -> (n < 2 ^ 32)%Z -> unsigned ("+" ++ s)%string n
| un_minus s n : decimal s n -> (n < 2 ^ 32)%Z -> unsigned ("-" ++ s)%string ((- n) mod 2 ^ 32)%Z.
Definition numeric (o : opt) : Prop := o = Debug \/ o = Io.

(** What is given for an option, and which options and requests occur *)
Definition gives (l : list item) (o : opt) (w : string) : Prop := exists h, In (Give o h w) l.
Inductive subject := Option_ (o : opt) | Request (v : bool).
Definition subjects (l : list item) : list subject :=
  List.concat (List.map (fun i => match i with Give o _ _ => [Option_ o] | Ask v _ => [Request v] | Stray _ => [] end) l).
Definition numbers_fine (l : list item) : Prop := forall o w, numeric o -> gives l o w -> exists n, unsigned w n.
Definition asks (l : list item) : Prop := exists v s, In (Ask v s) l.

(** The setting of an option: what is given, or the default *)
Definition set_to (l : list item) (o : opt) (dflt s : string) : Prop := gives l o s \/ (forall w, ~ gives l o w) /\ s = dflt.
Definition set_number (l : list item) (o : opt) (dflt n : Z) : Prop := (exists w, gives l o w /\ unsigned w n) \/ (forall w, ~ gives l o w) /\ n = dflt.
Definition ends_with (s suffix : string) : Prop := exists p, s = (p ++ suffix)%string.

(** Words that name no option *)
Inductive unknown : string -> Prop :=
| unk_long p : p <> "" -> ~ In p short_words -> no_equals p -> (forall s, In s long_names -> ~ begins p s) -> unknown ("--" ++ p)
| unk_equals p w : p <> "" -> ~ In p short_words -> no_equals p -> (forall s, In s long_names -> ~ begins p s) -> unknown ("--" ++ p ++ "=" ++ w)
| unk_short c r : c <> "-"%char -> ~ In ("-" ++ String c "")%string short_words -> unknown ("-" ++ String c r).
(** Words that name an option with a value and leave it to the next word *)
Inductive wants_value : string -> Prop :=
| wv_long p o : names p o -> wants_value ("--" ++ p)
| wv_short o : short_name o <> None -> wants_value ("-" ++ letter o).
