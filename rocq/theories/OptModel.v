(** The command lines of frameReceiver and frameProcessor.  frameReceiver/src/FrameReceiverApp.cpp:79-194 and main, frameProcessor/src/FrameProcessorApp.cpp:72-178 and main.
    boost::program_options is not part of /repo; its parser is modelled after its documentation and the releases 1.59 and later, in its default style (unix_style: long options with the value adjacent after = or in the next argument, short options with the value adjacent or next, grouped flags, abbreviated long options).  Texts of help, versions and errors are left out. *)
From Coq Require Import String Ascii.
From Verif Require Import Base.
Local Open Scope string_scope.
Local Open Scope list_scope.
Local Open Scope N_scope.

(** ** boost::program_options (external) *)

(** po::value<unsigned int>, po::value<int>, po::value<std::string>, and options without value *)
Inductive oty := OFlag | OUnsigned | OInt | OString.
Inductive oval := VFlag | VNum (z : Z) | VStr (s : string).
(** option_description: long name, short name with its dash (empty: none), type, default *)
Record odesc := OD { o_long : string; o_short : string; o_ty : oty; o_def : option oval }.
Definition takes (d : odesc) : bool := match o_ty d with OFlag => false | _ => true end.

(** option_description::match, full: the long name or the short name *)
Definition full_match (name : string) (d : odesc) : bool := String.eqb (o_long d) name || String.eqb (o_short d) name.
(** option_description::match, approximate: [name] begins the long name *)
Definition approx_match (name : string) (d : odesc) : bool := String.prefix name (o_long d).
(** options_description::find_nothrow; [None]: ambiguous_option is thrown *)
Definition find_nothrow (ds : list odesc) (approx : bool) (name : string) : option (option odesc) :=
  match filter (full_match name) ds with
  | [d] => Some (Some d)
  | _ :: _ :: _ => None
  | [] => if approx then match filter (approx_match name) ds with [] => Some None | [d] => Some (Some d) | _ => None end else Some None
  end.

(** basic_option: key (empty: positional), values, original tokens, not registered *)
Record popt := P { p_key : string; p_value : list string; p_orig : list string; p_unreg : bool }.

(** The text before and after the first = *)
Fixpoint split_eq (s : string) : option (string * string) :=
  match s with
  | "" => None
  | String c r => if Ascii.eqb c "=" then Some ("", r) else match split_eq r with Some (a, b) => Some (String c a, b) | None => None end
  end.
(** cmdline::parse_long_option on the text after the two dashes (at least one character); [None]: empty_adjacent_parameter *)
Definition parse_long (tok body : string) : option popt :=
  match split_eq body with
  | Some (_, "") => None
  | Some (n, v) => Some (P n [v] [tok] false)
  | None => Some (P body [] [tok] false)
  end.
(** cmdline::parse_short_option: flags may be grouped before another option *)
Fixpoint short_group (ds : list odesc) (tok : string) (c : ascii) (adj : string) : option (list popt) :=
  let name := String "-" (String c "") in
  match find_nothrow ds false name with
  | None => None
  | Some d =>
    match adj, d with
    | String c' adj', Some d' => if takes d' then Some [P name [adj] [tok] false] else match short_group ds tok c' adj' with Some l => Some (P name [] [] false :: l) | None => None end
    | String _ _, None => Some [P name [adj] [tok] false]
    | "", _ => Some [P name [] [tok] false]
    end
  end.

(** The kinds of an argument in the order of the style parsers *)
Inductive kind := KLong (body : string) | KShort (c : ascii) (adj : string) | KEnd | KPos.
Definition kind_of (tok : string) : kind :=
  match tok with
  | String a (String b r) =>
    if Ascii.eqb a "-" then
      if Ascii.eqb b "-" then match r with "" => KEnd | _ => KLong r end else KShort b r
    else KPos
  | _ => KPos
  end.
(** Does the argument look like an option?  [None]: the style parser throws *)
Definition syntactic (ds : list odesc) (tok : string) : option bool :=
  match kind_of tok with
  | KLong b => match parse_long tok b with Some _ => Some true | None => None end
  | KShort c adj => match short_group ds tok c adj with Some _ => Some true | None => None end
  | _ => Some false
  end.

(** cmdline::finish_option: the name is looked up and made canonical; a value that is not there is taken from the next argument [rest], unless that one is found as an option.  Every value here takes exactly one token. *)
Definition finish (ds : list odesc) (unreg : bool) (o : popt) (rest : list string) : option (popt * list string) :=
  if String.eqb (p_key o) "" then Some (o, rest) else
  match find_nothrow ds true (p_key o) with
  | None => None
  | Some None => if unreg then Some (P (p_key o) (p_value o) (p_orig o) true, rest) else None
  | Some (Some d) =>
    match p_value o, takes d with
    | [], false => Some (P (o_long d) [] (p_orig o) false, rest)
    | _ :: _, false => None
    | v, true =>
      match v, rest with
      | _ :: _, _ => Some (P (o_long d) v (p_orig o) false, rest)
      | [], [] => None
      | [], t :: r =>
        let ok := match syntactic ds t with
                  | None => false
                  | Some false => true
                  | Some true => match find_nothrow ds true t with Some None => true | _ => false end
                  end in
        if ok then Some (P (o_long d) [t] (p_orig o ++ [t]) false, r) else None
      end
    end
  end.
Definition positional (t : string) : popt := P "" [t] [t] false.
(** The options made of one argument: all but the last cannot take further arguments. *)
Fixpoint finish_all (ds : list odesc) (unreg : bool) (l : list popt) (rest : list string) : option (list popt * list string) :=
  match l with
  | [] => Some ([], rest)
  | [o] => match finish ds unreg o rest with Some (o', r) => Some ([o'], r) | None => None end
  | o :: t =>
    match finish ds unreg o [] with
    | None => None
    | Some (o', _) => match finish_all ds unreg t rest with Some (t', r) => Some (o' :: t', r) | None => None end
    end
  end.
(** cmdline::run.  Every turn takes at least one argument: [fuel] is their number. *)
Fixpoint run (fuel : nat) (ds : list odesc) (unreg : bool) (args : list string) : option (list popt) :=
  match fuel, args with
  | _, [] => Some []
  | O, _ => None
  | S f, t :: rest =>
    match
      match kind_of t with
      | KLong b => match parse_long t b with Some o => finish_all ds unreg [o] rest | None => None end
      | KShort c adj => match short_group ds t c adj with Some l => finish_all ds unreg l rest | None => None end
      | KEnd => Some (List.map positional rest, [])
      | KPos => Some ([positional t], rest)
      end
    with
    | None => None
    | Some (l, rest') => match run f ds unreg rest' with Some l' => Some (l ++ l') | None => None end
    end
  end.

(** boost::lexical_cast: decimal digits *)
Fixpoint digits (acc : Z) (s : string) : option Z :=
  match s with
  | "" => Some acc
  | String c r => let n := Z.of_nat (nat_of_ascii c) in if ((48 <=? n) && (n <=? 57))%Z then digits (10 * acc + (n - 48)) r else None
  end.
Definition number (s : string) : option Z := match s with "" => None | _ => digits 0 s end.
(** lexical_cast<unsigned int>: a sign is allowed; a negative number is taken modulo 2^32. *)
Definition cast_unsigned (s : string) : option Z :=
  let lim x := match x with Some n => if (n <? 2 ^ 32)%Z then Some n else None | None => None end in
  match s with
  | String c r => if Ascii.eqb c "-" then match lim (number r) with Some n => Some ((- n) mod 2 ^ 32)%Z | None => None end
                  else if Ascii.eqb c "+" then lim (number r) else lim (number s)
  | "" => None
  end.
(** lexical_cast<int> *)
Definition cast_int (s : string) : option Z :=
  let lim x := match x with Some n => if ((- 2 ^ 31 <=? n) && (n <? 2 ^ 31))%Z then Some n else None | None => None end in
  match s with
  | String c r => if Ascii.eqb c "-" then lim (match number r with Some n => Some (- n)%Z | None => None end)
                  else if Ascii.eqb c "+" then lim (number r) else lim (number s)
  | "" => None
  end.
(** value_semantic::parse for a first occurrence; [None]: it throws *)
Definition validate (t : oty) (v : list string) : option oval :=
  match t, v with
  | OFlag, _ => Some VFlag
  | OUnsigned, [s] => option_map VNum (cast_unsigned s)
  | OInt, [s] => option_map VNum (cast_int s)
  | OString, [s] => Some (VStr s)
  | _, _ => None
  end.

(** variables_map: explicit values *)
Definition vmap := string -> option oval.
Definition vempty : vmap := fun _ => None.
Definition vset (m : vmap) (k : string) (v : oval) : vmap := fun k' => if String.eqb k' k then Some v else m k'.
(** po::store, explicit values: options without name or registration are skipped; those of an earlier store ([fin]) too; a second occurrence throws (multiple_occurrences).  What was stored before a throw stays. *)
Fixpoint store (ds : list odesc) (fin : string -> bool) (l : list popt) (m : vmap) : vmap * bool :=
  match l with
  | [] => (m, true)
  | o :: t =>
    if String.eqb (p_key o) "" || p_unreg o || fin (p_key o) then store ds fin t m
    else match find_nothrow ds false (p_key o) with
         | Some (Some d) =>
           match m (p_key o), validate (o_ty d) (p_value o) with
           | None, Some v => store ds fin t (vset m (p_key o) v)
           | _, _ => (m, false)
           end
         | _ => (m, false)
         end
  end.
(** po::store, second part: defaults *)
Fixpoint defaults (ds : list odesc) (m : vmap) : vmap :=
  match ds with
  | [] => m
  | d :: t => defaults t (match m (o_long d), o_def d with None, Some v => vset m (o_long d) v | _, _ => m end)
  end.

(** ** The applications *)

(** FrameReceiverApp.cpp:87-111.  debug_level is 0 before (common/src/DebugLevelLogger.cpp:3), default_io_threads 1 (OdinDataDefaults.h:21), the endpoint of FrameReceiverDefaults.h:43. *)
Definition receiver_options : list odesc :=
  [OD "help" "-h" OFlag None; OD "version" "-v" OFlag None;
   OD "debug-level" "-d" OUnsigned (Some (VNum 0)); OD "log-config" "-l" OString None; OD "io-threads" "" OUnsigned (Some (VNum 1));
   OD "ctrl" "" OString (Some (VStr "tcp://127.0.0.1:5000")); OD "config" "-c" OString None].
(** FrameProcessorApp.cpp:81-96 *)
Definition processor_options : list odesc :=
  [OD "help" "-h" OFlag None; OD "version" "-v" OFlag None;
   OD "debug-level" "-d" OUnsigned (Some (VNum 0)); OD "log-config" "-l" OString None; OD "io-threads" "" OUnsigned (Some (VNum 1));
   OD "ctrl" "" OString (Some (VStr "tcp://127.0.0.1:5004")); OD "config" "-c" OString (Some (VStr ""))].

(** What is set when run is called: debug_level, the configuration of logging (as XML?), io_threads_, ctrl_channel_endpoint_, config_file_ *)
Record setup := Setup { u_debug : Z; u_log : option (bool * string); u_io : Z; u_ctrl : string; u_config : string }.
Inductive parsed := Exits (rc : Z) | Continues (u : setup).

(** has_suffix: FrameReceiverApp.cpp:37-41, FrameProcessorApp.cpp:46-50 *)
Definition has_suffix (str suffix : string) : bool :=
  (String.length suffix <=? String.length str)%nat &&
  String.eqb (substring (String.length str - String.length suffix) (String.length suffix) str) suffix.

Definition num (m : vmap) (k : string) : Z := match m k with Some (VNum z) => z | _ => 0%Z end.
Definition str (m : vmap) (k : string) : string := match m k with Some (VStr s) => s | _ => "" end.
(** parse_arguments, FrameReceiverApp.cpp:79-194, FrameProcessorApp.cpp:72-178 (the same text up to names).  [log_ok]: log4cxx takes the file (otherwise it throws).  [None] of the parser and [false] of store are exceptions derived from std::exception, so all end in rc = 1.  The members of the application are set only at the end here: nothing reads them if it does not run. *)
Definition parse_arguments (ds : list odesc) (log_ok : bool -> string -> bool) (args : list string) : parsed :=
  match run (List.length args) ds false args with
  | None => Exits 1
  | Some l =>
    match store ds (fun _ => false) l vempty with
    | (_, false) => Exits 1
    | (m0, true) =>
      let m := defaults ds m0 in
      match m "help", m "version" with
      | Some _, _ => Exits 0
      | None, Some _ => Exits 0
      | None, None =>
        let go log := Continues (Setup (num m "debug-level") log (num m "io-threads") (str m "ctrl") (str m "config")) in
        match m "log-config" with
        | None => go None
        | Some _ => let f := str m "log-config" in let xml := has_suffix f ".xml" in if log_ok xml f then go (Some (xml, f)) else Exits 1
        end
      end
    end
  end.
(** main, FrameReceiverApp.cpp:309-336, FrameProcessorApp.cpp:276-299.  [run]: what the application's run returns with these settings *)
Definition main (ds : list odesc) (log_ok : bool -> string -> bool) (app_run : setup -> Z) (args : list string) : Z :=
  match parse_arguments ds log_ok args with Exits rc => rc | Continues u => app_run u end.
