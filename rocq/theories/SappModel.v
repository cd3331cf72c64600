(** The frame simulator's main program and the options of its UDP plugins.  frameSimulator/src/FrameSimulatorApp.cpp, FrameSimulatorPlugin.cpp, FrameSimulatorPluginUDP.cpp (setup), DummyUDPFrameSimulatorPlugin.cpp (setup), FrameSimulatorOptions*.h; boost::program_options as in [OptModel].
    Simplified: values of float options (interval, drop-fraction) are kept as text and always accepted; printed texts and logging left out. *)
From Coq Require Import String Ascii.
From Verif Require Import Base OptModel.
Local Open Scope string_scope.
Local Open Scope list_scope.
Local Open Scope Z_scope.

(** FrameSimulatorApp.cpp:37-40, 91-99.  subargs takes any number of values; they are never read. *)
Definition generic_options : list odesc :=
  [OD "help" "" OFlag None; OD "version" "" OFlag None; OD "subargs" "" OString None; OD "detector" "" OString None; OD "lib-path" "" OString None;
   OD "debug-level" "" OUnsigned None; OD "log-config" "" OString None].
(** populate_options: FrameSimulatorPlugin.cpp:18-26, FrameSimulatorPluginUDP.cpp:257-267, DummyUDPFrameSimulatorPlugin.cpp:41-48; FrameSimulatorOptions.h:12-14, FrameSimulatorOptionsUDP.h:12-16, FrameSimulatorOptionsDummyUDP.h:13-15 *)
Definition dummy_options : list odesc :=
  [OD "ports" "" OString (Some (VStr "9999")); OD "frames" "" OInt (Some (VNum 1000)); OD "interval" "" OString (Some (VStr "0.02"));
   OD "dest-ip" "" OString None; OD "pcap-file" "" OString None; OD "packet-gap" "" OInt None; OD "drop-fraction" "" OString None; OD "drop-packets" "" OString None;
   OD "width" "" OInt None; OD "height" "" OInt None; OD "packet-len" "" OInt None].

(** positional_options_description (lines 101-102): the first argument without name is the detector, the others are subargs. *)
Fixpoint name_positional (first : bool) (l : list popt) : list popt :=
  match l with
  | [] => []
  | o :: t => if String.eqb (p_key o) "" then P (if first then "detector" else "subargs") (p_value o) (p_orig o) (p_unreg o) :: name_positional false t else o :: name_positional first t
  end.
(** po::collect_unrecognized with include_positional (line 158): the original words of options that are not registered or have a position *)
Definition unrecognized (l : list popt) : list string :=
  List.concat (List.map (fun o => if p_unreg o || String.eqb (p_key o) "" then p_orig o else []) l).

(** The dynamic loader: the plugin's option table for a class name and a library path (an oracle; loading may fail) *)
Definition loader := string -> string -> option (list odesc).
(** get_requested_plugin, lines 47-65 (boost::filesystem's / puts one separator) *)
Definition library (lib_path detector : string) : string :=
  (lib_path ++ (if has_suffix lib_path "/" then "" else if String.eqb lib_path "" then "" else "/") ++ "lib" ++ detector ++ "FrameSimulatorPlugin.so")%string.

(** How the program goes on: it ends with a code, or setup of the loaded plugin is called with these variables *)
Inductive goes := Ends (rc : Z) | Sets (m : vmap).
Definition is_some {A} (x : option A) : bool := match x with Some _ => true | None => false end.
(** parse_arguments (lines 84-211) and main (213-239).  exit(1) ends the program; an exception ends only parse_arguments, and main does not look at its result: what counts is whether the plugin is there. *)
Definition simulator (load : loader) (log_ok : bool -> string -> bool) (args : list string) : goes :=
  match run (List.length args) generic_options true args with
  | None => Ends 0
  | Some l =>
    match store generic_options (fun _ => false) (filter (fun o => negb (String.eqb (p_key o) "subargs")) (name_positional true l)) vempty with
    | (_, false) => Ends 0
    | (m, true) =>
      if is_some (m "log-config") && negb (log_ok (has_suffix (str m "log-config") ".xml") (str m "log-config")) then Ends 0
      else if is_some (m "detector") then
        if negb (is_some (m "lib-path")) then Ends 1
        else
          let plugin := load (str m "detector" ++ "FrameSimulatorPlugin")%string (library (str m "lib-path") (str m "detector")) in
          let ds := match plugin with Some ds => ds | None => [] end in
          let after x := if is_some plugin then Sets x else Ends 0 in
          let opts := unrecognized l in
          match run (List.length opts) ds false opts with
          | None => after m
          | Some l2 =>
            match store ds (fun k => is_some (m k)) l2 m with
            | (m2, false) => after m2
            | (m2, true) =>
              if is_some (m "help") then Ends 1 else if is_some (m "version") then Ends 1 else after (defaults ds m2)
            end
          end
      else Ends 1
    end
  end.

(** setup of the plugins: what is set when the frames are made.  DummyUDPFrameSimulatorPlugin.cpp:50-78, FrameSimulatorPluginUDP.cpp:38-108, FrameSimulatorPlugin.cpp:34-52.  [Throw]: an exception nobody catches. *)
Record simulation := Simulation { z_frames : Z; z_ip : string; z_ports : string; z_pcap : option string; z_gap : option Z; z_frac : option string; z_drops : option string;
  z_width : Z; z_height : Z; z_len : Z }.
Inductive sim_exc := BadAnyCast.
Definition opt_num (m : vmap) (k : string) : option Z := match m k with Some (VNum z) => Some z | _ => None end.
Definition opt_str (m : vmap) (k : string) : option string := match m k with Some (VStr z) => Some z | _ => None end.
Definition or_num (x : option Z) (d : Z) : Z := match x with Some z => z | None => d end.
(** [None]: setup returns false.  Opening of the capture file is taken to succeed.  The result of FrameSimulatorPlugin::setup (false without ports) is not looked at (line 41); then the missing ports throw (line 71). *)
Definition dummy_setup (m : vmap) : outcome sim_exc (option simulation) :=
  match m "dest-ip" with
  | Some (VStr ip) =>
    match m "ports" with
    | Some (VStr ports) =>
      Ret (Some (Simulation (or_num (opt_num m "frames") 1000) ip ports (opt_str m "pcap-file") (opt_num m "packet-gap") (opt_str m "drop-fraction") (opt_str m "drop-packets")
        (or_num (opt_num m "width") 1400) (or_num (opt_num m "height") 1024) (or_num (opt_num m "packet-len") 8000)))
    | _ => Throw BadAnyCast
    end
  | _ => Ret None
  end.
(** The whole program with the Dummy plugin: its code and what it simulates; [None]: it dies of an exception *)
Definition simulate (load : loader) (log_ok : bool -> string -> bool) (args : list string) : option (Z * option simulation) :=
  match simulator load log_ok args with
  | Ends rc => Some (rc, None)
  | Sets m => match dummy_setup m with Ret r => Some (0, r) | _ => None end
  end.
