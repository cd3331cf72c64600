(** Loading and wiring plugins (frameProcessor/src/FrameProcessorController.cpp).  One JSON message with a "plugin" section is
    the commands load, connect, disconnect it holds, in this order (configurePlugin, lines 636-687). *)
From Verif Require Import Base StrOrder PluginModel.
Local Open Scope string_scope.

(** An object frames are handed to.  A plugin object is named by its index: indexes are never reused (plugins_ only grows
    until shutdown). *)
Inductive target := Plugin (index : string) | Controller.

(** plugins_; sharedMemController_ with its callbacks_ (None: null pointer) and the endpoints it was made with. *)
Record ctrl := Ctrl { k_plugins : smap (conns target); k_shm : option (smap string); k_ends : string * string }.
Definition ctrl_init : ctrl := Ctrl [] None ("", "").

Inductive cmd :=
| Load (index name : string) (found : bool)   (* [found]: the class loader delivers an object of the class *)
| Connect (index to : string)
| Disconnect (index from : string)
| DisconnectAll
| Setup (pub sub : string).                   (* frame receiver endpoints *)

Inductive refused := ENotLoaded | ENoReceiver | ENoClass.

Definition set_plugins (m : smap (conns target)) (s : ctrl) : ctrl := Ctrl m (k_shm s) (k_ends s).
Definition set_shm (m : option (smap string)) (s : ctrl) : ctrl := Ctrl (k_plugins s) m (k_ends s).

(** FrameProcessorController.cpp:700-730 *)
Definition load (index name : string) (found : bool) (s : ctrl) : outcome refused ctrl :=
  match sm_get (k_plugins s) index with
  | Some _ => Ret s
  | None =>
    if found then
      let p := if String.eqb name "FileWriterPlugin" then register "controller" Controller true no_conns else no_conns in
      Ret (set_plugins (sm_put (k_plugins s) index p) s)
    else Throw ENoClass
  end.

(** FrameProcessorController.cpp:739-765 and SharedMemoryController.cpp:249-258 *)
Definition connect (index to : string) (s : ctrl) : outcome refused ctrl :=
  match sm_get (k_plugins s) index with
  | None => Throw ENotLoaded
  | Some _ =>
    if String.eqb to "frame_receiver" then
      match k_shm s with
      | None => Throw ENoReceiver
      | Some cbs => Ret (set_shm (Some (match sm_get cbs index with None => sm_put cbs index index | Some _ => cbs end)) s)
      end
    else
      match sm_get (k_plugins s) to with
      | Some p => Ret (set_plugins (sm_put (k_plugins s) to (register index (Plugin index) false p)) s)
      | None => Ret s
      end
  end.

(** FrameProcessorController.cpp:772-790 and SharedMemoryController.cpp:266-277; sharedMemController_ is not tested. *)
Definition disconnect (index from : string) (s : ctrl) : outcome refused ctrl :=
  match sm_get (k_plugins s) index with
  | None => Throw ENotLoaded
  | Some _ =>
    if String.eqb from "frame_receiver" then
      match k_shm s with
      | None => Undef
      | Some cbs => Ret (set_shm (Some (match sm_get cbs index with Some _ => sm_del cbs index | None => cbs end)) s)
      end
    else
      match sm_get (k_plugins s) from with
      | Some p => Ret (set_plugins (sm_put (k_plugins s) from (remove index p)) s)
      | None => Ret s
      end
  end.

(** FrameProcessorController.cpp:795-803 *)
Definition disconnect_all (s : ctrl) : ctrl :=
  set_plugins (map (fun e => (fst e, remove_all (snd e))) (k_plugins s)) s.

(** FrameProcessorController.cpp:875-902; making the new object is taken to succeed. *)
Definition setup (pub sub : string) (s : ctrl) : ctrl :=
  match k_shm s with
  | Some _ => if String.eqb pub (fst (k_ends s)) && String.eqb sub (snd (k_ends s)) then s else Ctrl (k_plugins s) (Some []) (pub, sub)
  | None => Ctrl (k_plugins s) (Some []) (pub, sub)
  end.

Definition do_cmd (c : cmd) (s : ctrl) : outcome refused ctrl :=
  match c with
  | Load i n f => load i n f s
  | Connect i t => connect i t s
  | Disconnect i f => disconnect i f s
  | DisconnectAll => Ret (disconnect_all s)
  | Setup p q => Ret (setup p q s)
  end.

(** A sequence of commands; a refused command (exception) leaves the state as it is. *)
Fixpoint do_cmds (l : list cmd) (s : ctrl) : option ctrl :=
  match l with
  | [] => Some s
  | c :: t => match do_cmd c s with Ret s' => do_cmds t s' | Throw _ => do_cmds t s | Undef => None end
  end.

(** Deliveries when a plugin pushes a frame, and when the shared memory controller hands a frame over
    (SharedMemoryController.cpp:195-199). *)
Definition pushed_by (a : string) (s : ctrl) : list (delivery target) :=
  match sm_get (k_plugins s) a with Some p => fst (push (fun _ => true) true p) | None => [] end.
Definition handed_over (s : ctrl) : list string := match k_shm s with Some cbs => map snd cbs | None => [] end.
