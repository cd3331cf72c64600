(** Frames through connected plugins.  frameProcessor/src/FrameProcessorPlugin.cpp (callback, push), IFrameCallback.cpp (workerTask), SharedMemoryController.cpp (handleRxChannel, injectEOA). *)
From Verif Require Import Base QueueModel.

(** What a frame object holds: data and meta data of a frame, or an EndOfAcquisitionFrame. *)
Inductive item (C : Type) := Frame (c : C) | Eoa.
Arguments Frame {C}. Arguments Eoa {C}.
(** A call of push: of the frame that is processed, or of a new frame; to all callbacks (FrameProcessorPlugin.cpp:391-408) or to a named one (lines 418-429). *)
Inductive what (C : Type) := Same | New (i : item C).
Arguments Same {C}. Arguments New {C}.
Record out (C : Type) := Push { o_what : what C; o_to : option nat }.
Arguments Push {C}. Arguments o_what {C}. Arguments o_to {C}.

(** Loaded plugins as numbers: blocking_callbacks_ and callbacks_ in the order of their names, the callbacks of the shared memory controller, and what plugins do.
    [p_process]: process_frame: new state of the plugin, what the frame object is changed to, calls of push.  A frame is changed before it is pushed.  [p_finish]: process_end_of_acquisition, which has no frame object but those it makes.
    Plugins do not throw and push valid frames only (an exception ends the program, see C23). *)
Record net (S C : Type) := Net {
  p_blocking : nat -> list nat; p_queued : nat -> list nat; p_roots : list nat;
  p_process : nat -> S -> C -> S * C * list (out C); p_finish : nat -> S -> S * list (item C * option nat); p_start : nat -> S }.
Arguments Net {S C}. Arguments p_blocking {S C}. Arguments p_queued {S C}. Arguments p_roots {S C}. Arguments p_process {S C}. Arguments p_finish {S C}. Arguments p_start {S C}.

(** FrameProcessorPlugin::callback, lines 350-371 *)
Definition callback {S C} (nt : net S C) (m : nat) (s : S) (i : item C) : S * item C * list (out C) :=
  match i with
  | Frame c => let '(s1, c1, o) := p_process nt m s c in (s1, Frame c1, o)
  | Eoa => let '(s1, o) := p_finish nt m s in (s1, Eoa, map (fun p => Push (New (fst p)) (snd p)) o ++ [Push Same None])
  end.

(** What a thread still has to do: call the callback of a plugin with a frame object (frame objects as numbers), add it to the queue of a plugin, return from the callback of a plugin. *)
Inductive act := Call (m r : nat) | Add (m r : nat) | Ret (m : nat).
(** The threads: the worker of each plugin, and the main thread ([None]), in which the shared memory controller runs.
    States of plugins, what they were called with so far, their queues, frame objects, number of frame objects, threads *)
Record pipe (S C : Type) := Pipe { st : nat -> S; log : nat -> list (item C); q : nat -> list nat; heap : nat -> item C; next : nat; thr : option nat -> list act }.
Arguments Pipe {S C}. Arguments st {S C}. Arguments log {S C}. Arguments q {S C}. Arguments heap {S C}. Arguments next {S C}. Arguments thr {S C}.

Definition on {A} (f : nat -> A) (k : nat) (x : A) : nat -> A := fun i => if Nat.eqb i k then x else f i.
Definition teq (a b : option nat) : bool := match a, b with None, None => true | Some x, Some y => Nat.eqb x y | _, _ => false end.
Definition to_thread {A} (f : option nat -> A) (k : option nat) (x : A) : option nat -> A := fun i => if teq i k then x else f i.

(** The frame objects that are pushed: new ones are made. *)
Fixpoint place {C} (r n : nat) (h : nat -> item C) (l : list (out C)) : nat * (nat -> item C) * list (nat * option nat) :=
  match l with
  | [] => (n, h, [])
  | Push Same to :: k => let '(n1, h1, l1) := place r n h k in (n1, h1, (r, to) :: l1)
  | Push (New i) to :: k => let '(n1, h1, l1) := place r (S n) (on h n i) k in (n1, h1, (n, to) :: l1)
  end.
(** push: blocking callbacks first, then the queues *)
Definition pushed {S C} (nt : net S C) (m : nat) (p : nat * option nat) : list act :=
  match snd p with
  | None => map (fun k => Call k (fst p)) (p_blocking nt m) ++ map (fun k => Add k (fst p)) (p_queued nt m)
  | Some k => (if existsb (Nat.eqb k) (p_blocking nt m) then [Call k (fst p)] else []) ++ (if existsb (Nat.eqb k) (p_queued nt m) then [Add k (fst p)] else [])
  end.

Inductive pstep {S C} (nt : net S C) : pipe S C -> pipe S C -> Prop :=
(* IFrameCallback.cpp:121-125: the worker takes a frame *)
| s_take z m r k : thr z (Some m) = [] -> q z m = r :: k ->
    pstep nt z (Pipe (st z) (log z) (on (q z) m k) (heap z) (next z) (to_thread (thr z) (Some m) [Call m r]))
(* FrameProcessorPlugin.cpp:350-371.  All that the plugin does on its own is one step. *)
| s_call z t m r k s1 i1 o n1 h1 l : thr z t = Call m r :: k -> callback nt m (st z m) (heap z r) = (s1, i1, o) -> place r (next z) (on (heap z) r i1) o = (n1, h1, l) ->
    pstep nt z (Pipe (on (st z) m s1) (on (log z) m (log z m ++ [heap z r])) (q z) h1 n1 (to_thread (thr z) t (flat_map (pushed nt m) l ++ Ret m :: k)))
(* WorkQueue.h:65-77; the shared memory controller does not wait (SharedMemoryController.cpp:204, 311) *)
| s_add z t m r k : thr z t = Add m r :: k -> t = None \/ length (q z m) < max_queue_size ->
    pstep nt z (Pipe (st z) (log z) (on (q z) m (q z m ++ [r])) (heap z) (next z) (to_thread (thr z) t k))
| s_ret z t m k : thr z t = Ret m :: k -> pstep nt z (Pipe (st z) (log z) (q z) (heap z) (next z) (to_thread (thr z) t k)).

(** All plugins loaded, connected and started; the frames and end-of-acquisition frames that will come from the shared memory controller (SharedMemoryController.cpp:202-205, 309-312). *)
Definition pipe_init {S C} (nt : net S C) (frames : list (item C)) : pipe S C :=
  Pipe (p_start nt) (fun _ => []) (fun _ => []) (fun r => nth r frames Eoa) (length frames)
    (fun t => match t with None => flat_map (fun r => map (fun m => Add m r) (p_roots nt)) (seq 0 (length frames)) | Some _ => [] end).
(** Executions of n steps *)
Inductive psteps {S C} (nt : net S C) (frames : list (item C)) : nat -> pipe S C -> Prop :=
| ps_init : psteps nt frames 0 (pipe_init nt frames)
| ps_step n z z' : psteps nt frames n z -> pstep nt z z' -> psteps nt frames (Datatypes.S n) z'.
