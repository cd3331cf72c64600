(** Start and end of the frame processor.  frameProcessor/src/FrameProcessorController.cpp (constructor, run, waitForShutdown, shutdown,
    callback, runIpcService, the request shutdown), frameProcessor/include/FrameProcessorController.h, frameProcessor/src/IFrameCallback.cpp.

    Frames are not told apart and plugins do anything with them that their connections allow; what they do is C64.  Plugins are numbers
    in the order of plugins_; one that is loaded comes last.  Accesses to single members are atomic; the concurrent ones to plugins_ are
    noted ([e_race]).  Not modelled: callbacks that throw, the destructor of the controller without run, changes of the limit (C59: the limit is a
    parameter here), unloading and disconnecting while the program runs (C47). *)
From Verif Require Import Base QueueModel.
Local Open Scope Z_scope.

(** ** The constructor, lines 53-90, against runIpcService, lines 1020-1037.  Members are made in the order of
    FrameProcessorController.h:134-182: the thread starts with ctrlThread_, before reactor_ (a null pointer at first) is made.
    threadRunning_ is made before.  Line numbers: next is the thread (62), reactor_, the loop of line 79, line 90, returned. *)
Inductive cpos := CThread | CReactor | CSpin | CMeta | CBack.
(** Next is line 1028, 1034, 1037. *)
Inductive ipos := IMake | IFlag | IRun.
(** [k_reactor]: what reactor_ is: memory that is no pointer yet, null, the reactor.  [k_undef]: null or no pointer was used. *)
Inductive ptr := Raw | Null | Made.
Record boot := Boot { k_main : cpos; k_thread : ipos; k_running : bool; k_reactor : ptr; k_undef : bool }.
Definition boot_init : boot := Boot CThread IMake false Raw false.
Inductive blabel := BMain | BThread.
Definition made (p : ptr) : bool := match p with Made => true | _ => false end.
Definition bstep (a : blabel) (b : boot) : option boot :=
  match a, b with
  | BMain, Boot CThread t r p u => Some (Boot CReactor t r p u)
  | BMain, Boot CReactor t r p u => Some (Boot CSpin t r Null u)
  | BMain, Boot CSpin t r p u => Some (Boot (if r then CMeta else CSpin) t r p u)
  | BMain, Boot CMeta t r p u => Some (Boot CBack t r p (u || negb (made p)))
  | BThread, Boot CThread _ _ _ _ => None
  | BThread, Boot c IMake r p u => Some (Boot c IFlag r Made (u || match p with Raw => true | _ => false end))    (* line 1028: assigns; line 1031: registers *)
  | BThread, Boot c IFlag r p u => Some (Boot c IRun true p u)
  | BThread, Boot c IRun r p u => Some (Boot c IRun r p (u || negb (made p)))                                        (* line 1037 *)
  | _, _ => None
  end.
Fixpoint bgo (l : list blabel) (b : boot) : option boot := match l with [] => Some b | a :: r => match bstep a b with Some b' => bgo r b' | None => None end end.

(** ** From there to the end. *)
(** What a worker still has to do in a callback: call a blocking callback of a plugin, add to a queue, call the controller's callback
    with a frame it counts or does not (lines 266-270), wait in line 277. *)
Inductive act := ACall (m : nat) | AAdd (m : nat) | ACtrl (counted : bool) | ASpin.
(** IFrameCallback.cpp:114-128: line 121, line 122, in callback, ended. *)
Inductive wpos := PTest | PRemove | PIn (l : list act) | PDone.
(** working_, queue_ ([true]: a frame, [false]: a null pointer), the thread. *)
Record wk := Wk { k_working : bool; k_queue : list bool; k_pos : wpos }.
(** Connections of a plugin (C47): blocking, queued, the controller's; and whether the callbacks of the shared memory controller, and
    theirs in turn, lead to it: these maps hold pointers to it. *)
Record conf := Conf { c_blocking : nat -> list nat; c_queued : nat -> list nat; c_ctrl : nat -> bool; c_held : nat -> bool }.
Definition allowed (c : conf) (m : nat) (a : act) : bool :=
  match a with ACall k => existsb (Nat.eqb k) (c_blocking c m) | AAdd k => existsb (Nat.eqb k) (c_queued c m) | ACtrl _ => c_ctrl c m | ASpin => false end.

(** The main thread: configuring; line 810; line 863 (waits); shutdown: line 824 for plugin k, stop's line 70 for plugin k; line 827; line 832 for
    plugin k; line 834; stop() of the controller itself; line 839; line 954; line 955-956; line 844; line 848; returned. *)
Inductive mpos := MConf | MLock | MWait | MStop (k : nat) | MNull (k : nat) | MSent | MCheck (k : nat) | MClear | MSelf | MSelfNull | MReactor | MJoin | MClose | MShm | MTear | MEnd.
(** The thread of the reactor: at the head of its loop or asleep; in a request that uses plugins_; ended. *)
Inductive rpos := RLoop | RBusy | RDone.
Inductive xevent := VAck | VLimit | VSpurious | VWaiting | VStopped (k : nat) | VSent | VCleared | VSelf | VReactor | VJoined | VClosed | VReleased | VTorn.
(** [e_stop]: the reactor was told to stop; [e_race]: plugins_ was changed while another thread used it, or a plugin was loaded after
    the end began; [e_dangling]: a plugin was destroyed whose thread had not ended. *)
Record life := Life {
  e_main : mpos; e_n : nat; e_w : nat -> wk; e_self : wk; e_reactor : rpos; e_stop : bool; e_sent : bool; e_total : Z; e_limit : Z;
  e_race : bool; e_dangling : bool; e_log : list xevent }.

Definition at_main p s := Life p (e_n s) (e_w s) (e_self s) (e_reactor s) (e_stop s) (e_sent s) (e_total s) (e_limit s) (e_race s) (e_dangling s) (e_log s).
Definition note e s := Life (e_main s) (e_n s) (e_w s) (e_self s) (e_reactor s) (e_stop s) (e_sent s) (e_total s) (e_limit s) (e_race s) (e_dangling s) (e_log s ++ [e]).
Definition set_w m w s := Life (e_main s) (e_n s) (fun k => if Nat.eqb k m then w else e_w s k) (e_self s) (e_reactor s) (e_stop s) (e_sent s) (e_total s) (e_limit s) (e_race s) (e_dangling s) (e_log s).
Definition set_self w s := Life (e_main s) (e_n s) (e_w s) w (e_reactor s) (e_stop s) (e_sent s) (e_total s) (e_limit s) (e_race s) (e_dangling s) (e_log s).
Definition set_reactor r s := Life (e_main s) (e_n s) (e_w s) (e_self s) r (e_stop s) (e_sent s) (e_total s) (e_limit s) (e_race s) (e_dangling s) (e_log s).
Definition set_stop s := Life (e_main s) (e_n s) (e_w s) (e_self s) (e_reactor s) true (e_sent s) (e_total s) (e_limit s) (e_race s) (e_dangling s) (e_log s).
Definition set_sent s := Life (e_main s) (e_n s) (e_w s) (e_self s) (e_reactor s) (e_stop s) true (e_total s) (e_limit s) (e_race s) (e_dangling s) (e_log s).
Definition set_total t s := Life (e_main s) (e_n s) (e_w s) (e_self s) (e_reactor s) (e_stop s) (e_sent s) t (e_limit s) (e_race s) (e_dangling s) (e_log s).
Definition race (b : bool) s := Life (e_main s) (e_n s) (e_w s) (e_self s) (e_reactor s) (e_stop s) (e_sent s) (e_total s) (e_limit s) (e_race s || b) (e_dangling s) (e_log s).
Definition dangle (b : bool) s := Life (e_main s) (e_n s) (e_w s) (e_self s) (e_reactor s) (e_stop s) (e_sent s) (e_total s) (e_limit s) (e_race s) (e_dangling s || b) (e_log s).

Definition idle : wk := Wk false [] PDone.
(** IFrameCallback.cpp:49-54 *)
Definition started : wk := Wk true [] PTest.
Definition life_init (limit : Z) : life := Life MConf 0 (fun _ => idle) idle RLoop false false 0 limit false false [].

(** exitCondition_.notify_all(), without the mutex and without a state that would be kept. *)
Definition notify (s : life) : life := match e_main s with MWait => at_main (MStop 0) s | _ => s end.
(** The end has begun. *)
Definition ending (p : mpos) : bool := match p with MConf | MLock | MWait => false | _ => true end.
Definition running (w : wk) : bool := match k_pos w with PDone => false | _ => true end.

Inductive xlabel :=
| XMain | XSpurious                      (* the main thread; it wakes for no reason *)
| XWork (m : nat) (l : list act)         (* the thread of plugin m; l: what a plugin that is called now will do *)
| XSelf                                  (* the thread of the controller's own queue *)
| XInput (m : nat)                       (* the shared memory controller queues a frame, without limit *)
| XAck                                   (* a request shutdown, lines 175-180, 187 *)
| XUse | XUsed | XLoad                   (* another request that uses plugins_ begins, returns, loads a plugin (also from a file, before run) *)
| XTick.                                 (* the loop of the reactor ends: IpcReactor.cpp:253, at the latest at the next tick, 1 s *)

(** A thread of workerTask without the callback. *)
Definition turn (w : wk) : option wk :=
  match w with
  | Wk b q PTest => Some (Wk b q (if b then PRemove else PDone))
  | Wk b (false :: q) PRemove => Some (Wk b q PTest)
  | Wk b (true :: q) PRemove => Some (Wk b q (PIn []))
  | Wk b q (PIn []) => Some (Wk b q PTest)
  | _ => None
  end.
(** A step of the thread of plugin m. *)
Definition work (c : conf) (m : nat) (l : list act) (s : life) : option life :=
  match e_w s m with
  | Wk b (true :: q) PRemove => Some (set_w m (Wk b q (PIn [ACall m])) s)
  | Wk b q (PIn (ACall k :: r)) => if forallb (allowed c k) l then Some (set_w m (Wk b q (PIn (l ++ r))) s) else None
  | Wk b q (PIn (AAdd k :: r)) =>
    if Nat.ltb (length (k_queue (e_w s k))) max_queue_size then
      let s1 := set_w m (Wk b q (PIn r)) s in let t := e_w s1 k in Some (set_w k (Wk (k_working t) (k_queue t ++ [true]) (k_pos t)) s1)
    else None
  | Wk b q (PIn (ACtrl d :: r)) =>
    let t := if d then e_total s + 1 else e_total s in
    if t =? e_limit s then Some (notify (note VLimit (set_total t (set_w m (Wk b q (PIn (ASpin :: r))) s)))) else Some (set_total t (set_w m (Wk b q (PIn r)) s))
  | Wk b q (PIn (ASpin :: r)) => if e_sent s then Some (set_w m (Wk b q (PIn r)) s) else None
  | w => match turn w with Some w' => Some (set_w m w' s) | None => None end
  end.
(** Plugins whose last pointer goes: all of them ([all]), or those that no other pointer holds. *)
Definition lost (c : conf) (all : bool) (s : life) : bool := existsb (fun m => (all || negb (c_held c m)) && running (e_w s m)) (seq 0 (e_n s)).

Definition main (c : conf) (s : life) : option life :=
  match e_main s with
  | MConf => Some (at_main MLock (set_self started s))
  | MLock => Some (at_main MWait (note VWaiting s))
  | MWait => None
  | MStop k => if Nat.ltb k (e_n s) then
                 let w := e_w s k in if k_working w then Some (at_main (MNull k) (set_w k (Wk false (k_queue w) (k_pos w)) s)) else Some (at_main (MStop (S k)) s)
               else Some (at_main MSent s)
  | MNull k => let w := e_w s k in if Nat.ltb (length (k_queue w)) max_queue_size then Some (at_main (MStop (S k)) (note (VStopped k) (set_w k (Wk (k_working w) (k_queue w ++ [false]) (k_pos w)) s))) else None
  | MSent => Some (at_main (MCheck 0) (note VSent (set_sent s)))
  | MCheck k => if Nat.ltb k (e_n s) then if k_working (e_w s k) then None else Some (at_main (MCheck (S k)) s) else Some (at_main MClear s)
  | MClear => Some (at_main MSelf (note VCleared (dangle (lost c false s) (race (match e_reactor s with RBusy => true | _ => false end) s))))
  | MSelf => let w := e_self s in if k_working w then Some (at_main MSelfNull (set_self (Wk false (k_queue w) (k_pos w)) s)) else Some (at_main MReactor s)
  | MSelfNull => let w := e_self s in if Nat.ltb (length (k_queue w)) max_queue_size then Some (at_main MReactor (note VSelf (set_self (Wk (k_working w) (k_queue w ++ [false]) (k_pos w)) s))) else None
  | MReactor => Some (at_main MJoin (note VReactor (set_stop s)))
  | MJoin => match e_reactor s with RDone => Some (at_main MClose (note VJoined s)) | _ => None end
  | MClose => Some (at_main MShm (note VClosed s))
  | MShm => Some (at_main MTear (note VReleased (dangle (lost c true s) s)))
  | MTear => Some (at_main MEnd (note VTorn s))
  | MEnd => None
  end.

(** [None]: not possible now.  After the end the process is gone. *)
Definition xstep (c : conf) (a : xlabel) (s : life) : option life :=
  match e_main s with MEnd => None | _ =>
  match a with
  | XMain => main c s
  | XSpurious => match e_main s with MWait => Some (at_main (MStop 0) (note VSpurious s)) | _ => None end
  | XWork m l => if Nat.ltb m (e_n s) then work c m l s else None
  | XSelf => match turn (e_self s) with Some w => Some (set_self w s) | None => None end
  | XInput m => match e_reactor s with
                | RLoop => if Nat.ltb m (e_n s) then let w := e_w s m in Some (set_w m (Wk (k_working w) (k_queue w ++ [true]) (k_pos w)) s) else None
                | _ => None end
  | XAck => match e_reactor s with RLoop => Some (notify (note VAck s)) | _ => None end
  | XUse => match e_reactor s with RLoop => Some (set_reactor RBusy s) | _ => None end
  | XUsed => match e_reactor s with RBusy => Some (set_reactor RLoop s) | _ => None end
  | XLoad => match e_reactor s, e_main s with
             | RBusy, p => let m := e_n s in
                 let s1 := race (ending p) s in
                 Some (set_w m started (Life (e_main s1) (S m) (e_w s1) (e_self s1) (e_reactor s1) (e_stop s1) (e_sent s1) (e_total s1) (e_limit s1) (e_race s1) (e_dangling s1) (e_log s1)))
             | RLoop, MConf => let m := e_n s in
                 Some (set_w m started (Life (e_main s) (S m) (e_w s) (e_self s) (e_reactor s) (e_stop s) (e_sent s) (e_total s) (e_limit s) (e_race s) (e_dangling s) (e_log s)))
             | _, _ => None end
  | XTick => match e_reactor s with RLoop => if e_stop s then Some (set_reactor RDone s) else None | _ => None end
  end end.
Inductive xrun (c : conf) (limit : Z) : life -> Prop :=
| xr_init : xrun c limit (life_init limit)
| xr_step s a s' : xrun c limit s -> xstep c a s = Some s' -> xrun c limit s'.
