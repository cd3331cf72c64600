(** The watchdog of the calls into HDF5.  frameProcessor/src/WatchdogTimer.cpp, frameProcessor/include/WatchdogTimer.h,
    common/include/gettime.h.

    Used by HDF5File (HDF5File.cpp:162-164, 208-210, 259-263, 269-271, 360-362, 389-391): start_timer, the call, finish_timer, by one
    thread at a time (mutex_ of HDF5File).  The callback is set_warning of the FileWriterPlugin (FileWriterPlugin.cpp:103), which
    takes a lock of its own (FrameProcessorPlugin::mutex_, not FileWriterPlugin::mutex_).

    Not modelled: logging, with it ticks_ (never initialised) and the warning at a tenth of the timeout (line 77); callbacks that
    throw. *)
From Coq Require Import String.
From Verif Require Import Base ReactorModel PluginModel.
Local Open Scope Z_scope.

(** ** The constructor, lines 17-28, against run(), lines 91-98.  Members are made in the order of WatchdogTimer.h:41-57: the thread
    starts with worker_thread_, before worker_thread_running_ and reactor_ are made. *)
Inductive mpos := MFlag | MReactor | MSpin | MBack.        (* next: line 18; reactor_; line 25; returned *)
Inductive tpos := TFlag | TRegister | TRun.                 (* next: line 95; line 98; line 99 *)
(** [b_flag]: worker_thread_running_; [b_made]: reactor_ exists; [b_undef]: reactor_ was used before. *)
Record boot := Boot { b_main : mpos; b_work : tpos; b_flag : bool; b_made : bool; b_undef : bool }.
Definition boot_init (memory : bool) : boot := Boot MFlag TFlag memory false false.
Inductive blabel := BMain | BWork.
Definition bstep (a : blabel) (b : boot) : option boot :=
  match a, b with
  | BMain, Boot MFlag w f m u => Some (Boot MReactor w false m u)
  | BMain, Boot MReactor w f m u => Some (Boot MSpin w f true u)
  | BMain, Boot MSpin w f m u => Some (Boot (if f then MBack else MSpin) w f m u)
  | BWork, Boot p TFlag f m u => Some (Boot p TRegister true m u)
  | BWork, Boot p TRegister f m u => Some (Boot p TRun f m (u || negb m))
  | _, _ => None
  end.
Fixpoint bgo (l : list blabel) (b : boot) : option boot := match l with [] => Some b | a :: r => match bstep a b with Some b' => bgo r b' | None => None end end.

(** ** elapsed_us, gettime.h:52-58, in doubles. *)
(** a/b to the nearest integer, ties to even. *)
Definition near (a b : Z) : Z :=
  let q := a / b in let r := a mod b in
  if 2 * r <? b then q else if b <? 2 * r then q + 1 else if Z.even q then q else q + 1.
(** The double nearest to an integer from 0 to 2^1000. *)
Definition to_dbl (z : Z) : Z := let k := Z.log2 z - 52 in if k <=? 0 then z else near z (2 ^ k) * 2 ^ k.
(** The double nearest to x/1000, rounded down, for x below 2^62 (146 years): the quotient is scaled by 2^k into [2^52, 2^53). *)
Definition div1000 (x : Z) : Z :=
  if x <=? 0 then 0 else
  let k := 62 - Z.log2 x in
  let k := if x * 2 ^ k <? 1000 * 2 ^ 53 then k else k - 1 in
  near (x * 2 ^ k) 1000 / 2 ^ k.
(** [None]: the value does not fit into unsigned int, which is undefined.  [start], [now]: CLOCK_MONOTONIC in ns, as tv_sec and tv_nsec. *)
Definition dbl_ns (t : Z) : Z := to_dbl (to_dbl (t / 10 ^ 9 * 10 ^ 9) + t mod 10 ^ 9).
Definition elapsed_us (start now : Z) : option Z :=
  let d := div1000 (to_dbl (dbl_ns now - dbl_ns start)) in if d <? 2 ^ 32 then Some d else None.

(** ** The watchdog after its construction. *)
(** Where the user of the object is: outside; in start_timer, before line 49; in the call; in finish_timer, after line 69; in the
    destructor, after line 31; after it. *)
Inductive upos := Idle | Starting | Busy | Finishing | Ending | Gone.
(** What happened, for the specification: start_timer returned, at [ms], having taken [start] ns as the start; the callback was
    called; a client cleared the messages; the timer is disabled; finish_timer returned; the destructor was called; it returned. *)
Inductive wevent :=
| HBegan (name : string) (timeout start ms : Z) | HReport (text : string) (ns : Z) | HClear | HDone (ms : Z) | HReturned (us : option Z) | HEnding (ms : Z) | HGone.

(** [w_ns]: CLOCK_MONOTONIC in ns; [w_hb]: id of the heartbeat's timer; [w_names]: the argument bound to the callback of each timer;
    [w_msgs]: messages of the FileWriterPlugin. *)
Record wd := Wd {
  w_r : reactor; w_ns : Z; w_flag : bool; w_hb : option Z; w_names : list (Z * string);
  w_pos : upos; w_start : Z; w_timeout : Z; w_name : string; w_id : Z; w_msgs : msgs; w_log : list wevent }.
(** timer_id_ is not initialised: [g].  Strictly, to read it is undefined; here it has some value. *)
Definition winit (g ns : Z) : wd := Wd (reactor_init (ns / 10 ^ 6)) ns true None [] Idle 0 0 "" g (Msgs [] []) [].

Definition with_r r w := Wd r (w_ns w) (w_flag w) (w_hb w) (w_names w) (w_pos w) (w_start w) (w_timeout w) (w_name w) (w_id w) (w_msgs w) (w_log w).
Definition with_ns t w := Wd (w_r w) t (w_flag w) (w_hb w) (w_names w) (w_pos w) (w_start w) (w_timeout w) (w_name w) (w_id w) (w_msgs w) (w_log w).
Definition with_pos p w := Wd (w_r w) (w_ns w) (w_flag w) (w_hb w) (w_names w) p (w_start w) (w_timeout w) (w_name w) (w_id w) (w_msgs w) (w_log w).
Definition say e w := Wd (w_r w) (w_ns w) (w_flag w) (w_hb w) (w_names w) (w_pos w) (w_start w) (w_timeout w) (w_name w) (w_id w) (w_msgs w) (w_log w ++ [e]).
Definition with_msgs m w := Wd (w_r w) (w_ns w) (w_flag w) (w_hb w) (w_names w) (w_pos w) (w_start w) (w_timeout w) (w_name w) (w_id w) m (w_log w).

Fixpoint name_of (l : list (Z * string)) (id : Z) : string := match l with [] => ""%string | (i, n) :: r => if i =? id then n else name_of r id end.

Inductive wlabel :=
| WTime (ns : Z)                          (* time passes *)
| WElsewhere                              (* another reactor of the process takes an id *)
| WClear                                  (* a client clears the messages: FrameProcessorPlugin.cpp:108-114 *)
| WBoot                                   (* the worker: line 98 *)
| WLoop (ns : Z) | WTimeout | WVisit | WUnlock | WInterrupt     (* the worker in IpcReactor::run *)
| WStart (name : string) (timeout : Z)    (* start_timer, lines 44-46 *)
| WReg                                    (* start_timer, lines 49-58 *)
| WRemove                                 (* finish_timer, line 69 *)
| WReturn                                 (* finish_timer, lines 71-83 *)
| WDestroy                                (* destructor, line 31 *)
| WJoin.                                  (* destructor, line 32 *)

(** The clock moves on by [d] ns. *)
Definition ticks (d : Z) (w : wd) : Z := (w_ns w + d) / 10 ^ 6 - w_ns w / 10 ^ 6.
(** The thread that runs run() has registered its heartbeat. *)
Definition booted (w : wd) : bool := match w_hb w with Some _ => true | None => false end.
(** A step of the reactor. *)
Definition inner (a : label) (w : wd) : option wd := match rstep a (w_r w) with Some r => Some (with_r r w) | None => None end.
Definition worker (a : label) (w : wd) : option wd := if booted w then inner a w else None.

(** One turn of the loop over the timers: heartbeat, lines 114-124, or call_timeout_callback, lines 105-109. *)
Definition visit (w : wd) : option wd :=
  match r_phase (w_r w) with
  | Pass _ (id :: _) =>
    match tm_get (r_timers (w_r w)) id with
    | Some t =>
      if t_when t <=? r_now (w_r w) then
        if match w_hb w with Some h => id =? h | None => false end then worker (LVisit (if w_flag w then ANothing else AStop)) w
        else match worker (LVisit ANothing) w with
             | Some w' => let m := String.append (name_of (w_names w) id) " | Watchdog timed out" in
                          Some (say (HReport m (w_ns w)) (with_msgs (set_warning m (w_msgs w)) w'))
             | None => None
             end
      else worker (LVisit ANothing) w
    | None => None
    end
  | _ => None
  end.

(** [None]: not possible now.  Nothing happens after the destructor. *)
Definition wstep (a : wlabel) (w : wd) : option wd :=
  match w_pos w with Gone => None | _ =>
  match a with
  | WTime d => if 0 <=? d then match inner (LTick (ticks d w)) w with Some w' => Some (with_ns (w_ns w + d) w') | None => None end else None
  | WElsewhere => inner LElsewhere w
  | WClear => Some (say HClear (with_msgs (clear_errors (w_msgs w)) w))
  | WBoot =>
    match w_hb w with
    | Some _ => None
    | None => match inner (LRegister 1 0) w with
              | Some w' => Some (Wd (w_r w') (w_ns w) (w_flag w) (Some (r_next (w_r w))) (w_names w) (w_pos w) (w_start w) (w_timeout w) (w_name w) (w_id w) (w_msgs w) (w_log w))
              | None => None
              end
    end
  | WLoop d => if 0 <=? d then match worker (LLoop (ticks d w)) w with Some w' => Some (if match r_phase (w_r w') with Poll _ => true | _ => false end then with_ns (w_ns w + d) w' else w') | None => None end else None
  | WTimeout => worker LTimeout w
  | WVisit => visit w
  | WUnlock => worker LUnlock w
  | WInterrupt => worker LInterrupt w
  | WStart name timeout =>
    match w_pos w with
    | Idle => if (0 <=? timeout) && (timeout <? 2 ^ 32) then Some (Wd (w_r w) (w_ns w) (w_flag w) (w_hb w) (w_names w) Starting (w_ns w) timeout name (w_id w) (w_msgs w) (w_log w)) else None
    | _ => None
    end
  | WReg =>
    match w_pos w with
    | Starting =>
      let e := HBegan (w_name w) (w_timeout w) (w_start w) (r_now (w_r w)) in
      if 0 <? w_timeout w then
        match rstep (LRegister (w_timeout w) 1) (w_r w) with
        | Some r => let id := r_next (w_r w) in Some (Wd r (w_ns w) (w_flag w) (w_hb w) (w_names w ++ [(id, w_name w)]) Busy (w_start w) (w_timeout w) (w_name w) id (w_msgs w) (w_log w ++ [e]))
        | None => None
        end
      else Some (say e (with_pos Busy w))
    | _ => None
    end
  | WRemove => match w_pos w with Busy => match inner (LRemove (w_id w)) w with Some w' => Some (say (HDone (r_now (w_r w))) (with_pos Finishing w')) | None => None end | _ => None end
  | WReturn => match w_pos w with Finishing => Some (say (HReturned (elapsed_us (w_start w) (w_ns w))) (with_pos Idle w)) | _ => None end
  | WDestroy => match w_pos w with
                | Idle => Some (Wd (w_r w) (w_ns w) false (w_hb w) (w_names w) Ending (w_start w) (w_timeout w) (w_name w) (w_id w) (w_msgs w) (w_log w ++ [HEnding (r_now (w_r w))]))
                | _ => None
                end
  | WJoin => match w_pos w, r_phase (w_r w) with Ending, Done _ => if booted w then Some (say HGone (with_pos Gone w)) else None | _, _ => None end
  end end.

Inductive wrun (g ns : Z) : wd -> Prop :=
| wr_init : wrun g ns (winit g ns)
| wr_step w a w' : wrun g ns w -> wstep a w = Some w' -> wrun g ns w'.
