(** The close timeout of the file writer plugin: its threads and mutexes (frameProcessor/src/FileWriterPlugin.cpp). *)
From Verif Require Import Base.
Local Open Scope N_scope.

(** Threads: the timeout thread, the thread that processes frames, the thread that handles control messages. *)
Inductive tid := TT | TF | TC.

(** run_close_file_timeout (lines 916-941). *)
Inductive tpc :=
| TSleep            (* line 921: waiting on start_condition_; start_timeout_mutex_ released *)
| TStarting         (* line 921: woken, wants start_timeout_mutex_ again *)
| TLock             (* line 924: timeout_active_ has been set, wants close_file_mutex_ *)
| TTest             (* line 925: holds both *)
| TTimed (b per : N) (* line 926: waiting on timeout_condition_ since b for per ms; close_file_mutex_ released *)
| TNotified         (* line 926: woken, wants close_file_mutex_ again *)
| TExpired          (* line 926: timed out, wants close_file_mutex_ again *)
| TFire             (* line 929: holds close_file_mutex_, wants mutex_ *)
| TStop.            (* lines 930-934: holds close_file_mutex_ and mutex_ *)

(** process_frame (lines 139-171). *)
Inductive fpc :=
| FIdle
| FClose            (* line 142: wants close_file_mutex_ *)
| FMain             (* line 143: wants mutex_ *)
| FWork             (* lines 147-159: holds both *)
| FStart            (* line 900: in start_close_file_timeout, wants start_timeout_mutex_ *)
| FPush.            (* lines 165-168: push and notify *)

(** configure (lines 254-351). *)
Inductive cpc :=
| CIdle
| CMain             (* wants mutex_ *)
| CWork             (* holds mutex_ *)
| CStart.           (* line 900: wants start_timeout_mutex_ *)

Record sys := Sys {
  now : N;                       (* milliseconds *)
  writing : bool; active : bool; (* writing_, timeout_active_ *)
  period : N;                    (* timeout_period_ *)
  m_start : option tid; m_close : option tid; m_main : option tid;   (* owners of the mutexes *)
  pt : tpc; pf : fpc; pc : cpc }.

(** Visible events. *)
Inductive label :=
| LTau
| LTick                 (* one millisecond passes *)
| LStart                (* start_close_file_timeout notified the timeout thread *)
| LSpurious             (* start_condition_.wait (line 921, no predicate) returns without a notification *)
| LWait (per : N)       (* the timeout thread starts to wait for per ms *)
| LExpire               (* that wait times out *)
| LFrame                (* a frame has been processed by the acquisition being written and passed on *)
| LStop.                (* the timeout stops the acquisition *)

Definition set_t p s := Sys (now s) (writing s) (active s) (period s) (m_start s) (m_close s) (m_main s) p (pf s) (pc s).
Definition set_f p s := Sys (now s) (writing s) (active s) (period s) (m_start s) (m_close s) (m_main s) (pt s) p (pc s).
Definition set_c p s := Sys (now s) (writing s) (active s) (period s) (m_start s) (m_close s) (m_main s) (pt s) (pf s) p.
Definition own_start o s := Sys (now s) (writing s) (active s) (period s) o (m_close s) (m_main s) (pt s) (pf s) (pc s).
Definition own_close o s := Sys (now s) (writing s) (active s) (period s) (m_start s) o (m_main s) (pt s) (pf s) (pc s).
Definition own_main o s := Sys (now s) (writing s) (active s) (period s) (m_start s) (m_close s) o (pt s) (pf s) (pc s).
Definition flags w a s := Sys (now s) w a (period s) (m_start s) (m_close s) (m_main s) (pt s) (pf s) (pc s).
Definition set_per n s := Sys (now s) (writing s) (active s) n (m_start s) (m_close s) (m_main s) (pt s) (pf s) (pc s).
Definition tick s := Sys (now s + 1) (writing s) (active s) (period s) (m_start s) (m_close s) (m_main s) (pt s) (pf s) (pc s).

(** start_condition_.notify_all (line 901) and timeout_condition_.notify_all (line 168). *)
Definition notify_start (s : sys) : sys := match pt s with TSleep => set_t TStarting s | _ => s end.
Definition notify_timer (s : sys) : sys := match pt s with TTimed _ _ => set_t TNotified s | _ => s end.

(** One step of one thread.  A frame may switch, complete (stop_acquisition, lines 851-890) or continue the acquisition
    whatever its content, so the new value of writing_ is left open wherever an acquisition may be stopped or started;
    stopping sets timeout_active_ to false (line 889).  process_end_of_acquisition (line 178) and execute (line 975)
    take no mutex; each is one step here. *)
Inductive step : sys -> label -> sys -> Prop :=
| s_tick s : step s LTick (tick s)
(* timeout thread *)
| s_spurious s : pt s = TSleep -> step s LSpurious (set_t TStarting s)
| s_started s : pt s = TStarting -> m_start s = None -> step s LTau (flags (writing s) true (set_t TLock (own_start (Some TT) s)))
| s_lock s : pt s = TLock -> m_close s = None -> step s LTau (set_t TTest (own_close (Some TT) s))
| s_wait s : pt s = TTest -> active s = true -> step s (LWait (period s)) (set_t (TTimed (now s) (period s)) (own_close None s))
| s_back s : pt s = TTest -> active s = false -> step s LTau (set_t TSleep (own_start None (own_close None s)))
| s_spurious_timer s b per : pt s = TTimed b per -> step s LTau (set_t TNotified s)
| s_expire s b per : pt s = TTimed b per -> b + per <= now s -> step s LExpire (set_t TExpired s)
| s_notified s : pt s = TNotified -> m_close s = None -> step s LTau (set_t TTest (own_close (Some TT) s))
| s_expired s : pt s = TExpired -> m_close s = None -> step s LTau (set_t TFire (own_close (Some TT) s))
| s_fire s : pt s = TFire -> m_main s = None -> step s LTau (set_t TStop (own_main (Some TT) s))
| s_stop s w : pt s = TStop -> writing s = true -> active s = true ->
    step s LStop (flags w false (set_t TTest (own_main None s)))
| s_no_stop s : pt s = TStop -> (writing s = false \/ active s = false) ->
    step s LTau (flags (writing s) false (set_t TTest (own_main None s)))
(* frames *)
| s_frame s : pf s = FIdle -> step s LTau (set_f FClose s)
| s_frame_close s : pf s = FClose -> m_close s = None -> step s LTau (set_f FMain (own_close (Some TF) s))
| s_frame_main s : pf s = FMain -> m_main s = None -> step s LTau (set_f FWork (own_main (Some TF) s))
| s_frame_drop s w : pf s = FWork -> step s LTau (flags w (active s) (set_f FIdle (own_main None (own_close None s))))
| s_frame_ok s : pf s = FWork -> step s LTau (flags true (active s) (set_f FPush s))
| s_frame_complete s w : pf s = FWork -> step s LTau (flags w false (set_f FPush s))
| s_frame_missing s : pf s = FWork -> active s = true -> step s LTau (flags true true (set_f FPush s))
| s_frame_missing_start s : pf s = FWork -> active s = false -> step s LTau (flags true false (set_f FStart s))
| s_frame_start s : pf s = FStart -> m_start s = None -> step s LStart (notify_start (set_f FPush s))
| s_frame_push s : pf s = FPush -> step s LFrame (notify_timer (set_f FIdle (own_main None (own_close None s))))
| s_eoa s w : pf s = FIdle -> writing s = true -> step s LTau (flags w false s)
(* control *)
| s_execute s w : pc s = CIdle -> step s LTau (flags w (active s) s)
| s_conf s : pc s = CIdle -> step s LTau (set_c CMain s)
| s_conf_main s : pc s = CMain -> m_main s = None -> step s LTau (set_c CWork (own_main (Some TC) s))
| s_conf_period s n : pc s = CWork -> step s LTau (set_per n s)
| s_conf_end s : pc s = CWork -> step s LTau (set_c CIdle (own_main None s))
| s_conf_start s : pc s = CWork -> writing s = true -> active s = false -> step s LTau (set_c CStart s)
| s_conf_started s : pc s = CStart -> m_start s = None -> step s LStart (notify_start (set_c CWork s)).

(** Line 78-104: the thread has been started and waits; timeout_active_ is not initialised. *)
Definition init (a : bool) : sys := Sys 0 false a 0 None None None TSleep FIdle CIdle.

(** Executions: the events so far, each with its time, oldest first. *)
Inductive exec (a : bool) : list (label * N) -> sys -> Prop :=
| e_init : exec a [] (init a)
| e_step tr s l s' : exec a tr s -> step s l s' -> exec a (tr ++ [(l, now s)]) s'.
