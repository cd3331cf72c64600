(** The pace of the simulator: when the frames of replay_frames are sent. *)
From Verif Require Import Base.
Local Open Scope Z_scope.

(** One replayed frame as the outside world sees it: packets sent (not dropped), nanoseconds spent sending them, and
    nanoseconds that sleeping took longer than asked for. *)
Record sending := Sending { g_sent : nat; g_work : Z; g_late : Z }.

Definition second : Z := 1000000000.

(** frameSimulator/src/FrameSimulatorPluginUDP.cpp:191-197: the pauses of 10 ms, one packet after the other.  [k] packets
    have been sent.  The remainder by zero is undefined. *)
Fixpoint packet_pauses (gap : option Z) (n : nat) (k : Z) : outcome unit Z :=
  match n, gap with
  | O, _ | _, None => Ret 0
  | S m, Some g =>
    if g =? 0 then Undef
    else match packet_pauses gap m (k + 1) with
         | Ret r => Ret ((if Z.rem (k + 1) g =? 0 then 10000000 else 0) + r)
         | o => o
         end
  end.

(** time(): whole seconds of a clock in nanoseconds. *)
Definition time_s (now : Z) : Z := now / second.

(** frameSimulator/src/FrameSimulatorPluginUDP.cpp:202-218: the time slept after a frame sent from [start] to [end_].
    [interval]: frame_gap_secs_ in nanoseconds.  The float arithmetic is taken exactly. *)
Definition frame_wait (interval : option Z) (start end_ : Z) : Z :=
  match interval with
  | None => 0
  | Some i =>
    let wait := i - (time_s end_ - time_s start) * second in
    if 0 <? wait then
      let tv_sec := wait / second in
      let tv_nsec := wait - tv_sec * second in
      tv_sec * second + tv_nsec
    else 0
  end.

(** frameSimulator/src/FrameSimulatorPluginUDP.cpp:151-233: the loop over the frames.  Result: the time each frame was
    started and finished, and the time at the end. *)
Fixpoint pace (interval gap : option Z) (l : list sending) (now : Z) : outcome unit (list (Z * Z) * Z) :=
  match l with
  | [] => Ret ([], now)
  | x :: r =>
    match packet_pauses gap (g_sent x) 0 with
    | Ret p =>
      let end_ := now + g_work x + p in
      match pace interval gap r (end_ + frame_wait interval now end_ + g_late x) with
      | Ret (t, e) => Ret ((now, end_) :: t, e)
      | o => o
      end
    | Throw e => Throw e
    | Undef => Undef
    end
  end.
