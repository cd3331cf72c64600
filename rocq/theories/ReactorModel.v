(** The event loop and its timers.  common/src/IpcReactor.cpp, common/include/IpcReactor.h. *)
From Verif Require Import Base.
Local Open Scope Z_scope.

(** IpcReactorTimer, IpcReactor.h:70-79.  delay_ms_ and times_ are size_t, when_ is int64_t.  expired_ is set just before the
    timer is erased (do_callback, run) and is not stored here. *)
Record timer := Timer { t_delay : Z; t_times : Z; t_when : Z }.

(** Where the thread in run() is: at the head of the loop; in zmq::poll, to return at the latest at [deadline]; in callbacks of
    channels; in the loop over the timers (mutex held), [start]: since when, [rest]: timers still to
    visit; returned; waiting for a mutex it holds. *)
Inductive phase := Top | Poll (deadline : Z) | Chans | Pass (start : Z) (rest : list Z) | Done (rc : Z) | Dead.

(** Events, for the specification. *)
Inductive event := ERegister (id delay times time : Z) | ERemove (id : Z) | EFire (id time : Z) | EPass (time : Z).

(** timers_ in order of id, [r_chans]: number of channels and sockets registered, [r_now]: monotonic clock in ms. *)
Record reactor := Reactor { r_now : Z; r_next : Z; r_timers : list (Z * timer); r_chans : nat; r_term : bool; r_phase : phase; r_log : list event }.
Definition reactor_init (now : Z) : reactor := Reactor now 0 [] 0 false Top [].

Definition at_phase p r := Reactor (r_now r) (r_next r) (r_timers r) (r_chans r) (r_term r) p (r_log r).
Definition with_timers l r := Reactor (r_now r) (r_next r) l (r_chans r) (r_term r) (r_phase r) (r_log r).
Definition emit e r := Reactor (r_now r) (r_next r) (r_timers r) (r_chans r) (r_term r) (r_phase r) (r_log r ++ [e]).
Definition terminate r := Reactor (r_now r) (r_next r) (r_timers r) (r_chans r) true (r_phase r) (r_log r).
Definition tick d r := Reactor (r_now r + d) (r_next r) (r_timers r) (r_chans r) (r_term r) (r_phase r) (r_log r).

Fixpoint tm_get (l : list (Z * timer)) (id : Z) : option timer := match l with [] => None | (i, t) :: r => if i =? id then Some t else tm_get r id end.
Definition tm_del (l : list (Z * timer)) (id : Z) : list (Z * timer) := filter (fun e => negb (fst e =? id)) l.
Definition tm_set (l : list (Z * timer)) (id : Z) (t : timer) : list (Z * timer) := map (fun e => if fst e =? id then (id, t) else e) l.

(** calculate_timeout, lines 410-435: the earliest timer, at most one hour ahead.  With the second reading of the clock [d] later,
    poll is to return at [max tickless (now + d)]. *)
Definition tickless (now : Z) (l : list (Z * timer)) : Z := fold_left (fun a e => if t_when (snd e) <? a then t_when (snd e) else a) l (now + 1000 * 3600).

(** What a timer callback does to the reactor. *)
Inductive action := ANothing | AStop | ATimers.   (* ATimers: register_timer or remove_timer *)

Inductive label :=
| LTick (d : Z)                 (* time passes *)
| LRegister (delay times : Z)   (* register_timer, lines 211-225, by any thread or by a channel callback *)
| LRemove (id : Z)              (* remove_timer, lines 231-236 *)
| LChannels (n : nat)           (* channels and sockets registered or removed: now [n] *)
| LStop                         (* stop(), lines 346-349 *)
| LLoop (d : Z)                 (* lines 253-275 *)
| LTimeout                      (* poll returns 0 *)
| LEvent                        (* poll returns > 0; callbacks start *)
| LCalled                       (* callbacks are finished *)
| LInterrupt                    (* poll throws with EINTR, lines 322-329 *)
| LVisit (a : action)           (* one turn of the loop over the timers, lines 303-317 *)
| LUnlock                       (* line 318 *)
| LElsewhere.                   (* another reactor of the process registers a timer: the ids are static, lines 25 and 126 *)

(** Not holding the mutex. *)
Definition free (p : phase) : bool := match p with Pass _ _ | Dead => false | _ => true end.

(** [None]: not possible now.  The clock does not go back and zmq::poll does not return early; it may return late.  Callbacks
    that throw are not modelled.  Timer ids are int: the 2^31st registration is undefined and not a step.  All reactors of the process
    draw on one counter without a common lock; it is taken to be incremented atomically. *)
Definition rstep (a : label) (r : reactor) : option reactor :=
  match a with
  | LTick d => if 0 <=? d then Some (tick d r) else None
  | LRegister delay times =>
    if free (r_phase r) && (r_next r <? 2 ^ 31 - 1) then
      let id := r_next r in
      Some (emit (ERegister id delay times (r_now r))
             (Reactor (r_now r) (id + 1) (r_timers r ++ [(id, Timer delay times (i64 (r_now r + delay)))]) (r_chans r) (r_term r) (r_phase r) (r_log r)))
    else None
  | LRemove id => if free (r_phase r) then Some (emit (ERemove id) (with_timers (tm_del (r_timers r) id) r)) else None
  | LChannels n => Some (Reactor (r_now r) (r_next r) (r_timers r) n (r_term r) (r_phase r) (r_log r))
  | LStop => Some (terminate r)
  | LLoop d =>
    match r_phase r with
    | Top =>
      if r_term r then Some (at_phase (Done 0) r)
      else match r_chans r, r_timers r with
           | O, [] => Some (at_phase (Done 0) r)
           | _, _ => if 0 <=? d then Some (at_phase (Poll (Z.max (tickless (r_now r) (r_timers r)) (r_now r + d))) (tick d r)) else None
           end
    | _ => None
    end
  | LTimeout =>
    match r_phase r with
    | Poll deadline => if deadline <=? r_now r then Some (emit (EPass (r_now r)) (at_phase (Pass (r_now r) (map fst (r_timers r))) r)) else None
    | _ => None
    end
  | LEvent => match r_phase r, r_chans r with Poll _, S _ => Some (at_phase Chans r) | _, _ => None end
  | LCalled => match r_phase r with Chans => Some (emit (EPass (r_now r)) (at_phase (Pass (r_now r) (map fst (r_timers r))) r)) | _ => None end
  | LInterrupt => match r_phase r with Poll _ => Some (at_phase (Done (-1)) (terminate r)) | _ => None end
  | LVisit act =>
    match r_phase r with
    | Pass start (id :: rest) =>
      match tm_get (r_timers r) id with
      | None => None
      | Some t =>
        if t_when t <=? r_now r then                                   (* has_fired, lines 80-83 *)
          let r1 := emit (EFire id (r_now r)) r in
          match act with
          | ATimers => Some (at_phase Dead r1)
          | _ =>                                                       (* do_callback, lines 57-73 *)
            let r2 := match act with AStop => terminate r1 | _ => r1 end in
            let times' := if 0 <? t_times t then t_times t - 1 else t_times t in
            let l := if (0 <? t_times t) && (times' =? 0) then tm_del (r_timers r) id
                     else tm_set (r_timers r) id (Timer (t_delay t) times' (i64 (t_when t + t_delay t))) in
            Some (at_phase (Pass start rest) (with_timers l r2))
          end
        else Some (at_phase (Pass start rest) r)
      end
    | _ => None
    end
  | LUnlock => match r_phase r with Pass _ [] => Some (at_phase Top r) | _ => None end
  | LElsewhere => if r_next r <? 2 ^ 31 - 1 then Some (Reactor (r_now r) (r_next r + 1) (r_timers r) (r_chans r) (r_term r) (r_phase r) (r_log r)) else None
  end.

Inductive rrun (now : Z) : list label -> reactor -> Prop :=
| rr_init : rrun now [] (reactor_init now)
| rr_step ls r a r' : rrun now ls r -> rstep a r = Some r' -> rrun now (ls ++ [a]) r'.
