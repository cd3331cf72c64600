(** The reactor's channels and sockets.  common/src/IpcReactor.cpp (constructor, register_channel, remove_channel, register_socket,
    remove_socket, run, stop, rebuild_pollitems), common/include/IpcReactor.h.

    Timers are C32: here only how many there are.  All calls come from the reactor's own thread, that is before run or from callbacks;
    channels_ and sockets_ have no lock.  Not modelled: the memory behind a channel that is destroyed while it is registered, errors
    flagged on single items (line 281: not looked at), negative results of zmq::poll (the C++ binding throws instead). *)
From Verif Require Import Base.
Local Open Scope Z_scope.

(** What is polled: a channel, by the address of its socket; a file descriptor. *)
Inductive item := Chan (p : Z) | Sock (fd : Z).
(** std::map with keys in order: insertion or change, removal *)
Fixpoint put (k : Z) (v : nat) (m : list (Z * nat)) : list (Z * nat) :=
  match m with
  | [] => [(k, v)]
  | (k', v') :: r => if k <? k' then (k, v) :: m else if k =? k' then (k, v) :: r else (k', v') :: put k v r
  end.
Definition del (k : Z) (m : list (Z * nat)) : list (Z * nat) := filter (fun x => negb (fst x =? k)) m.
(** channels_, sockets_ (callbacks are numbers), needs_rebuild_, pollitems_ with callbacks_ and pollsize_, terminate_reactor_, the number
    of timers; and rc of run, line 249 *)
Record reactor := Reactor { r_chans : list (Z * nat); r_socks : list (Z * nat); r_rebuild : bool; r_items : list (item * nat); r_stop : bool; r_timers : nat; r_rc : Z }.
(** Lines 134-141 *)
Definition reactor_init : reactor := Reactor [] [] true [] false 0 0.
(** What a callback may do: lines 161-168, 177-184, 186-191, 193-198, 345-348; [Timers]: there are so many timers now. *)
Inductive op := RegChan (p : Z) (cb : nat) | RemChan (p : Z) | RegSock (fd : Z) (cb : nat) | RemSock (fd : Z) | Stop | Timers (n : nat).
Definition do_op (o : op) (r : reactor) : reactor :=
  match r, o with
  | Reactor c s b i t n rc, RegChan p cb => Reactor (put p cb c) s true i t n rc
  | Reactor c s b i t n rc, RemChan p => Reactor (del p c) s true i t n rc
  | Reactor c s b i t n rc, RegSock fd cb => Reactor c (put fd cb s) true i t n rc
  | Reactor c s b i t n rc, RemSock fd => Reactor c (del fd s) true i t n rc
  | Reactor c s b i t n rc, Stop => Reactor c s b i true n rc
  | Reactor c s b i t n rc, Timers m => Reactor c s b i t m rc
  end.
Definition do_ops (l : list op) (r : reactor) : reactor := fold_left (fun r o => do_op o r) l r.
(** rebuild_pollitems, lines 356-403; needs_rebuild_ stays as it is. *)
Definition rebuild (r : reactor) : reactor :=
  Reactor (r_chans r) (r_socks r) (r_rebuild r) (map (fun x => (Chan (fst x), snd x)) (r_chans r) ++ map (fun x => (Sock (fst x), snd x)) (r_socks r)) (r_stop r) (r_timers r) (r_rc r).
(** zmq::poll: some items are ready, time is up, a signal came, another error *)
Inductive polled := Ready (f : item -> bool) | Nothing | Signal | Error.
(** How a callback ends: returns, throws zmq::error_t with EINTR or with another number, throws something else *)
Inductive ending := Fine | Intr | Zmq | Other.
(** Once around the loop: what poll gives, what each callback does, what the timers do and how the last of them ends *)
Record world := World { w_poll : polled; w_acts : item -> nat -> list op * ending; w_after : list op * ending }.
Inductive status := Going | Ended (rc : Z) | Thrown.
(** Lines 276-287 *)
Fixpoint calls (f : item -> bool) (acts : item -> nat -> list op * ending) (l : list (item * nat)) (r : reactor) : reactor * list (item * nat) * ending :=
  match l with
  | [] => (r, [], Fine)
  | (i, cb) :: t =>
    if f i then
      let r1 := do_ops (fst (acts i cb)) r in
      match snd (acts i cb) with Fine => let '(r2, c, e) := calls f acts t r1 in (r2, (i, cb) :: c, e) | e => (r1, [(i, cb)], e) end
    else calls f acts t r
  end.
(** Lines 321-335 *)
Definition caught (e : ending) (r : reactor) : reactor * status :=
  match e with
  | Fine => (r, Going)
  | Intr => (Reactor (r_chans r) (r_socks r) (r_rebuild r) (r_items r) true (r_timers r) (-1), Going)
  | Zmq | Other => (r, Thrown)
  end.
(** Lines 253-336: the loop once, with its condition.  Locks left out (C32). *)
Definition turn (w : world) (r : reactor) : reactor * list (item * nat) * status :=
  if r_stop r then (r, [], Ended (r_rc r))
  else
    let r := if r_rebuild r then rebuild r else r in
    if (Nat.eqb (length (r_items r)) 0 && Nat.eqb (r_timers r) 0)%bool then (r, [], Ended 0)
    else
      let '(r1, c, e) := match w_poll w with
                         | Ready f => calls f (w_acts w) (r_items r) r
                         | Nothing => (r, [], Fine)
                         | Signal => (r, [], Intr)
                         | Error => (r, [], Zmq)
                         end in
      match e with
      | Fine => let '(r2, s) := caught (snd (w_after w)) (do_ops (fst (w_after w)) r1) in (r2, c, s)
      | _ => let '(r2, s) := caught e r1 in (r2, c, s)
      end.
(** run: the callbacks called each time *)
Fixpoint run (l : list world) (r : reactor) : reactor * list (list (item * nat)) * status :=
  match l with
  | [] => (r, [], Going)
  | w :: t => match turn w r with (r1, c, Going) => let '(r2, cs, s) := run t r1 in (r2, c :: cs, s) | (r1, c, s) => (r1, [c], s) end
  end.
