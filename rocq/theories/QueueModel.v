(** The work queue between plugins (frameProcessor/include/WorkQueue.h), used by any number of threads. *)
From Verif Require Import Base.

(** WorkQueue.h:18 *)
Definition max_queue_size : nat := 8.

(** Where a thread is.  Between lock and unlock (or the wait, which unlocks) only the thread that has the mutex can act on
    the queue, so the code between two such points is one step. *)
Inductive th (T : Type) :=
| Out                            (* not in a call *)
| InAdd (x : T) (ignore : bool)  (* add called, mutex not yet taken (line 68) *)
| SleepAdd (x : T)               (* in pthread_cond_wait, line 71 *)
| WokeAdd (x : T)                (* woken there, mutex not yet taken back *)
| InRem                          (* remove called, line 89 *)
| SleepRem                       (* in pthread_cond_wait, line 91 *)
| WokeRem.
Arguments Out {T}. Arguments InAdd {T}. Arguments SleepAdd {T}. Arguments WokeAdd {T}. Arguments InRem {T}.
Arguments SleepRem {T}. Arguments WokeRem {T}.

(** m_queue, and the threads by number. *)
Record wq (T : Type) := Wq { q_items : list T; q_th : nat -> th T }.
Arguments Wq {T}. Arguments q_items {T}. Arguments q_th {T}.

Definition set_th {A} (m : nat -> A) (t : nat) (x : A) : nat -> A := fun u => if Nat.eqb u t then x else m u.

Definition asleep {T} (x : th T) : bool := match x with SleepAdd _ | SleepRem => true | _ => false end.
Definition woken {T} (x : th T) : th T := match x with SleepAdd y => WokeAdd y | SleepRem => WokeRem | y => y end.

(** pthread_cond_signal: if threads sleep on the condition variable, at least one of them, and it is not said which, is
    woken; otherwise nothing happens. *)
Definition signal {T} (m m' : nat -> th T) : Prop :=
  (forall t, m' t = m t \/ m' t = woken (m t)) /\
  ((exists t, asleep (m t) = true) -> exists t, asleep (m t) = true /\ m' t = woken (m t)).

(** What is seen of a step. *)
Inductive lab (T : Type) :=
| CallAdd (t : nat) (x : T) (ignore : bool) | CallRem (t : nat)
| Added (t : nat) (x : T) | Removed (t : nat) (x : T)
| Slept (t : nat) | Spurious (t : nat).
Arguments CallAdd {T}. Arguments CallRem {T}. Arguments Added {T}. Arguments Removed {T}. Arguments Slept {T}. Arguments Spurious {T}.

Inductive qstep {T} : lab T -> wq T -> wq T -> Prop :=
| q_call_add t x ig q m : m t = Out -> qstep (CallAdd t x ig) (Wq q m) (Wq q (set_th m t (InAdd x ig)))
| q_call_rem t q m : m t = Out -> qstep (CallRem t) (Wq q m) (Wq q (set_th m t InRem))
(* lines 69-76 *)
| q_add t x ig q m m' :
    m t = InAdd x ig \/ (m t = WokeAdd x /\ ig = false) ->
    (ig = true \/ List.length q < max_queue_size) ->
    signal (set_th m t Out) m' -> qstep (Added t x) (Wq q m) (Wq (q ++ [x]) m')
(* lines 70-72 *)
| q_add_wait t x q m : m t = InAdd x false \/ m t = WokeAdd x -> max_queue_size <= List.length q ->
    qstep (Slept t) (Wq q m) (Wq q (set_th m t (SleepAdd x)))
(* lines 93-97 *)
| q_rem t x q m m' : m t = InRem \/ m t = WokeRem -> signal (set_th m t Out) m' -> qstep (Removed t x) (Wq (x :: q) m) (Wq q m')
(* lines 90-92 *)
| q_rem_wait t m : m t = InRem \/ m t = WokeRem -> qstep (Slept t) (Wq [] m) (Wq [] (set_th m t SleepRem))
(* pthread_cond_wait may return without a signal *)
| q_spurious t q m : asleep (m t) = true -> qstep (Spurious t) (Wq q m) (Wq q (set_th m t (woken (m t)))).

Inductive qrun {T} : wq T -> list (lab T) -> wq T -> Prop :=
| qr_nil s : qrun s [] s
| qr_snoc s l s1 a s2 : qrun s l s1 -> qstep a s1 s2 -> qrun s (l ++ [a]) s2.

(** WorkQueue.h:43-47 *)
Definition wq_init {T} : wq T := Wq [] (fun _ => Out).
