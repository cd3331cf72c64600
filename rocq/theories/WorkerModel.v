(** The worker thread of a plugin (frameProcessor/src/IFrameCallback.cpp). *)
From Verif Require Import Base QueueModel.

(** Where a worker thread is in workerTask (lines 114-128). *)
Inductive wpos (F : Type) :=
| WTest             (* line 121: about to test working_ *)
| WRemove           (* line 122: in queue_->remove() *)
| WCall (f : F)     (* line 125: in callback(f) *)
| WDone.            (* the loop has ended *)
Arguments WTest {F}. Arguments WRemove {F}. Arguments WCall {F}. Arguments WDone {F}.

(** working_, the items of queue_ ([None]: the null pointer), the threads started so far in order, and the calls of stop()
    that have reset working_ but not yet added the null pointer.  Adding and removing are single steps here: that the queue is
    first in, first out for any number of threads is C21.  A producer that waits because the queue is full is one whose step
    cannot happen yet. *)
Record worker (F : Type) := Worker { w_working : bool; w_items : list (option F); w_threads : list (wpos F); w_stops : nat }.
Arguments Worker {F}. Arguments w_working {F}. Arguments w_items {F}. Arguments w_threads {F}. Arguments w_stops {F}.

(** IFrameCallback.cpp:18-24 *)
Definition worker_init {F} : worker F := Worker false [] [] 0.

(** What is seen of a step. *)
Inductive wlab (F : Type) :=
| Queue (f : F)                 (* a frame is added to the queue *)
| Take (i : nat) (f : F)        (* thread i takes it, callback is called *)
| Finish (i : nat) (f : F)      (* callback returns *)
| Start | Stop                  (* start() or stop() changes working_ *)
| Tau (i : nat)                 (* another step of thread i *)
| Null.                         (* stop() adds the null pointer *)
Arguments Queue {F}. Arguments Take {F}. Arguments Finish {F}. Arguments Start {F}. Arguments Stop {F}. Arguments Tau {F}. Arguments Null {F}.

Fixpoint set_nth {A} (i : nat) (x : A) (l : list A) : list A :=
  match l, i with [], _ => [] | _ :: t, O => x :: t | y :: t, S j => y :: set_nth j x t end.

(** A callback that throws ends the program (boost::thread calls std::terminate); such runs end there. *)
Inductive wstep {F} : wlab F -> worker F -> worker F -> Prop :=
(* WorkQueue.h:65-77, called by push of another plugin, or by the shared memory controller ([ig]: no limit) *)
| w_queue f ig b q ts n : ig = true \/ length q < max_queue_size -> wstep (Queue f) (Worker b q ts n) (Worker b (q ++ [Some f]) ts n)
(* lines 49-54 *)
| w_start q ts n : wstep Start (Worker false q ts n) (Worker true q (ts ++ [WTest]) n)
(* lines 65-67 *)
| w_stop q ts n : wstep Stop (Worker true q ts n) (Worker false q ts (S n))
(* lines 69-70, with the limit *)
| w_null b q ts n : length q < max_queue_size -> wstep Null (Worker b q ts (S n)) (Worker b (q ++ [None]) ts n)
(* line 121 *)
| w_enter i q ts n : nth_error ts i = Some WTest -> wstep (Tau i) (Worker true q ts n) (Worker true q (set_nth i WRemove ts) n)
| w_exit i q ts n : nth_error ts i = Some WTest -> wstep (Tau i) (Worker false q ts n) (Worker false q (set_nth i WDone ts) n)
(* lines 122-123 *)
| w_take i f b q ts n : nth_error ts i = Some WRemove ->
    wstep (Take i f) (Worker b (Some f :: q) ts n) (Worker b q (set_nth i (WCall f) ts) n)
| w_skip i b q ts n : nth_error ts i = Some WRemove ->
    wstep (Tau i) (Worker b (None :: q) ts n) (Worker b q (set_nth i WTest ts) n)
(* lines 125-127 *)
| w_return i f b q ts n : nth_error ts i = Some (WCall f) ->
    wstep (Finish i f) (Worker b q ts n) (Worker b q (set_nth i WTest ts) n).

(** Executions, oldest step first. *)
Inductive wrun {F} : list (wlab F) -> worker F -> Prop :=
| wr_init : wrun [] worker_init
| wr_step tr s a s' : wrun tr s -> wstep a s s' -> wrun (tr ++ [a]) s'.
