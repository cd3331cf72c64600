(** The base class of plugins: connections, pushing frames, messages (frameProcessor/src/FrameProcessorPlugin.cpp). *)
From Verif Require Import Base StrOrder.

(** blocking_callbacks_ and callbacks_ (FrameProcessorPlugin.h:80-83).  [A]: the objects frames are handed to.
    The confirmation of a registration (IFrameCallback.cpp:88-104) writes a map nobody reads; it is left out. *)
Record conns (A : Type) := Conns { c_block : smap A; c_queue : smap A }.
Arguments Conns {A}. Arguments c_block {A}. Arguments c_queue {A}.
Definition no_conns {A} : conns A := Conns [] [].

(** FrameProcessorPlugin.cpp:268-299 *)
Definition register {A} (name : string) (cb : A) (blocking : bool) (p : conns A) : conns A :=
  if blocking then
    match sm_get (c_queue p) name, sm_get (c_block p) name with
    | Some _, _ => p
    | None, None => Conns (sm_put (c_block p) name cb) (c_queue p)
    | None, Some _ => p
    end
  else
    match sm_get (c_block p) name, sm_get (c_queue p) name with
    | Some _, _ => p
    | None, None => Conns (c_block p) (sm_put (c_queue p) name cb)
    | None, Some _ => p
    end.

(** FrameProcessorPlugin.cpp:306-325 *)
Definition remove {A} (name : string) (p : conns A) : conns A :=
  match sm_get (c_queue p) name, sm_get (c_block p) name with
  | Some _, _ => Conns (c_block p) (sm_del (c_queue p) name)
  | None, Some _ => Conns (sm_del (c_block p) name) (c_queue p)
  | None, None => p
  end.

(** FrameProcessorPlugin.cpp:330-347 *)
Definition remove_all {A} (p : conns A) : conns A := no_conns.

(** What a push does to the outside: call a plugin, or put the frame on its queue. *)
Inductive delivery (A : Type) := Called (name : string) (cb : A) | Queued (name : string) (cb : A).
Arguments Called {A}. Arguments Queued {A}.

(** FrameProcessorPlugin.cpp:400-402.  [call cb]: does the called plugin return (true) or throw (false)?  An exception
    ends the loop. *)
Fixpoint call_all {A} (call : A -> bool) (m : smap A) : list (delivery A) * bool :=
  match m with
  | [] => ([], true)
  | (n, cb) :: t => if call cb then let '(d, r) := call_all call t in (Called n cb :: d, r) else ([Called n cb], false)
  end.

(** FrameProcessorPlugin.cpp:393-408; [ok]: the frame is an end of acquisition or valid; the result false: it throws. *)
Definition push {A} (call : A -> bool) (ok : bool) (p : conns A) : list (delivery A) * bool :=
  if ok then
    let '(d, r) := call_all call (c_block p) in
    if r then (d ++ map (fun e => Queued (fst e) (snd e)) (c_queue p), true) else (d, false)
  else ([], false).

(** FrameProcessorPlugin.cpp:418-429 *)
Definition push_to {A} (call : A -> bool) (ok : bool) (name : string) (p : conns A) : list (delivery A) * bool :=
  if ok then
    let q := match sm_get (c_queue p) name with Some cb => [Queued name cb] | None => [] end in
    match sm_get (c_block p) name with
    | Some cb => if call cb then (Called name cb :: q, true) else ([Called name cb], false)
    | None => (q, true)
    end
  else ([], false).

(** ** Messages: error_messages_ and warning_messages_ *)
Record msgs := Msgs { e_list : list string; w_list : list string }.
(** FrameProcessorPlugin.cpp:68-77 *)
Definition add_once (m : string) (l : list string) : list string := if existsb (String.eqb m) l then l else l ++ [m].
(** FrameProcessorPlugin.cpp:62-79, 87-104, 108-114 *)
Definition set_error (m : string) (s : msgs) : msgs := Msgs (add_once m (e_list s)) (w_list s).
Definition set_warning (m : string) (s : msgs) : msgs := Msgs (e_list s) (add_once m (w_list s)).
Definition clear_errors (s : msgs) : msgs := Msgs [] [].

(** ** Timing statistics: CallDuration.h:25-29.  The members are not initialised when the object is made. *)
Record dur := Dur { d_last : N; d_max : N; d_mean : N }.
(** CallDuration.cpp:17-27 with the conversion of FrameProcessorPlugin.cpp:372-374 from uint64_t to unsigned int.  The sum of
    two unsigned ints and its half are exact in a double; the assignment truncates. *)
Definition dur_update (ts : N) (d : dur) : dur :=
  let t := (ts mod 2 ^ 32)%N in
  Dur t (if (d_max d <? t)%N then t else d_max d) (if (d_mean d =? 0)%N then t else ((d_mean d + t) / 2)%N).
(** CallDuration.cpp:32-36 *)
Definition dur_reset (d : dur) : dur := Dur 0 0 0.
