(** The frame receiver's main program: configuration at the start.  frameReceiver/src/FrameReceiverApp.cpp.  The command line (boost::program_options), signals and logging are not modelled. *)
From Coq Require Import String Ascii.
From Verif Require Import Base StrOrder JsonModel JsonReadModel JsonDoubleModel RcvModel AppModel.
Local Open Scope string_scope.
Local Open Scope list_scope.
Local Open Scope Z_scope.

(** Exceptions of run: those of the controller, OdinDataException with the text left out *)
Inductive aexc := AController (e : rexc) | AFile.
Definition result (x : rc * outcome rexc unit) : rc * outcome aexc unit := (fst x, match snd x with Ret a => Ret a | Throw e => Throw (AController e) | Undef => Undef end).

(** Lines 246-264: the messages of the file are submitted one after the other.  config_reply is the same object for all of them; nobody looks at it.  [v i]: the outside during call [i] of configure *)
Fixpoint submit (v : nat -> env) (i : nat) (l : list json) (s : rc) : rc * outcome aexc unit :=
  match l with
  | [] => (s, Ret tt)
  | x :: r => match result (configure (v i) (msg_of_value x TCmd VConfigure true (v_now (v i))) s) with (s1, Ret _) => submit v (S i) r s1 | e => e end
  end.
(** Lines 222-243: the text of the file; a file that cannot be read gives no text. *)
Definition load_file (v : nat -> env) (text : list ascii) (s : rc) : rc * outcome aexc unit :=
  match text with
  | [] => (s, Throw AFile)
  | _ => match JsonReadModel.parse text with None => (s, Throw AFile) | Some (JArr l) => submit v 1 l s | Some x => submit v 1 [x] s end
  end.
(** run, lines 202-289, up to controller_->run().  [ctrl]: the option ctrl; [file]: the text of the file of the option config, if there is one *)
Definition receiver_start (v : nat -> env) (ctrl : string) (file : option (list ascii)) (s : rc) : rc * outcome aexc unit :=
  let '(m, o) := set_param (new_msg TIllegal VIllegal true (v_now (v O))) "ctrl_endpoint" (XStr ctrl) in
  let '(m', o') := set_param m "rx_endpoint" (XStr "inproc://rx_channel") in
  match result ((lift o ;; lift o' ;; configure (v O) m') (w_c_reply (new_msg TIllegal VIllegal true (v_now (v O))) s)) with
  | (s1, Ret _) => match file with Some t => load_file v t s1 | None => (s1, Ret tt) end
  | e => e
  end.
Definition receiver_run (v : nat -> env) (ctrl : string) (file : option (list ascii)) (s : rc) : rc * life :=
  match receiver_start v ctrl file s with (s1, Ret _) => (s1, Runs) | (s1, Throw _) => (s1, Ends 1) | (s1, Undef) => (s1, Dies) end.
