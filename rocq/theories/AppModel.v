(** The frame processor's main program: configuration at the start.  frameProcessor/src/FrameProcessorApp.cpp.  The command line (boost::program_options) and logging are not modelled. *)
From Coq Require Import String Ascii.
From Verif Require Import Base StrOrder JsonModel JsonReadModel JsonDoubleModel PrcModel.
Local Open Scope string_scope.
Local Open Scope list_scope.
Local Open Scope Z_scope.

(** What becomes of a program: it serves requests (run() of the controller), it ends with a return code, it is terminated (undefined behaviour, no stack left). *)
Inductive life := Runs | Ends (code : Z) | Dies.

(** common/include/stringparse.h:21-35 (extract_line_no): the index of a line end from [i] on, if any *)
Definition newline : ascii := "010".
Fixpoint find_newline (i : Z) (l : list ascii) : option Z := match l with [] => None | c :: r => if Ascii.eqb c newline then Some i else find_newline (i + 1) r end.
(** find from the position [p] on; [l] is not longer than 2^31 - 16. *)
Definition newline_from (p : Z) (l : list ascii) : option Z := find_newline p (skipn (Z.to_nat p) l).
Fixpoint count_lines (n : nat) (no : Z) (pos : option Z) (position : Z) (l : list ascii) : Z :=
  match n, pos with S k, Some i => if i <? position then count_lines k (no + 1) (newline_from (i + 1) l) position l else no | _, _ => no end.
Definition extract_line_no (l : list ascii) (position : Z) : Z := count_lines (S (List.length l)) 1 (newline_from 0 l) position l.
(** stringparse.h:8-16 (extract_substr_at_pos): find_last_of looks at the position too; npos becomes -1 as an int.  substr throws std::out_of_range; its arguments are unsigned.  erase_all with an empty text does nothing. *)
Fixpoint last_newline (i : Z) (l : list ascii) (found : option Z) : option Z := match l with [] => found | c :: r => last_newline (i + 1) r (if Ascii.eqb c newline then Some i else found) end.
Definition extract_substr_at_pos (l : list ascii) (position limit : Z) : outcome unit (list ascii) :=
  let int o := match o with Some i => i | None => -1 end in
  let following := Z.min (position + limit) (int (newline_from position l)) in
  let preceding := Z.min (position - limit) (int (last_newline 0 (firstn (Z.to_nat (position + 1)) l) None)) in
  let start := (preceding + 1) mod 2 ^ 64 in
  let count := (following - preceding - 1) mod 2 ^ 64 in
  if Z.of_nat (List.length l) <? start then Throw tt else Ret (firstn (Z.to_nat count) (skipn (Z.to_nat start) l)).

Section Processor.
  Context {P : Type}.
  Variable v : env P.
  (** configure_controller, lines 266-274.  The log message encodes the message. *)
  Definition configure_controller (n : nat) (m : msg) : M P unit := fun s =>
    match configure v n m (w_reply (new_msg TIllegal VIllegal true (v_now v)) s) with
    | (s1, Throw (PFault (XRun _))) => (d <- lift (encode (v_clock v) m) ;; ret tt) s1
    | r => r
    end.
  (** Lines 200-238: the text of the file; a file that cannot be read gives no text.  OdinDataException is [XOther]; the text of the error is left out.  In line 237 it is the
      message of line 223 that is submitted, not the one made in lines 234-236. *)
  Definition load_file (n : nat) (text : list ascii) : M P unit :=
    match text with
    | [] => raise XOther
    | _ =>
      match parse text with
      | None => raise XOther
      | Some (JArr l) => each l (fun x => configure_controller n (msg_of_value x TCmd VConfigure true (v_now v)))
      | Some _ => configure_controller n (new_msg TIllegal VIllegal true (v_now v))
      end
    end.
  (** run, lines 180-257, up to controller_->run().  [ctrl]: the option ctrl; [file]: the text of the file of the option config, if there is one.  Exceptions of plugins are taken as derived from std::exception. *)
  Definition processor_start (n : nat) (ctrl : string) (file : option (list ascii)) : M P unit := fun s =>
    let '(m, o) := set_param (new_msg TIllegal VIllegal true (v_now v)) "ctrl_endpoint" (XStr ctrl) in
    (lift o ;; configure v n m ;; match file with Some t => load_file n t | None => ret tt end) (w_reply (new_msg TIllegal VIllegal true (v_now v)) s).
  Definition processor_run (n : nat) (ctrl : string) (file : option (list ascii)) (s : prc P) : prc P * life :=
    match processor_start n ctrl file s with
    | (s1, Ret _) => (s1, Runs)
    | (s1, Throw (PFault _)) => (s1, Ends 1)
    | (s1, _) => (s1, Dies)
    end.
End Processor.
