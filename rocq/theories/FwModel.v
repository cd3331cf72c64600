(** The file writer plugin around the acquisition (frameProcessor/src/FileWriterPlugin.cpp). *)
From Verif Require Import Base PlaceModel NameModel AcqModel.
Local Open Scope N_scope.

(** ** State *)

(** next_acquisition_: an Acquisition that has not been started (constructor Acquisition.cpp:40-61); only these members
    are set before it starts (FileWriterPlugin.cpp:303-325, 552, 573). *)
Record prep := Prep { p_path : string; p_file : string; p_id : string; p_total : N; p_towrite : N }.
Definition no_prep : prep := Prep "" "" "" 0 0.

(** What leaves the plugin: meta messages, each with the acquisition id of its header (Acquisition.cpp:615-642),
    frames pushed to the next plugins, error messages. *)
Inductive fwerr := ErrUnexpectedId | ErrInvalid | ErrTimeout | ErrConfig.
Inductive out := Meta (id : string) (e : ev) | Push (f : frame) | PushEoa | Err (k : fwerr).

(** Member variables of FileWriterPlugin.h.  [w_log]: the meta messages of the current acquisition object (ghost).
    HDF5 version, alignment and error durations are left out. *)
Record fw := FW {
  w_writing : bool; w_geom : geom;
  w_postfix : string; w_ext : string; w_numbers : bool; w_start : N; w_master : string;
  w_defs : list dsdef; w_cur : acq; w_next : prep; w_active : bool; w_period : N;
  w_disk : disk; w_log : list ev; w_out : list out }.

(** The current acquisition before anything was started (Acquisition.cpp:40-61). *)
Definition no_acq : acq :=
  configured (Geom 1 0 1 0) (Naming "" "" "" "" true 0) "" "" 0 0 [].

(** FileWriterPlugin.cpp:78-104 (constructor).  timeout_active_ is not initialised by the code: [act] is its value. *)
Definition fw_init (act : bool) (dk : disk) : fw :=
  FW false (Geom 1 0 1 0) "" "h5" true 0 "" [] no_acq no_prep act 0 dk [] [].

Inductive fexn := FMsg | FRuntime | FHdf5 (e : exn).

Definition FM (A : Type) := fw -> fw * outcome fexn A.
Definition fret {A} (a : A) : FM A := fun w => (w, Ret a).
Definition fthrow {A} (e : fexn) : FM A := fun w => (w, Throw e).
Definition fundef {A} : FM A := fun w => (w, Undef).
Definition fbind {A B} (m : FM A) (k : A -> FM B) : FM B :=
  fun w => match m w with
           | (w', Ret a) => k a w'
           | (w', Throw e) => (w', Throw e)
           | (w', Undef) => (w', Undef)
           end.
Definition fget : FM fw := fun w => (w, Ret w).
Definition fput (g : fw -> fw) : FM unit := fun w => (g w, Ret tt).

Declare Scope fw_scope.
Notation "x <- m ;; k" := (fbind m (fun x => k)) (at level 61, m at next level, right associativity) : fw_scope.
Notation "m ;;; k" := (fbind m (fun _ => k)) (at level 61, right associativity) : fw_scope.
Local Open Scope fw_scope.

(** Assignments to member variables. *)
Definition set_writing b w := FW b (w_geom w) (w_postfix w) (w_ext w) (w_numbers w) (w_start w) (w_master w)
  (w_defs w) (w_cur w) (w_next w) (w_active w) (w_period w) (w_disk w) (w_log w) (w_out w).
Definition set_geom g w := FW (w_writing w) g (w_postfix w) (w_ext w) (w_numbers w) (w_start w) (w_master w)
  (w_defs w) (w_cur w) (w_next w) (w_active w) (w_period w) (w_disk w) (w_log w) (w_out w).
Definition set_names po e n s w := FW (w_writing w) (w_geom w) po e n s (w_master w)
  (w_defs w) (w_cur w) (w_next w) (w_active w) (w_period w) (w_disk w) (w_log w) (w_out w).
Definition set_master m w := FW (w_writing w) (w_geom w) (w_postfix w) (w_ext w) (w_numbers w) (w_start w) m
  (w_defs w) (w_cur w) (w_next w) (w_active w) (w_period w) (w_disk w) (w_log w) (w_out w).
Definition set_defs d w := FW (w_writing w) (w_geom w) (w_postfix w) (w_ext w) (w_numbers w) (w_start w) (w_master w)
  d (w_cur w) (w_next w) (w_active w) (w_period w) (w_disk w) (w_log w) (w_out w).
Definition set_acq a dk lg w := FW (w_writing w) (w_geom w) (w_postfix w) (w_ext w) (w_numbers w) (w_start w) (w_master w)
  (w_defs w) a (w_next w) (w_active w) (w_period w) dk lg (w_out w).
Definition set_next p w := FW (w_writing w) (w_geom w) (w_postfix w) (w_ext w) (w_numbers w) (w_start w) (w_master w)
  (w_defs w) (w_cur w) p (w_active w) (w_period w) (w_disk w) (w_log w) (w_out w).
Definition set_active b w := FW (w_writing w) (w_geom w) (w_postfix w) (w_ext w) (w_numbers w) (w_start w) (w_master w)
  (w_defs w) (w_cur w) (w_next w) b (w_period w) (w_disk w) (w_log w) (w_out w).
Definition set_period n w := FW (w_writing w) (w_geom w) (w_postfix w) (w_ext w) (w_numbers w) (w_start w) (w_master w)
  (w_defs w) (w_cur w) (w_next w) (w_active w) n (w_disk w) (w_log w) (w_out w).
Definition say o w := FW (w_writing w) (w_geom w) (w_postfix w) (w_ext w) (w_numbers w) (w_start w) (w_master w)
  (w_defs w) (w_cur w) (w_next w) (w_active w) (w_period w) (w_disk w) (w_log w) (w_out w ++ o).

(** acquisition_id_ of an acquisition. *)
Definition id_of (a : acq) : string := n_acqid (a_naming a).

(** A call of a method of the current acquisition; the meta messages it publishes leave the plugin. *)
Definition on_cur {A} (m : M A) : FM A := fun w =>
  let '(s, r) := m (St (w_cur w) (w_disk w) (w_log w)) in
  (say (map (Meta (id_of (w_cur w))) (skipn (List.length (w_log w)) (s_log s)))
       (set_acq (s_acq s) (s_disk s) (s_log s) w),
   match r with Ret a => Ret a | Throw e => Throw (FHdf5 e) | Undef => Undef end).

Definition flift {A} (o : outcome Empty_set A) : FM A :=
  match o with Ret a => fret a | Throw e => match e with end | Undef => fundef end.

(** ** Starting and stopping *)

(** FileWriterPlugin.cpp:192-224 (start_writing), with the settings stored by Acquisition.cpp:359-379. *)
Definition start_writing (i : io) : FM unit :=
  w <- fget ;;
  if w_writing w then fret tt
  else
    n <- flift (calc_num_frames (w_geom w) (p_total (w_next w))) ;;
    let p := w_next w in
    let nm := Naming (p_file p) (p_id p) (w_postfix w) (sanitise_ext (w_ext w)) (w_numbers w) (w_start w) in
    fput (set_acq (configured (w_geom w) nm (p_path p) (w_master w) (p_total p) n (w_defs w)) (w_disk w) []) ;;;
    fput (set_next no_prep) ;;;
    b <- on_cur (start_acquisition i) ;;
    fput (set_writing b).

(** FileWriterPlugin.cpp:231-237 (stop_writing). *)
Definition stop_writing : FM unit :=
  w <- fget ;;
  if w_writing w then fput (set_writing false) ;;; on_cur stop_acquisition else fret tt.

(** FileWriterPlugin.cpp:851-872: are the prepared and the current acquisition the same output? *)
Definition same_output (c : acq) (p : prep) : bool :=
  negb (String.eqb (p_path p) "") && String.eqb (p_path p) (a_path c) &&
  ((negb (String.eqb (p_file p) "") && String.eqb (p_file p) (n_filename (a_naming c))) ||
   (negb (String.eqb (p_id p) "") && String.eqb (p_id p) (id_of c))).

(** FileWriterPlugin.cpp:851-890 (stop_acquisition). *)
Definition stop_acq (i : io) : FM unit :=
  w <- fget ;;
  let restart := negb (w_writing w && same_output (w_cur w) (w_next w)) in
  stop_writing ;;;
  (if restart && (negb (String.eqb (p_file (w_next w)) "") || negb (String.eqb (p_id (w_next w)) "")) then
     if (0 <? p_total (w_next w)) && (p_towrite (w_next w) =? 0) then fput (set_next no_prep)
     else start_writing i
   else fret tt) ;;;
  fput (set_active false).

(** ** Frames *)

(** FileWriterPlugin.cpp:810-845 (frame_in_acquisition). *)
Definition frame_in_acq (i : io) (f : frame) : FM bool :=
  w <- fget ;;
  if String.eqb (f_acq f) "" then fret true
  else if w_writing w && String.eqb (f_acq f) (id_of (w_cur w)) then fret true
  else if String.eqb (f_acq f) (p_id (w_next w)) then stop_writing ;;; start_writing i ;;; fret true
  else (if w_writing w then fput (say [Err ErrUnexpectedId]) else fret tt) ;;; fret false.

(** Acquisition::process_frame on the current acquisition. *)
Definition cur_process (i : io) (f : frame) : FM status :=
  on_cur (fun s => match process_frame i f s with (s', Some r) => (s', Ret r) | (s', None) => (s', Undef) end).

(** FileWriterPlugin.cpp:139-171 (process_frame).  [i0], [i], [i1]: the HDF5 failures while starting the named
    acquisition, processing the frame, and starting the next acquisition.  Frames are valid in the sense of
    Frame::is_valid (else push throws).  The start of the close timeout (lines 153-156) only wakes another thread and is
    modelled in TimeoutModel. *)
Definition fw_process_frame (i0 i i1 : io) (f : frame) : FM unit :=
  b <- frame_in_acq i0 f ;;
  if negb b then fret tt
  else
    w <- fget ;;
    if negb (w_writing w) then fret tt
    else
      r <- cur_process i f ;;
      match r with
      | SComplete => stop_acq i1
      | SInvalid => fput (say [Err ErrInvalid])
      | SOk | SMissing => fret tt
      end ;;;
      fput (say [Push f]).

(** FileWriterPlugin.cpp:178-184 and FrameProcessorPlugin.cpp:362-366: an end-of-acquisition frame. *)
Definition fw_eoa (i : io) : FM unit :=
  w <- fget ;;
  (if w_writing w then stop_acq i else fret tt) ;;;
  fput (say [PushEoa]).

(** FileWriterPlugin.cpp:926-934: the timer has run out. *)
Definition fw_timeout (i : io) : FM unit :=
  w <- fget ;;
  (if w_writing w && w_active w then fput (say [Err ErrTimeout]) ;;; stop_acq i else fret tt) ;;;
  fput (set_active false).

(** FileWriterPlugin.cpp:975-998 (execute). *)
Inductive command := CmdStart | CmdStop | CmdOther.
Definition fw_execute (i : io) (c : command) : FM unit :=
  w <- fget ;;
  match c with
  | CmdStart =>
    if (0 <? p_total (w_next w)) && (p_towrite (w_next w) =? 0) then
      fput (set_next no_prep) ;;;
      (if w_writing w then fret tt else fput (set_acq no_acq (w_disk w) []))
    else start_writing i
  | CmdStop => stop_writing
  | CmdOther => fret tt
  end.

(** ** Configuration *)

(** A parameter of a configuration message: absent, of the wrong JSON type (get_param throws), or a value. *)
Inductive field (A : Type) := Absent | Bad | Val (a : A).
Arguments Absent {A}.
Arguments Bad {A}.
Arguments Val {A} a.

Definition on_field {A} (x : field A) (k : A -> FM unit) : FM unit :=
  match x with Absent => fret tt | Bad => fthrow FMsg | Val a => k a end.

Record pcfg := PCfg { pc_procs : field N; pc_rank : field N; pc_fpb : field N; pc_bpf : field N }.
Record fcfg := FCfg { fc_path : field string; fc_file : field string; fc_numbers : field bool; fc_start : field N;
                      fc_postfix : field string; fc_ext : field string }.
Record dcfg := DCfg { dc_type : field dtype; dc_dims : field (list N); dc_chunks : field (list N);
                      dc_comp : field ctype; dc_lowhigh : field bool }.
(** The "dataset" parameter: a name, or an object of descriptions. *)
Inductive dscfg := DsNone | DsName (n : string) | DsObj (l : list (string * dcfg)).
Record config := Config { k_process : option pcfg; k_file : option fcfg; k_dataset : dscfg; k_delete : bool;
                          k_frames : field N; k_master : field string; k_id : field string; k_period : field N }.

(** One setting of configure_process (FileWriterPlugin.cpp:428-508): refused while writing unless unchanged. *)
Definition change (old new : N) (bad : bool) (g : geom) : FM unit :=
  if old =? new then fret tt
  else if bad then fput (say [Err ErrConfig]) ;;; fthrow FRuntime
  else
    w <- fget ;;
    if w_writing w then fput (say [Err ErrConfig]) ;;; fthrow FRuntime
    else fput (set_geom g).

(** FileWriterPlugin.cpp:426-519 (configure_process); HDF5 version and alignment left out. *)
Definition configure_process (c : pcfg) : FM unit :=
  on_field (pc_procs c) (fun n => w <- fget ;; let g := w_geom w in
    change (g_procs g) n false (Geom n (g_rank g) (g_fpb g) (g_bpf g))) ;;;
  on_field (pc_rank c) (fun n => w <- fget ;; let g := w_geom w in
    change (g_rank g) n false (Geom (g_procs g) n (g_fpb g) (g_bpf g))) ;;;
  on_field (pc_fpb c) (fun n => w <- fget ;; let g := w_geom w in
    change (g_fpb g) n (n <? 1) (Geom (g_procs g) (g_rank g) n (g_bpf g))) ;;;
  on_field (pc_bpf c) (fun n => w <- fget ;; let g := w_geom w in
    change (g_bpf g) n false (Geom (g_procs g) (g_rank g) (g_fpb g) n)).

(** FileWriterPlugin.cpp:534-608 (configure_file).  [ok]: the path exists, is a directory and is writable; otherwise the
    reply is a nack and the path is not changed.  Error durations left out. *)
Definition configure_file (ok : string -> bool) (c : fcfg) : FM unit :=
  on_field (fc_path c) (fun x => if ok x then fput (fun w => let p := w_next w in
    set_next (Prep x (p_file p) (p_id p) (p_total p) (p_towrite p)) w) else fret tt) ;;;
  on_field (fc_file c) (fun x => fput (fun w => let p := w_next w in
    set_next (Prep (p_path p) x (p_id p) (p_total p) (p_towrite p)) w)) ;;;
  on_field (fc_numbers c) (fun x => fput (fun w => set_names (w_postfix w) (w_ext w) x (w_start w) w)) ;;;
  on_field (fc_start c) (fun x => fput (fun w => set_names (w_postfix w) (w_ext w) (w_numbers w) x w)) ;;;
  on_field (fc_postfix c) (fun x => fput (fun w => set_names x (w_ext w) (w_numbers w) (w_start w) w)) ;;;
  on_field (fc_ext c) (fun x => fput (fun w => set_names (w_postfix w) x (w_numbers w) (w_start w) w)).

(** dataset_defs_ is a std::map: definitions in name order, one per name.  [put_def] replaces or inserts. *)
Fixpoint put_def (d : dsdef) (l : list dsdef) : list dsdef :=
  match l with
  | [] => [d]
  | x :: t => if String.eqb (d_name d) (d_name x) then d :: t
              else if String.ltb (d_name d) (d_name x) then d :: x :: t
              else x :: put_def d t
  end.

(** FileWriterPlugin.cpp:715-734 (create_new_dataset). *)
Definition create_new_dataset (n : string) : FM unit :=
  fput (fun w => match find_def (w_defs w) n with
                 | Some _ => w
                 | None => set_defs (put_def (DsDef n T8 CNone [] [] false) (w_defs w)) w
                 end).

Definition fval {A} (x : field A) (old : A) : FM A :=
  match x with Absent => fret old | Bad => fthrow FMsg | Val a => fret a end.

(** FileWriterPlugin.cpp:627-707 (configure_dataset): works on a copy, stored at the end.  Blosc settings left out. *)
Definition configure_dataset (n : string) (c : dcfg) : FM unit :=
  w <- fget ;;
  let d := match find_def (w_defs w) n with Some d => d | None => DsDef n TUnknown CUnknown [] [] false end in
  t <- fval (dc_type c) (d_type d) ;;
  dims <- fval (dc_dims c) (d_dims d) ;;
  let chunks0 := match dc_dims c with Val _ => 1 :: dims | _ => d_chunks d end in
  chunks <- fval (dc_chunks c) chunks0 ;;
  comp <- fval (dc_comp c) (d_comp d) ;;
  lh <- fval (dc_lowhigh c) (d_lowhigh d) ;;
  fput (fun w => set_defs (put_def (DsDef n t comp dims chunks lh) (w_defs w)) w).

Fixpoint configure_datasets (l : list (string * dcfg)) : FM unit :=
  match l with
  | [] => fret tt
  | (n, c) :: t => create_new_dataset n ;;; configure_dataset n c ;;; configure_datasets t
  end.

(** FileWriterPlugin.cpp:260-345: the body of configure.  Starting the close timeout (lines 334-344) is in
    TimeoutModel. *)
Definition configure_body (ok : string -> bool) (c : config) : FM unit :=
  match k_process c with Some p => configure_process p | None => fret tt end ;;;
  match k_file c with Some p => configure_file ok p | None => fret tt end ;;;
  match k_dataset c with
  | DsNone => fret tt
  | DsName n => create_new_dataset n
  | DsObj l => configure_datasets l
  end ;;;
  (if k_delete c then fput (set_defs []) else fret tt) ;;;
  on_field (k_frames c) (fun total =>
    fput (fun w => let p := w_next w in set_next (Prep (p_path p) (p_file p) (p_id p) total (p_towrite p)) w) ;;;
    w <- fget ;;
    n <- flift (calc_num_frames (w_geom w) total) ;;
    fput (fun w => let p := w_next w in set_next (Prep (p_path p) (p_file p) (p_id p) (p_total p) n) w)) ;;;
  on_field (k_master c) (fun x => fput (set_master x)) ;;;
  on_field (k_id c) (fun x => fput (fun w => let p := w_next w in
    set_next (Prep (p_path p) (p_file p) x (p_total p) (p_towrite p)) w)) ;;;
  on_field (k_period c) (fun x => fput (set_period x)).

(** FileWriterPlugin.cpp:254-351 (configure): a runtime_error is recorded as an error and thrown again. *)
Definition fw_configure (ok : string -> bool) (c : config) : FM unit := fun w =>
  match configure_body ok c w with
  | (w', Throw FRuntime) => (say [Err ErrConfig] w', Throw FRuntime)
  | r => r
  end.

(** ** Any sequence of calls *)

Inductive op :=
| OConfigure (ok : string -> bool) (c : config)
| OFrame (i0 i i1 : io) (f : frame)
| OEoa (i : io)
| OExecute (i : io) (c : command)
| OArm                 (* the timeout thread starts its timer: line 922 *)
| OTimeout (i : io).

Definition fw_call (o : op) : FM unit :=
  match o with
  | OConfigure ok c => fw_configure ok c
  | OFrame i0 i i1 f => fw_process_frame i0 i i1 f
  | OEoa i => fw_eoa i
  | OExecute i c => fw_execute i c
  | OArm => fput (set_active true)
  | OTimeout i => fw_timeout i
  end.

(** The state after the calls; it goes on after an exception (the controller catches those of configure and execute), and
    stops at undefined behaviour. *)
Fixpoint fw_run (w : fw) (l : list op) : fw * list (outcome fexn unit) :=
  match l with
  | [] => (w, [])
  | o :: t =>
    match fw_call o w with
    | (w', Undef) => (w', [Undef])
    | (w', r) => let '(w2, rs) := fw_run w' t in (w2, r :: rs)
    end
  end.
