(** The file writer and its messages.  frameProcessor/src/FileWriterPlugin.cpp.  Frames, starting and stopping are in FwModel. *)
From Coq Require Import String Ascii.
From Verif Require Import Base StrOrder FrameModel JsonModel PrcModel CfgModel PlaceModel NameModel AcqModel FwModel.
Local Open Scope string_scope.
Local Open Scope list_scope.
Local Open Scope Z_scope.

(** Members that FwModel leaves out: use_earliest_hdf5_, alignment_threshold_, alignment_value_, hdf5_error_definition_, the Blosc settings in dataset_defs_ (compressor, level, shuffle; of definitions that do not exist: 0),
    filename_ of the current acquisition, how often the thread of the close timeout was woken, hdf5_call_durations_ by the names used in the status (oracle), name of the plugin *)
Record fwx := FWX {
  x_fw : fw; x_earliest : bool; x_threshold : Z; x_value : Z; x_create : Z; x_write : Z; x_flush : Z; x_close : Z; x_blosc : string -> Z * Z * Z;
  x_file : string; x_woken : nat; x_timing : string -> Z; x_name : string }.
Definition w_fw w s := FWX w (x_earliest s) (x_threshold s) (x_value s) (x_create s) (x_write s) (x_flush s) (x_close s) (x_blosc s) (x_file s) (x_woken s) (x_timing s) (x_name s).
Definition w_earliest b s := FWX (x_fw s) b (x_threshold s) (x_value s) (x_create s) (x_write s) (x_flush s) (x_close s) (x_blosc s) (x_file s) (x_woken s) (x_timing s) (x_name s).
Definition w_align t a s := FWX (x_fw s) (x_earliest s) t a (x_create s) (x_write s) (x_flush s) (x_close s) (x_blosc s) (x_file s) (x_woken s) (x_timing s) (x_name s).
Definition w_durations a b c d s := FWX (x_fw s) (x_earliest s) (x_threshold s) (x_value s) a b c d (x_blosc s) (x_file s) (x_woken s) (x_timing s) (x_name s).
Definition w_blosc b s := FWX (x_fw s) (x_earliest s) (x_threshold s) (x_value s) (x_create s) (x_write s) (x_flush s) (x_close s) b (x_file s) (x_woken s) (x_timing s) (x_name s).
Definition w_woken n s := FWX (x_fw s) (x_earliest s) (x_threshold s) (x_value s) (x_create s) (x_write s) (x_flush s) (x_close s) (x_blosc s) (x_file s) n (x_timing s) (x_name s).
Notation X := (C fwx).
Local Open Scope cfg_scope.

(** What FwModel has of the file writer.  [what]: text of a runtime_error; that of the HDF5 library is simplified. *)
Definition base (what : string) (a : FM unit) : X unit := fun s r =>
  let '(w, o) := a (x_fw s) in
  (w_fw w s, r, match o with Ret a => Ret a | Throw FMsg => Throw (XIpc EAssert) | Throw FRuntime => Throw (XRun what) | Throw (FHdf5 _) => Throw (XRun "HDF5 error") | Undef => Undef end).

(** configure_process, lines 426-519; each of the first four refuses changes while writing. *)
Definition process_section (m : msg) : X unit :=
  setting m "number" u64 (fun n => base "Cannot change concurrent processes whilst writing" (configure_process (PCfg (Val (Z.to_N n)) Absent Absent Absent))) ;;
  setting m "rank" u64 (fun n => base "Cannot change process rank whilst writing" (configure_process (PCfg Absent (Val (Z.to_N n)) Absent Absent))) ;;
  setting m "frames_per_block" u64 (fun n => base (if n <? 1 then "Must have at least one frame per block" else "Cannot change block size whilst writing") (configure_process (PCfg Absent Absent (Val (Z.to_N n)) Absent))) ;;
  setting m "blocks_per_file" u64 (fun n => base "Cannot change blocks per file whilst writing" (configure_process (PCfg Absent Absent Absent (Val (Z.to_N n))))) ;;
  setting m "earliest_version" boolean (fun b => cset (w_earliest b)) ;;
  setting m "alignment_threshold" u64 (fun n => cset (fun s => w_align n (x_value s) s)) ;;
  setting m "alignment_value" u64 (fun n => cset (fun s => w_align (x_threshold s) n s)).

(** What the file system says of a path *)
Inductive place := Writable | ReadOnly | NoDirectory | NoPath.
Definition only (path file : field string) (numbers : field bool) (start : field N) (postfix ext : field string) : FM unit := configure_file (fun _ => true) (FCfg path file numbers start postfix ext).
(** configure_file, lines 534-608.  first_number is an int kept in a uint32_t. *)
Definition file_section (look : string -> place) (m : msg) : X unit :=
  setting m "path" text (fun p =>
    match look p with
    | Writable => base "" (only (Val p) Absent Absent Absent Absent Absent)
    | ReadOnly => cnack ("User does not have write permissions for directory: " ++ p)
    | NoDirectory => cnack ("Path is not a directory: " ++ p)
    | NoPath => cnack ("Invalid path requested: " ++ p)
    end) ;;
  setting m "prefix" text (fun p => base "" (only Absent (Val p) Absent Absent Absent Absent)) ;;
  setting m "use_numbers" boolean (fun b => base "" (only Absent Absent (Val b) Absent Absent Absent)) ;;
  setting m "first_number" int (fun n => base "" (only Absent Absent Absent (Val (u32 n)) Absent Absent)) ;;
  setting m "postfix" text (fun p => base "" (only Absent Absent Absent Absent (Val p) Absent)) ;;
  setting m "extension" text (fun p => base "" (only Absent Absent Absent Absent Absent (Val p))) ;;
  setting m "create_error_duration" uint (fun n => cset (fun s => w_durations n (x_write s) (x_flush s) (x_close s) s)) ;;
  setting m "write_error_duration" uint (fun n => cset (fun s => w_durations (x_create s) n (x_flush s) (x_close s) s)) ;;
  setting m "flush_error_duration" uint (fun n => cset (fun s => w_durations (x_create s) (x_write s) n (x_close s) s)) ;;
  setting m "close_error_duration" uint (fun n => cset (fun s => w_durations (x_create s) (x_write s) (x_flush s) n s)).

(** Enumerators, FrameProcessorDefinitions.h:20-24 *)
Definition type_of_code (z : Z) : dtype := match z with 1 => T8 | 2 => T16 | 3 => T32 | 4 => T64 | 5 => TFloat | _ => TUnknown end.
Definition code_of_type (t : dtype) : Z := match t with TUnknown => 0 | T8 => 1 | T16 => 2 | T32 => 3 | T64 => 4 | TFloat => 5 end.
Definition comp_of_code (z : Z) : ctype := match z with 1 => CNone | 2 => CLz4 | 3 => CBslz4 | 4 => CBlosc | _ => CUnknown end.
Definition code_of_comp (c : ctype) : Z := match c with CUnknown => 0 | CNone => 1 | CLz4 => 2 | CBslz4 => 3 | CBlosc => 4 end.
Definition as_field {A B} (f : A -> B) (o : option A) : field B := match o with Some a => Val (f a) | None => Absent end.
Definition update (f : string -> Z * Z * Z) (n : string) (b : Z * Z * Z) (k : string) : Z * Z * Z := if String.eqb k n then b else f k.
Definition or_else {A} (o : option A) (d : A) : A := match o with Some a => a | None => d end.
(** configure_dataset, lines 627-707: a copy is changed and stored at the end.  Values of Blosc out of range are only logged. *)
Definition dataset_section (n : string) (m : msg) : X unit :=
  t <- local m "datatype" text ;;
  dims <- local m "dims" u64_array ;;
  chunks <- local m "chunks" u64_array ;;
  comp <- local m "compression" text ;;
  b1 <- local m "blosc_compressor" uint ;;
  b2 <- local m "blosc_level" uint ;;
  b3 <- local m "blosc_shuffle" uint ;;
  lh <- local m "indexes" boolean ;;
  base "" (configure_dataset n (DCfg (as_field (fun t => type_of_code (get_type_from_string t)) t) (as_field (map Z.to_N) dims) (as_field (map Z.to_N) chunks)
                                     (as_field (fun c => comp_of_code (get_compression_from_string c)) comp) (as_field (fun b => b) lh))) ;;
  cset (fun s => let '(a, b, c) := x_blosc s n in w_blosc (update (x_blosc s) n (or_else b1 a, or_else b2 b, or_else b3 c)) s).
(** create_new_dataset, lines 715-734 *)
Definition new_dataset (n : string) : X unit :=
  cset (fun s => match find_def (w_defs (x_fw s)) n with Some _ => s | None => w_blosc (update (x_blosc s) n (0, 0, 0)) s end) ;; base "" (create_new_dataset n).
(** The loop of lines 286-293 *)
Fixpoint dataset_sections (now : Z) (m : msg) (names : list string) : X unit :=
  match names with
  | [] => cret tt
  | n :: t => new_dataset n ;; c <- clift (part now m n) ;; dataset_section n c ;; dataset_sections now m t
  end.
(** delete_datasets, lines 739-743 *)
Definition delete_datasets : X unit := base "" (fput (set_defs [])) ;; cset (w_blosc (fun _ => (0, 0, 0))).
Definition config_only (frames : field N) (master id : field string) (period : field N) : config := Config None None DsNone false frames master id period.
(** start_close_file_timeout, lines 896-905: only wakes the thread *)
Definition start_timeout : X unit := cset (fun s => if w_active (x_fw s) then s else w_woken (S (x_woken s)) s).
(** The body of configure, lines 262-344.  [now]: clock *)
Definition configure_body (look : string -> place) (now : Z) (m : msg) : X unit :=
  setting m "process" (part now) process_section ;;
  setting m "file" (part now) (file_section look) ;;
  (h <- clift (has_param m "dataset") ;;
   if h : bool then
     match text m "dataset" with
     | Ret n => new_dataset n
     | Undef => fun s r => (s, r, Undef)
     | Throw JsonModel.ERange => cthrow (XIpc JsonModel.ERange)
     | Throw _ => c <- clift (part now m "dataset") ;; names <- clift (get_param_names c) ;; dataset_sections now c names
     end
   else cret tt) ;;
  (h <- clift (has_param m "delete_datasets") ;; if h : bool then delete_datasets else cret tt) ;;
  setting m "frames" u64 (fun n => base "" (FwModel.configure_body (fun _ => true) (config_only (Val (Z.to_N n)) Absent Absent Absent))) ;;
  setting m "master" text (fun t => base "" (FwModel.configure_body (fun _ => true) (config_only Absent (Val t) Absent Absent))) ;;
  setting m "acquisition_id" text (fun t => base "" (FwModel.configure_body (fun _ => true) (config_only Absent Absent (Val t) Absent))) ;;
  setting m "timeout_timer_period" u64 (fun n => base "" (FwModel.configure_body (fun _ => true) (config_only Absent Absent Absent (Val (Z.to_N n))))) ;;
  setting m "start_timeout_timer" boolean (fun b => s <- cget ;; if b && w_writing (x_fw s) then start_timeout else cret tt).
(** configure, lines 254-350: runtime_error is kept as an error and thrown again. *)
Definition fwx_configure (look : string -> place) (now : Z) (m : msg) : X unit := fun s r =>
  match configure_body look now m s r with
  | (s1, r1, Throw (XRun w)) => (w_fw (say [Err ErrConfig] (x_fw s1)) s1, r1, Throw (XRun w))
  | x => x
  end.

(** requestConfiguration, lines 352-411 *)
Definition dataset_shown (p : string) (d : dsdef) (b : Z * Z * Z) : list (string * value) :=
  let q k := (p ++ "/dataset/" ++ d_name d ++ "/" ++ k)%string in
  [(q "datatype", XStr (get_type_from_enum (code_of_type (d_type d)))); (q "compression", XStr (get_compress_from_enum (code_of_comp (d_comp d))));
   (q "blosc_compressor", XInt (i32 (fst (fst b)))); (q "blosc_level", XInt (i32 (snd (fst b)))); (q "blosc_shuffle", XInt (i32 (snd b)))] ++
  map (fun n => (q "dims[]", XInt (i32 (Z.of_N n)))) (d_dims d) ++ map (fun n => (q "chunks[]", XInt (i32 (Z.of_N n)))) (d_chunks d).
Definition settings_shown (s : fwx) : list (string * value) :=
  let w := x_fw s in let p := x_name s in
  [((p ++ "/process/number")%string, XUint64 (Z.of_N (g_procs (w_geom w)))); ((p ++ "/process/rank")%string, XUint64 (Z.of_N (g_rank (w_geom w))));
   ((p ++ "/process/frames_per_block")%string, XUint64 (Z.of_N (g_fpb (w_geom w)))); ((p ++ "/process/blocks_per_file")%string, XUint64 (Z.of_N (g_bpf (w_geom w))));
   ((p ++ "/process/earliest_version")%string, XBool (x_earliest s)); ((p ++ "/process/alignment_threshold")%string, XUint64 (x_threshold s)); ((p ++ "/process/alignment_value")%string, XUint64 (x_value s));
   ((p ++ "/file/path")%string, XStr (p_path (w_next w))); ((p ++ "/file/prefix")%string, XStr (p_file (w_next w))); ((p ++ "/file/use_numbers")%string, XBool (w_numbers w));
   ((p ++ "/file/first_number")%string, XUint (Z.of_N (w_start w))); ((p ++ "/file/postfix")%string, XStr (w_postfix w)); ((p ++ "/file/extension")%string, XStr (w_ext w));
   ((p ++ "/file/create_error_duration")%string, XUint (x_create s)); ((p ++ "/file/write_error_duration")%string, XUint (x_write s));
   ((p ++ "/file/flush_error_duration")%string, XUint (x_flush s)); ((p ++ "/file/close_error_duration")%string, XUint (x_close s));
   ((p ++ "/frames")%string, XUint64 (Z.of_N (p_total (w_next w)))); ((p ++ "/master")%string, XStr (w_master w)); ((p ++ "/acquisition_id")%string, XStr (p_id (w_next w)));
   ((p ++ "/timeout_timer_period")%string, XUint64 (Z.of_N (w_period w)))].
Definition fwx_request : X unit :=
  s <- cget ;; cputs (settings_shown s) ;; cputs (flat_map (fun d => dataset_shown (x_name s) d (x_blosc s (d_name d))) (w_defs (x_fw s))).

Definition timing_names : list string := ["last_create"; "max_create"; "mean_create"; "last_write"; "max_write"; "mean_write"; "last_flush"; "max_flush"; "mean_flush"; "last_close"; "max_close"; "mean_close"].
(** status, lines 750-764, and add_file_writing_stats, lines 773-787 *)
Definition fwx_status : X unit :=
  s <- cget ;;
  let w := x_fw s in let p := x_name s in
  cputs [((p ++ "/writing")%string, XBool (w_writing w)); ((p ++ "/frames_max")%string, XInt (i32 (Z.of_N (a_towrite (w_cur w))))); ((p ++ "/frames_written")%string, XInt (i32 (Z.of_N (a_written (w_cur w)))));
         ((p ++ "/frames_processed")%string, XInt (i32 (Z.of_N (a_processed (w_cur w))))); ((p ++ "/file_path")%string, XStr (a_path (w_cur w))); ((p ++ "/file_name")%string, XStr (x_file s));
         ((p ++ "/acquisition_id")%string, XStr (id_of (w_cur w))); ((p ++ "/processes")%string, XInt (i32 (Z.of_N (g_procs (w_geom w))))); ((p ++ "/rank")%string, XInt (i32 (Z.of_N (g_rank (w_geom w)))));
         ((p ++ "/timeout_active")%string, XBool (w_active w))] ;;
  cputs (map (fun n => ((p ++ "/timing/" ++ n)%string, XInt (i32 (x_timing s n)))) timing_names).
(** execute, lines 975-998; requestCommands, lines 1000-1007 *)
Definition fwx_execute (i : io) (command : string) : X unit :=
  if String.eqb command "start_writing" then base "" (fw_execute i CmdStart)
  else if String.eqb command "stop_writing" then base "" (fw_execute i CmdStop)
  else base "" (fw_execute i CmdOther) ;; cnack ("Command " ++ command ++ " not implemented for FileWriterPlugin").
Definition fwx_commands : list string := ["start_writing"; "stop_writing"].
(** reset_statistics, lines 792-799; CallDuration.cpp:33-37 *)
Definition fwx_reset (s : fwx) : fwx * bool := (FWX (x_fw s) (x_earliest s) (x_threshold s) (x_value s) (x_create s) (x_write s) (x_flush s) (x_close s) (x_blosc s) (x_file s) (x_woken s) (fun _ => 0) (x_name s), true).
(** Lines 78-104 *)
Definition fwx_init (name : string) (act : bool) (dk : disk) : fwx := FWX (fw_init act dk) false 1 1 0 0 0 0 (fun _ => (0, 0, 0)) "" 0 (fun _ => 0) name.
