(** What a message to configure the file writer asks for, and what the file writer reports. *)
From Coq Require Import String Ascii.
From Verif Require Import Base JsonModel PrcModel PlaceModel NameModel AcqModel FwModel FwSpec JsonSpec FwcModel CfgSpec.
Local Open Scope string_scope.
Local Open Scope list_scope.
Local Open Scope Z_scope.

Definition geometry (s : fwx) : geom := w_geom (x_fw s).
Definition next (s : fwx) : prep := w_next (x_fw s).
Definition as_size : json -> option N := omap Z.to_N as_u64.
(** Names of data types and compressions; other names stand for unknown ones *)
Fixpoint named_as {A} (l : list (string * A)) (other : A) (n : string) : A := match l with [] => other | (k, a) :: t => if String.eqb n k then a else named_as t other n end.
Definition type_names : list (string * dtype) := [("uint8", T8); ("uint16", T16); ("uint32", T32); ("uint64", T64); ("float", TFloat)].
Definition comp_names : list (string * ctype) := [("none", CNone); ("LZ4", CLz4); ("BSLZ4", CBslz4); ("blosc", CBlosc)].
Definition as_type : json -> option dtype := omap (named_as type_names TUnknown) as_text.
Definition as_comp : json -> option ctype := omap (named_as comp_names CUnknown) as_text.
Definition as_sizes : json -> option (list N) := as_list as_size.

(** A definition with its Blosc settings; a new one *)
Definition dset : Type := dsdef * (Z * Z * Z).
Definition dataset (s : fwx) (n : string) : option dset := match find_def (w_defs (x_fw s)) n with Some d => Some (d, x_blosc s n) | None => None end.
Definition new_def (n : string) : dset := (DsDef n T8 CNone [] [] false, (0, 0, 0)).
Definition or_new (n : string) (o : option dset) : dset := match o with Some d => d | None => new_def n end.
(** Chunks: as given, otherwise single frames if dimensions are given *)
Definition chunks_given (y : json) (old : list N) (new : list N) : Prop :=
  (exists z, leads ["chunks"] y z /\ as_sizes z = Some new) \/
  ((forall z, ~ leads ["chunks"] y z) /\ ((exists z l, leads ["dims"] y z /\ as_sizes z = Some l /\ new = 1%N :: l) \/ ((forall z, ~ leads ["dims"] y z) /\ new = old))).
Definition dataset_given (y : json) (n : string) (old new : dset) : Prop :=
  let '(d, (a, b, c)) := old in let '(d1, (a1, b1, c1)) := new in
  d_name d1 = n /\ given y ["datatype"] as_type (d_type d) (d_type d1) /\ given y ["dims"] as_sizes (d_dims d) (d_dims d1) /\ chunks_given y (d_chunks d) (d_chunks d1) /\
  given y ["compression"] as_comp (d_comp d) (d_comp d1) /\ given y ["indexes"] as_bool (d_lowhigh d) (d_lowhigh d1) /\
  given y ["blosc_compressor"] as_uint a a1 /\ given y ["blosc_level"] as_uint b b1 /\ given y ["blosc_shuffle"] as_uint c c1.
(** One data set before and after a message *)
Definition dataset_after (x : json) (n : string) (old new : option dset) : Prop :=
  ((exists y, leads ["delete_datasets"] x y) /\ new = None) \/
  ((forall y, ~ leads ["delete_datasets"] x y) /\
   ((exists t, leads ["dataset"] x (JStr t) /\ cstr t = n /\ new = Some (or_new n old)) \/
    (exists y d, leads ["dataset"; n] x y /\ dataset_given y n (or_new n old) d /\ new = Some d) \/
    ((forall t, leads ["dataset"] x (JStr t) -> cstr t <> n) /\ (forall y, ~ leads ["dataset"; n] x y) /\ new = old))).

Definition accepted (look : string -> place) (old p : string) : string := match look p with Writable => p | _ => old end.
(** The settings after a message that is accepted *)
Record applied (look : string -> place) (x : json) (s s1 : fwx) : Prop := Applied {
  ap_number : given x ["process"; "number"] as_size (g_procs (geometry s)) (g_procs (geometry s1));
  ap_rank : given x ["process"; "rank"] as_size (g_rank (geometry s)) (g_rank (geometry s1));
  ap_block : given x ["process"; "frames_per_block"] as_size (g_fpb (geometry s)) (g_fpb (geometry s1));
  ap_blocks : given x ["process"; "blocks_per_file"] as_size (g_bpf (geometry s)) (g_bpf (geometry s1));
  ap_earliest : given x ["process"; "earliest_version"] as_bool (x_earliest s) (x_earliest s1);
  ap_threshold : given x ["process"; "alignment_threshold"] as_u64 (x_threshold s) (x_threshold s1);
  ap_value : given x ["process"; "alignment_value"] as_u64 (x_value s) (x_value s1);
  ap_path : given x ["file"; "path"] (omap (accepted look (p_path (next s))) as_text) (p_path (next s)) (p_path (next s1));
  ap_prefix : given x ["file"; "prefix"] as_text (p_file (next s)) (p_file (next s1));
  ap_numbers : given x ["file"; "use_numbers"] as_bool (w_numbers (x_fw s)) (w_numbers (x_fw s1));
  ap_first : given x ["file"; "first_number"] (omap u32 as_int) (w_start (x_fw s)) (w_start (x_fw s1));
  ap_postfix : given x ["file"; "postfix"] as_text (w_postfix (x_fw s)) (w_postfix (x_fw s1));
  ap_extension : given x ["file"; "extension"] as_text (w_ext (x_fw s)) (w_ext (x_fw s1));
  ap_create : given x ["file"; "create_error_duration"] as_uint (x_create s) (x_create s1);
  ap_write : given x ["file"; "write_error_duration"] as_uint (x_write s) (x_write s1);
  ap_flush : given x ["file"; "flush_error_duration"] as_uint (x_flush s) (x_flush s1);
  ap_close : given x ["file"; "close_error_duration"] as_uint (x_close s) (x_close s1);
  ap_datasets : forall n, no_nul n -> dataset_after x n (dataset s n) (dataset s1 n);
  ap_frames : given x ["frames"] as_size (p_total (next s)) (p_total (next s1));
  ap_expected : ((exists y, leads ["frames"] x y) /\ calc_num_frames (geometry s1) (p_total (next s1)) = Ret (p_towrite (next s1))) \/ ((forall y, ~ leads ["frames"] x y) /\ p_towrite (next s1) = p_towrite (next s));
  ap_master : given x ["master"] as_text (w_master (x_fw s)) (w_master (x_fw s1));
  ap_id : given x ["acquisition_id"] as_text (p_id (next s)) (p_id (next s1));
  ap_period : given x ["timeout_timer_period"] as_size (w_period (x_fw s)) (w_period (x_fw s1));
  ap_woken : (leads ["start_timeout_timer"] x (JBool true) /\ w_writing (x_fw s) = true /\ w_active (x_fw s) = false /\ x_woken s1 = S (x_woken s)) \/
             (~ (leads ["start_timeout_timer"] x (JBool true) /\ w_writing (x_fw s) = true /\ w_active (x_fw s) = false) /\ x_woken s1 = x_woken s);
  ap_timer : forall y, leads ["start_timeout_timer"] x y -> exists b, y = JBool b }.
(** Everything that is not a setting *)
Definition rest_same (s s1 : fwx) : Prop :=
  w_writing (x_fw s1) = w_writing (x_fw s) /\ w_cur (x_fw s1) = w_cur (x_fw s) /\ w_active (x_fw s1) = w_active (x_fw s) /\ w_disk (x_fw s1) = w_disk (x_fw s) /\ w_log (x_fw s1) = w_log (x_fw s) /\
  x_file s1 = x_file s /\ x_timing s1 = x_timing s /\ x_name s1 = x_name s.

(** ** What the file writer reports *)
Definition type_name (t : dtype) : string := match t with TUnknown => "unknown" | T8 => "uint8" | T16 => "uint16" | T32 => "uint32" | T64 => "uint64" | TFloat => "float" end.
Definition comp_name (c : ctype) : string := match c with CUnknown => "unknown" | CNone => "none" | CLz4 => "LZ4" | CBslz4 => "BSLZ4" | CBlosc => "blosc" end.
(** A number as a signed number of 32 bits *)
Definition wrapped (z : Z) : Z := (z + 2 ^ 31) mod 2 ^ 32 - 2 ^ 31.
Definition jsize (n : N) : json := JInt (Z.of_N n).
Definition jtext (s : string) : json := JStr (cstr s).
Definition settings_json (s : fwx) : list (string * json) :=
  [("process", JObj [("number", jsize (g_procs (geometry s))); ("rank", jsize (g_rank (geometry s))); ("frames_per_block", jsize (g_fpb (geometry s))); ("blocks_per_file", jsize (g_bpf (geometry s)));
                     ("earliest_version", JBool (x_earliest s)); ("alignment_threshold", JInt (x_threshold s)); ("alignment_value", JInt (x_value s))]);
   ("file", JObj [("path", jtext (p_path (next s))); ("prefix", jtext (p_file (next s))); ("use_numbers", JBool (w_numbers (x_fw s))); ("first_number", jsize (w_start (x_fw s)));
                  ("postfix", jtext (w_postfix (x_fw s))); ("extension", jtext (w_ext (x_fw s))); ("create_error_duration", JInt (x_create s)); ("write_error_duration", JInt (x_write s));
                  ("flush_error_duration", JInt (x_flush s)); ("close_error_duration", JInt (x_close s))]);
   ("frames", jsize (p_total (next s))); ("master", jtext (w_master (x_fw s))); ("acquisition_id", jtext (p_id (next s))); ("timeout_timer_period", jsize (w_period (x_fw s)))].
Definition sizes_json (k : string) (l : list N) : list (string * json) := match l with [] => [] | _ => [(k, JArr (map (fun n => JInt (wrapped (Z.of_N n))) l))] end.
Definition dataset_json (d : dset) : json :=
  let '(d, (a, b, c)) := d in
  JObj ([("datatype", JStr (type_name (d_type d))); ("compression", JStr (comp_name (d_comp d))); ("blosc_compressor", JInt (wrapped a)); ("blosc_level", JInt (wrapped b)); ("blosc_shuffle", JInt (wrapped c))] ++
        sizes_json "dims" (d_dims d) ++ sizes_json "chunks" (d_chunks d)).
Definition some_object (k : string) (l : list (string * json)) : list (string * json) := match l with [] => [] | _ => [(k, JObj l)] end.
Definition config_json (s : fwx) : json := JObj (settings_json s ++ some_object "dataset" (map (fun d => (d_name d, dataset_json (d, x_blosc s (d_name d)))) (w_defs (x_fw s)))).
(** Names of data sets that can be parts of the names of parameters *)
Definition usable (n : string) : Prop := no_slash n /\ no_nul n /\ n <> "dims[]" /\ n <> "chunks[]".
(** Status *)
Definition jint (n : N) : json := JInt (wrapped (Z.of_N n)).
Definition status_json (s : fwx) : json :=
  JObj ([("writing", JBool (w_writing (x_fw s))); ("frames_max", jint (a_towrite (w_cur (x_fw s)))); ("frames_written", jint (a_written (w_cur (x_fw s)))); ("frames_processed", jint (a_processed (w_cur (x_fw s))));
         ("file_path", jtext (a_path (w_cur (x_fw s)))); ("file_name", jtext (x_file s)); ("acquisition_id", jtext (id_of (w_cur (x_fw s)))); ("processes", jint (g_procs (geometry s))); ("rank", jint (g_rank (geometry s)));
         ("timeout_active", JBool (w_active (x_fw s)))] ++
        [("timing", JObj (flat_map (fun k => map (fun t => (append t (append "_" k), JInt (wrapped (x_timing s (append t (append "_" k)))))) ["last"; "max"; "mean"]) ["create"; "write"; "flush"; "close"]))]).

(** ** Messages that are accepted *)
Definition typed {A} (x : json) (q : list string) (rd : json -> option A) : Prop := forall y, leads q x y -> exists a, rd y = Some a.
(** While writing only the value in use *)
Definition allowed (s : fwx) (x : json) (q : list string) (now : N) : Prop := forall y, leads q x y -> exists n, as_size y = Some n /\ (w_writing (x_fw s) = true -> n = now).
Record well_formed (x : json) (s : fwx) : Prop := WellFormed {
  wf_params : object x;
  wf_process : forall y, leads ["process"] x y -> object y;
  wf_number : allowed s x ["process"; "number"] (g_procs (geometry s));
  wf_rank : allowed s x ["process"; "rank"] (g_rank (geometry s));
  wf_block : allowed s x ["process"; "frames_per_block"] (g_fpb (geometry s));
  wf_zero : forall y, leads ["process"; "frames_per_block"] x y -> as_size y <> Some 0%N;
  wf_blocks : allowed s x ["process"; "blocks_per_file"] (g_bpf (geometry s));
  wf_earliest : typed x ["process"; "earliest_version"] as_bool;
  wf_threshold : typed x ["process"; "alignment_threshold"] as_u64;
  wf_value : typed x ["process"; "alignment_value"] as_u64;
  wf_file : forall y, leads ["file"] x y -> object y;
  wf_path : typed x ["file"; "path"] as_text;
  wf_prefix : typed x ["file"; "prefix"] as_text;
  wf_numbers : typed x ["file"; "use_numbers"] as_bool;
  wf_first : typed x ["file"; "first_number"] as_int;
  wf_postfix : typed x ["file"; "postfix"] as_text;
  wf_extension : typed x ["file"; "extension"] as_text;
  wf_create : typed x ["file"; "create_error_duration"] as_uint;
  wf_write : typed x ["file"; "write_error_duration"] as_uint;
  wf_flush : typed x ["file"; "flush_error_duration"] as_uint;
  wf_close : typed x ["file"; "close_error_duration"] as_uint;
  wf_dataset : forall y, leads ["dataset"] x y -> (exists t, y = JStr t) \/ (exists l, y = JObj l /\ forall n z, In (n, z) l -> no_slash n /\ no_nul n);
  wf_datasets : forall n y, leads ["dataset"; n] x y -> object y /\ typed y ["datatype"] as_text /\ typed y ["dims"] as_sizes /\ typed y ["chunks"] as_sizes /\ typed y ["compression"] as_text /\ typed y ["indexes"] as_bool /\
                typed y ["blosc_compressor"] as_uint /\ typed y ["blosc_level"] as_uint /\ typed y ["blosc_shuffle"] as_uint;
  wf_frames : typed x ["frames"] as_size;
  wf_divide : (exists y, leads ["frames"] x y) -> exists p b, given x ["process"; "number"] as_size (g_procs (geometry s)) p /\ p <> 0%N /\ given x ["process"; "frames_per_block"] as_size (g_fpb (geometry s)) b /\ b <> 0%N;
  wf_master : typed x ["master"] as_text;
  wf_id : typed x ["acquisition_id"] as_text;
  wf_period : typed x ["timeout_timer_period"] as_u64;
  wf_timer : typed x ["start_timeout_timer"] as_bool }.
(** The reply after it: refused if the path is *)
Definition refusal (look : string -> place) (p : string) : option string :=
  match look p with Writable => None | ReadOnly => Some ("User does not have write permissions for directory: " ++ p)%string | NoDirectory => Some ("Path is not a directory: " ++ p)%string | NoPath => Some ("Invalid path requested: " ++ p)%string end.
Definition refused (r : msg) (w : string) (r1 : msg) : Prop := g_type r1 = TNack /\ g_val r1 = g_val r /\ g_id r1 = g_id r /\ holds r1 ["error"] (JStr (cstr w)) /\ forall q x, q <> [] -> hd "" q <> "error" -> (holds r1 q x <-> holds r q x).
Definition reply_after (look : string -> place) (x : json) (r r1 : msg) : Prop :=
  (exists t w, leads ["file"; "path"] x (JStr t) /\ refusal look (cstr t) = Some w /\ refused r w r1) \/
  ((forall t w, leads ["file"; "path"] x (JStr t) -> refusal look (cstr t) <> Some w) /\ r1 = r).

(** ** The file writer between messages *)
Definition is_configure (o : op) : Prop := match o with OConfigure _ _ => True | _ => False end.
(** By calls of configure, FwModel *)
Definition configures (w w' : fw) : Prop := exists l rs, Forall is_configure l /\ fw_run w l = (w', rs) /\ ~ In Undef rs.
(** Numbers as wide as their members, texts without zero characters, one definition for each name *)
Definition size (n : N) : Prop := (n < 2 ^ 64)%N.
Definition uint32 (z : Z) : Prop := 0 <= z < 2 ^ 32.
Definition uint64 (z : Z) : Prop := 0 <= z < 2 ^ 64.
Record sane (s : fwx) : Prop := Sane {
  sn_geometry : size (g_procs (geometry s)) /\ size (g_rank (geometry s)) /\ size (g_fpb (geometry s)) /\ size (g_bpf (geometry s));
  sn_block : g_fpb (geometry s) <> 0%N;
  sn_align : uint64 (x_threshold s) /\ uint64 (x_value s);
  sn_next : no_nul (p_path (next s)) /\ no_nul (p_file (next s)) /\ no_nul (p_id (next s)) /\ size (p_total (next s));
  sn_names : no_nul (w_postfix (x_fw s)) /\ no_nul (w_ext (x_fw s)) /\ (w_start (x_fw s) < 2 ^ 32)%N /\ no_nul (w_master (x_fw s)) /\ size (w_period (x_fw s));
  sn_durations : uint32 (x_create s) /\ uint32 (x_write s) /\ uint32 (x_flush s) /\ uint32 (x_close s);
  sn_one : NoDup (map d_name (w_defs (x_fw s)));
  sn_defs : forall d, In d (w_defs (x_fw s)) -> no_nul (d_name d) /\ Forall size (d_dims d) /\ Forall size (d_chunks d);
  sn_blosc : forall n, let '(a, b, c) := x_blosc s n in uint32 a /\ uint32 b /\ uint32 c }.
(** The file writer with the name [n] after any messages, commands, resets of statistics, frames and timeouts; [P], [Q]: failures of HDF5 and frames that may occur *)
Inductive lived (P : io -> Prop) (Q : io * frame -> Prop) (n : string) (act : bool) (dk : disk) : fwx -> Prop :=
| lv_start : lived P Q n act dk (fwx_init n act dk)
| lv_configure s look now m r s1 r1 o : lived P Q n act dk s -> fwx_configure look now m s r = (s1, r1, o) -> o <> Undef -> lived P Q n act dk s1
| lv_execute s i c r s1 r1 o : lived P Q n act dk s -> P i -> fwx_execute i c s r = (s1, r1, o) -> o <> Undef -> lived P Q n act dk s1
| lv_reset s : lived P Q n act dk s -> lived P Q n act dk (fst (fwx_reset s))
| lv_other s c w o file timing woken : lived P Q n act dk s -> ~ is_configure c -> op_ok P Q c -> fw_call c (x_fw s) = (w, o) -> o <> Undef ->
    lived P Q n act dk (FWX w (x_earliest s) (x_threshold s) (x_value s) (x_create s) (x_write s) (x_flush s) (x_close s) (x_blosc s) file woken timing n).

(** ** Replies to questions *)
(** The plugin [i] has put [y] into the reply, and nothing else. *)
Definition adds (i : string) (y : json) (r r1 : msg) : Prop := holds r1 [i] y /\ (forall q x, q <> [] -> hd "" q <> i -> (holds r1 q x <-> holds r q x)) /\ g_type r1 = g_type r /\ g_val r1 = g_val r /\ g_id r1 = g_id r.
(** Settings that can be reported and given back: 32 bit numbers with a sign, chunks if there are dimensions *)
Definition small (n : N) : Prop := (n < 2 ^ 31)%N.
Record restorable (s : fwx) : Prop := Restorable {
  rs_procs : g_procs (geometry s) <> 0%N;
  rs_start : small (w_start (x_fw s));
  rs_names : Forall usable (map d_name (w_defs (x_fw s)));
  rs_sizes : forall d, In d (w_defs (x_fw s)) -> Forall small (d_dims d) /\ Forall small (d_chunks d) /\ (d_chunks d = [] -> d_dims d = []);
  rs_blosc : forall d, In d (w_defs (x_fw s)) -> let '(a, b, c) := x_blosc s (d_name d) in a < 2 ^ 31 /\ b < 2 ^ 31 /\ c < 2 ^ 31 }.
Definition without_indexes (o : option dset) : option dset := match o with Some (d, b) => Some (DsDef (d_name d) (d_type d) (d_comp d) (d_dims d) (d_chunks d) false, b) | None => None end.
(** The same settings; indexes are not among them *)
Record restored (s s1 : fwx) : Prop := Restored {
  rd_geometry : geometry s1 = geometry s;
  rd_earliest : x_earliest s1 = x_earliest s;
  rd_align : x_threshold s1 = x_threshold s /\ x_value s1 = x_value s;
  rd_next : p_path (next s1) = p_path (next s) /\ p_file (next s1) = p_file (next s) /\ p_id (next s1) = p_id (next s) /\ p_total (next s1) = p_total (next s);
  rd_expected : calc_num_frames (geometry s) (p_total (next s)) = Ret (p_towrite (next s1));
  rd_names : w_numbers (x_fw s1) = w_numbers (x_fw s) /\ w_start (x_fw s1) = w_start (x_fw s) /\ w_postfix (x_fw s1) = w_postfix (x_fw s) /\ w_ext (x_fw s1) = w_ext (x_fw s) /\ w_master (x_fw s1) = w_master (x_fw s);
  rd_durations : x_create s1 = x_create s /\ x_write s1 = x_write s /\ x_flush s1 = x_flush s /\ x_close s1 = x_close s;
  rd_period : w_period (x_fw s1) = w_period (x_fw s);
  rd_datasets : forall n, no_nul n -> dataset s1 n = without_indexes (dataset s n) }.
