(** The acquisition: files, datasets, frames (frameProcessor/src/Acquisition.cpp, HDF5File.cpp). *)
From Verif Require Import Base PlaceModel NameModel.
Local Open Scope N_scope.

(** ** Data *)

(** frameProcessor/include/FrameProcessorDefinitions.h:22-28 (DataType, CompressionType). *)
Inductive dtype := TUnknown | T8 | T16 | T32 | T64 | TFloat.
Inductive ctype := CUnknown | CNone | CLz4 | CBslz4 | CBlosc.

Definition dtype_eqb (a b : dtype) : bool :=
  match a, b with
  | TUnknown, TUnknown | T8, T8 | T16, T16 | T32, T32 | T64, T64 | TFloat, TFloat => true
  | _, _ => false
  end.
Definition ctype_eqb (a b : ctype) : bool :=
  match a, b with
  | CUnknown, CUnknown | CNone, CNone | CLz4, CLz4 | CBslz4, CBslz4 | CBlosc, CBlosc => true
  | _, _ => false
  end.

(** A frame parameter: a boost::any holding one of the five supported types or something else
    (FrameMetaData.h: get_parameter throws unless the held type is the requested one). *)
Inductive pval := PV (t : dtype) (v : N).

(** The parts of a Frame the writer looks at (Frame.h, FrameMetaData.h).  [f_params] is the std::map of
    parameters in name order. *)
Record frame := Frame {
  f_number : N; f_adj : Z; f_dataset : string; f_acq : string; f_type : dtype; f_comp : ctype;
  f_dims : list N; f_params : list (string * pval); f_ocs : N; f_data : list N }.

(** DatasetDefinition (HDF5File.h); the map key and the name are the same string
    (FileWriterPlugin.cpp:715-734).  The blosc filter settings are not modelled. *)
Record dsdef := DsDef {
  d_name : string; d_type : dtype; d_comp : ctype; d_dims : list N; d_chunks : list N; d_lowhigh : bool }.

(** ** The HDF5 library, abstractly *)

(** A dataset on disk: number of rows and chunks by the row they start at; image_nr_low/high attributes. *)
Record ddset := DDset { dd_rows : N; dd_cells : N -> option (list N); dd_lowhigh : option (Z * Z) }.
(** A file on disk: datasets by name.  The disk: files by full path. *)
Definition dfile := string -> option ddset.
Definition disk := string -> option dfile.

(** HDF5Dataset_t (HDF5File.h): dataset_dimensions[0] and actual_dataset_size_. *)
Record hdset := HDset { hd_rows : N; hd_actual : N }.
(** An HDF5File object.  [hf_open]: hdf5_file_id_ >= 0. *)
Record hfile := HFile { hf_name : string; hf_index : N; hf_open : bool; hf_unlim : bool;
                        hf_dsets : string -> option hdset }.

Definition upd {A} (m : string -> A) (k : string) (v : A) : string -> A :=
  fun k' => if String.eqb k' k then v else m k'.

(** Which HDF5 calls fail during one call into the acquisition.  All true: nothing fails. *)
Record io := IO { io_create : N -> bool;      (* H5Fcreate of the file with this number *)
                  io_dset : N -> string -> bool; (* creating this dataset of this file / SWMR start for "" *)
                  io_write : bool;            (* H5DOwrite_chunk, H5Dflush *)
                  io_param : bool }.          (* H5Dwrite of a parameter *)
Definition io_ok : io := IO (fun _ => true) (fun _ _ => true) true true.

(** ** The acquisition object *)

(** Published meta messages (publish_meta calls). *)
Inductive ev :=
| EvStart | EvStop
| EvCreate (path : string)
| EvClose (path : string)
| EvWrite (frame_no offset : N).

(** Acquisition.h member variables (alignment, library version and timing members left out). *)
Record acq := Acq {
  a_geom : geom; a_naming : naming; a_path : string; a_master : string;
  a_total : N; a_towrite : N; a_defs : list dsdef;
  a_written : N; a_processed : N;
  a_cur : option hfile; a_prev : option hfile }.

Record st := St { s_acq : acq; s_disk : disk; s_log : list ev }.

Inductive exn :=
| ERange | EHdf5 | EZeroDims | EZeroChunks | ENoDataset | EBadChunks | EBadParam.

Definition M (A : Type) := st -> st * outcome exn A.
Definition ret {A} (a : A) : M A := fun s => (s, Ret a).
Definition throw {A} (e : exn) : M A := fun s => (s, Throw e).
Definition undef {A} : M A := fun s => (s, Undef).
Definition bind {A B} (m : M A) (k : A -> M B) : M B :=
  fun s => match m s with
           | (s', Ret a) => k a s'
           | (s', Throw e) => (s', Throw e)
           | (s', Undef) => (s', Undef)
           end.
Notation "x <- m ;; k" := (bind m (fun x => k)) (at level 61, m at next level, right associativity).
Notation "m ;;; k" := (bind m (fun _ => k)) (at level 61, right associativity).

Definition get : M st := fun s => (s, Ret s).
Definition emit (e : ev) : M unit := fun s => (St (s_acq s) (s_disk s) (s_log s ++ [e]), Ret tt).
Definition set_disk (d : disk) : M unit := fun s => (St (s_acq s) d (s_log s), Ret tt).

Definition with_cur (a : acq) (c : option hfile) : acq :=
  Acq (a_geom a) (a_naming a) (a_path a) (a_master a) (a_total a) (a_towrite a) (a_defs a)
      (a_written a) (a_processed a) c (a_prev a).
Definition with_prev (a : acq) (p : option hfile) : acq :=
  Acq (a_geom a) (a_naming a) (a_path a) (a_master a) (a_total a) (a_towrite a) (a_defs a)
      (a_written a) (a_processed a) (a_cur a) p.
Definition with_counts (a : acq) (w p : N) : acq :=
  Acq (a_geom a) (a_naming a) (a_path a) (a_master a) (a_total a) (a_towrite a) (a_defs a)
      w p (a_cur a) (a_prev a).
Definition put_cur (c : option hfile) : M unit :=
  fun s => (St (with_cur (s_acq s) c) (s_disk s) (s_log s), Ret tt).
Definition put_prev (p : option hfile) : M unit :=
  fun s => (St (with_prev (s_acq s) p) (s_disk s) (s_log s), Ret tt).
Definition put_counts (w p : N) : M unit :=
  fun s => (St (with_counts (s_acq s) w p) (s_disk s) (s_log s), Ret tt).

(** A computation of PlaceModel inside the monad. *)
Definition lift {A} (o : outcome Empty_set A) : M A :=
  match o with Ret a => ret a | Throw e => match e with end | Undef => undef end.

(** ** HDF5File *)

(** frameProcessor/src/HDF5File.cpp:194-216 (close_file): releases datasets and the file; idempotent.
    HDF5 close failures are not modelled. *)
Definition h5_close (f : hfile) : hfile :=
  if hf_open f then HFile (hf_name f) (hf_index f) false (hf_unlim f) (fun _ => None) else f.

(** frameProcessor/src/Acquisition.cpp:289-301 (close_file). [None] is the null pointer. *)
Definition close_file (f : option hfile) : M (option hfile) :=
  match f with
  | None => ret None
  | Some f => let f' := h5_close f in emit (EvClose (hf_name f')) ;;; ret (Some f')
  end.

(** frameProcessor/src/HDF5File.cpp:404-546 (create_dataset): [rows] is definition.num_frames.
    chunks.size() != frame_dimensions.size() + 1 throws; a fixed dataset of zero rows gets a chunk of zero rows,
    which H5Pset_chunk refuses; other HDF5 failures come from [ok]. *)
Definition create_dataset (ok : bool) (d : dsdef) (rows : N) (low high : Z) : M unit :=
  s <- get ;;
  match a_cur (s_acq s) with
  | None => undef
  | Some f =>
    if negb (Nat.eqb (List.length (d_chunks d)) (S (List.length (d_dims d)))) then throw EBadChunks
    else
      let rows0 := if hf_unlim f then 1 else rows in
      if negb (hf_unlim f) && (rows =? 0) then throw EHdf5
      else if negb ok then throw EHdf5
      else
        match s_disk s (hf_name f) with
        | None => throw EHdf5     (* the file has been removed from disk: cannot happen in the model *)
        | Some df =>
          set_disk (upd (s_disk s) (hf_name f)
                      (Some (upd df (d_name d)
                               (Some (DDset rows0 (fun _ => None)
                                        (if d_lowhigh d then Some (low, high) else None)))))) ;;;
          put_cur (Some (HFile (hf_name f) (hf_index f) (hf_open f) (hf_unlim f)
                               (upd (hf_dsets f) (d_name d) (Some (HDset rows0 0)))))
        end
  end.

(** frameProcessor/src/Acquisition.cpp:310-324 (validate_dataset_definition). *)
Definition validate_definition (d : dsdef) : M unit :=
  if existsb (N.eqb 0) (d_dims d) then throw EZeroDims
  else if existsb (N.eqb 0) (d_chunks d) then throw EZeroChunks
  else ret tt.

(** frameProcessor/src/Acquisition.cpp:248-256: low and high index attributes (int arithmetic taken exactly). *)
Definition low_high (a : acq) (d : dsdef) (n : N) : Z * Z :=
  let g := a_geom a in
  if d_lowhigh d && (1 <? g_fpb g) then
    let low := (Z.of_N n * Z.of_N (g_fpb g) + 1)%Z in
    let high := (low + Z.of_N (g_fpb g) - 1)%Z in
    if (g_bpf g =? 0) || (Z.of_N (a_total a) <? high)%Z then (low, Z.of_N (a_total a)) else (low, high)
  else ((-1)%Z, (-1)%Z).

(** frameProcessor/src/Acquisition.cpp:258-273: number of rows of dataset [d] in file [n].  int variables are
    truncated to 32 bits, overflow of the int product of line 263 is undefined, chunks[0] of an empty vector is
    undefined, division by zero processes is undefined. *)
Definition dataset_rows (a : acq) (d : dsdef) (n : N) : outcome Empty_set N :=
  let g := a_geom a in
  match d_chunks d with
  | [] => Undef
  | c0 :: _ =>
    if g_procs g =? 0 then Undef
    else
      let wrap := i32 (Z.of_N (n / g_procs g + 1)) in
      let fpf := i32 (Z.of_N (g_bpf g * g_fpb g * c0)) in
      if (1 <? fpf)%Z then
        if negb (in_i32 (wrap * fpf)) then Undef
        else if a_towrite a <? u64 (wrap * fpf) then Ret (a_towrite a mod Z.to_N fpf)
        else Ret (Z.to_N fpf)
      else Ret (a_towrite a)
  end.

(** frameProcessor/src/Acquisition.cpp:239-276: the loop over the dataset definitions. *)
Fixpoint create_datasets (i : io) (n : N) (ds : list dsdef) : M unit :=
  match ds with
  | [] => ret tt
  | d :: t =>
    s <- get ;;
    rows <- lift (dataset_rows (s_acq s) d n) ;;
    validate_definition d ;;;
    create_dataset (io_dset i n (d_name d)) d rows (fst (low_high (s_acq s) d n)) (snd (low_high (s_acq s) d n)) ;;;
    create_datasets i n t
  end.

(** boost::filesystem::path(file_path_) / filename_ (Acquisition.cpp:221), for a directory without trailing slash. *)
Definition full_path (a : acq) (n : N) : string :=
  (a_path a ++ "/" ++ generate_filename (a_naming a) n)%string.

(** frameProcessor/src/Acquisition.cpp:213-279 (create_file) with HDF5File::create_file (HDF5File.cpp:129-187):
    H5Fcreate truncates an existing file; if it fails, the new HDF5File object keeps file_index_ 0. *)
Definition create_file (i : io) (n : N) : M unit :=
  s <- get ;;
  p <- close_file (a_prev (s_acq s)) ;;
  put_prev p ;;;
  s <- get ;;
  put_prev (a_cur (s_acq s)) ;;;
  let path := full_path (s_acq s) n in
  if negb (io_create i n) then
    put_cur (Some (HFile path 0 false false (fun _ => None))) ;;; throw EHdf5
  else
    set_disk (upd (s_disk s) path (Some (fun _ => None))) ;;;
    put_cur (Some (HFile path n true (a_total (s_acq s) =? 0) (fun _ => None))) ;;;
    emit (EvCreate path) ;;;
    create_datasets i n (a_defs (s_acq s)) ;;;
    (if io_dset i n "" then ret tt else throw EHdf5).

(** ** Frames *)

Definition find_def (ds : list dsdef) (name : string) : option dsdef :=
  find (fun d => String.eqb (d_name d) name) ds.

Fixpoint eqb_dims (a b : list N) : bool :=
  match a, b with
  | [], [] => true
  | x :: a', y :: b' => (x =? y) && eqb_dims a' b'
  | _, _ => false
  end.

(** frameProcessor/src/Acquisition.cpp:413-494 (check_frame_valid); error texts left out. *)
Definition check_frame_valid (a : acq) (f : frame) : bool :=
  match find_def (a_defs a) (f_dataset f) with
  | None => false
  | Some d =>
    let bad_comp := match f_comp f with CUnknown => true | c => negb (ctype_eqb c (d_comp d)) end in
    let bad_type := match f_type f with TUnknown => true | t => negb (dtype_eqb t (d_type d)) end in
    let bad_dims := negb (eqb_dims (f_dims f) (d_dims d)) in
    negb (bad_comp || bad_type || bad_dims)
  end.

(** Which of the two open files a frame goes to. *)
Inductive which := Cur | Prev.

(** The while loop of get_file (Acquisition.cpp:563-569).  [fuel] is the distance between the indexes, which is
    enough because the index grows by the number of processes each time. *)
Fixpoint create_missing (i : io) (fuel : nat) (target : N) : M unit :=
  s <- get ;;
  match a_cur (s_acq s) with
  | None => undef
  | Some c =>
    let next := hf_index c + g_procs (a_geom (s_acq s)) in
    if next <? target then
      match fuel with
      | O => undef
      | S k => create_file i next ;;; create_missing i k target
      end
    else ret tt
  end.

(** frameProcessor/src/Acquisition.cpp:545-581 (get_file); [None] is the null pointer. *)
Definition get_file (i : io) (off : N) : M (option which) :=
  s <- get ;;
  if g_bpf (a_geom (s_acq s)) =? 0 then ret (Some Cur)
  else
    idx <- lift (file_index (a_geom (s_acq s)) off) ;;
    match a_cur (s_acq s) with
    | None => undef
    | Some c =>
      if idx =? hf_index c then ret (Some Cur)
      else if match a_prev (s_acq s) with Some p => idx =? hf_index p | None => false end then ret (Some Prev)
      else if hf_index c <? idx then
        create_missing i (N.to_nat (idx - hf_index c)) idx ;;;
        create_file i idx ;;;
        ret (Some Cur)
      else ret None
    end.

Definition file_of (w : which) (a : acq) : option hfile :=
  match w with Cur => a_cur a | Prev => a_prev a end.
Definition put_file (w : which) (f : hfile) : M unit :=
  match w with Cur => put_cur (Some f) | Prev => put_prev (Some f) end.

(** frameProcessor/src/HDF5File.cpp:607-616 (get_dataset_max_size), 558-568 (get_hdf5_dataset). *)
Definition max_size (f : hfile) (name : string) : outcome exn N :=
  if hf_unlim f then Ret 0
  else match hf_dsets f name with Some d => Ret (hd_rows d) | None => Throw ENoDataset end.

Definition olift {A} (o : outcome exn A) : M A :=
  match o with Ret a => ret a | Throw e => throw e | Undef => undef end.

(** frameProcessor/src/HDF5File.cpp:581-589 (extend_dataset). *)
Definition extend (d : hdset) (rows : N) : hdset :=
  if hd_rows d <? rows then HDset rows (hd_actual d) else d.

(** One chunk stored on disk: rows are extended first if [unlim]; H5DOwrite_chunk/H5Dwrite refuse a start row
    outside the dataset.  [None]: refused. *)
Definition store (unlim : bool) (dd : ddset) (rows start : N) (data : list N) (ok : bool) : ddset * bool :=
  let rows' := if unlim then N.max (dd_rows dd) rows else dd_rows dd in
  if ok && (start <? rows')
  then (DDset rows' (fun r => if r =? start then Some data else dd_cells dd r) (dd_lowhigh dd), true)
  else (DDset rows' (dd_cells dd) (dd_lowhigh dd), false).

(** Common part of write_frame and write_parameter: extend if unlimited, write [data] at row [start]. *)
Definition write_rows (ok : bool) (w : which) (name : string) (rows start : N) (data : list N) : M unit :=
  s <- get ;;
  match file_of w (s_acq s) with
  | None => undef
  | Some f =>
    match hf_dsets f name with
    | None => throw ENoDataset
    | Some hd =>
      let hd' := if hf_unlim f then extend hd rows else hd in
      put_file w (HFile (hf_name f) (hf_index f) (hf_open f) (hf_unlim f) (upd (hf_dsets f) name (Some hd'))) ;;;
      match s_disk s (hf_name f) with
      | None => undef            (* an open file always exists: see AcqProofs *)
      | Some df =>
        match df name with
        | None => undef          (* an open dataset always exists: see AcqProofs *)
        | Some dd =>
          let r := store (hf_unlim f) dd rows start data ok in
          set_disk (upd (s_disk s) (hf_name f) (Some (upd df name (Some (fst r))))) ;;;
          if snd r then ret tt else throw EHdf5
        end
      end
    end
  end.

(** frameProcessor/src/HDF5File.cpp:277-281: actual_dataset_size_. *)
Definition note_actual (w : which) (name : string) (upto : N) : M unit :=
  s <- get ;;
  match file_of w (s_acq s) with
  | None => undef
  | Some f =>
    match hf_dsets f name with
    | None => throw ENoDataset
    | Some hd =>
      put_file w (HFile (hf_name f) (hf_index f) (hf_open f) (hf_unlim f)
                    (upd (hf_dsets f) name (Some (HDset (hd_rows hd) (N.max (hd_actual hd) upto)))))
    end
  end.

(** frameProcessor/src/HDF5File.cpp:227-282 (write_frame). *)
Definition write_frame (i : io) (w : which) (f : frame) (off c0 : N) : M unit :=
  write_rows (io_write i) w (f_dataset f) ((off + 1) * c0) (off * c0) (f_data f) ;;;
  note_actual w (f_dataset f) (off * c0 + f_ocs f).

(** frameProcessor/src/HDF5File.cpp:303-335: the value is read with the type of the dataset; unknown is read as
    16 bit.  A parameter of another type throws. *)
Definition param_value (d : dsdef) (v : pval) : outcome exn N :=
  let want := match d_type d with TUnknown => T16 | t => t end in
  match v with PV t x => if dtype_eqb t want then Ret x else Throw EBadParam end.

(** frameProcessor/src/HDF5File.cpp:291-395 (write_parameter) and Acquisition.cpp:127-137 (the loop). *)
Fixpoint write_params (i : io) (w : which) (ps : list (string * pval)) (off : N) : M unit :=
  match ps with
  | [] => ret tt
  | (name, v) :: t =>
    s <- get ;;
    match find_def (a_defs (s_acq s)) name with
    | None => write_params i w t off
    | Some d =>
      x <- olift (param_value d v) ;;
      write_rows (io_param i) w (d_name d) (off + 1) off [x] ;;;
      write_params i w t off
    end
  end.

(** ProcessFrameStatus (Acquisition.h). *)
Inductive status := SOk | SComplete | SMissing | SInvalid.

(** frameProcessor/src/Acquisition.cpp:148-166: counting of master frames. *)
Definition count_frame (f : frame) : M unit :=
  s <- get ;;
  let a := s_acq s in
  if String.eqb (a_master a) "" || String.eqb (a_master a) (f_dataset f) then
    match a_cur a with
    | None => undef
    | Some c =>
      match hf_dsets c (f_dataset f) with
      | None => throw ENoDataset
      | Some hd =>
        if g_procs (a_geom a) =? 0 then undef
        else
          let before := hf_index c / g_procs (a_geom a) * g_fpb (a_geom a) * g_bpf (a_geom a) in
          let total := before + hd_actual hd in
          put_counts (N.max (a_written a) total) (a_processed a + f_ocs f)
      end
    end
  else ret tt.

(** frameProcessor/src/Acquisition.cpp:84-182: the body of process_frame inside the try block. *)
Definition process_body (i : io) (f : frame) : M status :=
  s <- get ;;
  if negb (check_frame_valid (s_acq s) f) then ret SInvalid
  else
    off <- match adjust_frame_offset (f_number f) (f_adj f) with
           | Ret o => ret o | Throw _ => throw ERange | Undef => undef end ;;
    mine <- lift (rank_test (a_geom (s_acq s)) off) ;;
    if negb mine then ret SInvalid
    else
      fo <- get_file i off ;;
      match fo with
      | None => ret SInvalid
      | Some w =>
        s <- get ;;
        pos <- lift (offset_in_file (a_geom (s_acq s)) off) ;;
        match file_of w (s_acq s) with
        | None => undef
        | Some fl =>
          mx <- olift (max_size fl (f_dataset f)) ;;
          let dmo := i32 (Z.of_N mx - 1) in
          if negb (dmo =? 0)%Z && (u64 dmo <? pos) then ret SInvalid
          else
            match find_def (a_defs (s_acq s)) (f_dataset f) with
            | None => throw ENoDataset
            | Some d =>
              match d_chunks d with
              | [] => undef
              | c0 :: _ =>
                write_frame i w f pos c0 ;;;
                write_params i w (f_params f) pos ;;;
                emit (EvWrite (f_number f) off) ;;;
                count_frame f ;;;
                s <- get ;;
                let a := s_acq s in
                if (0 <? a_towrite a) && (a_written a =? a_towrite a)
                then ret (if a_towrite a <=? a_processed a then SComplete else SMissing)
                else ret SOk
              end
            end
        end
      end.

(** frameProcessor/src/Acquisition.cpp:84-203 (process_frame): every exception becomes status_invalid. *)
Definition process_frame (i : io) (f : frame) (s : st) : st * option status :=
  match process_body i f s with
  | (s', Ret r) => (s', Some r)
  | (s', Throw _) => (s', Some SInvalid)
  | (s', Undef) => (s', None)
  end.

(** frameProcessor/src/Acquisition.cpp:343-395 (start_acquisition).  The settings stored in lines 359-379 are
    already in [s_acq] here. *)
Definition start_acquisition (i : io) : M bool :=
  s <- get ;;
  if String.eqb (generate_filename (a_naming (s_acq s)) (g_rank (a_geom (s_acq s)))) "" then ret false
  else
    emit EvStart ;;;
    create_file i (g_rank (a_geom (s_acq s))) ;;;
    ret true.

(** frameProcessor/src/Acquisition.cpp:400-404 (stop_acquisition). *)
Definition stop_acquisition : M unit :=
  s <- get ;;
  p <- close_file (a_prev (s_acq s)) ;;
  put_prev p ;;;
  c <- close_file (a_cur (s_acq s)) ;;
  put_cur c ;;;
  emit EvStop.

(** An acquisition as configured, before it is started (constructor, Acquisition.cpp:40-61, plus the settings). *)
Definition configured (g : geom) (nm : naming) (path master : string) (total towrite : N) (defs : list dsdef) : acq :=
  Acq g nm path master total towrite defs 0 0 None None.

(** A run: frames offered one after another, with the HDF5 failures of each call. *)
Fixpoint run (s : st) (l : list (io * frame)) : st * list (option status) :=
  match l with
  | [] => (s, [])
  | (i, f) :: t =>
    let '(s1, r) := process_frame i f s in
    let '(s2, rs) := run s1 t in (s2, r :: rs)
  end.
