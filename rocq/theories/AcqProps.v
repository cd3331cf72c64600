(** Properties C07 - C13: one writer process, from the start of an acquisition through any sequence of frames. *)
From Verif Require Import Base PlaceModel PlaceSpec NameModel AcqModel AcqSpec AcqThms AcqAny.
Local Open Scope N_scope.

(** Hypotheses used below.  [setup_ok]: a usable configuration (AcqSpec).  [dk]: the disk before the acquisition, any
    content.  [t]: any list of frames, each with the HDF5 failures during its call.  [creates]: H5Fcreate works.
    [no_failure]: nothing fails except possibly writing image data. *)

(** C07.  After any frames, the next one is reported as written exactly if it matches its dataset definition, belongs
    to this process, is not too late and there is room for it. *)
Theorem c07_written_iff_partial : forall g nm dir master total towrite defs K dk, setup_ok g nm defs K ->
  let a0 := configured g nm dir master total towrite defs in
  forall i0 s0 t s rs i f,
  no_failure i0 -> rows_ok g total towrite defs K -> (total = 0 \/ towrite <= 2 ^ 31) ->
  start_acquisition i0 (St a0 dk []) = (s0, Ret true) ->
  Forall (fun c => no_failure (fst c) /\ number_ok g K (snd c)) t ->
  run s0 t = (s, rs) ->
  no_failure i -> io_write i = true -> number_ok g K f -> number_small f -> params_ok g total towrite defs f ->
  (written (snd (process_frame i f s)) = true <->
   matches defs f /\
   exists off, adjusted f = Z.of_N off /\ block_of (g_fpb g) off mod g_procs g = g_rank g /\
     N.of_nat (List.length (created (s_log s))) <= row_of (g_procs g) (g_fpb g) (g_bpf g) off + 2 /\
     (total = 0 \/ forall d c0, In d defs -> d_name d = f_dataset f -> hd_error (d_chunks d) = Some c0 ->
        slot_of (g_procs g) (g_fpb g) (g_bpf g) off * c0
        < expected_rows (g_fpb g) (g_bpf g) towrite c0 (row_of (g_procs g) (g_fpb g) (g_bpf g) off))).
Proof. exact written_iff. Qed.
Print Assumptions c07_written_iff_partial.

(** C07.  A frame that does not match is reported as invalid and nothing at all changes, in any state. *)
Theorem c07_mismatch_refused : forall i f s, ~ matches (a_defs (s_acq s)) f ->
  process_frame i f s = (s, Some SInvalid).
Proof. exact mismatch_refused. Qed.
Print Assumptions c07_mismatch_refused.

(** C08.  After any frames and failures of HDF5 writes: there is a list [stored] of which frames were stored, which
    contains all frames reported as written (and only those, if no dataset creation or parameter write failed); every
    slot of every file created holds the data of the last frame stored there; no frame was stored for a file that was
    not created, and no other file has changed. *)
Theorem c08_readback : forall g nm dir master total towrite defs K dk, setup_ok g nm defs K ->
  let a0 := configured g nm dir master total towrite defs in
  forall i0 s0 t s rs,
  creates i0 -> start_acquisition i0 (St a0 dk []) = (s0, Ret true) ->
  Forall (fun c => creates (fst c) /\ number_ok g K (snd c)) t ->
  run s0 t = (s, rs) ->
  exists stored : list bool,
    Forall2 (fun r b => r <> None /\ (written r = true -> b = true)) rs stored /\
    (no_failure i0 -> rows_ok g total towrite defs K ->
     Forall (fun c => no_failure (fst c) /\ params_ok g total towrite defs (snd c)) t -> stored = map written rs) /\
    (forall p, ~ In p (created (s_log s)) -> s_disk s p = dk p) /\
    forall k d c0 slot, k <= K -> In d defs -> hd_error (d_chunks d) = Some c0 ->
      slot_exists (g_fpb g) (g_bpf g) k slot -> Forall (fun c => not_param (d_name d) (snd c)) t ->
      let path := path_of dir nm (k * g_procs g + g_rank g) in
      let want := last_stored (combine (map snd t) stored) (d_name d)
                    (frame_in (g_procs g) (g_fpb g) (g_bpf g) (g_rank g) k slot) in
      (In path (created (s_log s)) -> read (s_disk s) path (d_name d) (slot * c0) = want) /\
      (~ In path (created (s_log s)) -> want = None).
Proof. exact readback. Qed.
Print Assumptions c08_readback.

(** C08 for datasets that record a parameter of the frames. *)
Theorem c08_readback_params : forall g nm dir master total towrite defs K dk, setup_ok g nm defs K ->
  let a0 := configured g nm dir master total towrite defs in
  forall i0 s0 t s rs,
  no_failure i0 -> rows_ok g total towrite defs K -> start_acquisition i0 (St a0 dk []) = (s0, Ret true) ->
  Forall (fun c => number_ok g K (snd c) /\ no_failure (fst c) /\ params_ok g total towrite defs (snd c) /\
                   NoDup (map fst (f_params (snd c)))) t ->
  run s0 t = (s, rs) ->
  forall k d slot, k <= K -> In d defs -> slot_exists (g_fpb g) (g_bpf g) k slot ->
    Forall (fun c => f_dataset (snd c) <> d_name d) t ->
    let path := path_of dir nm (k * g_procs g + g_rank g) in
    In path (created (s_log s)) ->
    read (s_disk s) path (d_name d) slot =
    last_param (combine (map snd t) (map written rs)) (d_name d)
               (frame_in (g_procs g) (g_fpb g) (g_bpf g) (g_rank g) k slot).
Proof. exact readback_params. Qed.
Print Assumptions c08_readback_params.

(** C08/C09, the start: with a usable configuration and nothing failing, the acquisition starts. *)
Theorem c09_starts : forall g nm dir master total towrite defs K dk, setup_ok g nm defs K ->
  let a0 := configured g nm dir master total towrite defs in
  forall i0, no_failure i0 -> rows_ok g total towrite defs K ->
  exists s0, start_acquisition i0 (St a0 dk []) = (s0, Ret true).
Proof. exact start_ok. Qed.
Print Assumptions c09_starts.

(** C09.  The files created are number rank, rank + N, rank + 2N, ..., each once; all but the last two have been
    closed and those are open; stopping closes everything and changes no file. *)
Theorem c09_file_sequence : forall g nm dir master total towrite defs K dk, setup_ok g nm defs K ->
  let a0 := configured g nm dir master total towrite defs in
  forall i0 s0 t s rs,
  creates i0 -> start_acquisition i0 (St a0 dk []) = (s0, Ret true) ->
  Forall (fun c => creates (fst c) /\ number_ok g K (snd c)) t ->
  run s0 t = (s, rs) ->
  exists n, (1 <= n)%nat /\
    created (s_log s) = map (path_of dir nm) (every n (g_rank g) (g_procs g)) /\
    NoDup (created (s_log s)) /\
    closed (s_log s) ++ open_file (a_prev (s_acq s)) ++ open_file (a_cur (s_acq s)) = created (s_log s) /\
    (forall s', stop_acquisition s = (s', Ret tt) ->
       created (s_log s') = created (s_log s) /\ closed (s_log s') = created (s_log s) /\ s_disk s' = s_disk s) /\
    exists s', stop_acquisition s = (s', Ret tt).
Proof. exact file_sequence. Qed.
Print Assumptions c09_file_sequence.

(** C10.  A frame for a file older than the two open ones is refused and nothing changes. *)
Theorem c10_late_refused : forall g nm dir master total towrite defs K dk, setup_ok g nm defs K ->
  let a0 := configured g nm dir master total towrite defs in
  forall i0 s0 t s rs i f,
  creates i0 -> start_acquisition i0 (St a0 dk []) = (s0, Ret true) ->
  Forall (fun c => creates (fst c) /\ number_ok g K (snd c)) t ->
  run s0 t = (s, rs) ->
  number_ok g K f -> creates i ->
  row_of (g_procs g) (g_fpb g) (g_bpf g) (Z.to_N (adjusted f)) + 2 < N.of_nat (List.length (created (s_log s))) ->
  process_frame i f s = (s, Some SInvalid).
Proof. exact late_refused. Qed.
Print Assumptions c10_late_refused.

(** C11 (chunks of one frame, frames of outer chunk size 1).  frames_processed is the number of counted frames
    written; frames_written is beyond the position of each of them and not beyond that of every frame offered. *)
Theorem c11_counters_partial : forall g nm dir master total towrite defs K dk, setup_ok g nm defs K ->
  let a0 := configured g nm dir master total towrite defs in
  forall i0 s0 t s rs,
  (forall d, In d defs -> hd_error (d_chunks d) = Some 1) -> no_failure i0 -> rows_ok g total towrite defs K ->
  start_acquisition i0 (St a0 dk []) = (s0, Ret true) ->
  Forall (fun c => number_ok g K (snd c) /\ no_failure (fst c) /\ params_ok g total towrite defs (snd c) /\
                   f_ocs (snd c) = 1) t ->
  run s0 t = (s, rs) ->
  let hist := combine (map snd t) (map written rs) in
  a_processed (s_acq s) = N.of_nat (List.length (counted_frames master hist)) /\
  (forall f, In f (counted_frames master hist) ->
     local_of (g_procs g) (g_fpb g) (Z.to_N (adjusted f)) < a_written (s_acq s)) /\
  (a_written (s_acq s) = 0 \/ exists f, In f (map snd t) /\ (0 <= adjusted f)%Z /\
      block_of (g_fpb g) (Z.to_N (adjusted f)) mod g_procs g = g_rank g /\
      a_written (s_acq s) <= local_of (g_procs g) (g_fpb g) (Z.to_N (adjusted f)) + 1).
Proof. exact counters. Qed.
Print Assumptions c11_counters_partial.

(** C11.  frames_written never goes down. *)
Theorem c11_monotone : forall i f s s' r, process_frame i f s = (s', r) ->
  a_written (s_acq s) <= a_written (s_acq s') /\ a_processed (s_acq s) <= a_processed (s_acq s').
Proof. exact counters_monotone. Qed.
Print Assumptions c11_monotone.

(** C11.  When every expected frame of the counted dataset has been written, frames_written is the expected number. *)
Theorem c11_exact_at_end_partial : forall g nm dir master total towrite defs K dk, setup_ok g nm defs K ->
  let a0 := configured g nm dir master total towrite defs in
  forall i0 s0 t s rs,
  (forall d, In d defs -> hd_error (d_chunks d) = Some 1) -> no_failure i0 -> rows_ok g total towrite defs K ->
  start_acquisition i0 (St a0 dk []) = (s0, Ret true) ->
  Forall (fun c => number_ok g K (snd c) /\ no_failure (fst c) /\ params_ok g total towrite defs (snd c) /\
                   f_ocs (snd c) = 1) t ->
  calc_num_frames g total = Ret towrite ->
  Forall (fun c => (adjusted (snd c) < Z.of_N total)%Z) t ->
  run s0 t = (s, rs) ->
  let hist := combine (map snd t) (map written rs) in
  (forall off, off < total /\ block_of (g_fpb g) off mod g_procs g = g_rank g ->
     exists f, In f (counted_frames master hist) /\ adjusted f = Z.of_N off) ->
  a_written (s_acq s) = towrite.
Proof. exact exact_at_end. Qed.
Print Assumptions c11_exact_at_end_partial.

(** C12 (chunks of one frame, no duplicates among counted frames, no frame beyond the total).  A written frame
    reports completion exactly if every expected frame has been written by then; it reports missing frames exactly
    if the last expected one has been written and some other has not. *)
Theorem c12_completion_partial : forall g nm dir master total towrite defs K dk, setup_ok g nm defs K ->
  let a0 := configured g nm dir master total towrite defs in
  forall i0 s0 t s rs i f s1 r,
  (forall d, In d defs -> hd_error (d_chunks d) = Some 1) -> no_failure i0 -> rows_ok g total towrite defs K ->
  start_acquisition i0 (St a0 dk []) = (s0, Ret true) ->
  Forall (fun c => number_ok g K (snd c) /\ no_failure (fst c) /\ params_ok g total towrite defs (snd c) /\
                   f_ocs (snd c) = 1) (t ++ [(i, f)]) ->
  calc_num_frames g total = Ret towrite -> 0 < towrite ->
  Forall (fun c => (adjusted (snd c) < Z.of_N total)%Z) (t ++ [(i, f)]) ->
  NoDup (map adjusted (filter (is_counted master) (map snd (t ++ [(i, f)])))) ->
  run s0 t = (s, rs) -> process_frame i f s = (s1, Some r) ->
  let hist := combine (map snd t) (map written rs) ++ [(f, written (Some r))] in
  let expected off := off < total /\ block_of (g_fpb g) off mod g_procs g = g_rank g in
  let arrived off := exists f', In f' (counted_frames master hist) /\ adjusted f' = Z.of_N off in
  let last off := expected off /\ forall off', expected off' -> off' <= off in
  written (Some r) = true ->
  (r = SComplete <-> forall off, expected off -> arrived off) /\
  (r = SMissing <-> (forall off, last off -> arrived off) /\ exists off, expected off /\ ~ arrived off).
Proof. exact completion. Qed.
Print Assumptions c12_completion_partial.

(** C13.  Without a size limit a dataset has exactly the rows needed for the frames written (at least one). *)
Theorem c13_extent_unlimited : forall g nm dir master total towrite defs K dk, setup_ok g nm defs K ->
  let a0 := configured g nm dir master total towrite defs in
  forall i0 s0 t s rs,
  no_failure i0 -> total = 0 -> start_acquisition i0 (St a0 dk []) = (s0, Ret true) ->
  Forall (fun c => number_ok g K (snd c) /\ no_failure (fst c) /\ io_write (fst c) = true /\
                   params_ok g total towrite defs (snd c)) t ->
  run s0 t = (s, rs) ->
  forall k d c0, k <= K -> In d defs -> hd_error (d_chunks d) = Some c0 ->
    Forall (fun c => not_param (d_name d) (snd c)) t ->
    let path := path_of dir nm (k * g_procs g + g_rank g) in
    In path (created (s_log s)) ->
    rows_of (s_disk s) path (d_name d) =
    Some (extent (g_procs g) (g_fpb g) (g_bpf g) (combine (map snd t) (map written rs)) (d_name d) c0 k).
Proof. exact extent_exact. Qed.
Print Assumptions c13_extent_unlimited.

(** C13.  With a total the size is fixed from the start; it never depends on the frames. *)
Theorem c13_extent_fixed : forall g nm dir master total towrite defs K dk, setup_ok g nm defs K ->
  let a0 := configured g nm dir master total towrite defs in
  forall i0 s0 t s rs,
  no_failure i0 -> total <> 0 -> rows_ok g total towrite defs K ->
  start_acquisition i0 (St a0 dk []) = (s0, Ret true) ->
  Forall (fun c => number_ok g K (snd c) /\ no_failure (fst c)) t ->
  run s0 t = (s, rs) ->
  forall k d c0, k <= K -> In d defs -> hd_error (d_chunks d) = Some c0 ->
    let path := path_of dir nm (k * g_procs g + g_rank g) in
    In path (created (s_log s)) ->
    rows_of (s_disk s) path (d_name d) = Some (expected_rows (g_fpb g) (g_bpf g) towrite c0 k).
Proof. exact extent_fixed. Qed.
Print Assumptions c13_extent_fixed.

(** C13.  Extents never shrink, whatever writes fail. *)
Theorem c13_extent_grows : forall g nm dir master total towrite defs K dk, setup_ok g nm defs K ->
  let a0 := configured g nm dir master total towrite defs in
  forall i0 s0 t1 t2 s1 rs1 s2 rs2,
  no_failure i0 -> rows_ok g total towrite defs K -> start_acquisition i0 (St a0 dk []) = (s0, Ret true) ->
  Forall (fun c => number_ok g K (snd c) /\ no_failure (fst c)) (t1 ++ t2) ->
  run s0 t1 = (s1, rs1) -> run s1 t2 = (s2, rs2) ->
  forall k d, k <= K -> In d defs ->
    let path := path_of dir nm (k * g_procs g + g_rank g) in
    In path (created (s_log s1)) ->
    exists n1 n2, rows_of (s_disk s1) path (d_name d) = Some n1 /\ rows_of (s_disk s2) path (d_name d) = Some n2 /\
      1 <= n1 <= n2.
Proof. exact extent_grows. Qed.
Print Assumptions c13_extent_grows.

(** ** A concrete acquisition that meets all the hypotheses *)
Definition xg : geom := Geom 2 1 2 2.
Definition xnm : naming := Naming "run" "" "" ".h5" true 0.
Definition xdefs : list dsdef :=
  [DsDef "data" T16 CNone [3; 4] [1; 3; 4] false; DsDef "par" T64 CNone [] [1] false].
Definition xframe (n v : N) : frame := Frame n 0 "data" "" T16 CNone [3; 4] [("par"%string, PV T64 (100 + v))] 1 [v].
Definition xacq (total towrite : N) : acq := configured xg xnm "dir" "data" total towrite xdefs.
Definition xdisk : disk := fun _ => None.
Definition xstart (a : acq) : st := fst (start_acquisition io_ok (St a xdisk [])).
Definition xrun (a : acq) (l : list frame) : st * list (option status) := run (xstart a) (map (fun f => (io_ok, f)) l).

Example x_setup : setup_ok xg xnm xdefs 100.
Proof.
  constructor.
  - discriminate.
  - reflexivity.
  - discriminate.
  - repeat constructor; cbn; intuition discriminate.
  - intros d n [<-|[<-|[]]]; cbn [d_dims In]; intuition subst; discriminate.
  - intros d n [<-|[<-|[]]]; cbn [d_chunks In]; intuition subst; discriminate.
  - intros d [<-|[<-|[]]]; reflexivity.
  - intros d c0 [<-|[<-|[]]] [= <-]; vm_compute; reflexivity.
  - reflexivity.
  - left. discriminate.
  - vm_compute. reflexivity.
Qed.

Example x_nofail : no_failure io_ok.
Proof. repeat split. Qed.

Example x_rows : rows_ok xg 0 0 xdefs 100 /\ rows_ok xg 16 8 xdefs 1.
Proof.
  split; [left; reflexivity|right]. cbn. intros d c0 k [<-|[<-|[]]] [= <-] Hk; unfold expected_rows; cbn -[N.ltb N.mul N.add];
    (assert (k = 0 \/ k = 1) as [->| ->] by lia; reflexivity).
Qed.

Example x_frame n v : n <= 500 -> number_ok xg 100 (xframe n v) /\ number_small (xframe n v) /\
   params_ok xg 0 0 xdefs (xframe n v) /\ f_ocs (xframe n v) = 1 /\ NoDup (map fst (f_params (xframe n v))) /\
   not_param "data" (xframe n v) /\ f_dataset (xframe n v) <> "par"%string.
Proof.
  intros Hn. split; [|split; [|split; [|split; [|split; [|split]]]]].
  - unfold number_ok, adjusted. cbn [f_number f_adj xframe]. repeat split; try lia.
    unfold row_of. change (g_procs xg) with 2. change (g_fpb xg) with 2. change (g_bpf xg) with 2. cbn [N.eqb].
    rewrite Z.add_0_r, N2Z.id. rewrite !N.div_div by lia. apply N.div_le_upper_bound; lia.
  - unfold number_small. cbn. lia.
  - intros n' v' d [[= <- <-]|[]] [<-|[<-|[]]]; cbn; intros E; try discriminate. split; [eauto|left; reflexivity].
  - reflexivity.
  - repeat constructor; cbn; tauto.
  - unfold not_param. cbn. intuition discriminate.
  - discriminate.
Qed.

(** Frames 2 .. 7 and 10 arriving out of order: two files are used, everything is read back. *)
Example x_run : let r := xrun (xacq 0 0) [xframe 3 30; xframe 10 31; xframe 2 32; xframe 5 33; xframe 3 34] in
  snd r = [Some SOk; Some SOk; Some SOk; Some SInvalid; Some SOk] /\
  created (s_log (fst r)) = ["dir/run_000001.h5"%string; "dir/run_000003.h5"%string] /\
  read (s_disk (fst r)) "dir/run_000001.h5" "data" 0 = Some [32] /\
  read (s_disk (fst r)) "dir/run_000001.h5" "data" 1 = Some [34] /\
  read (s_disk (fst r)) "dir/run_000001.h5" "par" 1 = Some [134] /\
  read (s_disk (fst r)) "dir/run_000003.h5" "data" 0 = Some [31] /\
  frame_in 2 2 2 1 1 0 = 10 /\ rows_of (s_disk (fst r)) "dir/run_000001.h5" "data" = Some 2.
Proof. vm_compute. repeat split. Qed.

(** A frame too late. *)
Example x_late : let r := xrun (xacq 0 0) [xframe 2 1; xframe 26 2; xframe 3 3] in
  snd r = [Some SOk; Some SOk; Some SInvalid] /\ List.length (created (s_log (fst r))) = 4%nat.
Proof. vm_compute. repeat split. Qed.

(** Completion of 16 frames of which this process expects 8. *)
Example x_complete : calc_num_frames xg 16 = Ret 8 /\
  snd (xrun (xacq 16 8) (map (fun n => xframe n n) [2; 3; 6; 7; 10; 15; 11; 14]))
  = [Some SOk; Some SOk; Some SOk; Some SOk; Some SOk; Some SMissing; Some SMissing; Some SComplete].
Proof. vm_compute. repeat split. Qed.

(** ** What fails *)

(** C07/C08: a frame whose parameter has another type than the dataset is reported as invalid although its image has
    been stored. *)
Theorem c07_invalid_but_stored_refuted : exists i f s,
  snd (process_frame i f s) = Some SInvalid /\
  read (s_disk s) "dir/run_000001.h5" "data" 0 = None /\
  read (s_disk (fst (process_frame i f s))) "dir/run_000001.h5" "data" 0 = Some [7].
Proof.
  exists io_ok, (Frame 2 0 "data" "" T16 CNone [3; 4] [("par"%string, PV T32 5)] 1 [7]), (xstart (xacq 0 0)).
  vm_compute. repeat split.
Qed.
Print Assumptions c07_invalid_but_stored_refuted.

(** C08: if H5Fcreate fails once, the writer forgets its file number and creates files from the number of processes
    on: here file 2, which belongs to the other process and held its frame 8, is truncated. *)
Definition failing_create : io := IO (fun _ => false) (fun _ _ => true) true true.
Definition other_disk : disk :=
  s_disk (fst (run (fst (start_acquisition io_ok (St (configured (Geom 2 0 2 2) xnm "dir" "data" 0 0 xdefs) xdisk [])))
                   [(io_ok, xframe 8 99)])).
Theorem c08_create_failure_refuted :
  let s := fst (start_acquisition io_ok (St (xacq 0 0) other_disk [])) in
  let r := run s [(failing_create, xframe 10 1); (io_ok, xframe 10 1)] in
  read (s_disk s) "dir/run_000002.h5" "data" 0 = Some [99] /\
  snd r = [Some SInvalid; Some SOk] /\
  read (s_disk (fst r)) "dir/run_000002.h5" "data" 0 = None.
Proof. vm_compute. repeat split. Qed.
Print Assumptions c08_create_failure_refuted.

(** C09: a process that expects no frames of a fixed total cannot start: its datasets would have no rows. *)
Theorem c09_no_frames_refuted : calc_num_frames xg 2 = Ret 0 /\
  snd (start_acquisition io_ok (St (xacq 2 0) xdisk [])) = Throw EHdf5.
Proof. vm_compute. repeat split. Qed.
Print Assumptions c09_no_frames_refuted.

(** C07: with a fixed total of more than 2^31 frames in one file, a frame within the total is refused: the bound is
    cut to an int. *)
Definition bigacq : acq := configured (Geom 1 0 1 0) xnm "dir" "data" (2 ^ 32 + 6) (2 ^ 32 + 6) xdefs.
Theorem c07_bound_cut_refuted : calc_num_frames (Geom 1 0 1 0) (2 ^ 32 + 6) = Ret (2 ^ 32 + 6) /\
  snd (xrun bigacq [xframe 6 1]) = [Some SInvalid] /\
  rows_of (s_disk (xstart bigacq)) "dir/run_000000.h5" "data" = Some (2 ^ 32 + 6).
Proof. vm_compute. repeat split. Qed.
Print Assumptions c07_bound_cut_refuted.

(** C12: a frame that arrives twice is counted twice: completion is reported although frame 6 never arrived. *)
Theorem c12_duplicate_refuted : 
  snd (xrun (xacq 16 8) (map (fun n => xframe n n) [2; 2; 3; 7; 10; 11; 14; 15]))
  = [Some SOk; Some SOk; Some SOk; Some SOk; Some SOk; Some SOk; Some SOk; Some SComplete].
Proof. vm_compute. reflexivity. Qed.
Print Assumptions c12_duplicate_refuted.

(** C12: without a master dataset, frames of every dataset are counted: with two datasets completion is reported
    when frames of both are missing. *)
Definition twodefs : list dsdef := [DsDef "data" T16 CNone [2] [1; 2] false; DsDef "more" T16 CNone [2] [1; 2] false].
Definition twoframe (n : N) (ds : string) : frame := Frame n 0 ds "" T16 CNone [2] [] 1 [n].
Theorem c12_two_datasets_refuted :
  snd (xrun (configured (Geom 1 0 1 0) xnm "dir" "" 4 4 twodefs)
        [twoframe 0 "data"; twoframe 0 "more"; twoframe 1 "data"; twoframe 3 "data"])
  = [Some SOk; Some SOk; Some SOk; Some SComplete].
Proof. vm_compute. reflexivity. Qed.
Print Assumptions c12_two_datasets_refuted.

(** C12: with several frames per chunk and several files, completion is never reported: frames_written counts the
    earlier files in blocks of one frame. Here chunks of two frames, two files of four rows, four frames of two. *)
Definition chunkdefs : list dsdef := [DsDef "data" T16 CNone [2] [2; 2] false].
Definition chunkframe (n : N) : frame := Frame n 0 "data" "" T16 CNone [2] [] 2 [n].
Theorem c12_chunks_refuted :
  let r := xrun (configured (Geom 1 0 1 2) xnm "dir" "" 8 8 chunkdefs)
             [chunkframe 0; chunkframe 1; chunkframe 2; chunkframe 3] in
  snd r = [Some SOk; Some SOk; Some SOk; Some SOk] /\
  a_processed (s_acq (fst r)) = 8 /\ a_written (s_acq (fst r)) = 6.
Proof. vm_compute. repeat split. Qed.
Print Assumptions c12_chunks_refuted.
