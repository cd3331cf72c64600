(** Arithmetic that decides which process, file and offset a frame goes to. *)
From Verif Require Import Base.
Local Open Scope N_scope.

(** The four settings of a writer process (Acquisition.h: concurrent_processes_, concurrent_rank_,
    frames_per_block_, blocks_per_file_).  size_t values are unbounded N: the products
    frames_per_block*processes and blocks_per_file*frames_per_block are assumed to fit in 64 bits. *)
Record geom := Geom { g_procs : N; g_rank : N; g_fpb : N; g_bpf : N }.

(** frameProcessor/src/Acquisition.cpp:95-103 (process_frame): the rank test.  [Ret true]: the frame goes on,
    [Ret false]: "Unexpected frame", [Undef]: division by zero. *)
Definition rank_test (g : geom) (off : N) : outcome Empty_set bool :=
  if 1 <? g_procs g
  then if g_fpb g =? 0 then Undef
       else Ret ((off / g_fpb g) mod g_procs g =? g_rank g)
  else Ret true.

(** frameProcessor/src/Acquisition.cpp:505-516 (get_frame_offset_in_file). *)
Definition offset_in_file (g : geom) (off : N) : outcome Empty_set N :=
  if g_fpb g * g_procs g =? 0 then Undef
  else
    let block_index := off / (g_fpb g * g_procs g) in
    let first := block_index * g_fpb g in
    let first' := if g_bpf g =? 0 then first else first mod (g_bpf g * g_fpb g) in
    Ret (first' + off mod g_fpb g).

(** frameProcessor/src/Acquisition.cpp:526-532 (get_file_index). *)
Definition file_index (g : geom) (off : N) : outcome Empty_set N :=
  if (g_fpb g =? 0) || (g_procs g =? 0) || (g_bpf g =? 0) then Undef
  else
    let block_number := off / g_fpb g in
    let block_row := block_number / g_procs g in
    let file_row := block_row / g_bpf g in
    Ret (file_row * g_procs g + g_rank g).

(** frameProcessor/src/FileWriterPlugin.cpp:949-973 (calc_num_frames).  The subtraction of line 959 is a
    size_t subtraction; it is modelled with truncated subtraction because it never goes below zero
    (lemma calc_leftover_exact in PlaceProofs). *)
Definition calc_num_frames (g : geom) (total : N) : outcome Empty_set N :=
  if (g_fpb g =? 0) || (g_procs g =? 0) then Undef
  else
    let blocks_needed := total / g_fpb g in
    let rounds := blocks_needed / g_procs g in
    let n := rounds * g_fpb g in
    let leftover := total - n * g_procs g in
    Ret (if g_rank g * g_fpb g <? leftover
         then n + N.min (leftover - g_rank g * g_fpb g) (g_fpb g)
         else n).

(** Exceptions of adjust_frame_offset. *)
Inductive range_error := NegativeOffset.

(** frameProcessor/src/Acquisition.cpp:594-609 (adjust_frame_offset).  [frame_no] is a size_t (64 bit unsigned)
    and [adj] an int64_t.  The guard of line 601 converts frame_no to int first; the sum of line 601 is an
    int64_t addition whose overflow is undefined; the sum of line 606 is modulo 2^64. *)
Definition adjust_frame_offset (frame_no : N) (adj : Z) : outcome range_error N :=
  let guard := (i32 (Z.of_N frame_no) + adj)%Z in
  if negb (in_i64 guard) then Undef
  else if (guard <? 0)%Z then Throw NegativeOffset
  else Ret (u64 (Z.of_N frame_no + adj)).
