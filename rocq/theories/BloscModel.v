(** Compression with blosc.  frameProcessor/src/BloscPlugin.cpp *)
From Coq Require Import String.
From Verif Require Import Base StrOrder FrameModel JsonModel.
Local Open Scope string_scope.
Local Open Scope list_scope.

(** BloscCompressionSettings, BloscPlugin.h:20-27, without the two sizes, which are set for each frame *)
Record settings := Settings { bs_level : Z; bs_shuffle : Z; bs_threads : Z; bs_compressor : Z }.
(** current_acquisition_, compression_settings_, commanded_compression_settings_.  The buffer of get_buffer is not used. *)
Record bst := Bst { bp_acq : string; bp_cur : settings; bp_cmd : settings }.
(** The state of the library, one for the process: the compressor and the number of threads *)
Record bglobal := Bglobal { bg_compressor : Z; bg_threads : Z }.
(** The library.  [bl_supports]: the compressor is built in.  [bl_compress global level shuffle typesize bytes destsize]: the bytes written,
    or none for a negative result.  [bl_rest]: what else is in the block. *)
Record blib := Blib { bl_supports : Z -> bool; bl_compress : bglobal -> Z -> Z -> Z -> list Z -> Z -> option (list Z); bl_rest : Z -> list Z }.
Inductive bexc := BRuntime | BIpc (e : ipcexc).

(** Constructor, lines 54-79: BLOSC_LZ4 is 1, BLOSC_BITSHUFFLE is 2. *)
Definition first_settings : settings := Settings 1 2 1 1.
Definition new_blosc (lib : blib) (g : bglobal) : bglobal * bst := (Bglobal (if bl_supports lib 1 then 1 else -1)%Z 1, Bst "" first_settings first_settings).

(** update_compression_settings, lines 159-180.  blosc_set_compressor makes the compressor -1 and fails if it is not built in.  Logging left out. *)
Definition update_settings (lib : blib) (g : bglobal) (p : bst) : bglobal * bst * outcome bexc unit :=
  let s := bp_cmd p in
  let q := Bst (bp_acq p) s s in
  if bl_supports lib (bs_compressor s) then (Bglobal (bs_compressor s) (bs_threads s), q, Ret tt) else (Bglobal (-1) (bg_threads g), q, Throw BRuntime).

(** compress_frame, lines 95-153.  BLOSC_MAX_OVERHEAD is 16.  The second result: the frame made. *)
Definition compress_frame (lib : blib) (g : bglobal) (p : bst) (f : frame) : outcome bexc frame :=
  match get_size_from_enum (md_type (fr_meta f)) with
  | Ret es =>
    let n := (fr_image_size f mod 2 ^ 64)%Z in
    let dest := ((n + 16) mod 2 ^ 64)%Z in
    match read_image f 0 n with
    | Ret b =>
      match bl_compress lib g (bs_level (bp_cur p)) (bs_shuffle (bp_cur p)) es b dest with
      | Some out => Ret (Frame (set_compr blosc (fr_meta f)) (out ++ bl_rest lib (dest - Z.of_nat (List.length out))) dest 0 (Z.of_nat (List.length out)) (fr_chunk f))
      | None => Throw BRuntime
      end
    | _ => Undef
    end
  | Throw _ => Throw BRuntime
  | Undef => Undef
  end.

(** process_frame, lines 217-235: the settings in force when the frame is compressed, and the frames pushed *)
Definition in_force (g : bglobal) (p : bst) : settings := Settings (bs_level (bp_cur p)) (bs_shuffle (bp_cur p)) (bg_threads g) (bg_compressor g).
Definition blosc_process (lib : blib) (g : bglobal) (p : bst) (f : frame) : bglobal * bst * outcome bexc (settings * list frame) :=
  let acq := md_acq (fr_meta f) in
  let '(g1, p1, o) := if String.eqb acq (bp_acq p) then (g, p, Ret tt) else update_settings lib g (Bst acq (bp_cur p) (bp_cmd p)) in
  match o with
  | Ret _ => (g1, p1, match compress_frame lib g1 p1 f with
    | Ret c => match push c with Ret out => Ret (in_force g1 p1, out) | Throw _ => Throw BRuntime | Undef => Undef end
    | Throw e => Throw e | Undef => Undef end)
  | Throw e => (g1, p1, Throw e)
  | Undef => (g1, p1, Undef)
  end.

(** configure, lines 241-309; the warnings in the reply are left out. *)
Definition set_level v s := Settings (if v <? 1 then 1 else if 9 <? v then 9 else v)%Z (bs_shuffle s) (bs_threads s) (bs_compressor s).
Definition set_shuffle v s := Settings (bs_level s) (if 2 <? v then 0 else v)%Z (bs_threads s) (bs_compressor s).
Definition set_threads v s := Settings (bs_level s) (bs_shuffle s) (if 256 <? v then 8 else v)%Z (bs_compressor s).
Definition set_compressor v s := Settings (bs_level s) (bs_shuffle s) (bs_threads s) (if 5 <? v then 1 else v)%Z.
Definition blosc_param (lib : blib) (c : msg) (name : string) (t : getter) (set : Z -> settings -> settings) (st : bglobal * bst * outcome bexc unit) : bglobal * bst * outcome bexc unit :=
  match st with
  | (g, p, Ret _) =>
    match has_param c name with
    | Ret true =>
      match get_param t c name with
      | Ret (RInt v) =>
        let p1 := Bst (bp_acq p) (bp_cur p) (set v (bp_cmd p)) in
        if String.eqb (bp_acq p1) "" then update_settings lib g p1 else (g, p1, Ret tt)
      | Throw e => (g, p, Throw (BIpc e))
      | _ => (g, p, Undef)
      end
    | Ret false => (g, p, Ret tt)
    | Throw e => (g, p, Throw (BIpc e))
    | Undef => (g, p, Undef)
    end
  | e => e
  end.
Definition blosc_configure (lib : blib) (g : bglobal) (p : bst) (c : msg) : bglobal * bst * outcome bexc unit :=
  blosc_param lib c "compressor" GUint set_compressor (blosc_param lib c "threads" GUint set_threads (blosc_param lib c "shuffle" GUint set_shuffle (blosc_param lib c "level" GInt set_level (g, p, Ret tt)))).

(** A history of one plugin: frames and configurations, in the order of its mutex.  The log has one entry for each. *)
Inductive bevent := BFrame (f : frame) | BConfig (c : msg).
Inductive bentry := DFrame (o : outcome bexc (settings * list frame)) | DConfig (o : outcome bexc unit).
Fixpoint blosc_run (lib : blib) (g : bglobal) (p : bst) (l : list bevent) : list bentry :=
  match l with
  | [] => []
  | BFrame f :: r => let '(g1, p1, o) := blosc_process lib g p f in DFrame o :: blosc_run lib g1 p1 r
  | BConfig c :: r => let '(g1, p1, o) := blosc_configure lib g p c in DConfig o :: blosc_run lib g1 p1 r
  end.
