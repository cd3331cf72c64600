(** Frames as the processing plugins see them.  frameProcessor/src/Frame.cpp, DataBlockFrame.cpp, FrameMetaData.cpp, include/FrameProcessorDefinitions.h *)
From Coq Require Import String.
From Verif Require Import Base StrOrder.
Local Open Scope string_scope.
Local Open Scope list_scope.

(** Enumerations, FrameProcessorDefinitions.h:20-24, by their codes (codes outside are reached by casts of configured numbers). *)
Definition raw_unknown : Z := 0.  Definition raw_8bit : Z := 1.  Definition raw_16bit : Z := 2.  Definition raw_32bit : Z := 3.
Definition raw_64bit : Z := 4.    Definition raw_float : Z := 5.
Definition unknown_compression : Z := 0.  Definition no_compression : Z := 1.  Definition lz4 : Z := 2.  Definition bslz4 : Z := 3.  Definition blosc : Z := 4.
(** DATA_TYPES and COMPRESS_TYPES, lines 31-32 *)
Definition DATA_TYPES : list string := ["unknown"; "uint8"; "uint16"; "uint32"; "uint64"; "float"].
Definition COMPRESS_TYPES : list string := ["unknown"; "none"; "LZ4"; "BSLZ4"; "blosc"].
(** get_type_from_string, lines 39-54 *)
Definition get_type_from_string (s : string) : Z :=
  if String.eqb s "unknown" then raw_unknown else if String.eqb s "uint8" then raw_8bit else if String.eqb s "uint16" then raw_16bit
  else if String.eqb s "uint32" then raw_32bit else if String.eqb s "uint64" then raw_64bit else if String.eqb s "float" then raw_float else raw_unknown.
(** get_size_from_enum, lines 61-78: runtime_error for other codes *)
Inductive fexc := RuntimeError.
Definition get_size_from_enum (t : Z) : outcome fexc Z :=
  if Z.eqb t raw_8bit then Ret 1%Z else if Z.eqb t raw_16bit then Ret 2%Z else if Z.eqb t raw_32bit then Ret 4%Z else if Z.eqb t raw_64bit then Ret 8%Z
  else if Z.eqb t raw_float then Ret 4%Z else Throw RuntimeError.
(** get_type_from_enum, lines 89-97 *)
Definition get_type_from_enum (t : Z) : string := if ((0 <=? t) && (t <? 6))%Z then nth (Z.to_nat t) DATA_TYPES "" else "unknown".
(** get_compression_from_string, lines 104-117 *)
Definition get_compression_from_string (s : string) : Z :=
  if String.eqb s "unknown" then unknown_compression else if String.eqb s "none" then no_compression else if String.eqb s "LZ4" then lz4
  else if String.eqb s "BSLZ4" then bslz4 else if String.eqb s "blosc" then blosc else unknown_compression.
(** get_compress_from_enum, lines 125-133 *)
Definition get_compress_from_enum (c : Z) : string := if ((0 <=? c) && (c <? 5))%Z then nth (Z.to_nat c) COMPRESS_TYPES "" else nth 0 COMPRESS_TYPES "".

(** boost::any in the parameters: unsigned long (uint64_t), float (by its bits), or some other type *)
Inductive anyv := AU64 (z : Z) | AFloat (bits : Z) | AOther (tag : Z).
(** FrameMetaData.h:152-180.  The logger is left out. *)
Record meta := Meta { md_number : Z; md_dataset : string; md_type : Z; md_acq : string; md_dims : list Z; md_compr : Z; md_params : smap anyv; md_offset : Z }.
Definition set_params p (m : meta) := Meta (md_number m) (md_dataset m) (md_type m) (md_acq m) (md_dims m) (md_compr m) p (md_offset m).
Definition set_dims d (m : meta) := Meta (md_number m) (md_dataset m) (md_type m) (md_acq m) d (md_compr m) (md_params m) (md_offset m).
Definition set_compr c (m : meta) := Meta (md_number m) (md_dataset m) (md_type m) (md_acq m) (md_dims m) c (md_params m) (md_offset m).
Definition set_offset o (m : meta) := Meta (md_number m) (md_dataset m) (md_type m) (md_acq m) (md_dims m) (md_compr m) (md_params m) o.
(** set_parameter, FrameMetaData.h:72-75; has_parameter, lines 82-84; get_parameter<uint64_t>, lines 45-64: runtime_error if missing or of another type *)
Definition set_parameter (n : string) (v : anyv) (m : meta) : meta := set_params (sm_put (md_params m) n v) m.
Definition has_parameter (n : string) (m : meta) : bool := match sm_get (md_params m) n with Some _ => true | None => false end.
Definition get_parameter_u64 (n : string) (m : meta) : outcome fexc Z := match sm_get (md_params m) n with Some (AU64 z) => Ret z | _ => Throw RuntimeError end.

(** Frame.h: meta_data_, the memory at get_data_ptr() (bytes), data_size_, image_offset_, image_size_, outer_chunk_size_ *)
Record frame := Frame { fr_meta : meta; fr_mem : list Z; fr_data_size : Z; fr_image_offset : Z; fr_image_size : Z; fr_chunk : Z }.
Definition with_meta m (f : frame) := Frame m (fr_mem f) (fr_data_size f) (fr_image_offset f) (fr_image_size f) (fr_chunk f).
(** DataBlockFrame constructor with data, DataBlockFrame.cpp:13-21, Frame.cpp:11-18.  The block has [block_size] bytes of the source.
    image_size_ is a size_t in the initialiser, converted to int. *)
Definition new_frame (m : meta) (src : list Z) (block_size image_offset : Z) : frame := Frame m (firstn (Z.to_nat block_size) src) block_size image_offset (i32 (block_size - image_offset)) 1.
(** is_valid, Frame.cpp:45-51, and push, FrameProcessorPlugin.cpp:395-399: invalid frames are not pushed, runtime_error *)
Definition is_valid (f : frame) : bool := negb (Z.eqb (md_type (fr_meta f)) raw_unknown) && negb (Z.eqb (md_compr (fr_meta f)) unknown_compression).
Definition push (f : frame) : outcome fexc (list frame) := if is_valid f then Ret [f] else Throw RuntimeError.

(** Reading [n] bytes at [off] from the image pointer; outside the memory of the block it is undefined. *)
Definition read_image (f : frame) (off n : Z) : outcome fexc (list Z) :=
  let a := (fr_image_offset f + off)%Z in
  if ((0 <=? n) && (0 <=? a) && (a + n <=? Z.of_nat (List.length (fr_mem f))))%Z then Ret (firstn (Z.to_nat n) (skipn (Z.to_nat a) (fr_mem f))) else Undef.
