(** What HDF5File::create_dataset tells the HDF5 library about a dataset: element type, dimensions, chunks, filter. *)
From Verif Require Import Base PlaceModel NameModel AcqModel.
Local Open Scope N_scope.

(** DatasetDefinition (frameProcessor/include/FrameProcessorDefinitions.h:137-157): the definition of AcqModel and the
    three settings of blosc (unsigned int). *)
Record hdef := HDef { h_def : dsdef; h_compressor : N; h_level : N; h_shuffle : N }.

(** The HDF5 types used (little endian hosts: native types are these). *)
Inductive h5type := H5U8 | H5U16 | H5U32 | H5U64 | H5F32.

(** frameProcessor/src/HDF5File.cpp:624-653 (datatype_to_hdf_type). *)
Definition datatype_to_hdf_type (t : dtype) : h5type :=
  match t with T64 => H5U64 | T32 => H5U32 | T16 => H5U16 | T8 => H5U8 | TFloat => H5F32 | TUnknown => H5U16 end.

(** H5Tget_size of those types (HDF5 library). *)
Definition h5_size (t : h5type) : N := match t with H5U8 => 1 | H5U16 => 2 | H5U32 => 4 | H5U64 => 8 | H5F32 => 4 end.

(** frameProcessor/src/HDF5File.cpp:416-420: the product is kept in an unsigned int. *)
Definition frame_num_pixels (dims : list N) : N := fold_left (fun n d => (n * d) mod 2 ^ 32) dims 1.

(** H5Pset_filter: number of the filter, whether it is mandatory, its values. *)
Record filter := Filter { fl_id : N; fl_mandatory : bool; fl_values : list N }.

(** frameProcessor/include/HDF5File.h:103-107 (filter numbers), FrameProcessorDefinitions.h:163. *)
Definition lz4_filter : N := 32004.
Definition bslz4_filter : N := 32008.
Definition blosc_filter : N := 32001.
Definition blosc_format : N := 2.

(** frameProcessor/src/HDF5File.cpp:461-495: the filter; unknown_compression sets none.  cd_values[3] is a size_t product
    stored in an unsigned int. *)
Definition filter_of (h : hdef) : option filter :=
  let d := h_def h in
  match d_comp d with
  | CUnknown | CNone => None
  | CLz4 => Some (Filter lz4_filter true [3])
  | CBslz4 => Some (Filter bslz4_filter true [0; 2])
  | CBlosc =>
    let size := h5_size (datatype_to_hdf_type (d_type d)) in
    Some (Filter blosc_filter false
            [2; blosc_format; size; (frame_num_pixels (d_dims d) * size) mod 2 ^ 32; h_level h; h_shuffle h; h_compressor h])
  end.

(** What H5Dcreate2 is given.  [None] in [l_max]: H5S_UNLIMITED. *)
Record layout := Layout { l_type : h5type; l_dims : list N; l_max : list (option N); l_chunk : list N; l_filter : option filter }.

(** frameProcessor/src/HDF5File.cpp:404-500 (create_dataset up to H5Dcreate2) with [rows] for definition.num_frames and
    [unlim] for unlimited_.  The fill value (zeros) and the access properties (defaults) are left out. *)
Definition declare (unlim : bool) (rows : N) (h : hdef) : outcome exn layout :=
  let d := h_def h in
  let t := datatype_to_hdf_type (d_type d) in
  if negb (Nat.eqb (List.length (d_chunks d)) (S (List.length (d_dims d)))) then Throw EBadChunks
  else if unlim then
    Ret (Layout t (1 :: d_dims d) (None :: map Some (d_dims d)) (d_chunks d) (filter_of h))
  else
    let chunk := match d_chunks d with
                 | c0 :: c => (if rows <? c0 then rows else c0) :: c
                 | [] => [] end in
    Ret (Layout t (rows :: d_dims d) (map Some (rows :: d_dims d)) chunk (filter_of h)).
