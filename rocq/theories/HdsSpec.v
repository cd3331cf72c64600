(** What a reader of a file needs to know of a dataset, and what the HDF5 library accepts. *)
From Verif Require Import Base AcqModel HdsModel.
Local Open Scope N_scope.

(** The filters registered with the HDF Group, by number.  Bitshuffle undoes LZ4 only if its second value is 2. *)
Definition registered (f : filter) (c : ctype) : Prop :=
  (fl_id f = 32001 /\ c = CBlosc) \/ (fl_id f = 32004 /\ c = CLz4) \/
  (fl_id f = 32008 /\ nth_error (fl_values f) 1 = Some 2 /\ c = CBslz4).

(** The chunks of the dataset are read as data compressed with [c]. *)
Definition read_as (l : layout) (c : ctype) : Prop :=
  match l_filter l with None => c = CNone | Some f => registered f c end.

(** An element of the dataset is read as a [t]. *)
Definition elements (l : layout) (t : dtype) : Prop :=
  match t, l_type l with
  | T8, H5U8 | T16, H5U16 | T32, H5U32 | T64, H5U64 | TFloat, H5F32 => True
  | _, _ => False
  end.

(** Product of a list. *)
Definition product (l : list N) : N := fold_right N.mul 1 l.

(** Bytes of an element. *)
Definition bytes_of (t : dtype) : option N :=
  match t with T8 => Some 1 | T16 => Some 2 | T32 => Some 4 | T64 => Some 8 | TFloat => Some 4 | TUnknown => None end.

(** The rules of H5Screate_simple, H5Pset_chunk and H5Dcreate2 (HDF5 1.10): rank at most 32, ranks agree, chunk
    dimensions from 1 to 2^32-1, chunks below 4 GiB, and no larger than the dataset in a dimension that cannot grow. *)
Definition h5_accepts (l : layout) : Prop :=
  (1 <= List.length (l_dims l) <= 32)%nat /\
  List.length (l_chunk l) = List.length (l_dims l) /\ List.length (l_max l) = List.length (l_dims l) /\
  Forall (fun c => 1 <= c < 2 ^ 32) (l_chunk l) /\
  product (l_chunk l) * h5_size (l_type l) < 2 ^ 32 /\
  Forall2 (fun c m => match m with Some n => c <= n | None => True end) (l_chunk l) (l_max l).
