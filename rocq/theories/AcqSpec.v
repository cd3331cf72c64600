(** Vocabulary for the properties of an acquisition: what a reader of the files sees. *)
From Verif Require Import Base PlaceModel PlaceSpec NameModel AcqModel.
Local Open Scope N_scope.

(** What a reader finds at row [row] of dataset [ds] in the file at [path]. *)
Definition read (dk : disk) (path ds : string) (row : N) : option (list N) :=
  match dk path with
  | None => None
  | Some df => match df ds with None => None | Some dd => dd_cells dd row end
  end.

(** Number of rows a reader sees. *)
Definition rows_of (dk : disk) (path ds : string) : option N :=
  match dk path with
  | None => None
  | Some df => match df ds with None => None | Some dd => Some (dd_rows dd) end
  end.

(** The frame number used for placement: number plus adjustment. *)
Definition adjusted (f : frame) : Z := (Z.of_N (f_number f) + f_adj f)%Z.

(** Was the frame reported as written? *)
Definition written (r : option status) : bool :=
  match r with Some SOk | Some SComplete | Some SMissing => true | _ => false end.

(** The content a reader should find for frame number [off] of dataset [ds], given the frames offered (oldest
    first) and which of them were stored: that of the last one stored. *)
Definition is_for (ds : string) (off : N) (f : frame) : bool :=
  String.eqb (f_dataset f) ds && (adjusted f =? Z.of_N off)%Z.

Definition last_stored (hist : list (frame * bool)) (ds : string) (off : N) : option (list N) :=
  fold_left (fun acc fb => if is_for ds off (fst fb) && snd fb then Some (f_data (fst fb)) else acc) hist None.

(** The value of parameter [name] of a frame. *)
Definition param_of (name : string) (f : frame) : option N :=
  match find (fun nv => String.eqb (fst nv) name) (f_params f) with Some (_, PV _ x) => Some x | None => None end.

(** The same for a dataset that records the parameter [name] of the frames. *)
Definition last_param (hist : list (frame * bool)) (name : string) (off : N) : option (list N) :=
  fold_left (fun acc fb => match param_of name (fst fb) with
                           | Some x => if (adjusted (fst fb) =? Z.of_N off)%Z && snd fb then Some [x] else acc
                           | None => acc
                           end) hist None.

(** Files created, files closed, according to the published messages. *)
Definition created (log : list ev) : list string :=
  flat_map (fun e => match e with EvCreate p => [p] | _ => [] end) log.
Definition closed (log : list ev) : list string :=
  flat_map (fun e => match e with EvClose p => [p] | _ => [] end) log.

(** File of rank r in which frame [off] belongs: number of the file in the series of this process. *)
Definition row_of (P F B off : N) : N := if B =? 0 then 0 else off / F / P / B.
Definition slot_of (P F B off : N) : N :=
  if B =? 0 then off / F / P * F + off mod F else (off / F / P) mod B * F + off mod F.

(** The frame number that belongs in slot [s] of the k-th file of process r. *)
Definition frame_in (P F B r k s : N) : N :=
  if B =? 0 then frame_at_single P F r s else frame_at P F B (k * P + r) s.
(** Slots of the k-th file. *)
Definition slot_exists (F B k s : N) : Prop := (B = 0 /\ k = 0) \/ (B <> 0 /\ s < B * F).

(** Rows of a dataset of fixed size in the k-th file of a process that expects [n] frames. *)
Definition expected_rows (F B n c0 k : N) : N :=
  if B * F * c0 <=? 1 then n
  else if n <? (k + 1) * (B * F * c0) then n mod (B * F * c0) else B * F * c0.

(** A frame matches a dataset definition. *)
Definition matches (defs : list dsdef) (f : frame) : Prop :=
  exists d, In d defs /\ d_name d = f_dataset f /\
    f_comp f <> CUnknown /\ f_comp f = d_comp d /\ f_type f <> TUnknown /\ f_type f = d_type d /\ f_dims f = d_dims d.

(** A usable configuration, for files 0 .. K of each process:
    file numbers fit in six digits and the sizes of the datasets fit in an int. *)
Record setup_ok (g : geom) (nm : naming) (defs : list dsdef) (K : N) : Prop := {
  so_procs : 1 <= g_procs g;
  so_rank : g_rank g < g_procs g;
  so_fpb : 1 <= g_fpb g;
  so_names : NoDup (map d_name defs);
  so_dims : forall d n, In d defs -> In n (d_dims d) -> n <> 0;
  so_chunks : forall d n, In d defs -> In n (d_chunks d) -> n <> 0;
  so_length : forall d, In d defs -> List.length (d_chunks d) = S (List.length (d_dims d));
  so_int : forall d c0, In d defs -> hd_error (d_chunks d) = Some c0 -> (K + 1) * (g_bpf g * g_fpb g * c0) < 2 ^ 31;
  so_numbers : n_use_numbers nm = true;
  so_stem : n_filename nm <> ""%string \/ n_acqid nm <> ""%string;
  so_digits : K * g_procs g + g_rank g + n_start nm < 10 ^ 6 }.

(** A frame whose number belongs to one of those files. *)
Definition number_ok (g : geom) (K : N) (f : frame) : Prop :=
  f_number f < 2 ^ 64 /\ (- 2 ^ 62 <= f_adj f <= 2 ^ 62)%Z /\ (adjusted f < 2 ^ 64)%Z /\
  row_of (g_procs g) (g_fpb g) (g_bpf g) (Z.to_N (adjusted f)) <= K.

(** A frame number that the acquisition accepts as a 32 bit number (see C06). *)
Definition number_small (f : frame) : Prop := f_number f < 2 ^ 31.

Definition path_of (dir : string) (nm : naming) (i : N) : string := (dir ++ "/" ++ generate_filename nm i)%string.

(** The file system lets us create files; nothing fails except possibly writes of image data. *)
Definition creates (i : io) : Prop := forall n, io_create i n = true.
Definition no_failure (i : io) : Prop :=
  creates i /\ (forall n x, io_dset i n x = true) /\ io_param i = true.

(** Every dataset of every file has at least one row (always so when the total is unlimited). *)
Definition rows_ok (g : geom) (total towrite : N) (defs : list dsdef) (K : N) : Prop :=
  total = 0 \/ forall d c0 k, In d defs -> hd_error (d_chunks d) = Some c0 -> k <= K ->
    0 < expected_rows (g_fpb g) (g_bpf g) towrite c0 k.

(** The parameters of a frame that name a dataset have the type of the dataset and there is room for them. *)
Definition params_ok (g : geom) (total towrite : N) (defs : list dsdef) (f : frame) : Prop :=
  forall n v d, In (n, v) (f_params f) -> In d defs -> d_name d = n ->
    (exists x, v = PV (match d_type d with TUnknown => T16 | t => t end) x) /\
    (total = 0 \/ forall c0, hd_error (d_chunks d) = Some c0 ->
       slot_of (g_procs g) (g_fpb g) (g_bpf g) (Z.to_N (adjusted f))
       < expected_rows (g_fpb g) (g_bpf g) towrite c0 (row_of (g_procs g) (g_fpb g) (g_bpf g) (Z.to_N (adjusted f)))).

(** No frame carries a parameter named like dataset [ds] / no frame is for dataset [ds]. *)
Definition not_param (ds : string) (f : frame) : Prop := ~ In ds (map fst (f_params f)).

(** Rows needed for the stored frames of dataset [ds] (first chunk dimension [c0]) in the k-th file; a dataset
    without a size limit starts with one row. *)
Definition extent (P F B : N) (hist : list (frame * bool)) (ds : string) (c0 k : N) : N :=
  fold_left (fun acc fb =>
    if String.eqb (f_dataset (fst fb)) ds && snd fb && (row_of P F B (Z.to_N (adjusted (fst fb))) =? k)
    then N.max acc ((slot_of P F B (Z.to_N (adjusted (fst fb))) + 1) * c0) else acc) hist 1.

(** Position of frame [off] among the frames of its process. *)
Definition local_of (P F off : N) : N := off / F / P * F + off mod F.

(** The frames counted: those of the master dataset, or all if there is none. *)
Definition is_counted (master : string) (f : frame) : bool :=
  String.eqb master "" || String.eqb master (f_dataset f).
(** Counted frames among those written. *)
Definition counted_frames (master : string) (hist : list (frame * bool)) : list frame :=
  map fst (filter (fun fb => is_counted master (fst fb) && snd fb) hist).

(** first, first + step, ... (n numbers). *)
Fixpoint every (n : nat) (first step : N) : list N :=
  match n with O => [] | S k => first :: every k (first + step) step end.

(** The file held open by a file object. *)
Definition open_file (h : option hfile) : list string :=
  match h with Some f => if hf_open f then [hf_name f] else [] | None => [] end.
