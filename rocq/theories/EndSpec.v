(** Vocabulary for the way of the frames from the simulator to the files. *)
From Coq Require Import Permutation.
From Verif Require DecModel DecSpec LoopModel SimModel FwThms.
From Verif Require Import Base PlaceModel PlaceSpec NameModel AcqModel AcqSpec FwModel FwSpec.
Local Open Scope N_scope.

(** The last file of a process that expects [n] frames, counted from 0. *)
Definition last_row (F B n : N) : N := if B =? 0 then 0 else (n - 1) / (B * F).

(** File (number in the series of the process) in which a frame belongs. *)
Definition file_of (g : geom) (f : frame) : N := row_of (g_procs g) (g_fpb g) (g_bpf g) (Z.to_N (adjusted f)).
Definition place_of (g : geom) (f : frame) : N := slot_of (g_procs g) (g_fpb g) (g_bpf g) (Z.to_N (adjusted f)).

(** Process [g_rank g] writes frame number [off] of [total]. *)
Definition expects (g : geom) (total off : N) : Prop := off < total /\ block_of (g_fpb g) off mod g_procs g = g_rank g.

(** A frame the process must keep: its number is one of the expected ones, its dataset is defined and counted. *)
Record wanted (g : geom) (defs : list dsdef) (master : string) (total : N) (f : frame) : Prop := {
  wa_small : number_small f;
  wa_adj : (- 2 ^ 62 <= f_adj f <= 2 ^ 62)%Z;
  wa_number : exists off, adjusted f = Z.of_N off /\ expects g total off;
  wa_matches : matches defs f;
  wa_counted : is_counted master f = true;
  wa_params : f_params f = [];
  wa_chunk : f_ocs f = 1 }.

(** No frame comes after one that belongs two files or more later. *)
Definition nearly_ordered (g : geom) (l : list frame) : Prop :=
  forall a f b f', l = a ++ f :: b -> In f' a -> file_of g f' <= file_of g f + 1.

(** Frames given to the plugin one after the other: before each, the HDF5 failures when starting an acquisition before and
    after it; with each, those of writing it. *)
Definition offers (t : list ((io * io) * (io * frame))) : list op :=
  map (fun c => OFrame (fst (fst c)) (fst (snd c)) (snd (fst c)) (snd (snd c))) t.

(** No error is reported. *)
Definition no_errors (o : list out) : Prop := Forall (fun x => match x with Err _ => False | _ => True end) o.

(** ** From the simulator to the processes *)
(** The datagrams sent to a port. *)
Definition to_port (port : Z) (sent : list (Z * SimModel.pkt)) : list SimModel.pkt := map snd (filter (fun x => Z.eqb (fst x) port) sent).

(** The receiver gave no frame up. *)
Definition none_late (tr : DecSpec.trace) : Prop :=
  forall x, In x (flat_map snd tr) -> DecModel.h_state (DecModel.b_hdr (DecModel.r_buf x)) <> DecModel.RTimedout.

(** The process plugin has images of [w] by [h] pixels; each frame handed over by the receiver was processed once. *)
Definition sized (w h : Z) (ops : list LoopModel.yop) : Prop := forall j w' h', In (LoopModel.YProcess j w' h') ops -> w' = w /\ h' = h.
Definition all_processed (s : LoopModel.sys) : Prop :=
  Permutation (map fst (LoopModel.y_out s)) (map DecModel.r_frame (flat_map snd (LoopModel.y_trace s))).

(** The simulated image, as the reader of the file gets it. *)
Definition simulated (w h : Z) : list N := map (fun o => Z.to_N (SimModel.pixel_byte (Z.of_nat o))) (seq 0 (Z.to_nat (2 * (w * h)))).

(** The file writer of process [r] of [P] is configured for [n] images of [w] by [h] pixels, one frame per block, and is not writing. *)
Record file_writer (P r : nat) (n w h : Z) (fw : fw) : Prop := {
  wr_idle : w_writing fw = false;
  wr_prepared : prepared (w_next fw);
  wr_procs : g_procs (w_geom fw) = N.of_nat P;
  wr_rank : g_rank (w_geom fw) = N.of_nat r;
  wr_block : g_fpb (w_geom fw) = 1;
  wr_total : p_total (w_next fw) = Z.to_N n;
  wr_towrite : calc_num_frames (w_geom fw) (p_total (w_next fw)) = Base.Ret (p_towrite (w_next fw));
  wr_some : 0 < p_towrite (w_next fw);
  wr_setup : setup_ok (w_geom fw) (FwThms.next_naming fw) (w_defs fw) (last_row 1 (g_bpf (w_geom fw)) (p_towrite (w_next fw)));
  wr_chunks : forall d, In d (w_defs fw) -> hd_error (d_chunks d) = Some 1;
  wr_def : exists chunks lh, In (DsDef "dummy" T16 CNone [Z.to_N h; Z.to_N w] chunks lh) (w_defs fw);
  wr_master : w_master fw = ""%string \/ w_master fw = "dummy"%string }.

(** The file with frame [k], and its place in it. *)
Definition file_with (P r : nat) (fw : fw) (k : Z) : string :=
  path_of (p_path (w_next fw)) (FwThms.next_naming fw) (row_of (N.of_nat P) 1 (g_bpf (w_geom fw)) (Z.to_N k) * N.of_nat P + N.of_nat r).
Definition slot_for (P : nat) (fw : fw) (k : Z) : N := slot_of (N.of_nat P) 1 (g_bpf (w_geom fw)) (Z.to_N k).

(** Nothing fails in HDF5. *)
Definition hdf5_works (i0 : io) (u : list ((io * io) * (io * frame))) : Prop :=
  no_failure i0 /\ Forall (fun c => no_failure (fst (snd c)) /\ io_write (fst (snd c)) = true) u.
