(** Vocabulary for the properties of the file writer plugin. *)
From Verif Require Import Base PlaceModel NameModel AcqModel AcqSpec FwModel.
Local Open Scope N_scope.

(** Frames pushed, in order. *)
Definition pushes (o : list out) : list frame := flat_map (fun x => match x with Push f => [f] | _ => [] end) o.
(** End-of-acquisition frames pushed. *)
Definition eoas (o : list out) : nat := List.length (filter (fun x => match x with PushEoa => true | _ => false end) o).
(** Ids of the acquisitions that announced to have written frame number [n]. *)
Definition is_write (e : ev) : bool := match e with EvWrite _ _ => true | _ => false end.

Definition only_errors (o : list out) : Prop := Forall (fun x => exists k, x = Err k) o.

(** The settings of an acquisition. *)
Definition settings (a : acq) := (a_geom a, a_naming a, a_path a, a_master a, a_total a, a_towrite a, a_defs a).

(** The requested process settings differ from the ones in use. *)
Definition asks (x : field N) (now : N) : Prop := exists n, x = Val n /\ n <> now.
Definition asks_change (p : pcfg) (g : geom) : Prop :=
  asks (pc_procs p) (g_procs g) \/ asks (pc_rank p) (g_rank g) \/ asks (pc_fpb p) (g_fpb g) \/ asks (pc_bpf p) (g_bpf g).

(** The prepared acquisition names the same output as the current one: same non-empty directory and same non-empty file
    name or same non-empty id. *)
Definition names_same (c : acq) (p : prep) : Prop :=
  p_path p <> ""%string /\ p_path p = a_path c /\
  ((p_file p <> ""%string /\ p_file p = n_filename (a_naming c)) \/
   (p_id p <> ""%string /\ p_id p = n_acqid (a_naming c))).
Definition prepared (p : prep) : Prop := p_file p <> ""%string \/ p_id p <> ""%string.
Definition expects_none (p : prep) : Prop := 0 < p_total p /\ p_towrite p = 0.

(** The frame is for the current acquisition / for the prepared one. *)
Definition for_current (w : fw) (f : frame) : Prop :=
  w_writing w = true /\ (f_acq f = ""%string \/ f_acq f = n_acqid (a_naming (w_cur w))).
Definition for_next (w : fw) (f : frame) : Prop :=
  f_acq f <> ""%string /\ f_acq f = p_id (w_next w) /\ ~ for_current w f.

(** [w] is writing an acquisition that was started with its process settings and has since been given the frames [t],
    each with the HDF5 failures of its call, started with the failures [i0] on disk [dk]. *)
Definition running (w : fw) (i0 : io) (dk : disk) (t : list (io * frame)) : Prop :=
  exists s0 rs,
    start_acquisition i0 (St (configured (w_geom w) (a_naming (w_cur w)) (a_path (w_cur w)) (a_master (w_cur w))
                                (a_total (w_cur w)) (a_towrite (w_cur w)) (a_defs (w_cur w))) dk []) = (s0, Ret true) /\
    run s0 t = (St (w_cur w) (w_disk w) (w_log w), rs) /\
    calc_num_frames (w_geom w) (a_total (w_cur w)) = Ret (a_towrite (w_cur w)) /\
    Forall (fun r => r <> None) rs.

(** The HDF5 failures and frames of a call satisfy a condition. *)
Definition op_ok (P : io -> Prop) (Q : io * frame -> Prop) (o : op) : Prop :=
  match o with
  | OFrame i0 i i1 f => P i0 /\ Q (i, f) /\ P i1
  | OEoa i | OExecute i _ | OTimeout i => P i
  | _ => True
  end.
