(** Properties C14 - C17 of the file writer plugin, and C08 seen from the plugin. *)
From Verif Require Import Base StrOrder PlaceModel PlaceSpec NameModel NameProofs AcqModel AcqSpec AcqThms FwModel FwSpec FwProofs FwThms FwKeep.
Local Open Scope N_scope.

(** ** C14 *)

(** In any state: a configuration message never changes the geometry while writing (nor the acquisition being written,
    nor any file). *)
Theorem c14_geometry_fixed : forall ok c w w' r, w_writing w = true -> fw_configure ok c w = (w', r) ->
  w_geom w' = w_geom w /\ w_cur w' = w_cur w /\ w_disk w' = w_disk w /\ w_writing w' = true.
Proof.
  intros ok c w w' r W E. pose proof (cfgs_configure ok c w) as H. rewrite E in H. cbn in H.
  destruct H as (A1 & A2 & A3 & A4 & A5 & A6 & _). rewrite A1. auto.
Qed.
Print Assumptions c14_geometry_fixed.

(** In any state: asking for another value while writing is answered by an exception, and nothing changes. *)
Theorem c14_refused : forall ok c p w, w_writing w = true -> k_process c = Some p -> asks_change p (w_geom w) ->
  exists o e, fw_configure ok c w = (say o w, Throw e) /\ only_errors o.
Proof. intros. eapply configure_writing; eassumption. Qed.
Print Assumptions c14_refused.

(** After any calls: frames per block is never 0, and the acquisition being written uses the configured geometry. *)
Theorem c14_reachable : forall act dk l w rs, fw_run (fw_init act dk) l = (w, rs) -> ~ In Undef rs ->
  1 <= g_fpb (w_geom w) /\ (w_writing w = true -> a_geom (w_cur w) = w_geom w).
Proof.
  intros act dk l w rs E N.
  assert (F : Forall (op_ok (fun _ => True) (fun _ => True)) l) by (apply Forall_forall; intros [] _; cbn; auto).
  destruct (inv_run _ _ l _ _ _ F (inv_init _ _ act dk) E N) as (A & B & _). split; [exact B|].
  intros W. destruct (A W) as (i0 & dk' & t & pre & _ & R & _). eapply running_geom, R.
Qed.
Print Assumptions c14_reachable.

(** ** C15 *)

(** In any state: what one frame makes the plugin announce.  Written frames are announced under the name the frame
    carries, or under the name of the current acquisition if it carries none. *)
Theorem c15_written_where_named : forall i0 i i1 f w w' r, fw_process_frame i0 i i1 f w = (w', r) ->
  exists o, w_out w' = w_out w ++ o /\
    forall id e, In (Meta id e) o -> is_write e = true ->
      id = if String.eqb (f_acq f) "" then n_acqid (a_naming (w_cur w)) else f_acq f.
Proof.
  intros i0 i i1 f w w' r E. apply frame_out in E as (o & O & H1 & H2 & _). exists o. split; [exact O|].
  intros id e Hi He. destruct (String.eqb_spec (f_acq f) ""); [exact (H2 e0 id e Hi He)|exact (H1 n id e Hi He)].
Qed.
Print Assumptions c15_written_where_named.

(** In any state: a frame for neither acquisition changes nothing, and is an error if the plugin is writing. *)
Theorem c15_unknown_refused : forall i0 i i1 f w, f_acq f <> ""%string -> ~ for_current w f -> f_acq f <> p_id (w_next w) ->
  fw_process_frame i0 i i1 f w = (say (if w_writing w then [Err ErrUnexpectedId] else []) w, Ret tt).
Proof. intros. apply frame_unknown; assumption. Qed.
Print Assumptions c15_unknown_refused.

(** A frame for the prepared acquisition: the current one is closed and its end announced, then the new one starts. *)
Theorem c15_switch : forall i0 i i1 f w w' r, for_next w f -> w_writing w = true -> fw_process_frame i0 i i1 f w = (w', r) ->
  exists l o, Forall (fun e => exists p, e = EvClose p) l /\
    w_out w' = w_out w ++ map (Meta (n_acqid (a_naming (w_cur w)))) (l ++ [EvStop]) ++ o /\
    (o = [] /\ r = Undef \/ exists o', o = Meta (f_acq f) EvStart :: o').
Proof. exact frame_switch. Qed.
Print Assumptions c15_switch.

(** After any calls: all frames given to the acquisition being written carry its name or none, and they are the last
    frames that were pushed. *)
Theorem c15_history : forall act dk0 l w rs, fw_run (fw_init act dk0) l = (w, rs) -> ~ In Undef rs -> w_writing w = true ->
  exists i0 dk t pre, running w i0 dk t /\ pushes (w_out w) = pre ++ map snd t /\
    Forall (fun c => f_acq (snd c) = ""%string \/ f_acq (snd c) = n_acqid (a_naming (w_cur w))) t.
Proof.
  intros act dk0 l w rs E N W.
  assert (F : Forall (op_ok (fun _ => True) (fun _ => True)) l) by (apply Forall_forall; intros [] _; cbn; auto).
  destruct (inv_run _ _ l _ _ _ F (inv_init _ _ act dk0) E N) as (A & _).
  destruct (A W) as (i0 & dk & t & pre & _ & R & _ & H3 & _ & H5). rewrite app_nil_r in H5. exists i0, dk, t, pre. auto.
Qed.
Print Assumptions c15_history.

(** C08 from the plugin: whatever was called before, the files of the acquisition being written hold, for each slot,
    the last frame stored; the frames are the last ones pushed. *)
Theorem c08_plugin_readback : forall act dk0 l w rs K,
  Forall (op_ok creates (fun c => creates (fst c))) l ->
  fw_run (fw_init act dk0) l = (w, rs) -> ~ In Undef rs -> w_writing w = true ->
  let g := w_geom w in let nm := a_naming (w_cur w) in
  setup_ok g nm (a_defs (w_cur w)) K ->
  exists i0 dk t pre, running w i0 dk t /\ pushes (w_out w) = pre ++ map snd t /\
    (Forall (fun c => number_ok g K (snd c)) t ->
     exists stored, List.length stored = List.length t /\
       (forall p, ~ In p (created (w_log w)) -> w_disk w p = dk p) /\
       forall k d c0 slot, k <= K -> In d (a_defs (w_cur w)) -> hd_error (d_chunks d) = Some c0 ->
         slot_exists (g_fpb g) (g_bpf g) k slot -> Forall (fun c => not_param (d_name d) (snd c)) t ->
         let path := path_of (a_path (w_cur w)) nm (k * g_procs g + g_rank g) in
         let want := last_stored (combine (map snd t) stored) (d_name d)
                       (frame_in (g_procs g) (g_fpb g) (g_bpf g) (g_rank g) k slot) in
         (In path (created (w_log w)) -> read (w_disk w) path (d_name d) (slot * c0) = want) /\
         (~ In path (created (w_log w)) -> want = None)).
Proof.
  intros act dk0 l w rs K F E N W g nm S.
  destruct (inv_run _ _ l _ _ _ F (inv_init _ _ act dk0) E N) as (A & _).
  destruct (A W) as (i0 & dk & t & pre & Hi & R & Hq & _ & _ & H5). rewrite app_nil_r in H5. exists i0, dk, t, pre.
  split; [exact R|]. split; [exact H5|]. intros Hn. destruct R as (s0 & rs' & Hs & Hr & _).
  assert (Ht : Forall (fun c => creates (fst c) /\ number_ok g K (snd c)) t).
  { rewrite Forall_forall in Hq, Hn |- *. intros c Hc. split; [apply Hq, Hc|apply Hn, Hc]. }
  destruct (readback _ _ _ _ _ _ _ K _ S i0 s0 t _ rs' Hi Hs Ht Hr) as (stored & H1 & _ & H3 & H4).
  exists stored. split; [|split; [exact H3|exact H4]].
  assert (L : List.length rs' = List.length stored) by (clear -H1; induction H1; cbn; congruence).
  rewrite <- L. clear -Hr. revert s0 rs' Hr. induction t as [|[i f] t IH]; cbn; intros s0 rs'.
  - intros [= _ <-]. reflexivity.
  - destruct (process_frame i f s0) as [s1 r1]. destruct (run s1 t) as [s2 r2] eqn:E2. intros [= -> <-]. cbn. f_equal. eapply IH, E2.
Qed.
Print Assumptions c08_plugin_readback.

(** ** C16 *)

(** In any writing state: stopping closes the current acquisition and announces its end; then a new one is started
    exactly if one has been prepared (file name or id), expects frames and does not name the same output. *)
Theorem c16_stop : forall i w, w_writing w = true -> exists w' r o l, stop_acq i w = (w', r) /\ w_out w' = w_out w ++ o /\
  Forall (fun e => exists p, e = EvClose p) l /\
  let starts := prepared (w_next w) /\ ~ expects_none (w_next w) /\ ~ names_same (w_cur w) (w_next w) in
  let ends := map (Meta (n_acqid (a_naming (w_cur w)))) (l ++ [EvStop]) in
  (starts /\ (r = Undef \/ exists l', o = ends ++ map (Meta (p_id (w_next w))) (EvStart :: l') /\ (w_writing w' = true <-> r = Ret tt))) \/
  (~ starts /\ r = Ret tt /\ o = ends /\ w_disk w' = w_disk w /\ w_writing w' = false).
Proof.
  intros i w W. destruct (stop_thm i w W) as (w' & r & o & l & E & O & F & H). exists w', r, o, l.
  split; [exact E|]. split; [exact O|]. split; [exact F|]. unfold restarts in H. intros starts ends.
  destruct H as [(R & H)|(R & H)]; [left|right]; split; try assumption; unfold starts; tauto.
Qed.
Print Assumptions c16_stop.

(** In any state: stopping changes at most the first file of the prepared acquisition. *)
Theorem c16_one_file : forall i w p, p <> path_of (p_path (w_next w)) (next_naming w) (g_rank (w_geom w)) ->
  w_disk (fst (stop_acq i w)) p = w_disk w p.
Proof. intros. apply stop_only. auto. Qed.
Print Assumptions c16_one_file.

(** Files of the acquisition just stopped are kept.  Partial: the prepared acquisition must have a directory, postfix
    and extension must not have been changed since the start, both must be named the same way (by file name or by id),
    file numbers must be in use and the names must not contain a slash. *)
Theorem c16_files_kept_partial : forall i w w' r k, w_writing w = true -> stop_acq i w = (w', r) ->
  p_path (w_next w) <> ""%string -> plain (a_naming (w_cur w)) -> plain (next_naming w) ->
  n_postfix (a_naming (w_cur w)) = w_postfix w -> n_ext (a_naming (w_cur w)) = sanitise_ext (w_ext w) ->
  n_use_numbers (a_naming (w_cur w)) = true -> w_numbers w = true ->
  (n_filename (a_naming (w_cur w)) = ""%string <-> p_file (w_next w) = ""%string) ->
  k + n_start (a_naming (w_cur w)) < 10 ^ 6 -> g_rank (w_geom w) + w_start w < 10 ^ 6 ->
  w_disk w' (path_of (a_path (w_cur w)) (a_naming (w_cur w)) k) = w_disk w (path_of (a_path (w_cur w)) (a_naming (w_cur w)) k).
Proof. exact files_kept. Qed.
Print Assumptions c16_files_kept_partial.

(** ** C17 *)

(** In any state: a frame is pushed once exactly if it is for the acquisition being written (or the named next one) and
    processing it does not throw; otherwise it is not pushed.  Whether it was written or valid makes no difference. *)
Theorem c17_pushed_once : forall i0 i i1 f w w' r, fw_process_frame i0 i i1 f w = (w', r) ->
  exists o, w_out w' = w_out w ++ o /\ eoas o = 0%nat /\
    ((r = Ret tt /\ (for_current w f \/ for_next w f) /\ pushes o = [f]) \/
     (~ (r = Ret tt /\ (for_current w f \/ for_next w f)) /\ pushes o = [])).
Proof. intros i0 i i1 f w w' r E. apply frame_out in E as (o & O & _ & _ & Q & P). exists o. auto. Qed.
Print Assumptions c17_pushed_once.

(** Through any calls: the frames pushed are the offered frames, some left out, each at most once and in the order
    offered; nothing else is pushed except one end-of-acquisition frame for each one that was processed. *)
Theorem c17_order : forall l w w' rs, fw_run w l = (w', rs) -> exists bs, List.length bs = List.length rs /\
  pushes (w_out w') = pushes (w_out w) ++ chosen l bs /\
  eoas (w_out w') = (eoas (w_out w) +
    List.length (filter (fun c => match fst c with OEoa _ => is_ret (snd c) | _ => false end) (combine l rs)))%nat.
Proof. exact run_pushes. Qed.
Print Assumptions c17_order.

(** ** Examples *)
Definition xio : io := IO (fun _ => true) (fun _ _ => true) true true.
Definition xdk : disk := fun _ => None.
Definition no_fields : pcfg := PCfg Absent Absent Absent Absent.
Definition xcfg (path file id : string) (frames : N) : config :=
  Config None (Some (FCfg (Val path) (Val file) Absent Absent Absent Absent))
    (DsObj [("data"%string, DCfg (Val T16) (Val [3; 4]) Absent (Val CNone) Absent)]) false (Val frames) Absent (Val id) Absent.
Definition xf (n : N) (id : string) (v : N) : frame := Frame n 0 "data" id T16 CNone [3; 4] [] 1 [v].
Definition yes (_ : string) : bool := true.

(** Acquisition "a" of unlimited length, then "b" named by a frame, then an unknown name. *)
Definition x_ops : list op :=
  [OConfigure yes (xcfg "/d" "run1" "a" 0); OExecute xio CmdStart; OFrame xio xio xio (xf 0 "a" 10);
   OFrame xio xio xio (xf 1 "" 11); OConfigure yes (xcfg "/d" "run2" "b" 0); OFrame xio xio xio (xf 0 "b" 20);
   OFrame xio xio xio (xf 1 "zzz" 99)].
Example x_calls : let r := fw_run (fw_init true xdk) x_ops in
  snd r = repeat (Ret tt) 7 /\ w_writing (fst r) = true /\ map f_data (pushes (w_out (fst r))) = [[10]; [11]; [20]] /\
  created (w_log (fst r)) = ["/d/run2_000000.h5"%string] /\
  read (w_disk (fst r)) "/d/run1_000000.h5" "data" 0 = Some [10] /\
  read (w_disk (fst r)) "/d/run1_000000.h5" "data" 1 = Some [11] /\
  read (w_disk (fst r)) "/d/run2_000000.h5" "data" 0 = Some [20] /\
  last (w_out (fst r)) PushEoa = Err ErrUnexpectedId.
Proof. vm_compute. repeat split. Qed.
Example x_ops_ok : Forall (op_ok creates (fun c => creates (fst c))) x_ops.
Proof. repeat constructor. Qed.
(** The states of the theorems: current and next acquisition, a refused change, hypotheses of c16_files_kept_partial. *)
Definition x_w : fw := fst (fw_run (fw_init true xdk) (firstn 5 x_ops)).
Example x_next : for_next x_w (xf 0 "b" 20) /\ for_current x_w (xf 5 "a" 1) /\ w_writing x_w = true /\
  asks_change (PCfg (Val 4) Absent Absent Absent) (w_geom x_w) /\
  ~ asks_change (PCfg (Val 1) (Val 0) Absent Absent) (w_geom x_w).
Proof.
  split; [|split; [|split; [|split]]].
  - repeat split; try discriminate. intros (_ & [H|H]); vm_compute in H; discriminate.
  - split; [vm_compute; reflexivity|right; vm_compute; reflexivity].
  - vm_compute. reflexivity.
  - left. exists 4. split; [reflexivity|vm_compute; discriminate].
  - intros [(n & [= <-] & H)|[(n & [= <-] & H)|[(n & H & _)|(n & H & _)]]]; try discriminate; vm_compute in H; congruence.
Qed.
Example x_kept : p_path (w_next x_w) <> ""%string /\ plain (a_naming (w_cur x_w)) /\ plain (next_naming x_w) /\
  n_postfix (a_naming (w_cur x_w)) = w_postfix x_w /\ n_ext (a_naming (w_cur x_w)) = sanitise_ext (w_ext x_w) /\
  n_use_numbers (a_naming (w_cur x_w)) = true /\ w_numbers x_w = true /\
  (n_filename (a_naming (w_cur x_w)) = ""%string <-> p_file (w_next x_w) = ""%string) /\
  prepared (w_next x_w) /\ ~ expects_none (w_next x_w) /\ ~ names_same (w_cur x_w) (w_next x_w).
Proof.
  assert (Hs : forall s : string, existsb (Ascii.eqb "/"%char) (list_ascii_of_string s) = false -> no_slash s).
  { intros s H Hi. assert (existsb (Ascii.eqb "/"%char) (list_ascii_of_string s) = true); [|congruence].
    apply existsb_exists. exists "/"%char. split; [exact Hi|reflexivity]. }
  split; [vm_compute; discriminate|]. split; [repeat split; apply Hs; vm_compute; reflexivity|].
  split; [repeat split; apply Hs; vm_compute; reflexivity|]. repeat (split; [vm_compute; reflexivity|]).
  split; [vm_compute; split; discriminate|]. split; [left; vm_compute; discriminate|].
  split; [intros (H & _); vm_compute in H; discriminate|]. intros (_ & _ & [(_ & H)|(_ & H)]); vm_compute in H; discriminate.
Qed.

(** ** What fails *)

(** C14: 0 processes are accepted; the next configuration or start then divides by zero. *)
Theorem c14_zero_processes_refuted :
  let r := fw_run (fw_init true xdk)
     [OConfigure yes (Config (Some (PCfg (Val 0) Absent Absent Absent)) None DsNone false Absent Absent Absent Absent);
      OConfigure yes (xcfg "/d" "run1" "a" 7)] in
  snd r = [Ret tt; Undef] /\ g_procs (w_geom (fst r)) = 0.
Proof. vm_compute. repeat split. Qed.
Print Assumptions c14_zero_processes_refuted.

(** C16: three ways to truncate a finished file by stopping.
    The next acquisition has a file name equal to the id that named the files of the current one. *)
Theorem c16_id_as_file_name_refuted :
  let w := fst (fw_run (fw_init true xdk) [OConfigure yes (xcfg "/d" "" "run" 0); OExecute xio CmdStart;
             OFrame xio xio xio (xf 0 "" 10); OConfigure yes (xcfg "/d" "run" "other" 0)]) in
  read (w_disk w) "/d/run_000000.h5" "data" 0 = Some [10] /\
  read (w_disk (fst (stop_acq xio w))) "/d/run_000000.h5" "data" 0 = None.
Proof. vm_compute. repeat split. Qed.
Print Assumptions c16_id_as_file_name_refuted.

(** The directory was never configured (the model writes the path with a leading slash; boost would not, for both). *)
Theorem c16_empty_path_refuted :
  let w := fst (fw_run (fw_init true xdk) [OConfigure yes (xcfg "" "run" "a" 0); OExecute xio CmdStart;
             OFrame xio xio xio (xf 0 "" 10); OConfigure yes (xcfg "" "run" "a" 0)]) in
  read (w_disk w) "/run_000000.h5" "data" 0 = Some [10] /\
  read (w_disk (fst (stop_acq xio w))) "/run_000000.h5" "data" 0 = None.
Proof. vm_compute. repeat split. Qed.
Print Assumptions c16_empty_path_refuted.

(** The postfix was changed: "run" ++ "_x" and "run_x" ++ "" are the same file. *)
Theorem c16_postfix_refuted :
  let w := fst (fw_run (fw_init true xdk)
    [OConfigure yes (Config None (Some (FCfg Absent Absent Absent Absent (Val "_x"%string) Absent)) DsNone false Absent Absent Absent Absent);
     OConfigure yes (xcfg "/d" "run" "a" 0); OExecute xio CmdStart; OFrame xio xio xio (xf 0 "" 10);
     OConfigure yes (Config None (Some (FCfg Absent Absent Absent Absent (Val ""%string) Absent)) DsNone false Absent Absent Absent Absent);
     OConfigure yes (xcfg "/d" "run_x" "b" 0)]) in
  read (w_disk w) "/d/run_x_000000.h5" "data" 0 = Some [10] /\
  read (w_disk (fst (stop_acq xio w))) "/d/run_x_000000.h5" "data" 0 = None.
Proof. vm_compute. repeat split. Qed.
Print Assumptions c16_postfix_refuted.
