(** How the plugins other than the file writer are configured, and what they report.  frameProcessor/src/OffsetAdjustmentPlugin.cpp,
    ParameterAdjustmentPlugin.cpp, LiveViewPlugin.cpp, GapFillPlugin.cpp, BloscPlugin.cpp, KafkaProducerPlugin.cpp, DummyUDPProcessPlugin.cpp.
    configure of ParameterAdjustmentPlugin, LiveViewPlugin, KafkaProducerPlugin is in AdjModel, LiveModel, KafkaModel.  Where an exception is
    caught, kept with set_error and thrown again, the list of errors is left out (FrameProcessorPlugin.cpp:78-98 is in PluginModel). *)
From Coq Require Import String.
From Verif Require Import Base StrOrder JsonModel PrcModel CfgModel FrameModel AdjModel LiveModel GapModel BloscModel KafkaModel.
Local Open Scope string_scope.
Local Open Scope list_scope.
Local Open Scope Z_scope.

(** The members of DummyUDPProcessPlugin, DummyUDPProcessPlugin.h:68-75; constructor, DummyUDPProcessPlugin.cpp:23-32 *)
Record dummy := Dummy { dm_width : Z; dm_height : Z; dm_lost : Z; dm_copy : bool }.
Definition new_dummy : dummy := Dummy 1400 1024 0 true.

(** A plugin.  [POffset]: offset_adjustment_; [PBlosc]: with the state of the library, which is one for the process; SumPlugin has no settings *)
Inductive plugin := POffset (v : Z) | PAdjust (a : adj) | PLive (p : live) | PGap (g : gap) | PBlosc (g : bglobal) (p : bst) | PKafka (p : kafka) | PDummy (d : dummy) | PSum.
(** What the plugins meet: libraries; [wo_reports]: the reports served by the flush and the poll of Kafka; [wo_debug]: debug_level is 1 or more *)
Record world := World { wo_zmq : zmq; wo_blosc : blib; wo_kafka : klib; wo_reports : list bool; wo_debug : bool }.

(** OffsetAdjustmentPlugin::configure, lines 55-71 *)
Definition offset_configure (c : msg) (v : Z) : Z * outcome ipcexc unit := if_has c "offset_adjustment" GInt64 (fun r _ => num r) (v, Ret tt).
(** DummyUDPProcessPlugin::configure, lines 100-121 *)
Definition dummy_configure (c : msg) (d : dummy) : dummy * outcome ipcexc unit :=
  if_has c "copy_frame" GBool (fun r d => Dummy (dm_width d) (dm_height d) (dm_lost d) (flag r)) (if_has c "height" GInt (fun r d => Dummy (dm_width d) (num r) (dm_lost d) (dm_copy d)) (if_has c "width" GInt (fun r d => Dummy (num r) (dm_height d) (dm_lost d) (dm_copy d)) (d, Ret tt))).

(** GapFillPlugin::configure, lines 213-221: clear, resize to Size() (checked by rapidjson: an array), then GetInt of each element; where that
    throws the elements from there on are 0.  A log message at debug level 1 reads the elements 0 and 1 of the grid and chip size. *)
Fixpoint int_fill (l : list json) : list Z * outcome ipcexc unit :=
  match l with
  | [] => ([], Ret tt)
  | x :: t =>
    match get_value GInt x with
    | Ret r => let '(z, o) := int_fill t in (num r :: z, o)
    | Throw e => (map (fun _ => 0) (x :: t), Throw e)
    | Undef => (map (fun _ => 0) (x :: t), Undef)
    end
  end.
Definition int_vector (x : json) : list Z * outcome ipcexc unit := match x with JArr l => int_fill l | _ => ([], Throw EAssert) end.
Definition gap_step (c : msg) (name : string) (logs : bool) (set : list Z -> gap -> gap) (st : gap * outcome ipcexc unit) : gap * outcome ipcexc unit :=
  match st with
  | (g, Ret _) =>
    match has_param c name with
    | Ret true =>
      match get_ref c name with
      | Ret x => let '(l, o) := int_vector x in
        (set l g, match o with Ret _ => if logs && Nat.ltb (List.length l) 2 then Undef else Ret tt | e => e end)
      | Throw e => (g, Throw e)
      | Undef => (g, Undef)
      end
    | Ret false => (g, Ret tt)
    | Throw e => (g, Throw e)
    | Undef => (g, Undef)
    end
  | e => e
  end.
(** GapFillPlugin::configure, lines 208-282 *)
Definition gap_configure (debug : bool) (c : msg) (g : gap) : gap * outcome ipcexc unit :=
  gap_step c "y_gaps" false (fun l g => Gap (gp_grid g) (gp_chip g) (gp_x g) l)
  (gap_step c "x_gaps" false (fun l g => Gap (gp_grid g) (gp_chip g) l (gp_y g))
  (gap_step c "chip_size" debug (fun l g => Gap (gp_grid g) l (gp_x g) (gp_y g))
  (gap_step c "grid_size" debug (fun l g => Gap l (gp_chip g) (gp_x g) (gp_y g)) (g, Ret tt)))).

(** BloscPlugin::configure, lines 241-309, with the warnings put into the reply (BloscModel.blosc_configure leaves them out).  BLOSC_LZ4 is 1. *)
Notation B := (C (bglobal * bst)).
Definition blosc_update (lib : blib) : B unit := fun '(g, p) r =>
  let '(g1, p1, o) := update_settings lib g p in ((g1, p1), r, match o with Ret a => Ret a | Throw (BIpc e) => Throw (XIpc e) | Throw BRuntime => Throw (XRun "Blosc failed to set compressor") | Undef => Undef end).
Definition blosc_command (lib : blib) (f : settings -> settings) : B unit :=
  cseq (cset (fun '(g, p) => (g, Bst (bp_acq p) (bp_cur p) (f (bp_cmd p))))) (fun _ => cseq cget (fun '(g, p) => if String.eqb (bp_acq p) "" then blosc_update lib else cret tt)).
Definition warn (w : option (string * value)) : B unit := match w with Some (n, v) => cput n v | None => cret tt end.
Definition level_warning (v : Z) : option (string * value) := if v <? 1 then Some ("warning: level", XStr "Capped at lower range: 1") else if 9 <? v then Some ("warning: level", XStr "Capped at upper range: 9") else None.
Definition shuffle_warning (v : Z) : option (string * value) := if 2 <? v then Some ("warning: shuffle filter", XStr "Disabled") else None.
Definition threads_warning (v : Z) : option (string * value) := if 256 <? v then Some ("warning: threads", XInt 8) else None.
Definition compressor_warning (v : Z) : option (string * value) := if 5 <? v then Some ("warning: compressor", XInt 1) else None.
Definition bloscx_configure (lib : blib) (c : msg) : B unit :=
  cseq (setting c "level" int (fun v => cseq (warn (level_warning v)) (fun _ => blosc_command lib (set_level v)))) (fun _ =>
  cseq (setting c "shuffle" uint (fun v => cseq (warn (shuffle_warning v)) (fun _ => blosc_command lib (set_shuffle v)))) (fun _ =>
  cseq (setting c "threads" uint (fun v => cseq (warn (threads_warning v)) (fun _ => blosc_command lib (set_threads v)))) (fun _ =>
  setting c "compressor" uint (fun v => cseq (warn (compressor_warning v)) (fun _ => blosc_command lib (set_compressor v)))))).

(** configure of a plugin: the reply is changed by BloscPlugin only *)
Definition raised {A} (o : outcome ipcexc A) : outcome fault A := match o with Ret a => Ret a | Throw e => Throw (XIpc e) | Undef => Undef end.
Definition plugin_configure (w : world) (c : msg) : C plugin unit := fun s r =>
  match s with
  | POffset v => let '(v1, o) := offset_configure c v in (POffset v1, r, raised o)
  | PAdjust a => let '(a1, o) := adjust_configure c a in (PAdjust a1, r, raised o)
  | PLive p => let '(p1, o) := live_configure (wo_zmq w) c p in (PLive p1, r, raised o)
  | PGap g => let '(g1, o) := gap_configure (wo_debug w) c g in (PGap g1, r, raised o)
  | PBlosc g p => let '((g1, p1), r1, o) := bloscx_configure (wo_blosc w) c (g, p) r in (PBlosc g1 p1, r1, o)
  | PKafka p => let '(p1, o) := kafka_configure (wo_kafka w) (wo_reports w) c p in (PKafka p1, r, raised o)
  | PDummy d => let '(d1, o) := dummy_configure c d in (PDummy d1, r, raised o)
  | PSum => (s, r, Ret tt) (* FrameProcessorPlugin.cpp:154-157 *)
  end.

(** requestConfiguration: OffsetAdjustmentPlugin.cpp:78-81, ParameterAdjustmentPlugin.cpp:143-157, LiveViewPlugin.cpp:207-212,
    GapFillPlugin.cpp:313-327, BloscPlugin.cpp:315-325, KafkaProducerPlugin.cpp:113-125, DummyUDPProcessPlugin.cpp:131-138.  [i]: get_name() *)
Definition plugin_shown (i : string) (s : plugin) : list (string * value) :=
  match s with
  | POffset v => [((i ++ "/offset_adjustment")%string, XInt64 v)]
  | PAdjust a => map (fun e => ((i ++ "/parameter/" ++ fst e ++ "/adjustment")%string, XInt64 (snd e))) (ad_adjustments a) ++ map (fun e => ((i ++ "/parameter/" ++ fst e ++ "/input")%string, XStr (snd e))) (ad_inputs a)
  | PLive p => [((i ++ "/frame_frequency")%string, XInt (lv_freq p)); ((i ++ "/live_view_socket_addr")%string, XStr (lv_addr p)); ((i ++ "/per_second")%string, XInt (lv_per_second p))]
  | PGap g => map (fun z => ((i ++ "/grid_size[]")%string, XInt z)) (gp_grid g) ++ map (fun z => ((i ++ "/chip_size[]")%string, XInt z)) (gp_chip g) ++ map (fun z => ((i ++ "/x_gaps[]")%string, XInt z)) (gp_x g) ++ map (fun z => ((i ++ "/y_gaps[]")%string, XInt z)) (gp_y g)
  | PBlosc _ p => [((i ++ "/compressor")%string, XUint (bs_compressor (bp_cmd p))); ((i ++ "/threads")%string, XUint (bs_threads (bp_cmd p))); ((i ++ "/shuffle")%string, XUint (bs_shuffle (bp_cmd p))); ((i ++ "/level")%string, XInt (bs_level (bp_cmd p)))]
  | PKafka p => [((i ++ "/servers")%string, XStr (kp_servers p)); ((i ++ "/topic")%string, XStr (kp_topic_name p)); ((i ++ "/partition")%string, XInt (kp_partition p)); ((i ++ "/dataset")%string, XStr (kp_dataset p)); ((i ++ "/include_parameters")%string, XBool (kp_parameters p))]
  | PDummy d => [((i ++ "/width")%string, XInt (dm_width d)); ((i ++ "/height")%string, XInt (dm_height d)); ((i ++ "/copy_frame")%string, XBool (dm_copy d))]
  | PSum => []
  end.
Definition plugin_request (i : string) : C plugin unit := cseq cget (fun s => cputs (plugin_shown i s)).

(** status: BloscPlugin.cpp:331-337, KafkaProducerPlugin.cpp:132-142 (which polls first, lines 174-180), DummyUDPProcessPlugin.cpp:182-186; the
    others have that of FrameProcessorPlugin, which does nothing (FrameProcessorPlugin.cpp:212-217). *)
Definition polled (w : world) (s : plugin) : plugin := match s with PKafka p => PKafka (if kp_producer p then reports (wo_reports w) p else p) | s => s end.
Definition status_shown (i : string) (s : plugin) : list (string * value) :=
  match s with
  | PBlosc _ p => [((i ++ "/compressor")%string, XUint (bs_compressor (bp_cur p))); ((i ++ "/threads")%string, XUint (bs_threads (bp_cur p))); ((i ++ "/shuffle")%string, XUint (bs_shuffle (bp_cur p))); ((i ++ "/level")%string, XInt (bs_level (bp_cur p)))]
  | PKafka p => [((i ++ "/sent")%string, XUint (kp_sent p)); ((i ++ "/lost")%string, XUint (kp_lost p)); ((i ++ "/ack")%string, XUint (kp_ack p))]
  | PDummy d => [((i ++ "/packets_lost")%string, XInt (dm_lost d))]
  | _ => []
  end.
Definition plugin_status (w : world) (i : string) : C plugin unit := cseq (cset (polled w)) (fun _ => cseq cget (fun s => cputs (status_shown i s))).

(** reset_statistics: KafkaProducerPlugin.cpp:147-153, DummyUDPProcessPlugin.cpp:191-196; the others: FrameProcessorPlugin.cpp:120-124 *)
Definition plugin_reset (s : plugin) : plugin * bool :=
  (match s with PKafka p => PKafka (with_counts 0 0 0 p) | PDummy d => PDummy (Dummy (dm_width d) (dm_height d) 0 (dm_copy d)) | s => s end, true).
(** execute and requestCommands: DummyUDPProcessPlugin.cpp:148-175; the others: FrameProcessorPlugin.cpp:178-205 *)
Definition plugin_commands (s : plugin) : list string := match s with PDummy _ => ["print"] | _ => [] end.
Definition plugin_execute (c : string) : C plugin unit := fun s r =>
  match s with
  | PDummy _ => if String.eqb c "print" then (s, r, Ret tt) else (s, r, Throw (XRun (cstr ("Submitted command not supported: " ++ c)%string)))
  | _ => (s, r, Throw (XRun (cstr ("Submitted command not supported: " ++ c)%string)))
  end.
