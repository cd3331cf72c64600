(** A frame processor with the plugins of the distribution: how the controller uses them, and what a client shall see. *)
From Coq Require Import String Ascii.
From Verif Require Import Base StrOrder JsonModel JsonSpec PrcModel PrcSpec PrcSetSpec FrameModel AdjModel LiveModel GapModel BloscModel KafkaModel AcqModel FwModel FwSpec FwcModel FwcSpec HostSpec PcfModel PcfSpec.
Local Open Scope string_scope.
Local Open Scope list_scope.

(** Names of the classes, and their objects: DummyUDPProcessPluginLib.cpp:17, GapFillPluginLib.cpp:16, BloscPluginLib.cpp:15, OffsetAdjustmentPluginLib.cpp:17,
    SumPluginLib.cpp:14, LiveViewPluginLib.cpp:17, KafkaProducerPluginLib.cpp:16, ParameterAdjustmentPluginLib.cpp:17 *)
Inductive built : string -> plugin -> Prop :=
| bu_offset : built "OffsetAdjustmentPlugin" (POffset 0) | bu_adjust : built "ParameterAdjustmentPlugin" (PAdjust (Adj [] [])) | bu_live t : built "LiveViewPlugin" (PLive (new_live t))
| bu_gap : built "GapFillPlugin" (PGap (Gap [] [] [] [])) | bu_blosc lib g : built "BloscPlugin" (PBlosc (fst (new_blosc lib g)) (snd (new_blosc lib g)))
| bu_kafka : built "KafkaProducerPlugin" (PKafka new_kafka) | bu_dummy : built "DummyUDPProcessPlugin" (PDummy new_dummy) | bu_sum : built "SumPlugin" PSum.

Section Ship.
  Context {P : Type}.
  (** Plugins are file writers [w f], or others [u j q] with the name [j]; [W j]: the libraries they meet.  The state that the Blosc library keeps for the process is part of each BloscPlugin here; what others do to it is among the work of PcfSpec.worked. *)
  Record ships (v : env P) (w : fwx -> P) (u : string -> plugin -> P) (W : string -> world) : Prop := Ships {
    sp_all : forall p, (exists f, p = w f) \/ exists j q, p = u j q;
    sp_apart : forall f j q, w f <> u j q;
    sp_one : forall i j q r, u i q = u j r -> i = j /\ q = r;
    sp_make : forall k j p, v_make v k j = Some p -> k = "FileWriterPlugin" \/ exists q, p = u j q /\ built k q;
    sp_configure : forall j q m r, v_configure v (u j q) m r = let '(q1, r1, o) := plugin_configure (W j) m q r in (u j q1, r1, o);
    sp_request : forall j q r, v_request v (u j q) r = let '(q1, r1, o) := plugin_request j q r in (u j q1, r1, o);
    sp_status : forall j q r, v_status v (u j q) r = let '(q1, r1, o) := plugin_status (W j) j q r in (u j q1, r1, o);
    sp_execute : forall j q c r, v_execute v (u j q) c r = let '(q1, r1, o) := plugin_execute c q r in (u j q1, r1, o);
    sp_commands : forall j q, v_commands v (u j q) = plugin_commands q;
    sp_reset : forall j q, v_reset v (u j q) = let '(q1, b) := plugin_reset q in (u j q1, b);
    sp_perf : forall j q, v_reset_perf v (u j q) = u j q;
    sp_clear : forall j q, v_clear v (u j q) = u j q }.
  Definition shop (v : env P) (w : fwx -> P) (u : string -> plugin -> P) (W : string -> world) (look : string -> place) (i : io) (act : bool) (dk : disk) : Prop := hosts v w look i act dk /\ ships v w u W.
  Definition there (u : string -> plugin -> P) (s : prc P) (j : string) (q : plugin) : Prop := sm_get (p_objs s) j = Some (u j q).
  (** No plugin has the name of a part of the replies that the controller writes itself. *)
  Definition apart_named (s : prc P) : Prop := named s ["plugins"; "error"; "warning"; "shared_memory"; "ctrl_endpoint"; "meta_endpoint"; "fr_setup"].
  (** Plugins in states they can have, and names in what they report that can be told *)
  Definition in_order (w : fwx -> P) (u : string -> plugin -> P) (s : prc P) : Prop := all_plugins s (fun j p => (exists f, p = w f /\ x_name f = j /\ presentable f) \/ exists q, p = u j q /\ lived q /\ nameable q).
  (** The reply has the members for the plugin, and nothing else; without members nothing. *)
  Definition told (d : list (string * json)) (j : string) (l : list (string * json)) : Prop := forall q x, param d (j :: q) x <-> l <> [] /\ leads q (JObj l) x.
  (** The same for the status, but for the times that the controller adds *)
  Definition told_status (d : list (string * json)) (j : string) (l : list (string * json)) : Prop := forall q x, untimed q -> (param d (j :: q) x <-> leads q (JObj l) x).
  (** A plugin and its section of the message *)
  Definition given_by (W : string -> world) (x : json) (j : string) (q q1 : plugin) : Prop :=
    (exists y m r r1, leads [j] x y /\ holds m [] y /\ plugin_configure (W j) m q r = (q1, r1, Ret tt) /\ PcfSpec.configured y q q1) \/ ((forall y, ~ leads [j] x y) /\ q1 = q).
  (** The section asks for nothing that is refused. *)
  Definition fits_section (W : string -> world) (look : string -> place) (w : fwx -> P) (u : string -> plugin -> P) (j : string) (p : P) (y : json) : Prop :=
    (exists f, p = w f /\ suits look f y) \/ exists q l, p = u j q /\ y = JObj l /\ lived q /\ well_typed (W j) q l.
  (** What the plugins do with frames *)
  Definition frames_of (u : string -> plugin -> P) (j : string) (p p1 : P) : Prop := exists q q1, p = u j q /\ p1 = u j q1 /\ worked q q1.
End Ship.

(** ** From one frame processor to another *)
(** The sections of a message are what was reported for the plugins of [s]. *)
Definition taken_from {P} (s : prc P) (d : list (string * json)) (x : json) : Prop := object x /\ forall j y, leads [j] x y <-> sm_get (p_objs s) j <> None /\ param d [j] y.
(** What the plugin [p] reports can be given to [p'], as in C60 and C67. *)
Definition passes {P P'} (w : fwx -> P) (u : string -> plugin -> P) (w' : fwx -> P') (u' : string -> plugin -> P') (W' : string -> world) (look' : string -> place) (j : string) (p : P) (p' : P') : Prop :=
  (exists f f', p = w f /\ p' = w' f' /\ x_name f = j /\ x_name f' = j /\ sane f /\ FwcSpec.restorable f /\ w_defs (x_fw f') = [] /\ (w_writing (x_fw f') = true -> geometry f' = geometry f) /\ look' (p_path (next f)) = Writable) \/
  (exists q q', p = u j q /\ p' = u' j q' /\ lived q /\ nameable q /\ lived q' /\ PcfSpec.restorable (W' j) q q').
Definition passed {P P'} (w : fwx -> P) (u : string -> plugin -> P) (w' : fwx -> P') (u' : string -> plugin -> P') (j : string) (p : P) (p' p1 : P') : Prop :=
  (exists f f' f1, p = w f /\ p' = w' f' /\ p1 = w' f1 /\ x_name f1 = j /\ restored f f1 /\ rest_same f' f1) \/
  (exists q q' q1, p = u j q /\ p' = u' j q' /\ p1 = u' j q1 /\ same_settings q q1 /\ counters_kept q' q1).
