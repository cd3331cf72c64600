(** What the plugins other than the file writer shall report, and what configuring them shall do. *)
From Coq Require Import String.
From Verif Require Import Base StrOrder JsonModel JsonSpec PrcModel CfgModel CfgSpec FrameModel AdjModel LiveModel LiveSpec GapModel BloscModel KafkaModel PcfModel.
Local Open Scope string_scope.
Local Open Scope list_scope.
Local Open Scope Z_scope.

Definition int32 (z : Z) : Prop := - 2 ^ 31 <= z < 2 ^ 31.
Definition int64 (z : Z) : Prop := - 2 ^ 63 <= z < 2 ^ 63.
Definition counter (z : Z) : Prop := 0 <= z < 2 ^ 32.
Definition as_i64 : json -> option Z := number_in (- 2 ^ 63) (2 ^ 63).

(** ** Reports *)
(** A parameter adjustment: its value, its input if one was set *)
Definition row_json (v : Z) (i : option string) : json := JObj (("adjustment", JInt v) :: match i with Some t => [("input", JStr t)] | None => [] end).
Definition ints_json (k : string) (l : list Z) : list (string * json) := match l with [] => [] | _ => [(k, JArr (map JInt l))] end.
(** The configuration of a plugin *)
Definition members (s : plugin) : list (string * json) :=
  match s with
  | POffset v => [("offset_adjustment", JInt v)]
  | PAdjust a => match ad_adjustments a with [] => [] | l => [("parameter", JObj (map (fun e => (fst e, row_json (snd e) (sm_get (ad_inputs a) (fst e)))) l))] end
  | PLive p => [("frame_frequency", JInt (lv_freq p)); ("live_view_socket_addr", JStr (lv_addr p)); ("per_second", JInt (lv_per_second p))]
  | PGap g => ints_json "grid_size" (gp_grid g) ++ ints_json "chip_size" (gp_chip g) ++ ints_json "x_gaps" (gp_x g) ++ ints_json "y_gaps" (gp_y g)
  | PBlosc _ p => [("compressor", JInt (bs_compressor (bp_cmd p))); ("threads", JInt (bs_threads (bp_cmd p))); ("shuffle", JInt (bs_shuffle (bp_cmd p))); ("level", JInt (bs_level (bp_cmd p)))]
  | PKafka p => [("servers", JStr (kp_servers p)); ("topic", JStr (kp_topic_name p)); ("partition", JInt (kp_partition p)); ("dataset", JStr (kp_dataset p)); ("include_parameters", JBool (kp_parameters p))]
  | PDummy d => [("width", JInt (dm_width d)); ("height", JInt (dm_height d)); ("copy_frame", JBool (dm_copy d))]
  | PSum => []
  end.
(** Its status: the settings in use, the counters *)
Definition status_members (s : plugin) : list (string * json) :=
  match s with
  | PBlosc _ p => [("compressor", JInt (bs_compressor (bp_cur p))); ("threads", JInt (bs_threads (bp_cur p))); ("shuffle", JInt (bs_shuffle (bp_cur p))); ("level", JInt (bs_level (bp_cur p)))]
  | PKafka p => [("sent", JInt (kp_sent p)); ("lost", JInt (kp_lost p)); ("ack", JInt (kp_ack p))]
  | PDummy d => [("packets_lost", JInt (dm_lost d))]
  | _ => []
  end.
(** The reply has the members under the name [i], and else what it had; without members it is as it was. *)
Definition tells (i : string) (l : list (string * json)) (r r1 : msg) : Prop :=
  match l with
  | [] => r1 = r
  | _ => holds r1 [i] (JObj l) /\ (forall q x, q <> [] -> hd "" q <> i -> (holds r1 q x <-> holds r q x)) /\ g_type r1 = g_type r /\ g_val r1 = g_val r /\ g_id r1 = g_id r
  end.

(** ** The life of a plugin *)
(** As the constructors make them *)
Inductive made : plugin -> Prop :=
| ma_offset : made (POffset 0) | ma_adjust : made (PAdjust (Adj [] [])) | ma_live t : made (PLive (new_live t)) | ma_gap : made (PGap (Gap [] [] [] [])) | ma_blosc lib g : made (PBlosc (fst (new_blosc lib g)) (snd (new_blosc lib g)))
| ma_kafka : made (PKafka new_kafka) | ma_dummy : made (PDummy new_dummy) | ma_sum : made PSum.
(** What processing a frame does to the plugin: counters, clocks, the settings in use, a library shared with other plugins *)
Inductive worked : plugin -> plugin -> Prop :=
| wk_live count p f t1 t2 count' p' s out : live_process count p f t1 t2 = Ret (count', p', s, out) -> worked (PLive p) (PLive p')
| wk_blosc lib g p f g' p' o : blosc_process lib g p f = (g', p', o) -> worked (PBlosc g p) (PBlosc g' p')
| wk_shared g g' p : worked (PBlosc g p) (PBlosc g' p)
| wk_kafka k p e q x : (forall c r, e <> KConfig c r) -> kafka_step k p e = (q, x) -> worked (PKafka p) (PKafka q)
| wk_dummy d n : int32 n -> worked (PDummy d) (PDummy (Dummy (dm_width d) (dm_height d) n (dm_copy d))).
Inductive lived : plugin -> Prop :=
| li_made s : made s -> lived s
| li_configure w m s r s1 r1 o : lived s -> plugin_configure w m s r = (s1, r1, o) -> lived s1
| li_work s s1 : lived s -> worked s s1 -> lived s1
| li_status w i s r s1 r1 o : lived s -> plugin_status w i s r = (s1, r1, o) -> lived s1
| li_reset s s1 b : lived s -> plugin_reset s = (s1, b) -> lived s1.
(** Numbers within their types; texts without zeros; inputs of adjusted parameters only; compression settings the library knows *)
Definition known (c : settings) : Prop := 1 <= bs_level c <= 9 /\ 0 <= bs_shuffle c <= 2 /\ 0 <= bs_threads c <= 256 /\ 0 <= bs_compressor c <= 5.
Definition fit (s : plugin) : Prop :=
  match s with
  | POffset v => int64 v
  | PAdjust a => sm_ok (ad_adjustments a) /\ sm_ok (ad_inputs a) /\ Forall (fun e => no_nul (fst e) /\ int64 (snd e)) (ad_adjustments a) /\ Forall (fun e => no_nul (snd e) /\ In (fst e) (map fst (ad_adjustments a))) (ad_inputs a)
  | PLive p => int32 (lv_freq p) /\ int32 (lv_per_second p) /\ no_nul (lv_addr p) /\ socket_ok p
  | PGap g => Forall int32 (gp_grid g) /\ Forall int32 (gp_chip g) /\ Forall int32 (gp_x g) /\ Forall int32 (gp_y g)
  | PBlosc _ p => known (bp_cmd p) /\ known (bp_cur p)
  | PKafka p => no_nul (kp_servers p) /\ no_nul (kp_topic_name p) /\ no_nul (kp_dataset p) /\ int32 (kp_partition p) /\ counter (kp_sent p) /\ counter (kp_lost p) /\ counter (kp_ack p)
  | PDummy d => int32 (dm_width d) /\ int32 (dm_height d) /\ int32 (dm_lost d)
  | PSum => True
  end.
(** The names of adjusted parameters have no slash. *)
Definition nameable (s : plugin) : Prop := match s with PAdjust a => Forall (fun e => no_slash (fst e)) (ad_adjustments a) | _ => True end.

(** ** Configuring *)
Definition capped (lo hi z : Z) : Z := Z.max lo (Z.min hi z).
Definition legal_or (max other z : Z) : Z := if z <=? max then z else other.
Definition to_int32 (z : Z) : Z := if z <? 2 ^ 31 then z else z - 2 ^ 32.
(** What a message with the parameters [x] sets; what else there is stays.  Adjustments: c39_configure_partial; the filters and the socket of the live view:
    c37_configure_partial, c37_socket_taken; servers and topic of Kafka: c42_configured. *)
Definition configured (x : json) (s s1 : plugin) : Prop :=
  match s, s1 with
  | POffset v, POffset v1 => CfgSpec.given x ["offset_adjustment"] as_i64 v v1
  | PLive p, PLive p1 => CfgSpec.given x ["frame_frequency"] as_int (lv_freq p) (lv_freq p1) /\ CfgSpec.given x ["per_second"] as_int (lv_per_second p) (lv_per_second p1) /\ lv_last p1 = lv_last p
  | PGap g, PGap g1 => CfgSpec.given x ["grid_size"] (as_list as_int) (gp_grid g) (gp_grid g1) /\ CfgSpec.given x ["chip_size"] (as_list as_int) (gp_chip g) (gp_chip g1) /\ CfgSpec.given x ["x_gaps"] (as_list as_int) (gp_x g) (gp_x g1) /\ CfgSpec.given x ["y_gaps"] (as_list as_int) (gp_y g) (gp_y g1)
  | PBlosc g p, PBlosc g1 p1 => CfgSpec.given x ["level"] (omap (capped 1 9) as_int) (bs_level (bp_cmd p)) (bs_level (bp_cmd p1)) /\ CfgSpec.given x ["shuffle"] (omap (legal_or 2 0) as_uint) (bs_shuffle (bp_cmd p)) (bs_shuffle (bp_cmd p1)) /\
      CfgSpec.given x ["threads"] (omap (legal_or 256 8) as_uint) (bs_threads (bp_cmd p)) (bs_threads (bp_cmd p1)) /\ CfgSpec.given x ["compressor"] (omap (legal_or 5 1) as_uint) (bs_compressor (bp_cmd p)) (bs_compressor (bp_cmd p1)) /\ bp_acq p1 = bp_acq p /\
      (bp_acq p <> "" -> bp_cur p1 = bp_cur p /\ g1 = g) /\ (bp_acq p = "" -> (p1 = p /\ g1 = g) \/ (bp_cur p1 = bp_cmd p1 /\ g1 = Bglobal (bs_compressor (bp_cmd p1)) (bs_threads (bp_cmd p1))))
  | PKafka p, PKafka p1 => CfgSpec.given x ["partition"] (omap to_int32 as_uint) (kp_partition p) (kp_partition p1) /\ CfgSpec.given x ["dataset"] as_text (kp_dataset p) (kp_dataset p1) /\ CfgSpec.given x ["include_parameters"] as_bool (kp_parameters p) (kp_parameters p1) /\
      kp_sent p1 = kp_sent p /\ kp_lost p1 = kp_lost p
  | PDummy d, PDummy d1 => CfgSpec.given x ["width"] as_int (dm_width d) (dm_width d1) /\ CfgSpec.given x ["height"] as_int (dm_height d) (dm_height d1) /\ CfgSpec.given x ["copy_frame"] as_bool (dm_copy d) (dm_copy d1) /\ dm_lost d1 = dm_lost d
  | PAdjust _, PAdjust _ => True
  | PSum, PSum => True
  | _, _ => False
  end.
(** What BloscPlugin says about a setting that it does not take as it is *)
Definition warned (x : json) (k : string) (rd : json -> option Z) (name : string) (text : Z -> option json) (r r1 : msg) : Prop :=
  (exists y z t, leads [k] x y /\ rd y = Some z /\ text z = Some t /\ holds r1 [name] t) \/
  ((forall y z t, leads [k] x y -> rd y = Some z -> text z <> Some t) /\ forall t, holds r1 [name] t <-> holds r [name] t).
Definition level_text (z : Z) : option json := if z <? 1 then Some (JStr "Capped at lower range: 1") else if 9 <? z then Some (JStr "Capped at upper range: 9") else None.
Definition over (max : Z) (t : json) (z : Z) : option json := if max <? z then Some t else None.
Definition warning_names : list string := ["warning: level"; "warning: shuffle filter"; "warning: threads"; "warning: compressor"].
Definition warnings (x : json) (r r1 : msg) : Prop :=
  warned x "level" as_int "warning: level" level_text r r1 /\ warned x "shuffle" as_uint "warning: shuffle filter" (over 2 (JStr "Disabled")) r r1 /\
  warned x "threads" as_uint "warning: threads" (over 256 (JInt 8)) r r1 /\ warned x "compressor" as_uint "warning: compressor" (over 5 (JInt 1)) r r1 /\
  (forall q y, q <> [] -> ~ In (hd "" q) warning_names -> (holds r1 q y <-> holds r q y)) /\ g_type r1 = g_type r /\ g_val r1 = g_val r /\ g_id r1 = g_id r.

(** ** Sending back what was reported *)
(** The plugin [s1] has the settings of [s].  Left out for the live view: dataset_name and filter_tagged. *)
Definition same_settings (s s1 : plugin) : Prop :=
  match s, s1 with
  | POffset v, POffset v1 => v1 = v
  | PAdjust a, PAdjust a1 => forall n, sm_get (ad_adjustments a1) n = sm_get (ad_adjustments a) n /\ (forall i, i <> "" -> (sm_get (ad_inputs a1) n = Some i <-> sm_get (ad_inputs a) n = Some i))
  | PLive p, PLive p1 => lv_freq p1 = lv_freq p /\ lv_per_second p1 = lv_per_second p /\ lv_addr p1 = lv_addr p
  | PGap g, PGap g1 => g1 = g
  | PBlosc _ p, PBlosc _ p1 => bp_cmd p1 = bp_cmd p
  | PKafka p, PKafka p1 => kp_servers p1 = kp_servers p /\ kp_topic_name p1 = kp_topic_name p /\ kp_partition p1 = kp_partition p /\ kp_dataset p1 = kp_dataset p /\ kp_parameters p1 = kp_parameters p /\ kp_producer p1 = true
  | PDummy d, PDummy d1 => dm_width d1 = dm_width d /\ dm_height d1 = dm_height d /\ dm_copy d1 = dm_copy d
  | PSum, PSum => True
  | _, _ => False
  end.
(** What is reported by [s] can be given to [s']. *)
Definition restorable (w : world) (s s' : plugin) : Prop :=
  match s, s' with
  | POffset _, POffset _ => True
  | PAdjust a, PAdjust a' => ad_adjustments a <> [] /\ nameable s /\ incl (map fst (ad_adjustments a')) (map fst (ad_adjustments a))
  | PLive p, PLive p' => lv_bound p' = true -> lv_addr p <> lv_addr p' -> zmq_unbind (wo_zmq w) (lv_addr p') = true
  | PGap g, PGap g' => gp_grid g <> [] /\ gp_chip g <> [] /\ gp_x g <> [] /\ gp_y g <> [] /\ (wo_debug w = true -> (2 <= List.length (gp_grid g))%nat /\ (2 <= List.length (gp_chip g))%nat)
  | PBlosc _ p, PBlosc _ p' => bp_acq p' = "" -> bl_supports (wo_blosc w) (bs_compressor (bp_cmd p)) = true /\ bl_supports (wo_blosc w) (bs_compressor (bp_cmd p')) = true
  | PKafka p, PKafka p' => 0 <= kp_partition p /\ kl_servers (wo_kafka w) (kp_servers p) = true
  | PDummy _, PDummy _ => True
  | PSum, PSum => True
  | _, _ => False
  end.
(** The rest of [s'] *)
Definition counters_kept (s' s1 : plugin) : Prop :=
  match s', s1 with
  | PLive p, PLive p1 => lv_last p1 = lv_last p /\ lv_datasets p1 = lv_datasets p /\ lv_tags p1 = lv_tags p
  | PBlosc _ p, PBlosc _ p1 => bp_acq p1 = bp_acq p /\ (bp_acq p <> "" -> bp_cur p1 = bp_cur p)
  | PKafka p, PKafka p1 => kp_sent p1 = kp_sent p /\ kp_lost p1 = kp_lost p
  | PDummy d, PDummy d1 => dm_lost d1 = dm_lost d
  | _, _ => True
  end.
(** ** Accepted configurations *)
Definition ok {A} (rd : json -> option A) (y : json) : Prop := rd y <> None.
Definition pair_or_more (b : bool) (y : json) : Prop := exists a, as_list as_int y = Some a /\ (b = true -> (2 <= List.length a)%nat).
(** The settings of a plugin, and the values for them.  Adjustments: c39_configure_partial *)
Definition settings_of (w : world) (s : plugin) : list (string * (json -> Prop)) :=
  match s with
  | POffset _ => [("offset_adjustment", ok as_i64)]
  | PAdjust _ => [("parameter", fun _ => False)]
  | PLive _ => [("frame_frequency", ok as_int); ("per_second", ok as_int); ("dataset_name", ok as_text); ("filter_tagged", ok as_text); ("live_view_socket_addr", ok as_text)]
  | PGap _ => [("grid_size", pair_or_more (wo_debug w)); ("chip_size", pair_or_more (wo_debug w)); ("x_gaps", ok (as_list as_int)); ("y_gaps", ok (as_list as_int))]
  | PBlosc _ _ => [("level", ok as_int); ("shuffle", ok as_uint); ("threads", ok as_uint); ("compressor", ok as_uint)]
  | PKafka _ => [("servers", ok as_text); ("topic", ok as_text); ("partition", ok as_uint); ("dataset", ok as_text); ("include_parameters", ok as_bool)]
  | PDummy _ => [("width", ok as_int); ("height", ok as_int); ("copy_frame", ok as_bool)]
  | PSum => []
  end.
Definition well_typed (w : world) (s : plugin) (l : list (string * json)) : Prop :=
  (forall k p y, In (k, p) (settings_of w s) -> leads [k] (JObj l) y -> p y) /\
  match s with PBlosc _ p => bp_acq p = "" -> forall k, 0 <= k <= 5 -> bl_supports (wo_blosc w) k = true | _ => True end.
(** Everything but the counters of statistics *)
Definition reset_of (s s1 : plugin) : Prop :=
  members s1 = members s /\
  match s, s1 with
  | PKafka p, PKafka p1 => kp_sent p1 = 0 /\ kp_lost p1 = 0 /\ kp_ack p1 = 0 /\ kp_topic p1 = kp_topic p /\ kp_producer p1 = kp_producer p
  | PDummy _, PDummy d1 => dm_lost d1 = 0
  | _, _ => s1 = s
  end.
