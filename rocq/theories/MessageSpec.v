(** Names on the wire and well formed messages, without the functions of the model. *)
From Coq Require Import String.
From Verif Require Import Base JsonModel JsonSpec.
Local Open Scope string_scope.
Local Open Scope list_scope.

(** The interface: which name stands for what. *)
Inductive type_name : string -> msg_type -> Prop :=
| tn_cmd : type_name "cmd" TCmd | tn_ack : type_name "ack" TAck | tn_nack : type_name "nack" TNack | tn_notify : type_name "notify" TNotify.
Inductive val_name : string -> msg_val -> Prop :=
| vn_reset : val_name "reset" VReset | vn_status : val_name "status" VStatus | vn_configure : val_name "configure" VConfigure | vn_reqconf : val_name "request_configuration" VRequestConfiguration
| vn_execute : val_name "execute" VExecute | vn_reqcom : val_name "request_commands" VRequestCommands | vn_reqver : val_name "request_version" VRequestVersion
| vn_reqbuf : val_name "request_buffer_config" VBufferConfigRequest | vn_reqpre : val_name "request_buffer_precharge" VBufferPrechargeRequest | vn_resstat : val_name "reset_statistics" VResetStatistics
| vn_shutdown : val_name "shutdown" VShutdown | vn_identity : val_name "identity" VIdentity | vn_ready : val_name "frame_ready" VFrameReady | vn_release : val_name "frame_release" VFrameRelease
| vn_bufconf : val_name "buffer_config" VBufferConfig | vn_precharge : val_name "buffer_precharge" VBufferPrecharge | vn_notstat : val_name "notify_status" VNotifyStatus.

(** A document that is a message: an object with type and value by name, a time, an id that is an unsigned int if there is one,
    and an object of parameters. *)
Record well_formed (parse : string -> option Z) (x : json) (t : msg_type) (v : msg_val) (id time : Z) (p : list (string * json)) : Prop := WellFormed {
  wf_type : exists n, leads ["msg_type"] x (JStr n) /\ type_name n t;
  wf_val : exists n, leads ["msg_val"] x (JStr n) /\ val_name n v;
  wf_time : exists n, leads ["timestamp"] x (JStr n) /\ parse n = Some time;
  wf_id : leads ["id"] x (JInt id) /\ (0 <= id < 2 ^ 32)%Z \/ id = 0%Z /\ forall y, ~ leads ["id"] x y;
  wf_params : leads ["params"] x (JObj p) }.
(** No zero characters in the three strings. *)
Definition clean (x : json) : Prop := forall k n, leads [k] x (JStr n) -> no_nul n.
