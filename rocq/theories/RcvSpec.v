(** What the frame receiver shall do, in terms of its parts and of what goes over its channels. *)
From Coq Require Import String.
From Verif Require Import Base JsonModel JsonSpec PortModel PortSpec RcvModel.
Local Open Scope string_scope.
Local Open Scope list_scope.
Local Open Scope Z_scope.

(** The channel is bound to the endpoint that is set for it. *)
Definition listening (c : chan) (s : rc) : Prop := In (c, s_end (c_cfg s) c) (c_bound s).
(** Decoder, buffers and thread exist, belong together and are made from the settings. *)
Record in_service (s : rc) (d : decoder) (b : buffers) (t : thread) : Prop := InService {
  is_decoder : c_decoder s = Some d;
  is_class : d_class d = append (s_type (c_cfg s)) "FrameDecoder";
  is_init : d_init d = Some (s_dcfg (c_cfg s));
  is_buffers : c_buffers s = Some b;
  is_name : b_name b = s_shm (c_cfg s);
  is_mem : b_mem b = s_mem (c_cfg s);
  is_shared : In (b_name b) (c_names s);
  is_registered : d_buf d = Some b;
  is_thread : c_thread s = Some t;
  is_started : t_ok t = true;
  is_joined : t_dec t = d_no d /\ t_buf t = b_no b;
  is_type : t_type t = s_rx (c_cfg s);
  is_ports : t_ports t = s_ports (c_cfg s);
  is_addr : t_addr t = s_addr (c_cfg s);
  is_size : t_size t = s_size (c_cfg s);
  is_end : t_end t = s_end (c_cfg s) CRx }.

(** A reply: type and value by name, id *)
Definition says (d : list (string * json)) (k : string) (x : json) : Prop := leads [k] (JObj d) x.
Definition param (d : list (string * json)) (p : list string) (x : json) : Prop := leads ("params" :: p) (JObj d) x.
Definition acked (d : list (string * json)) : Prop := says d "msg_type" (JStr "ack").
Definition refused (d : list (string * json)) : Prop := says d "msg_type" (JStr "nack") /\ exists w, param d ["error"] (JStr w).
(** The reply reports all parts as configured. *)
Definition reports_all (d : list (string * json)) : Prop :=
  acked d /\ forall k, In k ["ipc"; "decoder"; "buffer_manager"; "rx_thread"] -> param d ["configured"; k] (JBool true).
Definition is_reply (f : effect) : Prop := exists client d, f = FReply client d.
(** Between [s] and [s'] exactly one reply, to [client]. *)
Definition answered (s s' : rc) (client : string) (d : list (string * json)) : Prop :=
  exists l, c_out s' = c_out s ++ l ++ [FReply client d] /\ forall f, In f l -> ~ is_reply f.

(** Requests and surroundings without the cases that end the process.  A name as decoders use it for parameters: *)
Definition param_name (n : string) : Prop := exists c, c <> [] /\ Forall no_slash c /\ Forall no_nul c /\ plain (last c "") /\ n = slashed c.
(** A list of ports, at least one *)
Definition lists_ports (t : string) : Prop :=
  exists parts entries ports, t = LiveSpec.joined "," parts /\ parts <> [] /\ Forall LiveSpec.no_comma parts /\ Forall2 entry_text parts entries /\ ports_of entries ports /\ ports <> [].
Record tame (doc : list (string * json)) : Prop := Tame {
  ta_ports : forall t, param doc ["rx_ports"] (JStr t) -> no_nul t /\ lists_ports t;
  ta_path : forall t, param doc ["decoder_path"] (JStr t) -> no_nul t /\ t <> "";
  ta_names : forall l n x, param doc ["decoder_config"] (JObj l) -> In (n, x) l -> no_slash n /\ no_nul n /\ plain n }.
Definition id_valid (doc : list (string * json)) : Prop := forall x, says doc "id" x -> exists i, x = JInt i /\ 0 <= i < 2 ^ 32.
Definition tame_event (e : event) : Prop :=
  match e with Direct m => tame (g_doc m) | Ctrl _ (Some (JObj doc)) => tame doc /\ id_valid doc | _ => True end.
(** Nothing fails outside: the memory of a string just freed is still there, endpoints can be unbound, shared memory can be made; decoders use names of parameters. *)
Record calm (v : env) : Prop := Calm {
  ca_stale : forall s, v_stale v s = s;
  ca_unbind : forall c e, v_unbind v c e = true;
  ca_shm : forall n m z, v_shm v n m z <> None;
  ca_version : Forall (fun p => param_name (fst p)) (v_version v);
  ca_config : Forall (fun p => param_name (fst p)) (v_config v) }.

(** Messages by their head.  A notification must be complete; a command may lack parts. *)
Definition note (c : clock) (w : string) (x : option json) (j : json) : Prop :=
  exists doc t l, x = Some j /\ j = JObj doc /\ says doc "msg_type" (JStr "notify") /\ says doc "msg_val" (JStr w) /\ says doc "timestamp" (JStr t) /\ time_parse c t <> None /\ id_valid doc /\ says doc "params" (JObj l).
(** A complete command on the channels that are read strictly *)
Definition asks (c : clock) (w : string) (x : option json) : Prop :=
  exists doc t l, x = Some (JObj doc) /\ says doc "msg_type" (JStr "cmd") /\ says doc "msg_val" (JStr w) /\ says doc "timestamp" (JStr t) /\ time_parse c t <> None /\ id_valid doc /\ says doc "params" (JObj l).
Definition command (w : string) (x : option json) : Prop :=
  exists doc, x = Some (JObj doc) /\ says doc "msg_type" (JStr "cmd") /\ says doc "msg_val" (JStr w) /\ forall y, says doc "timestamp" y -> exists t, y = JStr t.
(** No zero characters in the head *)
Definition clean (x : option json) : Prop := forall doc k t, x = Some (JObj doc) -> In k ["msg_type"; "msg_val"; "timestamp"] -> says doc k (JStr t) -> no_nul t.
Definition clean_event (e : event) : Prop := match e with Direct _ | Timer => True | Ctrl _ x | FromRx _ x | Release x => clean x end.
Definition ready_of (v : env) (e : event) (j : json) : Prop := exists i x, e = FromRx i x /\ note (v_clock v) "frame_ready" x j.
Definition release_of (v : env) (e : event) (j : json) : Prop := exists x, e = Release x /\ note (v_clock v) "frame_release" x j.
Definition resets (e : event) : Prop := exists client x, e = Ctrl client x /\ command "reset_statistics" x.
(** [n] notifications so far; in the end [k].  The counters have 32 bits. *)
Inductive counted (hit : env -> event -> json -> Prop) : Z -> list (env * event) -> Z -> Prop :=
| cn_nil n : counted hit n [] n
| cn_hit n v e j l k : hit v e j -> counted hit ((n + 1) mod 2 ^ 32) l k -> counted hit n ((v, e) :: l) k
| cn_reset n v e l k : resets e -> counted hit 0 l k -> counted hit n ((v, e) :: l) k
| cn_other n v e l k : (forall j, ~ hit v e j) -> ~ resets e -> counted hit n l k -> counted hit n ((v, e) :: l) k.
(** The notifications among the events, in order *)
Inductive notes (hit : env -> event -> json -> Prop) : list (env * event) -> list json -> Prop :=
| no_nil : notes hit [] []
| no_hit v e j l r : hit v e j -> notes hit l r -> notes hit ((v, e) :: l) (j :: r)
| no_other v e l r : (forall j, ~ hit v e j) -> notes hit l r -> notes hit ((v, e) :: l) r.
(** The notifications of frames among the effects: published, and sent to the receiver thread *)
Definition value_is (w : string) (j : json) : bool := match j with JObj doc => match find_member "msg_val" doc with Some (JStr t) => String.eqb t w | _ => false end | _ => false end.
Definition published (l : list effect) : list json := flat_map (fun f => match f with FPublish j => if value_is "frame_ready" j then [j] else [] | _ => [] end) l.
Definition returned (l : list effect) : list json := flat_map (fun f => match f with FToRx _ j => if value_is "frame_release" j then [j] else [] | _ => [] end) l.

(** The settings after a configure: what the message gives, else what was set before. *)
Definition text_set (doc : list (string * json)) (n : string) (old new : string) : Prop :=
  (forall t, param doc [n] (JStr t) -> no_nul t -> new = t) /\ ((forall x, ~ param doc [n] x) -> new = old).
Definition number_set (doc : list (string * json)) (n : string) (old new : Z) : Prop :=
  (forall z, param doc [n] (JInt z) -> new = z) /\ ((forall x, ~ param doc [n] x) -> new = old).
Record applied (doc : list (string * json)) (g g' : settings) : Prop := Applied {
  ap_ctrl : text_set doc "ctrl_endpoint" (s_end g CCtrl) (s_end g' CCtrl);
  ap_rx : text_set doc "rx_endpoint" (s_end g CRx) (s_end g' CRx);
  ap_ready : text_set doc "frame_ready_endpoint" (s_end g CReady) (s_end g' CReady);
  ap_release : text_set doc "frame_release_endpoint" (s_end g CRelease) (s_end g' CRelease);
  ap_path : text_set doc "decoder_path" (s_path g) (s_path g');
  ap_type : text_set doc "decoder_type" (s_type g) (s_type g');
  ap_shm : text_set doc "shared_buffer_name" (s_shm g) (s_shm g');
  ap_mem : number_set doc "max_buffer_mem" (s_mem g) (s_mem g');
  ap_addr : text_set doc "rx_address" (s_addr g) (s_addr g');
  ap_size : number_set doc "rx_recv_buffer_size" (s_size g) (s_size g');
  ap_rxtype : (forall t, param doc ["rx_type"] (JStr t) -> no_nul t -> s_rx g' = rx_type_of_name t) /\ ((forall x, ~ param doc ["rx_type"] x) -> s_rx g <> RxIllegal -> s_rx g' = s_rx g);
  ap_frames : (forall n, param doc ["frames"] (JInt n) -> n <> 0 -> s_frames g' = n) /\ ((forall x, ~ param doc ["frames"] x) -> s_frames g' = s_frames g);
  ap_ports : (forall parts entries ports t, param doc ["rx_ports"] (JStr t) -> no_nul t -> t = LiveSpec.joined "," parts -> parts <> [] -> Forall LiveSpec.no_comma parts -> Forall2 entry_text parts entries -> ports_of entries ports -> s_ports g' = ports)
    /\ ((forall x, ~ param doc ["rx_ports"] x) -> s_ports g' = s_ports g) }.

(** Requests *)
Definition requests : list string := ["configure"; "request_configuration"; "status"; "request_version"; "reset_statistics"; "shutdown"].
(** The head consists of texts. *)
Definition readable (doc : list (string * json)) : Prop := forall k y, In k ["msg_type"; "msg_val"; "timestamp"] -> says doc k y -> exists t, y = JStr t.
(** The id of a request; zero if it has none *)
Definition request_id (doc : list (string * json)) (i : Z) : Prop := says doc "id" (JInt i) /\ 0 <= i < 2 ^ 32 \/ (forall y, ~ says doc "id" y) /\ i = 0.
(** Nothing changed but the effects (and the reply, a local variable of the handler). *)
Definition unchanged (s s' : rc) : Prop := exists r o, s' = w_c_out o (w_c_reply r s).
(** What status and request_configuration report *)
Definition reports_status (s : rc) (d : list (string * json)) : Prop :=
  param d ["status"; "ipc_configured"] (JBool (c_ipc s)) /\ param d ["status"; "decoder_configured"] (JBool (c_dec s)) /\ param d ["status"; "buffer_manager_configured"] (JBool (c_buf s)) /\ param d ["status"; "rx_thread_configured"] (JBool (c_rx s)) /\
  param d ["status"; "configuration_complete"] (JBool (c_all s)) /\ param d ["buffers"; "total"] (JInt (c_total s)) /\ param d ["frames"; "received"] (JInt (c_received s)) /\ param d ["frames"; "released"] (JInt (c_released s)).
(** What the receiver thread reported last, or zero if it has not *)
Definition rx_fields : list (list string * list string) := [(["rx_thread"; "empty_buffers"], ["buffers"; "empty"]); (["rx_thread"; "mapped_buffers"], ["buffers"; "mapped"]); (["rx_thread"; "frames_timedout"], ["frames"; "timedout"]); (["rx_thread"; "frames_dropped"], ["frames"; "dropped"])].
Definition reports_rx (s : rc) (d : list (string * json)) : Prop :=
  match c_status s with
  | None => forall p q, In (p, q) rx_fields -> param d q (JInt 0)
  | Some m => (forall p q, In (p, q) rx_fields -> exists z, param (g_doc m) p (JInt z) /\ param d q (JInt z)) /\ forall y, param (g_doc m) ["decoder"] y -> param d ["decoder"] y
  end.
(** Versions *)
Definition reports_version (v : env) (d : list (string * json)) : Prop :=
  param d ["version"; "odin-data"; "major"] (JInt (v_major v)) /\ param d ["version"; "odin-data"; "minor"] (JInt (v_minor v)) /\ param d ["version"; "odin-data"; "patch"] (JInt (v_patch v)) /\
  (no_nul (v_short v) -> param d ["version"; "odin-data"; "short"] (JStr (v_short v))) /\ (no_nul (v_full v) -> param d ["version"; "odin-data"; "full"] (JStr (v_full v))).
Definition text_is (d : list (string * json)) (n t : string) : Prop := no_nul t -> param d [n] (JStr t).
Definition reports_settings (g : settings) (d : list (string * json)) : Prop :=
  text_is d "ctrl_endpoint" (s_end g CCtrl) /\ text_is d "rx_endpoint" (s_end g CRx) /\ text_is d "frame_ready_endpoint" (s_end g CReady) /\ text_is d "frame_release_endpoint" (s_end g CRelease) /\ text_is d "decoder_path" (s_path g) /\ text_is d "decoder_type" (s_type g) /\
  text_is d "shared_buffer_name" (s_shm g) /\ param d ["max_buffer_mem"] (JInt (s_mem g)) /\ text_is d "rx_type" (rx_name_of_type (s_rx g)) /\ text_is d "rx_address" (s_addr g) /\
  (Forall (fun p => 1 <= p) (s_ports g) -> exists t, printed (s_ports g) t /\ param d ["rx_ports"] (JStr t)) /\ param d ["rx_recv_buffer_size"] (JInt (s_size g)) /\ param d ["frame_count"] (JInt (s_frames g)).

(** An endpoint is bound once; the clock does not read "none" as a time; events but the configuration by the application; runs with such clocks and no zero characters in heads *)
Definition exclusive (v : env) : Prop := forall l c e, In (c, e) l -> v_bind v l c e <> None.
Definition plain_clock (v : env) : Prop := time_parse (v_clock v) "none" = None.
Definition observed (l : list (env * event)) : Prop := forall v e, In (v, e) l -> plain_clock v /\ clean_event e.
Definition from_outside (e : event) : Prop := forall m, e <> Direct m.
(** Configuration by the application or by a client *)
Definition configures (e : event) : Prop := (exists m, e = Direct m) \/ exists client x, e = Ctrl client x /\ command "configure" x.
(** A notification about the buffers *)
Definition notifies (w : string) (d : list (string * json)) : Prop := says d "msg_type" (JStr "notify") /\ says d "msg_val" (JStr w).
(** Times that are written can be read back. *)
Definition clock_reads (c : clock) : Prop := forall t, time_parse c (cstr (time_text c (Some t))) <> None.
(** The receiver thread along the effects: it is started only when there is none, stopped only when there is one.  None: not so; otherwise whether there is one in the end *)
Definition thread_log (l : list effect) : option bool :=
  fold_left (fun o f => match f, o with FThread, Some false => Some true | FThreadStop, Some true => Some false | FThread, _ | FThreadStop, _ => None | _, _ => o end) l (Some false).
