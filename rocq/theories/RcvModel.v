(** The controller of the frame receiver.  frameReceiver/src/FrameReceiverController.cpp.  One thread (the reactor) runs all of it; the receiver thread is started and stopped.
    Not modelled: logging (its arguments are only evaluated at high debug levels), register_channel and remove_channel of the reactor (ReactorModel), failing sends. *)
From Coq Require Import String Ascii.
From Verif Require Import Base StrOrder FrameModel JsonModel LiveModel PortModel EqualModel.
Local Open Scope string_scope.
Local Open Scope list_scope.
Local Open Scope Z_scope.

(** The channels, FrameReceiverController.h:103-106; bound to endpoints by name *)
Inductive chan := CCtrl | CRx | CReady | CRelease.
Definition chan_eqb (a b : chan) : bool := match a, b with CCtrl, CCtrl | CRx, CRx | CReady, CReady | CRelease, CRelease => true | _, _ => false end.
(** Exceptions: FrameReceiverException, IpcMessageException (std::out_of_range for ERange), zmq::error_t, SharedBufferManagerException, std::out_of_range *)
Inductive rexc := EReceiver (what : string) | EIpc (e : ipcexc) | EZmq | EShm | EOutOfRange.
(** Actions deferred by a second: unbind_channel, notify_buffer_config, stop *)
Inductive timer := TUnbind (c : chan) (e : string) | TNotifyConfig | TStop.
(** What others see *)
Inductive effect :=
| FBind (c : chan) (e : string) | FBindFailed (c : chan) (e : string) | FUnbind (c : chan) (e : string)
| FLoad (class lib : string) | FBuffers (name : string) (mem : Z) | FThread | FThreadStop
| FReply (client : string) (doc : list (string * json)) | FPublish (doc : json) | FToRx (ident : string) (doc : json) | FStop.
(** A decoder: number of the instance, class, library its code is from, the configuration of init (None: not or not successfully called), its buffer manager *)
Record buffers := Buffers { b_no : nat; b_name : string; b_mem : Z; b_size : Z; b_count : Z }.
Record decoder := Decoder { d_no : nat; d_class : string; d_lib : string; d_init : option msg; d_buf : option buffers }.
(** A receiver thread: numbers of decoder and buffer manager, and the settings it read when it started *)
Record thread := Thread { t_dec : nat; t_buf : nat; t_type : rx_type; t_ports : list Z; t_addr : string; t_size : Z; t_end : string; t_ok : bool }.
(** FrameReceiverConfig.h:186-206.  [s_end]: the four endpoints.  frame_timeout_ms_, enable_packet_logging_ and force_reconfig_ are not used by the controller, io_threads_ neither.
    frame_count_ is not initialised: an arbitrary number here. *)
Record settings := Settings { s_mem : Z; s_path : string; s_type : string; s_dcfg : msg; s_rx : rx_type; s_ports : list Z; s_addr : string; s_size : Z; s_end : chan -> string; s_shm : string; s_frames : Z }.
Definition w_s_mem (v : Z) (r : settings) : settings := Settings v (s_path r) (s_type r) (s_dcfg r) (s_rx r) (s_ports r) (s_addr r) (s_size r) (s_end r) (s_shm r) (s_frames r).
Definition w_s_path (v : string) (r : settings) : settings := Settings (s_mem r) v (s_type r) (s_dcfg r) (s_rx r) (s_ports r) (s_addr r) (s_size r) (s_end r) (s_shm r) (s_frames r).
Definition w_s_type (v : string) (r : settings) : settings := Settings (s_mem r) (s_path r) v (s_dcfg r) (s_rx r) (s_ports r) (s_addr r) (s_size r) (s_end r) (s_shm r) (s_frames r).
Definition w_s_dcfg (v : msg) (r : settings) : settings := Settings (s_mem r) (s_path r) (s_type r) v (s_rx r) (s_ports r) (s_addr r) (s_size r) (s_end r) (s_shm r) (s_frames r).
Definition w_s_rx (v : rx_type) (r : settings) : settings := Settings (s_mem r) (s_path r) (s_type r) (s_dcfg r) v (s_ports r) (s_addr r) (s_size r) (s_end r) (s_shm r) (s_frames r).
Definition w_s_ports (v : list Z) (r : settings) : settings := Settings (s_mem r) (s_path r) (s_type r) (s_dcfg r) (s_rx r) v (s_addr r) (s_size r) (s_end r) (s_shm r) (s_frames r).
Definition w_s_addr (v : string) (r : settings) : settings := Settings (s_mem r) (s_path r) (s_type r) (s_dcfg r) (s_rx r) (s_ports r) v (s_size r) (s_end r) (s_shm r) (s_frames r).
Definition w_s_size (v : Z) (r : settings) : settings := Settings (s_mem r) (s_path r) (s_type r) (s_dcfg r) (s_rx r) (s_ports r) (s_addr r) v (s_end r) (s_shm r) (s_frames r).
Definition w_s_end (v : chan -> string) (r : settings) : settings := Settings (s_mem r) (s_path r) (s_type r) (s_dcfg r) (s_rx r) (s_ports r) (s_addr r) (s_size r) v (s_shm r) (s_frames r).
Definition w_s_shm (v : string) (r : settings) : settings := Settings (s_mem r) (s_path r) (s_type r) (s_dcfg r) (s_rx r) (s_ports r) (s_addr r) (s_size r) (s_end r) v (s_frames r).
Definition w_s_frames (v : Z) (r : settings) : settings := Settings (s_mem r) (s_path r) (s_type r) (s_dcfg r) (s_rx r) (s_ports r) (s_addr r) (s_size r) (s_end r) (s_shm r) v.

(** FrameReceiverController.h:81-124.  [c_ndec] ... [c_nrx]: need_..._reconfig_; [c_ipc] ... [c_rx]: ..._configured_; [c_all]: configuration_complete_; [c_once]: the four static flags of configure_ipc_channels;
    [c_bound]: bound_endpoints_ of the channels; [c_timers]: deferred actions, oldest first; [c_classes]: factory_map() of ClassLoader, class and library; [c_names]: names of
    shared memory objects; total_buffers_ is not initialised: arbitrary; [c_debug]: debug_level of the process; [c_next]: numbers for objects; [c_reply]: the local reply of the handler; [c_out]: effects so far *)
Record rc := Rc { c_cfg : settings; c_ndec : bool; c_nbuf : bool; c_nrx : bool; c_ipc : bool; c_dec : bool; c_buf : bool; c_rx : bool; c_all : bool; c_once : list chan; c_bound : list (chan * string); c_timers : list timer; c_classes : list (string * string); c_names : list string; c_decoder : option decoder; c_buffers : option buffers; c_thread : option thread; c_received : Z; c_released : Z; c_total : Z; c_ident : string; c_status : option msg; c_debug : Z; c_next : nat; c_reply : msg; c_out : list effect }.
Definition w_c_cfg (v : settings) (r : rc) : rc := Rc v (c_ndec r) (c_nbuf r) (c_nrx r) (c_ipc r) (c_dec r) (c_buf r) (c_rx r) (c_all r) (c_once r) (c_bound r) (c_timers r) (c_classes r) (c_names r) (c_decoder r) (c_buffers r) (c_thread r) (c_received r) (c_released r) (c_total r) (c_ident r) (c_status r) (c_debug r) (c_next r) (c_reply r) (c_out r).
Definition w_c_ndec (v : bool) (r : rc) : rc := Rc (c_cfg r) v (c_nbuf r) (c_nrx r) (c_ipc r) (c_dec r) (c_buf r) (c_rx r) (c_all r) (c_once r) (c_bound r) (c_timers r) (c_classes r) (c_names r) (c_decoder r) (c_buffers r) (c_thread r) (c_received r) (c_released r) (c_total r) (c_ident r) (c_status r) (c_debug r) (c_next r) (c_reply r) (c_out r).
Definition w_c_nbuf (v : bool) (r : rc) : rc := Rc (c_cfg r) (c_ndec r) v (c_nrx r) (c_ipc r) (c_dec r) (c_buf r) (c_rx r) (c_all r) (c_once r) (c_bound r) (c_timers r) (c_classes r) (c_names r) (c_decoder r) (c_buffers r) (c_thread r) (c_received r) (c_released r) (c_total r) (c_ident r) (c_status r) (c_debug r) (c_next r) (c_reply r) (c_out r).
Definition w_c_nrx (v : bool) (r : rc) : rc := Rc (c_cfg r) (c_ndec r) (c_nbuf r) v (c_ipc r) (c_dec r) (c_buf r) (c_rx r) (c_all r) (c_once r) (c_bound r) (c_timers r) (c_classes r) (c_names r) (c_decoder r) (c_buffers r) (c_thread r) (c_received r) (c_released r) (c_total r) (c_ident r) (c_status r) (c_debug r) (c_next r) (c_reply r) (c_out r).
Definition w_c_ipc (v : bool) (r : rc) : rc := Rc (c_cfg r) (c_ndec r) (c_nbuf r) (c_nrx r) v (c_dec r) (c_buf r) (c_rx r) (c_all r) (c_once r) (c_bound r) (c_timers r) (c_classes r) (c_names r) (c_decoder r) (c_buffers r) (c_thread r) (c_received r) (c_released r) (c_total r) (c_ident r) (c_status r) (c_debug r) (c_next r) (c_reply r) (c_out r).
Definition w_c_dec (v : bool) (r : rc) : rc := Rc (c_cfg r) (c_ndec r) (c_nbuf r) (c_nrx r) (c_ipc r) v (c_buf r) (c_rx r) (c_all r) (c_once r) (c_bound r) (c_timers r) (c_classes r) (c_names r) (c_decoder r) (c_buffers r) (c_thread r) (c_received r) (c_released r) (c_total r) (c_ident r) (c_status r) (c_debug r) (c_next r) (c_reply r) (c_out r).
Definition w_c_buf (v : bool) (r : rc) : rc := Rc (c_cfg r) (c_ndec r) (c_nbuf r) (c_nrx r) (c_ipc r) (c_dec r) v (c_rx r) (c_all r) (c_once r) (c_bound r) (c_timers r) (c_classes r) (c_names r) (c_decoder r) (c_buffers r) (c_thread r) (c_received r) (c_released r) (c_total r) (c_ident r) (c_status r) (c_debug r) (c_next r) (c_reply r) (c_out r).
Definition w_c_rx (v : bool) (r : rc) : rc := Rc (c_cfg r) (c_ndec r) (c_nbuf r) (c_nrx r) (c_ipc r) (c_dec r) (c_buf r) v (c_all r) (c_once r) (c_bound r) (c_timers r) (c_classes r) (c_names r) (c_decoder r) (c_buffers r) (c_thread r) (c_received r) (c_released r) (c_total r) (c_ident r) (c_status r) (c_debug r) (c_next r) (c_reply r) (c_out r).
Definition w_c_all (v : bool) (r : rc) : rc := Rc (c_cfg r) (c_ndec r) (c_nbuf r) (c_nrx r) (c_ipc r) (c_dec r) (c_buf r) (c_rx r) v (c_once r) (c_bound r) (c_timers r) (c_classes r) (c_names r) (c_decoder r) (c_buffers r) (c_thread r) (c_received r) (c_released r) (c_total r) (c_ident r) (c_status r) (c_debug r) (c_next r) (c_reply r) (c_out r).
Definition w_c_once (v : list chan) (r : rc) : rc := Rc (c_cfg r) (c_ndec r) (c_nbuf r) (c_nrx r) (c_ipc r) (c_dec r) (c_buf r) (c_rx r) (c_all r) v (c_bound r) (c_timers r) (c_classes r) (c_names r) (c_decoder r) (c_buffers r) (c_thread r) (c_received r) (c_released r) (c_total r) (c_ident r) (c_status r) (c_debug r) (c_next r) (c_reply r) (c_out r).
Definition w_c_bound (v : list (chan * string)) (r : rc) : rc := Rc (c_cfg r) (c_ndec r) (c_nbuf r) (c_nrx r) (c_ipc r) (c_dec r) (c_buf r) (c_rx r) (c_all r) (c_once r) v (c_timers r) (c_classes r) (c_names r) (c_decoder r) (c_buffers r) (c_thread r) (c_received r) (c_released r) (c_total r) (c_ident r) (c_status r) (c_debug r) (c_next r) (c_reply r) (c_out r).
Definition w_c_timers (v : list timer) (r : rc) : rc := Rc (c_cfg r) (c_ndec r) (c_nbuf r) (c_nrx r) (c_ipc r) (c_dec r) (c_buf r) (c_rx r) (c_all r) (c_once r) (c_bound r) v (c_classes r) (c_names r) (c_decoder r) (c_buffers r) (c_thread r) (c_received r) (c_released r) (c_total r) (c_ident r) (c_status r) (c_debug r) (c_next r) (c_reply r) (c_out r).
Definition w_c_classes (v : list (string * string)) (r : rc) : rc := Rc (c_cfg r) (c_ndec r) (c_nbuf r) (c_nrx r) (c_ipc r) (c_dec r) (c_buf r) (c_rx r) (c_all r) (c_once r) (c_bound r) (c_timers r) v (c_names r) (c_decoder r) (c_buffers r) (c_thread r) (c_received r) (c_released r) (c_total r) (c_ident r) (c_status r) (c_debug r) (c_next r) (c_reply r) (c_out r).
Definition w_c_names (v : list string) (r : rc) : rc := Rc (c_cfg r) (c_ndec r) (c_nbuf r) (c_nrx r) (c_ipc r) (c_dec r) (c_buf r) (c_rx r) (c_all r) (c_once r) (c_bound r) (c_timers r) (c_classes r) v (c_decoder r) (c_buffers r) (c_thread r) (c_received r) (c_released r) (c_total r) (c_ident r) (c_status r) (c_debug r) (c_next r) (c_reply r) (c_out r).
Definition w_c_decoder (v : option decoder) (r : rc) : rc := Rc (c_cfg r) (c_ndec r) (c_nbuf r) (c_nrx r) (c_ipc r) (c_dec r) (c_buf r) (c_rx r) (c_all r) (c_once r) (c_bound r) (c_timers r) (c_classes r) (c_names r) v (c_buffers r) (c_thread r) (c_received r) (c_released r) (c_total r) (c_ident r) (c_status r) (c_debug r) (c_next r) (c_reply r) (c_out r).
Definition w_c_buffers (v : option buffers) (r : rc) : rc := Rc (c_cfg r) (c_ndec r) (c_nbuf r) (c_nrx r) (c_ipc r) (c_dec r) (c_buf r) (c_rx r) (c_all r) (c_once r) (c_bound r) (c_timers r) (c_classes r) (c_names r) (c_decoder r) v (c_thread r) (c_received r) (c_released r) (c_total r) (c_ident r) (c_status r) (c_debug r) (c_next r) (c_reply r) (c_out r).
Definition w_c_thread (v : option thread) (r : rc) : rc := Rc (c_cfg r) (c_ndec r) (c_nbuf r) (c_nrx r) (c_ipc r) (c_dec r) (c_buf r) (c_rx r) (c_all r) (c_once r) (c_bound r) (c_timers r) (c_classes r) (c_names r) (c_decoder r) (c_buffers r) v (c_received r) (c_released r) (c_total r) (c_ident r) (c_status r) (c_debug r) (c_next r) (c_reply r) (c_out r).
Definition w_c_received (v : Z) (r : rc) : rc := Rc (c_cfg r) (c_ndec r) (c_nbuf r) (c_nrx r) (c_ipc r) (c_dec r) (c_buf r) (c_rx r) (c_all r) (c_once r) (c_bound r) (c_timers r) (c_classes r) (c_names r) (c_decoder r) (c_buffers r) (c_thread r) v (c_released r) (c_total r) (c_ident r) (c_status r) (c_debug r) (c_next r) (c_reply r) (c_out r).
Definition w_c_released (v : Z) (r : rc) : rc := Rc (c_cfg r) (c_ndec r) (c_nbuf r) (c_nrx r) (c_ipc r) (c_dec r) (c_buf r) (c_rx r) (c_all r) (c_once r) (c_bound r) (c_timers r) (c_classes r) (c_names r) (c_decoder r) (c_buffers r) (c_thread r) (c_received r) v (c_total r) (c_ident r) (c_status r) (c_debug r) (c_next r) (c_reply r) (c_out r).
Definition w_c_total (v : Z) (r : rc) : rc := Rc (c_cfg r) (c_ndec r) (c_nbuf r) (c_nrx r) (c_ipc r) (c_dec r) (c_buf r) (c_rx r) (c_all r) (c_once r) (c_bound r) (c_timers r) (c_classes r) (c_names r) (c_decoder r) (c_buffers r) (c_thread r) (c_received r) (c_released r) v (c_ident r) (c_status r) (c_debug r) (c_next r) (c_reply r) (c_out r).
Definition w_c_ident (v : string) (r : rc) : rc := Rc (c_cfg r) (c_ndec r) (c_nbuf r) (c_nrx r) (c_ipc r) (c_dec r) (c_buf r) (c_rx r) (c_all r) (c_once r) (c_bound r) (c_timers r) (c_classes r) (c_names r) (c_decoder r) (c_buffers r) (c_thread r) (c_received r) (c_released r) (c_total r) v (c_status r) (c_debug r) (c_next r) (c_reply r) (c_out r).
Definition w_c_status (v : option msg) (r : rc) : rc := Rc (c_cfg r) (c_ndec r) (c_nbuf r) (c_nrx r) (c_ipc r) (c_dec r) (c_buf r) (c_rx r) (c_all r) (c_once r) (c_bound r) (c_timers r) (c_classes r) (c_names r) (c_decoder r) (c_buffers r) (c_thread r) (c_received r) (c_released r) (c_total r) (c_ident r) v (c_debug r) (c_next r) (c_reply r) (c_out r).
Definition w_c_debug (v : Z) (r : rc) : rc := Rc (c_cfg r) (c_ndec r) (c_nbuf r) (c_nrx r) (c_ipc r) (c_dec r) (c_buf r) (c_rx r) (c_all r) (c_once r) (c_bound r) (c_timers r) (c_classes r) (c_names r) (c_decoder r) (c_buffers r) (c_thread r) (c_received r) (c_released r) (c_total r) (c_ident r) (c_status r) v (c_next r) (c_reply r) (c_out r).
Definition w_c_next (v : nat) (r : rc) : rc := Rc (c_cfg r) (c_ndec r) (c_nbuf r) (c_nrx r) (c_ipc r) (c_dec r) (c_buf r) (c_rx r) (c_all r) (c_once r) (c_bound r) (c_timers r) (c_classes r) (c_names r) (c_decoder r) (c_buffers r) (c_thread r) (c_received r) (c_released r) (c_total r) (c_ident r) (c_status r) (c_debug r) v (c_reply r) (c_out r).
Definition w_c_reply (v : msg) (r : rc) : rc := Rc (c_cfg r) (c_ndec r) (c_nbuf r) (c_nrx r) (c_ipc r) (c_dec r) (c_buf r) (c_rx r) (c_all r) (c_once r) (c_bound r) (c_timers r) (c_classes r) (c_names r) (c_decoder r) (c_buffers r) (c_thread r) (c_received r) (c_released r) (c_total r) (c_ident r) (c_status r) (c_debug r) (c_next r) v (c_out r).
Definition w_c_out (v : list effect) (r : rc) : rc := Rc (c_cfg r) (c_ndec r) (c_nbuf r) (c_nrx r) (c_ipc r) (c_dec r) (c_buf r) (c_rx r) (c_all r) (c_once r) (c_bound r) (c_timers r) (c_classes r) (c_names r) (c_decoder r) (c_buffers r) (c_thread r) (c_received r) (c_released r) (c_total r) (c_ident r) (c_status r) (c_debug r) (c_next r) (c_reply r) v.

(** The outside during one event: bind with the text of the error, given what is bound; unbind; dlopen with the text of the error or the classes that register; making an instance;
    init of the decoder with the text of the exception; get_frame_buffer_size; creation of the shared memory, with the number of buffers; start of the thread; the freed string
    read by tokenize_port_list; comparison of doubles; texts of IpcMessageException; clock; parameters the decoder sets in replies *)
Record env := Env {
  v_bind : list (chan * string) -> chan -> string -> option string; v_unbind : chan -> string -> bool;
  v_dlopen : string -> string + list string; v_make : string -> bool; v_init : msg -> option string; v_size : Z;
  v_shm : string -> Z -> Z -> option Z; v_start : bool; v_stale : string -> string; v_deq : json -> json -> bool;
  v_what : ipcexc -> string; v_now : Z; v_clock : clock; v_major : Z; v_minor : Z; v_patch : Z; v_short : string; v_full : string; v_version : list (string * value); v_config : list (string * value) }.

(** Statements that change the state and may throw; what was changed before an exception stays changed. *)
Definition M (A : Type) := rc -> rc * outcome rexc A.
Definition ret {A} (a : A) : M A := fun s => (s, Ret a).
Definition raise {A} (e : rexc) : M A := fun s => (s, Throw e).
Definition undefined {A} : M A := fun s => (s, Undef).
Definition seq {A B} (a : M A) (f : A -> M B) : M B := fun s => let '(s1, o) := a s in match o with Ret x => f x s1 | Throw e => (s1, Throw e) | Undef => (s1, Undef) end.
Definition get {A} (f : rc -> A) : M A := fun s => (s, Ret (f s)).
Definition change (f : rc -> rc) : M unit := fun s => (f s, Ret tt).
Definition when (b : bool) (a : M unit) : M unit := if b then a else ret tt.
Definition lift {A} (o : outcome ipcexc A) : M A := fun s => (s, match o with Ret a => Ret a | Throw e => Throw (EIpc e) | Undef => Undef end).
Notation "x <- a ;; b" := (seq a (fun x => b)) (at level 61, a at next level, right associativity).
Notation "a ;; b" := (seq a (fun _ => b)) (at level 61, right associativity).
Definition setting {A} (f : settings -> A) : M A := get (fun s => f (c_cfg s)).
Definition set (f : settings -> settings) : M unit := change (fun s => w_c_cfg (f (c_cfg s)) s).
Definition emit (e : effect) : M unit := change (fun s => w_c_out (c_out s ++ [e]) s).
Definition later (t : timer) : M unit := change (fun s => w_c_timers (c_timers s ++ [t]) s).
Definition fresh : M nat := fun s => (w_c_next (S (c_next s)) s, Ret (c_next s)).
(** set_param on the reply *)
Definition put (n : string) (v : value) : M unit :=
  fun s => let '(m, o) := set_param (c_reply s) n v in (w_c_reply m s, match o with Ret a => Ret a | Throw e => Throw (EIpc e) | Undef => Undef end).
Fixpoint puts (l : list (string * value)) : M unit := match l with [] => ret tt | (n, v) :: r => put n v ;; puts r end.
Definition reply_type (t : msg_type) : M unit := change (fun s => let m := c_reply s in w_c_reply (Msg (g_strict m) (g_doc m) t (g_val m) (g_id m) (g_time m)) s).
Definition reply_val (v : msg_val) : M unit := change (fun s => let m := c_reply s in w_c_reply (Msg (g_strict m) (g_doc m) (g_type m) v (g_id m) (g_time m)) s).
Definition reply_id (i : option Z) : M unit := change (fun s => let m := c_reply s in w_c_reply (Msg (g_strict m) (g_doc m) (g_type m) (g_val m) i (g_time m)) s).

(** Typed parameters *)
Definition str_param (m : msg) (n : string) : outcome ipcexc string := bind (get_param GStr m n) (fun r => Ret (str r)).
Definition str_param_or (m : msg) (n d : string) : outcome ipcexc string := bind (get_param_or GStr m n (RStr d)) (fun r => Ret (str r)).
Definition int_param (g : getter) (m : msg) (n : string) : outcome ipcexc Z := bind (get_param g m n) (fun r => Ret (num r)).
Definition int_param_or (g : getter) (m : msg) (n : string) (d : Z) : outcome ipcexc Z := bind (get_param_or g m n (RInt d)) (fun r => Ret (num r)).

Definition is_bound (c : chan) (e : string) (s : rc) : bool := existsb (fun p => chan_eqb (fst p) c && String.eqb (snd p) e) (c_bound s).
Definition without (c : chan) (e : string) (l : list (chan * string)) : list (chan * string) := filter (fun p => negb (chan_eqb (fst p) c && String.eqb (snd p) e)) l.
Definition once (c : chan) (s : rc) : bool := existsb (chan_eqb c) (c_once s).
Definition endpoint_name (c : chan) : string := match c with CCtrl => "ctrl_endpoint" | CRx => "rx_endpoint" | CReady => "frame_ready_endpoint" | CRelease => "frame_release_endpoint" end.
Definition chan_text (c : chan) : string :=
  match c with CCtrl => "control channel" | CRx => "receiver thread channel" | CReady => "frame ready notification channel" | CRelease => "frame release notification channel" end.
Definition is_unknown (s : string) : bool := String.eqb s "unknown".
Fixpoint last_char (s : string) : option ascii := match s with EmptyString => None | String c EmptyString => Some c | String _ r => last_char r end.

Section Controller.
  Variable v : env.

  (** unbind_channel, lines 386-407, and IpcChannel.cpp:144-152 *)
  Definition unbind_channel (c : chan) (e : string) (deferred : bool) : M unit :=
    b <- get (is_bound c e) ;;
    if b then
      if deferred then later (TUnbind c e)
      else if v_unbind v c e then change (fun s => w_c_bound (without c e (c_bound s)) s) ;; emit (FUnbind c e) else raise EZmq
    else ret tt.
  (** setup_control_channel and the others, lines 274-375 *)
  Definition setup_channel (c : chan) (e : string) : M unit :=
    l <- get c_bound ;;
    match v_bind v l c e with
    | Some w => emit (FBindFailed c e) ;; raise (EReceiver ("Binding " ++ chan_text c ++ " endpoint " ++ e ++ " failed: " ++ w))
    | None => change (fun s => w_c_bound (without c e (c_bound s) ++ [(c, e)]) s) ;; emit (FBind c e)
    end.
  Definition set_end (c : chan) (e : string) : M unit := set (fun g => w_s_end (fun c' => if chan_eqb c c' then e else s_end g c') g).
  (** configure_ipc_channels, lines 189-265 *)
  Definition configure_channel (m : msg) (c : chan) : M unit :=
    h <- lift (has_param m (endpoint_name c)) ;;
    when h (
      e <- lift (str_param m (endpoint_name c)) ;;
      cur <- setting (fun g => s_end g c) ;;
      when (negb (String.eqb e cur)) (
        unbind_channel c cur (chan_eqb c CCtrl) ;;
        setup_channel c e ;;
        set_end c e ;;
        change (fun s => w_c_once (c :: c_once s) s) ;;
        when (chan_eqb c CRx) (change (w_c_nrx true)))).
  Definition configure_ipc_channels (m : msg) : M unit :=
    change (w_c_ipc false) ;;
    configure_channel m CCtrl ;; configure_channel m CRx ;; configure_channel m CReady ;; configure_channel m CRelease ;;
    change (fun s => w_c_ipc (once CCtrl s && once CRx s && once CReady s && once CReady s) s).

  (** The last owner of a buffer manager removes the name of the shared memory, SharedBufferManager.cpp:82-88. *)
  Definition same_buffers (a b : option buffers) : bool := match a, b with Some x, Some y => Nat.eqb (b_no x) (b_no y) | _, _ => false end.
  Definition remove_name (n : string) (s : rc) : rc := w_c_names (filter (fun x => negb (String.eqb x n)) (c_names s)) s.
  Definition released_by_decoder (s : rc) : rc :=
    match c_decoder s with Some d => match d_buf d with Some b => if same_buffers (Some b) (c_buffers s) then s else remove_name (b_name b) s | None => s end | None => s end.
  (** frame_decoder_.reset() *)
  Definition reset_decoder : M unit := change (fun s => w_c_decoder None (released_by_decoder s)).
  (** buffer_manager_.reset() *)
  Definition reset_buffers : M unit := change (fun s =>
    match c_buffers s with
    | Some b => let keeps := match c_decoder s with Some d => same_buffers (d_buf d) (Some b) | None => false end in w_c_buffers None (if keeps then s else remove_name (b_name b) s)
    | None => s
    end).
  (** register_buffer_manager, FrameDecoder.cpp:75-78 *)
  Definition register_buffers : M unit := change (fun s =>
    match c_decoder s with Some d => let s' := released_by_decoder s in w_c_decoder (Some (Decoder (d_no d) (d_class d) (d_lib d) (d_init d) (c_buffers s))) s' | None => s end).
  (** stop_rx_thread, lines 763-776; stop() ends *)
  Definition stop_rx_thread : M unit :=
    t <- get c_thread ;;
    match t with Some _ => change (fun s => w_c_rx false (w_c_thread None s)) ;; emit FThreadStop | None => ret tt end.

  (** load_class, ClassLoader.h:62-94: a class that is registered is not loaded again. *)
  Definition lookup (class : string) (l : list (string * string)) : option string := by_name None (map (fun p => (fst p, Some (snd p))) l) class.
  Definition load_class (class lib : string) : M (option decoder) :=
    known <- get (fun s => lookup class (c_classes s)) ;;
    (match known with
     | Some _ => ret tt
     | None => match v_dlopen v lib with
       | inl w => raise (EReceiver ("Cannot configure frame decoder: " ++ w))
       | inr l => change (fun s => w_c_classes (map (fun c => (c, lib)) l ++ c_classes s) s)
       end
     end) ;;
    from <- get (fun s => lookup class (c_classes s)) ;;
    match from with Some f => if v_make v class then n <- fresh ;; ret (Some (Decoder n class f None None)) else ret None | None => ret None end.

  (** new_decoder_class, lines 541-560 *)
  Definition new_decoder_class (m : msg) : M bool :=
    h <- lift (has_param m "decoder_path") ;;
    other <- (if h then p <- lift (str_param m "decoder_path") ;; cur <- setting s_path ;; ret (negb (String.eqb cur p)) else ret false) ;;
    if other : bool then ret true
    else
      h <- lift (has_param m "decoder_type") ;;
      if h then t <- lift (str_param m "decoder_type") ;; cur <- setting s_type ;; ret (negb (String.eqb cur t)) else ret false.
  (** decoder_config_->update, IpcMessage.cpp:150-156 *)
  Definition update_decoder_config (other : msg) : M unit :=
    fun s => let '(m, o) := update_msg (s_dcfg (c_cfg s)) other in (w_c_cfg (w_s_dcfg m (c_cfg s)) s, match o with Ret a => Ret a | Throw e => Throw (EIpc e) | Undef => Undef end).
  (** configure_frame_decoder, lines 440-534 *)
  Definition load_decoder (dir type : string) : M unit :=
    stop_rx_thread ;;
    reset_decoder ;;
    let class := (type ++ "FrameDecoder")%string in
    let lib := (dir ++ "lib" ++ type ++ "FrameDecoder" ++ ".so")%string in
    d <- load_class class lib ;;
    change (w_c_decoder d) ;;
    match d with
    | None => raise (EReceiver "Cannot configure frame decoder: plugin type not recognised")
    | Some d =>
      emit (FLoad (d_class d) (d_lib d)) ;;
      cfg <- setting s_dcfg ;;
      match v_init v cfg with
      | Some w => raise (EReceiver ("Error initialising frame decoder: " ++ w))
      | None =>
        change (w_c_decoder (Some (Decoder (d_no d) (d_class d) (d_lib d) (Some cfg) (d_buf d)))) ;;
        change (w_c_nbuf true) ;; change (w_c_nrx true) ;; change (w_c_dec true)
      end
    end.
  Definition configure_frame_decoder (m : msg) : M unit :=
    path0 <- setting s_path ;;
    path <- lift (str_param_or m "decoder_path" path0) ;;
    when (negb (String.eqb path path0)) (set (w_s_path path) ;; change (w_c_ndec true)) ;;
    match last_char path with
    | None => undefined                                                          (* *decoder_path.rbegin() *)
    | Some c =>
      let dir := if Ascii.eqb c "/" then path else (path ++ "/")%string in
      type0 <- setting s_type ;;
      type <- lift (str_param_or m "decoder_type" type0) ;;
      when (negb (String.eqb type type0)) (set (w_s_type type) ;; change (w_c_ndec true)) ;;
      h <- lift (has_param m "decoder_config") ;;
      when h (
        x <- lift (get_ref m "decoder_config") ;;
        let new := msg_of_value x TIllegal VIllegal true (v_now v) in
        cur <- setting s_dcfg ;;
        when (negb (msg_eqb (v_deq v) new cur)) (
          n <- new_decoder_class m ;;
          (if n : bool then set (w_s_dcfg new) else update_decoder_config new) ;;
          change (w_c_ndec true))) ;;
      need <- get c_ndec ;;
      when need (
        change (w_c_dec false) ;;
        when (negb (is_unknown type)) (load_decoder dir type))
    end.

  (** configure_buffer_manager, lines 571-641.  drop_all_buffers concerns the decoder only (DecModel). *)
  Definition configure_buffer_manager (m : msg) : M unit :=
    name0 <- setting s_shm ;;
    name <- lift (str_param_or m "shared_buffer_name" name0) ;;
    when (negb (String.eqb name name0)) (set (w_s_shm name) ;; change (w_c_nbuf true)) ;;
    mem0 <- setting s_mem ;;
    mem <- lift (int_param_or GUint64 m "max_buffer_mem" mem0) ;;
    when (negb (mem =? mem0)) (set (w_s_mem mem) ;; change (w_c_nbuf true)) ;;
    need <- get c_nbuf ;;
    when need (
      change (w_c_buf false) ;;
      d <- get c_decoder ;;
      match d with
      | None => ret tt
      | Some _ =>
        stop_rx_thread ;;
        reset_buffers ;;
        match v_shm v name mem (v_size v) with
        | None => raise EShm
        | Some count =>
          n <- fresh ;;
          change (fun s => w_c_names (name :: c_names s) (w_c_buffers (Some (Buffers n name mem (v_size v) count)) s)) ;;
          emit (FBuffers name mem) ;;
          change (w_c_total (count mod 2 ^ 32)) ;;
          register_buffers ;;
          later TNotifyConfig ;;
          change (w_c_nrx true) ;; change (w_c_buf true)
        end
      end).

  (** configure_rx_thread, lines 650-754 *)
  Definition rx_type_eqb (a b : rx_type) : bool := match a, b with RxIllegal, RxIllegal | RxUDP, RxUDP | RxZMQ, RxZMQ | RxTCP, RxTCP => true | _, _ => false end.
  Definition configure_rx_thread (m : msg) : M unit :=
    type0 <- setting s_rx ;;
    name <- lift (str_param_or m "rx_type" (rx_name_of_type type0)) ;;
    let type := rx_type_of_name name in
    when (negb (rx_type_eqb type type0)) (set (w_s_rx type) ;; change (w_c_nrx true)) ;;
    addr0 <- setting s_addr ;;
    addr <- lift (str_param_or m "rx_address" addr0) ;;
    when (negb (String.eqb addr addr0)) (set (w_s_addr addr) ;; change (w_c_nrx true)) ;;
    size0 <- setting s_size ;;
    size <- lift (int_param_or GInt m "rx_recv_buffer_size" size0) ;;
    when (negb (size =? size0)) (set (w_s_size size) ;; change (w_c_nrx true)) ;;
    ports0 <- setting s_ports ;;
    match rx_port_list ports0 with
    | None => raise EOutOfRange
    | Some current =>
      list <- lift (str_param_or m "rx_ports" current) ;;
      when (negb (String.eqb list current)) (set (w_s_ports (tokenize_port_list (v_stale v) list)) ;; change (w_c_nrx true)) ;;
      need <- get c_nrx ;;
      when need (
        change (w_c_rx false) ;;
        d <- get c_decoder ;;
        b <- get c_buffers ;;
        match d, b with
        | Some d, Some b =>
          stop_rx_thread ;;
          match type with
          | RxIllegal => raise (EReceiver "Cannot create RX thread - RX type not recognised")
          | _ =>
            g <- get c_cfg ;;
            change (w_c_thread (Some (Thread (d_no d) (b_no b) type (s_ports g) (s_addr g) (s_size g) (s_end g CRx) (v_start v)))) ;;
            emit FThread ;;
            change (w_c_rx (v_start v))
          end
        | _, _ => ret tt
        end)
    end.

  (** configure, lines 70-119 *)
  Definition configure_parts (m : msg) : M unit :=
    h <- lift (has_param m "debug_level") ;;
    when h (l <- lift (int_param GUint m "debug_level") ;; change (w_c_debug l)) ;;
    h <- lift (has_param m "frames") ;;
    when h (n <- lift (int_param GUint m "frames") ;; when (negb (n =? 0)) (set (w_s_frames n))) ;;
    configure_ipc_channels m ;;
    configure_frame_decoder m ;;
    configure_buffer_manager m ;;
    configure_rx_thread m ;;
    change (fun s => w_c_all (c_ipc s && c_dec s && c_buf s && c_rx s) s) ;;
    reply_type TAck ;;
    i <- get c_ipc ;; d <- get c_dec ;; b <- get c_buf ;; r <- get c_rx ;;
    puts [("configured/ipc", XBool i); ("configured/decoder", XBool d); ("configured/buffer_manager", XBool b); ("configured/rx_thread", XBool r)].
  Definition configure (m : msg) : M unit :=
    reply_val (g_val m) ;;
    fun s => match configure_parts m s with (s1, Throw (EReceiver w)) => (reply_type TNack ;; put "error" (XStr w)) s1 | r => r end.

  (** get_status, lines 1092-1136 *)
  Definition get_status : M unit :=
    reply_type TAck ;;
    i <- get c_ipc ;; d <- get c_dec ;; b <- get c_buf ;; r <- get c_rx ;; a <- get c_all ;;
    puts [("status/ipc_configured", XBool i); ("status/decoder_configured", XBool d); ("status/buffer_manager_configured", XBool b); ("status/rx_thread_configured", XBool r); ("status/configuration_complete", XBool a)] ;;
    st <- get c_status ;;
    x <- (match st with
     | None => ret (0, 0, 0, 0)
     | Some m =>
       e <- lift (int_param GUint m "rx_thread/empty_buffers") ;;
       p <- lift (int_param GUint m "rx_thread/mapped_buffers") ;;
       t <- lift (int_param GUint m "rx_thread/frames_timedout") ;;
       d <- lift (int_param GUint m "rx_thread/frames_dropped") ;;
       h <- lift (has_param m "decoder") ;;
       when h (y <- lift (get_ref m "decoder") ;; put "decoder" (XJson y)) ;;
       ret (e, p, t, d)
     end) ;;
    let '(e, p, t, d) := x in
    total <- get c_total ;; received <- get c_received ;; released <- get c_released ;;
    puts [("buffers/total", XUint total); ("buffers/empty", XUint e); ("buffers/mapped", XUint p); ("frames/timedout", XUint t); ("frames/received", XUint received); ("frames/released", XUint released); ("frames/dropped", XUint d)].
  (** get_version, lines 1145-1162.  The decoder sets parameters of its own. *)
  Definition get_version : M unit :=
    reply_type TAck ;;
    puts [("version/odin-data/major", XInt (v_major v)); ("version/odin-data/minor", XInt (v_minor v)); ("version/odin-data/patch", XInt (v_patch v)); ("version/odin-data/short", XStr (v_short v)); ("version/odin-data/full", XStr (v_full v))] ;;
    d <- get c_decoder ;;
    match d with Some _ => puts (map (fun p => (("version/decoder/" ++ fst p)%string, snd p)) (v_version v)) | None => ret tt end.
  (** request_configuration, lines 1172-1210 *)
  Definition request_configuration : M unit :=
    reply_type TAck ;;
    g <- get c_cfg ;;
    puts [("ctrl_endpoint", XStr (s_end g CCtrl)); ("rx_endpoint", XStr (s_end g CRx)); ("frame_ready_endpoint", XStr (s_end g CReady)); ("frame_release_endpoint", XStr (s_end g CRelease));
          ("decoder_path", XStr (s_path g)); ("decoder_type", XStr (s_type g))] ;;
    d <- get c_decoder ;;
    match d with Some _ => puts (map (fun p => (("decoder_config/" ++ fst p)%string, snd p)) (v_config v)) | None => ret tt end ;;
    puts [("shared_buffer_name", XStr (s_shm g)); ("max_buffer_mem", XUint64 (s_mem g)); ("rx_type", XStr (rx_name_of_type (s_rx g))); ("rx_address", XStr (s_addr g))] ;;
    match rx_port_list (s_ports g) with
    | None => raise EOutOfRange
    | Some l => puts [("rx_ports", XStr l); ("rx_recv_buffer_size", XInt (s_size g)); ("frame_count", XUint (s_frames g))]
    end.
  (** reset_statistics, lines 1220-1236 *)
  Definition reset_statistics : M unit := reply_type TAck ;; change (w_c_received 0) ;; change (w_c_released 0).

  (** The constructor from text: [None] is text that is no JSON. *)
  Definition parse (x : option json) (strict : bool) : M msg := match x with None => raise (EIpc EIllegal) | Some j => lift (msg_of_doc (v_clock v) j strict) end.
  (** catch (IpcMessageException&): std::out_of_range is another class. *)
  Definition attempt {A} (a : M A) (f : string -> A) : M A :=
    fun s => match a s with (s1, Throw (EIpc ERange)) => (s1, Throw (EIpc ERange)) | (s1, Throw (EIpc e)) => (s1, Ret (f (v_what v e))) | r => r end.
  (** handle_ctrl_channel, lines 783-877: the try block gives the text of an error. *)
  Definition type_text (t : msg_type) : string := match t with TIllegal => "-1" | TCmd => "0" | TAck => "1" | TNack => "2" | TNotify => "3" end.
  Definition val_text (x : msg_val) : string := match val_index x with O => "-1" | S k => decimal (Z.of_nat k) end.
  Definition request (x : option json) : M (option string) :=
    m <- parse x false ;;
    reply_id (g_id m) ;;
    match g_type m with
    | TCmd =>
      reply_val (g_val m) ;;
      match g_val m with
      | VConfigure => configure m ;; ret None
      | VRequestConfiguration => request_configuration ;; ret None
      | VStatus => get_status ;; ret None
      | VRequestVersion => get_version ;; ret None
      | VResetStatistics => reset_statistics ;; ret None
      | VShutdown => later TStop ;; reply_type TAck ;; ret None
      | w => ret (Some ("Illegal command request value: " ++ val_text w)%string)
      end
    | t => ret (Some ("Illegal request type: " ++ type_text t)%string)
    end.
  Definition send_reply (client : string) : M unit := m <- get c_reply ;; d <- lift (encode (v_clock v) m) ;; emit (FReply client d).
  Definition handle_ctrl (client : string) (x : option json) : M unit :=
    change (w_c_reply (new_msg TIllegal VIllegal true (v_now v))) ;;
    r <- attempt (request x) Some ;;
    match r with Some w => reply_type TNack ;; put "error" (XStr w) | None => ret tt end ;;
    send_reply client.

  Definition make (t : msg_type) (w : msg_val) (l : list (string * value)) : M json :=
    (fix go l m := match l with [] => d <- lift (encode (v_clock v) m) ;; ret (JObj d) | (n, y) :: r => let '(m1, o) := set_param m n y in lift o ;; go r m1 end) l (new_msg t w true (v_now v)).
  (** precharge_buffers, lines 1025-1042 *)
  Definition precharge_buffers : M unit :=
    b <- get c_buffers ;; t <- get c_thread ;;
    match b, t with
    | Some b, Some _ => d <- make TNotify VBufferPrecharge [("start_buffer_id", XInt 0); ("num_buffers", XInt (i32 (b_count b)))] ;; i <- get c_ident ;; emit (FToRx i d)
    | _, _ => ret tt
    end.
  (** notify_buffer_config without delay, lines 1063-1072 *)
  Definition notify_buffer_config : M unit := n <- setting s_shm ;; d <- make TNotify VBufferConfig [("shared_buffer_name", XStr n)] ;; emit (FPublish d).
  (** handle_rx_channel, lines 887-957 *)
  Definition handle_rx (ident : string) (x : option json) : M unit :=
    attempt (
      m <- parse x true ;;
      match x, g_type m, g_val m with
      | Some _, TCmd, VBufferPrechargeRequest => precharge_buffers
      | Some j, TNotify, VFrameReady => emit (FPublish j) ;; change (fun s => w_c_received ((c_received s + 1) mod 2 ^ 32) s)
      | Some _, TNotify, VIdentity => change (w_c_ident ident) ;; d <- make TAck VIdentity [] ;; emit (FToRx ident d)
      | Some _, TNotify, VNotifyStatus => d <- lift (encode (v_clock v) m) ;; m1 <- parse (Some (JObj d)) true ;; change (w_c_status (Some m1))
      | _, _, _ => ret tt
      end) (fun _ => tt).
  (** handle_frame_release_channel, lines 965-1015; stop() and reactor_.stop() *)
  Definition handle_release (x : option json) : M unit :=
    attempt (
      m <- parse x true ;;
      match x, g_type m, g_val m with
      | Some j, TNotify, VFrameRelease =>
        i <- get c_ident ;;
        emit (FToRx i j) ;;
        change (fun s => w_c_released ((c_released s + 1) mod 2 ^ 32) s) ;;
        n <- get c_released ;; limit <- setting s_frames ;;
        when (negb (limit =? 0) && (limit <=? n)) (emit FStop)
      | Some _, TCmd, VBufferConfigRequest => notify_buffer_config
      | _, _, _ => ret tt
      end) (fun _ => tt).
  (** A deferred action, after its second.  All have the same delay, so the oldest is the first. *)
  Definition run_timer : M unit :=
    l <- get c_timers ;;
    match l with
    | [] => ret tt
    | t :: r => change (w_c_timers r) ;; match t with TUnbind c e => unbind_channel c e false | TNotifyConfig => notify_buffer_config | TStop => emit FStop end
    end.

  (** What can happen: configure called by FrameReceiverApp::run (FrameReceiverApp.cpp:214-264), a message on a channel, a timer. *)
  Inductive event := Direct (m : msg) | Ctrl (client : string) (x : option json) | FromRx (ident : string) (x : option json) | Release (x : option json) | Timer.
  Definition step (e : event) : M unit :=
    match e with
    | Direct m => change (w_c_reply (new_msg TIllegal VIllegal true (v_now v))) ;; configure m
    | Ctrl client x => handle_ctrl client x
    | FromRx i x => handle_rx i x
    | Release x => handle_release x
    | Timer => run_timer
    end.
End Controller.

(** The constructors, lines 25-47 and FrameReceiverConfig.h:53-73 with FrameReceiverDefaults.h.  [frames], [total]: memory that is not initialised; [now]: the clock *)
Definition settings_init (build_dir : string) (stale : string -> string) (frames now : Z) : settings :=
  Settings 1048576 (build_dir ++ "/lib/")%string "unknown" (new_msg TIllegal VIllegal true now) RxUDP (tokenize_port_list stale "8989,8990") "0.0.0.0" 30000000 (fun _ => "") "OdinDataBuffer" frames.
Definition rc_init (build_dir : string) (stale : string -> string) (frames total now : Z) : rc :=
  Rc (settings_init build_dir stale frames now) false false false false false false false false [] [] [] [] [] None None None 0 0 total "RX_THREAD" None 0 0 (new_msg TIllegal VIllegal true now) [].
(** Events one after the other; an exception that leaves a handler ends the process (FrameReceiverApp.cpp:272-286). *)
Fixpoint run (l : list (env * event)) (s : rc) : rc * outcome rexc unit :=
  match l with [] => (s, Ret tt) | (v, e) :: r => match step v e s with (s1, Ret _) => run r s1 | x => x end end.
