(** Concrete runs of the frame receiver: the theorems are not empty; and what does not hold in general. *)
From Coq Require Import String Ascii.
From Verif Require Import Base StrOrder FrameModel JsonModel JsonSpec JsonProofs JsonProps LiveModel LiveSpec PortModel PortSpec PortProps EqualModel RcvModel RcvSpec RcvProofs RcvReply RcvInv RcvSafe RcvCount RcvApply RcvCtrl RcvAsk RcvProps.
Local Open Scope string_scope.
Local Open Scope list_scope.
Local Open Scope Z_scope.

(** Surroundings in which nothing fails, but for what is said *)
Definition surroundings (bind : list (chan * string) -> chan -> string -> option string) (shm : option Z) (start : bool) : env :=
  Env bind (fun _ _ => true) (fun lib => inr ["DummyUDPFrameDecoder"]) (fun c => String.eqb c "DummyUDPFrameDecoder") (fun _ => None) 1000 (fun _ _ _ => shm) start (fun s => s) (fun _ _ => true) (fun _ => "what") 0
    (Clock (fun _ => "t") (fun s => if String.eqb s "none" then None else Some 0)) 1 0 0 "1" "1" [] [].
Definition bind_once (l : list (chan * string)) (c : chan) (e : string) : option string := if existsb (fun p => chan_eqb c (fst p) && String.eqb e (snd p)) l then Some "in use" else None.
Definition v0 : env := surroundings bind_once (Some 10) true.
Definition cfg (l : list (string * json)) : option json := Some (JObj [("msg_type", JStr "cmd"); ("msg_val", JStr "configure"); ("id", JInt 1); ("params", JObj l)]).
Definition ask (w : string) : option json := Some (JObj [("msg_type", JStr "cmd"); ("msg_val", JStr w); ("id", JInt 2); ("params", JObj [])]).
Definition notification (w : string) (n : Z) : option json := Some (JObj [("msg_type", JStr "notify"); ("msg_val", JStr w); ("timestamp", JStr "t"); ("id", JInt n); ("params", JObj [("frame", JInt n)])]).
Definition ends : list (string * json) := [("ctrl_endpoint", JStr "ctrl"); ("rx_endpoint", JStr "rx"); ("frame_ready_endpoint", JStr "ready"); ("frame_release_endpoint", JStr "release")].
Definition whole : option json := cfg (ends ++ [("decoder_type", JStr "DummyUDP"); ("decoder_path", JStr "/lib"); ("rx_ports", JStr "5000,5001")]).
Definition start : rc := rc_init "/b" (fun s => s) 0 0 0.
Definition after (l : list (env * event)) (s : rc) : rc := fst (run l s).
Lemma after_ok l s : snd (run l s) = Ret tt -> run l s = (after l s, Ret tt). Proof. unfold after. destruct (run l s) as [s1 o]. cbn. intros ->. reflexivity. Qed.
Definition stepped (v : env) (e : event) (s : rc) : rc := fst (step v e s).
Lemma stepped_ok v e s : snd (step v e s) = Ret tt -> step v e s = (stepped v e s, Ret tt). Proof. unfold stepped. destruct (step v e s) as [s1 o]. cbn. intros ->. reflexivity. Qed.
(** The replies *)
Definition reply_of (l : list effect) : list (string * list (string * json)) := flat_map (fun f => match f with FReply c d => [(c, d)] | _ => [] end) l.
Lemma answered_by s s' client d : skipn (List.length (c_out s)) (c_out s') = [FReply client d] -> firstn (List.length (c_out s)) (c_out s') = c_out s -> answered s s' client d.
Proof. intros A B. exists []. split; [|intros f []]. cbn [app]. rewrite <- (firstn_skipn (List.length (c_out s)) (c_out s')) at 1. rewrite A, B. reflexivity. Qed.
Definition last_reply (s : rc) : list (string * json) := match rev (c_out s) with FReply _ d :: _ => d | _ => [] end.
Definition told (d : list (string * json)) (p : list string) : option json := at_path p (JObj d).
Lemma told_says d k x : told d [k] = Some x -> says d k x. Proof. apply leads_at. Qed.
Lemma told_param d p x : told d ("params" :: p) = Some x -> param d p x. Proof. apply leads_at. Qed.
Lemma v0_calm : calm v0. Proof. constructor; try reflexivity; try discriminate; constructor. Qed.
Lemma v0_exclusive : exclusive v0.
Proof. intros l c e I H. cbn in H. unfold bind_once in H. destruct (existsb _ l) eqn:E; [discriminate|]. assert (T : existsb (fun p => chan_eqb c (fst p) && String.eqb e (snd p)) l = true) by (apply existsb_exists; exists (c, e); split; [exact I|]; cbn; rewrite String.eqb_refl; destruct c; reflexivity). congruence. Qed.
Lemma cfg_clean l : clean (cfg l).
Proof. intros doc k t E I S. injection E as <-. cbn in I. destruct I as [<-|[<-|[<-|[]]]]; apply leads_at in S; cbn in S; try discriminate; injection S as <-; apply no_char_ok; reflexivity. Qed.
Lemma cfg_command l : command "configure" (cfg l).
Proof. eexists. split; [reflexivity|]. split; [apply told_says; reflexivity|]. split; [apply told_says; reflexivity|]. intros y Y. apply leads_at in Y. discriminate. Qed.
Lemma ask_clean w : no_nul w -> clean (ask w).
Proof. intros N doc k t E I S. injection E as <-. cbn in I. destruct I as [<-|[<-|[<-|[]]]]; apply leads_at in S; cbn in S; try discriminate; injection S as <-; try exact N; apply no_char_ok; reflexivity. Qed.
Lemma ask_command w : command w (ask w).
Proof. eexists. split; [reflexivity|]. split; [apply told_says; reflexivity|]. split; [apply told_says; reflexivity|]. intros y Y. apply leads_at in Y. discriminate. Qed.
(** A receiver is configured and asked; frames pass. *)
Definition s1 : rc := stepped v0 (Ctrl "client" whole) start.
Lemma s1_step : step v0 (Ctrl "client" whole) start = (s1, Ret tt). Proof. apply stepped_ok. vm_compute. reflexivity. Qed.
Definition s1_doc : list (string * json) := last_reply s1.
Lemma answered_by_list s s' client d l : c_out s' = c_out s ++ l ++ [FReply client d] -> forallb (fun f => match f with FReply _ _ => false | _ => true end) l = true -> answered s s' client d.
Proof. intros A B. exists l. split; [exact A|]. intros f I (c & y & ->). rewrite forallb_forall in B. specialize (B _ I). discriminate. Qed.
Lemma s1_answered : answered start s1 "client" s1_doc.
Proof. apply (answered_by_list _ _ _ _ (firstn 7 (c_out s1))); vm_compute; reflexivity. Qed.
Lemma s1_acked : acked s1_doc. Proof. apply told_says. vm_compute. reflexivity. Qed.
Lemma s1_all : reports_all s1_doc.
Proof. split; [exact s1_acked|]. intros k I. apply told_param. cbn in I. destruct I as [<-|[<-|[<-|[<-|[]]]]]; vm_compute; reflexivity. Qed.
Example c44_example :
  says s1_doc "id" (JInt 1) /\ says s1_doc "msg_val" (JStr "configure") /\ s_ports (c_cfg s1) = [5000; 5001] /\ s_end (c_cfg s1) CReady = "ready" /\ c_all s1 = true.
Proof. split; [apply told_says; vm_compute; reflexivity|]. split; [apply told_says; vm_compute; reflexivity|]. vm_compute. repeat split. Qed.
Example c44_applied_example : applied [("msg_type", JStr "cmd"); ("msg_val", JStr "configure"); ("id", JInt 1); ("params", JObj (ends ++ [("decoder_type", JStr "DummyUDP"); ("decoder_path", JStr "/lib"); ("rx_ports", JStr "5000,5001")]))] (c_cfg start) (c_cfg s1).
Proof. refine (proj1 (c44_applied_partial [] "/b" (fun s => s) 0 0 0 v0 "client" whole start s1 s1_doc _ eq_refl (fun t => eq_refl) s1_step s1_answered (cfg_clean _) (cfg_command _) eq_refl s1_acked)). Qed.
Lemma none_failed l : forallb (fun f => match f with FBindFailed _ _ => false | _ => true end) l = true -> forall c e, ~ In (FBindFailed c e) l. Proof. intros B c e I. rewrite forallb_forall in B. specialize (B _ I). discriminate. Qed.
Example c45_example : (exists d b t, in_service s1 d b t) /\ forall c, In c [CCtrl; CRx; CReady] -> listening c s1.
Proof.
  destruct (c45_complete_partial [] [] "/b" (fun s => s) 0 0 0 v0 "client" whole start s1 s1 s1_doc eq_refl s1_step eq_refl (cfg_clean _) (cfg_command _) (fun v e I => False_ind _ I) s1_answered s1_all) as (_ & A & B). split; [exact A|]. apply B.
  - intros v' e [I|[]]. injection I as <- _. exact v0_exclusive.
  - apply none_failed. vm_compute. reflexivity.
Qed.
Example c45_acknowledged_example : s_type (c_cfg s1) = "DummyUDP" /\ c_rx s1 = true /\ exists t, c_thread s1 = Some t /\ t_ok t = true.
Proof. destruct (c45_acknowledged [] "/b" (fun s => s) 0 0 0 v0 "client" whole start s1 s1_doc eq_refl s1_step (cfg_clean _) (cfg_command _) s1_answered s1_acked) as (_ & _ & _ & _ & K). destruct K as (_ & _ & A & B & _); [vm_compute; discriminate|]. split; [vm_compute; reflexivity|]. split; [exact A|exact B]. Qed.
Example c45_threads_example : In FThreadStop (c_out (stepped v0 (Ctrl "client" whole) s1)) /\ thread_log (c_out (stepped v0 (Ctrl "client" whole) s1)) = Some true.
Proof. vm_compute. repeat split. tauto. Qed.
Example c45_bind_example : nth_error (c_out s1) 1 = Some (FBind CRx "rx"). Proof. vm_compute. reflexivity. Qed.
Definition s2 : rc := stepped v0 (Ctrl "client" (ask "status")) s1.
Example c44_status_example : step v0 (Ctrl "client" (ask "status")) s1 = (s2, Ret tt) /\ answered s1 s2 "client" (last_reply s2) /\ acked (last_reply s2) /\ reports_status s1 (last_reply s2).
Proof.
  pose (W := "status"). assert (NW : no_nul W) by (apply no_char_ok; reflexivity). assert (E : step v0 (Ctrl "client" (ask "status")) s1 = (s2, Ret tt)) by (apply stepped_ok; vm_compute; reflexivity).
  assert (A : answered s1 s2 "client" (last_reply s2)) by (apply answered_by; vm_compute; reflexivity).
  destruct (c44_status v0 "client" (ask "status") s1 s2 (last_reply s2) E A (ask_clean W NW) (ask_command W)) as (P & Q). assert (K : acked (last_reply s2)) by (apply Q; vm_compute; reflexivity). split; [exact E|]. split; [exact A|]. split; [exact K|]. exact (proj1 (P K)).
Qed.
Definition s3 : rc := stepped v0 (Ctrl "client" (ask "request_configuration")) s1.
Example c44_configuration_example : step v0 (Ctrl "client" (ask "request_configuration")) s1 = (s3, Ret tt) /\ reports_settings (c_cfg s1) (last_reply s3) /\ param (last_reply s3) ["rx_ports"] (JStr "5000,5001").
Proof.
  pose (W := "request_configuration"). assert (NW : no_nul W) by (apply no_char_ok; reflexivity). assert (E : step v0 (Ctrl "client" (ask "request_configuration")) s1 = (s3, Ret tt)) by (apply stepped_ok; vm_compute; reflexivity).
  assert (A : answered s1 s3 "client" (last_reply s3)) by (apply answered_by; vm_compute; reflexivity).
  assert (K : acked (last_reply s3)) by (apply told_says; vm_compute; reflexivity).
  split; [exact E|]. split; [|apply told_param; vm_compute; reflexivity]. refine (proj1 (c44_configuration v0 "client" (ask "request_configuration") s1 s3 (last_reply s3) _ E A (ask_clean W NW) (ask_command W) K)). constructor.
Qed.
Definition s4 : rc := stepped v0 (Ctrl "client" (ask "shutdown")) s1.
Example c44_shutdown_example : step v0 (Ctrl "client" (ask "shutdown")) s1 = (s4, Ret tt) /\ acked (last_reply s4) /\ c_timers s4 = [TNotifyConfig; TStop].
Proof. split; [apply stepped_ok; vm_compute; reflexivity|]. split; [apply told_says; vm_compute; reflexivity|]. vm_compute. reflexivity. Qed.
Definition s5 : rc := stepped v0 (Ctrl "client" (ask "nonsense")) s1.
Example c44_illegal_example : step v0 (Ctrl "client" (ask "nonsense")) s1 = (s5, Ret tt) /\ refused (last_reply s5).
Proof. split; [apply stepped_ok; vm_compute; reflexivity|]. split; [apply told_says; vm_compute; reflexivity|]. eexists. apply told_param. vm_compute. reflexivity. Qed.
Lemma notification_clean w n : no_nul w -> clean (notification w n).
Proof. intros N doc k t E I S. injection E as <-. cbn in I. destruct I as [<-|[<-|[<-|[]]]]; apply leads_at in S; cbn in S; try discriminate; injection S as <-; try exact N; apply no_char_ok; reflexivity. Qed.
Lemma notification_note w n j : 0 <= n < 2 ^ 32 -> notification w n = Some j -> note (v_clock v0) w (notification w n) j.
Proof.
  intros R E. injection E as <-. eexists. eexists. eexists. split; [reflexivity|]. split; [reflexivity|]. split; [apply told_says; reflexivity|]. split; [apply told_says; reflexivity|]. split; [apply told_says; reflexivity|]. split; [cbn; discriminate|]. split; [|apply told_says; reflexivity].
  intros x X. apply leads_at in X. injection X as <-. eauto.
Qed.
Definition passing : list (env * event) :=
  [(v0, Ctrl "client" whole); (v0, FromRx "rx" (notification "identity" 0)); (v0, FromRx "rx" (notification "frame_ready" 7)); (v0, Release (notification "frame_release" 7)); (v0, FromRx "rx" (notification "frame_ready" 8)); (v0, Ctrl "client" (ask "reset_statistics")); (v0, Release (notification "frame_release" 8))].
Definition s6 : rc := after passing start.
Lemma passing_observed : observed passing.
Proof.
  intros v e I. cbn in I. repeat (destruct I as [I|I]; [injection I as <- <-; split; [reflexivity|]; first [apply cfg_clean|apply ask_clean; apply no_char_ok; reflexivity|apply notification_clean; apply no_char_ok; reflexivity]|]). destruct I.
Qed.
Example c53_example : run passing start = (s6, Ret tt) /\ c_received s6 = 0 /\ c_released s6 = 1 /\ c_ident s6 = "rx" /\
  published (c_out s6) = [match notification "frame_ready" 7 with Some j => j | None => JNull end; match notification "frame_ready" 8 with Some j => j | None => JNull end] /\ List.length (returned (c_out s6)) = 2%nat /\
  notes ready_of passing (published (c_out s6)) /\ counted release_of 0 passing (c_released s6).
Proof.
  assert (R : run passing start = (s6, Ret tt)) by (apply after_ok; vm_compute; reflexivity). destruct (c53_run passing "/b" (fun s => s) 0 0 0 s6 passing_observed R) as (A & _ & _ & B). split; [exact R|]. split; [vm_compute; reflexivity|]. split; [vm_compute; reflexivity|]. split; [vm_compute; reflexivity|]. split; [vm_compute; reflexivity|]. split; [vm_compute; reflexivity|]. split; [exact A|exact B].
Qed.
(** Versions, buffers, the status of the receiver thread *)
Definition s7 : rc := stepped v0 (Ctrl "client" (ask "request_version")) s1.
Example c44_version_example : step v0 (Ctrl "client" (ask "request_version")) s1 = (s7, Ret tt) /\ reports_version v0 (last_reply s7).
Proof.
  pose (W := "request_version"). assert (NW : no_nul W) by (apply no_char_ok; reflexivity). assert (E : step v0 (Ctrl "client" (ask "request_version")) s1 = (s7, Ret tt)) by (apply stepped_ok; vm_compute; reflexivity).
  assert (A : answered s1 s7 "client" (last_reply s7)) by (apply answered_by; vm_compute; reflexivity).
  assert (K : acked (last_reply s7)) by (apply told_says; vm_compute; reflexivity).
  split; [exact E|]. refine (proj1 (c44_version v0 "client" (ask "request_version") s1 s7 (last_reply s7) _ E A (ask_clean W NW) (ask_command W) K)). constructor.
Qed.
Definition demand (w : string) : option json := Some (JObj [("msg_type", JStr "cmd"); ("msg_val", JStr w); ("timestamp", JStr "t"); ("id", JInt 2); ("params", JObj [])]).
Lemma demand_clean w : no_nul w -> clean (demand w).
Proof. intros N doc k t E I S. injection E as <-. cbn in I. destruct I as [<-|[<-|[<-|[]]]]; apply leads_at in S; cbn in S; try discriminate; injection S as <-; try exact N; apply no_char_ok; reflexivity. Qed.
Lemma demand_asks w : asks (v_clock v0) w (demand w).
Proof. do 3 eexists. split; [reflexivity|]. do 3 (split; [apply told_says; reflexivity|]). split; [discriminate|]. split; [|apply told_says; reflexivity]. intros x X. apply leads_at in X. injection X as <-. exists 2. split; [reflexivity|lia]. Qed.
Example c53_buffers_example : (exists d, step v0 (FromRx "rx" (demand "request_buffer_precharge")) s1 = (w_c_out (c_out s1 ++ [FToRx (c_ident s1) (JObj d)]) s1, Ret tt) /\ param d ["num_buffers"] (JInt 10)) /\
  exists d, step v0 (Release (demand "request_buffer_config")) s1 = (w_c_out (c_out s1 ++ [FPublish (JObj d)]) s1, Ret tt) /\ param d ["shared_buffer_name"] (JStr "OdinDataBuffer").
Proof.
  split.
  - assert (B : exists b, c_buffers s1 = Some b /\ b_count b = 10) by (eexists; vm_compute; split; reflexivity). destruct B as (b & B & C).
    destruct (c53_precharge v0 "rx" (demand "request_buffer_precharge") s1 b eq_refl) as (d & S & _ & _ & P); [apply demand_clean, no_char_ok; reflexivity|apply demand_asks|exact B| |rewrite C; lia|].
    { assert (T : match c_thread s1 with None => false | _ => true end = true) by (vm_compute; reflexivity). destruct (c_thread s1); [discriminate|discriminate T]. }
    exists d. rewrite C in P. auto.
  - destruct (c53_buffer_config v0 (demand "request_buffer_config") s1) as (d & _ & P & S & _); [apply no_char_ok; vm_compute; reflexivity|]. exists d. split; [apply S; [reflexivity|apply demand_clean, no_char_ok; reflexivity|apply demand_asks]|]. assert (N : s_shm (c_cfg s1) = "OdinDataBuffer") by (vm_compute; reflexivity). rewrite N in P. exact P.
Qed.
Definition rx_report : option json := Some (JObj [("msg_type", JStr "notify"); ("msg_val", JStr "notify_status"); ("timestamp", JStr "t"); ("id", JInt 3); ("params", JObj [("rx_thread", JObj [("empty_buffers", JInt 900); ("mapped_buffers", JInt 148); ("frames_timedout", JInt 5); ("frames_dropped", JInt 6)]); ("decoder", JObj [("name", JStr "dummy")])])]).
Definition s8 : rc := stepped v0 (FromRx "rx" rx_report) s1.
Definition s9 : rc := stepped v0 (Ctrl "client" (ask "status")) s8.
Example c53_status_example : step v0 (FromRx "rx" rx_report) s1 = (s8, Ret tt) /\ step v0 (Ctrl "client" (ask "status")) s8 = (s9, Ret tt) /\ reports_rx s8 (last_reply s9) /\ param (last_reply s9) ["frames"; "dropped"] (JInt 6) /\ param (last_reply s9) ["decoder"; "name"] (JStr "dummy").
Proof.
  pose (W := "status"). assert (NW : no_nul W) by (apply no_char_ok; reflexivity). assert (E : step v0 (Ctrl "client" (ask "status")) s8 = (s9, Ret tt)) by (apply stepped_ok; vm_compute; reflexivity).
  assert (A : answered s8 s9 "client" (last_reply s9)) by (apply answered_by; vm_compute; reflexivity).
  assert (K : acked (last_reply s9)) by (apply told_says; vm_compute; reflexivity).
  destruct (c44_status v0 "client" (ask "status") s8 s9 (last_reply s9) E A (ask_clean W NW) (ask_command W)) as (P & _). split; [apply stepped_ok; vm_compute; reflexivity|]. split; [exact E|]. split; [exact (proj1 (proj2 (P K)))|]. split; apply told_param; vm_compute; reflexivity.
Qed.

(** * What does not hold *)
(** Shared memory that cannot be made: the exception leaves the handler (lines 144-159 catch others); no reply, the receiver ends. *)
Theorem c44_shm_refuted : exists v, calm v0 /\ v = surroundings bind_once None true /\
  snd (step v (Ctrl "client" whole) start) = Throw EShm /\ reply_of (c_out (stepped v (Ctrl "client" whole) start)) = [].
Proof. exists (surroundings bind_once None true). split; [exact v0_calm|]. split; [reflexivity|]. split; vm_compute; reflexivity. Qed.
(** A list of ports without a port is acknowledged; the next configure, whatever it says, ends the receiver. *)
Definition portless : rc := stepped v0 (Ctrl "client" (cfg [("rx_ports", JStr "0")])) start.
Theorem c44_ports_refuted :
  step v0 (Ctrl "client" (cfg [("rx_ports", JStr "0")])) start = (portless, Ret tt) /\ acked (last_reply portless) /\
  snd (step v0 (Ctrl "client" (cfg [("rx_ports", JStr "8000")])) portless) = Throw EOutOfRange /\ snd (step v0 (Ctrl "client" (ask "request_configuration")) portless) = Throw EOutOfRange.
Proof. split; [apply stepped_ok; vm_compute; reflexivity|]. split; [apply told_says; vm_compute; reflexivity|]. split; vm_compute; reflexivity. Qed.
(** A name of one character in decoder_config ends the receiver at the second configure (update of the stored settings). *)
Theorem c44_name_refuted :
  snd (step v0 (Ctrl "client" (cfg [("decoder_config", JObj [("a", JInt 1)])])) start) = Throw (EIpc ERange) /\ reply_of (c_out (stepped v0 (Ctrl "client" (cfg [("decoder_config", JObj [("a", JInt 1)])])) start)) = [].
Proof. split; vm_compute; reflexivity. Qed.
(** An empty decoder_path, or an id that is not a number: behaviour is undefined. *)
Theorem c44_undefined_refuted :
  snd (step v0 (Ctrl "client" (cfg [("decoder_path", JStr "")])) start) = Undef /\
  snd (step v0 (Ctrl "client" (Some (JObj [("msg_type", JStr "cmd"); ("msg_val", JStr "status"); ("id", JStr "x")]))) start) = Undef.
Proof. split; vm_compute; reflexivity. Qed.
(** Acknowledged although it did not succeed: the thread does not start; the type of receiver is unknown. *)
Theorem c44_acked_refuted :
  (exists v s', v = surroundings bind_once (Some 10) false /\ step v (Ctrl "client" whole) start = (s', Ret tt) /\ acked (last_reply s') /\ param (last_reply s') ["configured"; "rx_thread"] (JBool false)) /\
  (exists s', step v0 (Ctrl "client" (cfg [("rx_type", JStr "foo")])) start = (s', Ret tt) /\ acked (last_reply s') /\ s_rx (c_cfg s') = RxIllegal).
Proof.
  split.
  - exists (surroundings bind_once (Some 10) false), (stepped (surroundings bind_once (Some 10) false) (Ctrl "client" whole) start). split; [reflexivity|]. split; [apply stepped_ok; vm_compute; reflexivity|]. split; [apply told_says|apply told_param]; vm_compute; reflexivity.
  - exists (stepped v0 (Ctrl "client" (cfg [("rx_type", JStr "foo")])) start). split; [apply stepped_ok; vm_compute; reflexivity|]. split; [apply told_says; vm_compute; reflexivity|]. vm_compute. reflexivity.
Qed.
(** A configure that is refused is applied in part. *)
Definition part : rc := stepped v0 (Ctrl "client" (cfg [("ctrl_endpoint", JStr "other"); ("decoder_type", JStr "Missing")])) s1.
Theorem c44_refused_partly : step v0 (Ctrl "client" (cfg [("ctrl_endpoint", JStr "other"); ("decoder_type", JStr "Missing")])) s1 = (part, Ret tt) /\ refused (last_reply part) /\ s_end (c_cfg part) CCtrl = "other" /\ s_type (c_cfg part) = "Missing" /\ c_decoder part = None.
Proof. split; [apply stepped_ok; vm_compute; reflexivity|]. split; [split; [apply told_says; vm_compute; reflexivity|]; eexists; apply told_param; vm_compute; reflexivity|]. vm_compute. repeat split. Qed.
(** A later status says that the configuration is complete, although there is no decoder. *)
Theorem c45_status_refuted : c_all part = true /\ c_decoder part = None /\ exists s', step v0 (Ctrl "client" (ask "status")) part = (s', Ret tt) /\ param (last_reply s') ["status"; "configuration_complete"] (JBool true).
Proof. split; [vm_compute; reflexivity|]. split; [vm_compute; reflexivity|]. exists (stepped v0 (Ctrl "client" (ask "status")) part). split; [apply stepped_ok; vm_compute; reflexivity|]. apply told_param. vm_compute. reflexivity. Qed.
(** All reported, but the release channel is not bound (line 263 tests the ready channel twice). *)
Definition half : option json := cfg [("ctrl_endpoint", JStr "ctrl"); ("rx_endpoint", JStr "rx"); ("frame_ready_endpoint", JStr "ready"); ("decoder_type", JStr "DummyUDP")].
Definition s_half : rc := stepped v0 (Ctrl "client" half) start.
Lemma not_listening c s : existsb (fun p => chan_eqb c (fst p) && String.eqb (s_end (c_cfg s) c) (snd p)) (c_bound s) = false -> ~ listening c s.
Proof. intros B I. assert (T : existsb (fun p => chan_eqb c (fst p) && String.eqb (s_end (c_cfg s) c) (snd p)) (c_bound s) = true) by (apply existsb_exists; exists (c, s_end (c_cfg s) c); split; [exact I|]; cbn; rewrite String.eqb_refl; destruct c; reflexivity). congruence. Qed.
Lemma unbound c l : forallb (fun p => negb (chan_eqb c (fst p))) l = true -> forall e : string, ~ In (c, e) l. Proof. intros B e I. rewrite forallb_forall in B. specialize (B _ I). cbn in B. destruct c; discriminate. Qed.
Theorem c45_release_refuted : step v0 (Ctrl "client" half) start = (s_half, Ret tt) /\ reports_all (last_reply s_half) /\ ~ listening CRelease s_half /\ forall e, ~ In (CRelease, e) (c_bound s_half).
Proof.
  split; [apply stepped_ok; vm_compute; reflexivity|]. split; [split; [apply told_says; vm_compute; reflexivity|]; intros k I; apply told_param; cbn in I; destruct I as [<-|[<-|[<-|[<-|[]]]]]; vm_compute; reflexivity|]. split; [apply not_listening; vm_compute; reflexivity|].
  apply unbound. vm_compute. reflexivity.
Qed.
(** A message that gives nothing but a debug level loads the decoder again, makes new buffers and a new thread. *)
Theorem c45_rebuild_refuted : skipn (List.length (c_out s1)) (c_out (stepped v0 (Ctrl "client" (cfg [("debug_level", JInt 1)])) s1)) =
  [FThreadStop; FLoad "DummyUDPFrameDecoder" "/lib/libDummyUDPFrameDecoder.so"; FBuffers "OdinDataBuffer" 1048576; FThread; FReply "client" (last_reply (stepped v0 (Ctrl "client" (cfg [("debug_level", JInt 1)])) s1))].
Proof. vm_compute. reflexivity. Qed.
(** Another decoder_path with the same type: acknowledged, and the class of the old library is used again. *)
Theorem c45_library_refuted : exists s' d, step v0 (Ctrl "client" (cfg [("decoder_path", JStr "/new")])) s1 = (s', Ret tt) /\ reports_all (last_reply s') /\ s_path (c_cfg s') = "/new" /\ c_decoder s' = Some d /\ d_lib d = "/lib/libDummyUDPFrameDecoder.so".
Proof.
  exists (stepped v0 (Ctrl "client" (cfg [("decoder_path", JStr "/new")])) s1). eexists. split; [apply stepped_ok; vm_compute; reflexivity|]. split; [split; [apply told_says; vm_compute; reflexivity|]; intros k I; apply told_param; cbn in I; destruct I as [<-|[<-|[<-|[<-|[]]]]]; vm_compute; reflexivity|]. split; [vm_compute; reflexivity|]. split; [vm_compute; reflexivity|]. reflexivity.
Qed.
(** A control endpoint that cannot be bound: refused, but a second later the old endpoint is closed; the receiver cannot be reached any more. *)
Definition v_taken : env := surroundings (fun l c e => if String.eqb e "taken" then Some "in use" else bind_once l c e) (Some 10) true.
Definition lost : list (env * event) := [(v_taken, Ctrl "client" whole); (v_taken, Timer); (v_taken, Ctrl "client" (cfg [("ctrl_endpoint", JStr "taken")])); (v_taken, Timer)].
Theorem c45_control_refuted : run lost start = (after lost start, Ret tt) /\ forall e, ~ In (CCtrl, e) (c_bound (after lost start)).
Proof.
  split; [apply after_ok; vm_compute; reflexivity|]. apply unbound. vm_compute. reflexivity.
Qed.
(** The same within a second: there, back again, and the channel is closed. *)
Definition back : list (env * event) := [(v0, Ctrl "client" whole); (v0, Timer); (v0, Ctrl "client" (cfg [("ctrl_endpoint", JStr "b")])); (v0, Ctrl "client" (cfg [("ctrl_endpoint", JStr "ctrl")]))].
Theorem c45_back_refuted : run back start = (after back start, Ret tt) /\ refused (last_reply (after back start)) /\ run (back ++ [(v0, Timer); (v0, Timer); (v0, Timer)]) start = (after (back ++ [(v0, Timer); (v0, Timer); (v0, Timer)]) start, Ret tt) /\ forall e, ~ In (CCtrl, e) (c_bound (after (back ++ [(v0, Timer); (v0, Timer); (v0, Timer)]) start)).
Proof.
  split; [apply after_ok; vm_compute; reflexivity|]. split; [split; [apply told_says; vm_compute; reflexivity|]; eexists; apply told_param; vm_compute; reflexivity|]. split; [apply after_ok; vm_compute; reflexivity|]. apply unbound. vm_compute. reflexivity.
Qed.
(** The number of frames asked for is not initialised: the receiver may stop after the first frame though nobody asked. *)
Theorem c53_limit_refuted : exists fr, let s := rc_init "/b" (fun s => s) fr 0 0 in
  skipn (List.length (c_out s)) (c_out (stepped v0 (Release (notification "frame_release" 7)) s)) = [FToRx "RX_THREAD" (match notification "frame_release" 7 with Some j => j | None => JNull end); FStop].
Proof. exists 1. vm_compute. reflexivity. Qed.
(** A limit cannot be taken back: frames = 0 changes nothing. *)
Theorem c53_limit_stays : exists s', step v0 (Ctrl "client" (cfg [("frames", JInt 0)])) (rc_init "/b" (fun s => s) 5 0 0) = (s', Ret tt) /\ acked (last_reply s') /\ s_frames (c_cfg s') = 5.
Proof. exists (stepped v0 (Ctrl "client" (cfg [("frames", JInt 0)])) (rc_init "/b" (fun s => s) 5 0 0)). split; [apply stepped_ok; vm_compute; reflexivity|]. split; [apply told_says; vm_compute; reflexivity|]. vm_compute. reflexivity. Qed.
Print Assumptions c44_shm_refuted.
Print Assumptions c44_ports_refuted.
Print Assumptions c44_name_refuted.
Print Assumptions c44_undefined_refuted.
Print Assumptions c44_acked_refuted.
Print Assumptions c44_refused_partly.
Print Assumptions c45_status_refuted.
Print Assumptions c45_release_refuted.
Print Assumptions c45_rebuild_refuted.
Print Assumptions c45_library_refuted.
Print Assumptions c45_control_refuted.
Print Assumptions c45_back_refuted.
Print Assumptions c53_limit_refuted.
Print Assumptions c53_limit_stays.
