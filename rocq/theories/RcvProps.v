(** C44, C45, C53: the controller of the frame receiver. *)
From Coq Require Import String Ascii.
From Verif Require Import Base StrOrder FrameModel JsonModel JsonSpec JsonProofs JsonProps LiveModel LiveSpec PortModel PortSpec PortProps EqualModel RcvModel RcvSpec RcvProofs RcvReply RcvInv RcvChan RcvSafe RcvCount RcvApply RcvCtrl RcvAsk RcvThread RcvDone.
Local Open Scope string_scope.
Local Open Scope list_scope.
Local Open Scope Z_scope.

(** *** Common *)
Lemma answered_unique s s' client d d' : answered s s' client d -> answered s s' client d' -> d = d'.
Proof.
  intros (l & E & _) (l' & E' & _). rewrite E in E'. apply app_inv_head in E'. assert (X : last (l ++ [FReply client d]) FStop = last (l' ++ [FReply client d']) FStop) by (rewrite E'; reflexivity). rewrite !last_snoc in X. injection X as ->. reflexivity.
Qed.
Lemma val_names_ok : forall t, (val_of_name t = VConfigure <-> t = "configure") /\ (val_of_name t = VRequestConfiguration <-> t = "request_configuration") /\ (val_of_name t = VStatus <-> t = "status") /\
  (val_of_name t = VRequestVersion <-> t = "request_version") /\ (val_of_name t = VResetStatistics <-> t = "reset_statistics") /\ (val_of_name t = VShutdown <-> t = "shutdown") /\ (val_of_name t = VIdentity <-> t = "identity").
Proof.
  intros t. unfold val_of_name, by_name, val_names, List.find, fst, snd. repeat match goal with |- context [String.eqb ?a t] => destruct (String.eqb_spec a t) as [<-|] end; repeat split; intros H; try congruence; try discriminate; reflexivity.
Qed.
Definition request_val (w : string) : msg_val := val_of_name w.
Lemma request_known w : In w requests -> (forall t, val_of_name t = request_val w <-> t = w) /\ request_val w <> VIllegal /\ no_nul w /\ name_of_val (request_val w) = w.
Proof.
  intros I. cbn in I. repeat destruct I as [<-|I]; [..|destruct I]; (split; [intros t; apply (val_names_ok t)|split; [discriminate|split; [apply no_char_ok; reflexivity|reflexivity]]]).
Qed.
Lemma request_parsed v x w : clean x -> In w requests -> (command w x <-> exists m, parsed v x = Ret m /\ g_type m = TCmd /\ g_val m = request_val w).
Proof. intros CL I. destruct (request_known w I) as (A & B & C & _). apply command_parsed; assumption. Qed.
Lemma parsed_not_other v x m : clean x -> parsed v x = Ret m -> (forall w, In w requests -> ~ command w x) -> g_type m = TCmd -> program v m = None.
Proof.
  intros CL P N T. unfold program. destruct (g_val m) eqn:V; try reflexivity; exfalso;
  [apply (N "status")|apply (N "configure")|apply (N "request_configuration")|apply (N "request_version")|apply (N "reset_statistics")|apply (N "shutdown")]; try (cbn; tauto); apply (request_parsed v); try exact CL; try (cbn; tauto); exists m; (split; [exact P|split; [exact T|exact V]]).
Qed.

Lemma id_same (a b : msg) i j : g_id a = Some i -> a = b -> g_id b = Some j -> i = j. Proof. intros H <- G. rewrite H in G. injection G as ->. reflexivity. Qed.
Lemma unchanged_refl s : unchanged s s. Proof. exists (c_reply s), (c_out s). destruct s; reflexivity. Qed.
Lemma unchanged_reply s s1 r : unchanged s s1 -> unchanged s (w_c_reply r s1). Proof. intros (r1 & o1 & ->). exists r, o1. destruct s; reflexivity. Qed.
Lemma unchanged_end s s1 s' o r : s' = w_c_out o (w_c_reply r s1) -> unchanged s s1 -> unchanged s s'. Proof. intros -> (r1 & o1 & ->). exists r, o. destruct s; reflexivity. Qed.

(** ** C44: requests and replies *)
(** Whatever arrives, if the handler returns there is one reply, to the sender; it acknowledges or it refuses and says why. *)
Theorem c44_one_reply v client x s s' : step v (Ctrl client x) s = (s', Ret tt) -> exists d, answered s s' client d /\ (acked d \/ refused d).
Proof.
  cbn [step]. intros H. destruct (ctrl_reply v client x s s' H) as (m & i & F & A & _ & _ & _ & _ & B). exists (reply_doc v m i). split; [exact B|]. destruct (doc_says v m i F) as (T & _ & _ & PS). destruct A as [A|(A & w & E)]; rewrite A in T; [left; exact T|right]. split; [exact T|]. exists w. apply PS, E.
Qed.
(** It has the id of the request *)
Theorem c44_id v client doc s s' d i : step v (Ctrl client (Some (JObj doc))) s = (s', Ret tt) -> answered s s' client d -> readable doc -> request_id doc i -> says d "id" (JInt i).
Proof.
  cbn [step]. intros H AN RD ID. destruct (ctrl_reply _ _ _ _ _ H) as (m & j & F & _ & IO & _ & _ & _ & B). rewrite (answered_unique _ _ _ _ _ AN B). destruct (doc_says v m j F) as (_ & _ & X & _). assert (i = j); [|subst; exact X].
  assert (G : forall k, In k ["msg_type"; "msg_val"; "timestamp"] -> exists t, get_attr str_value doc k "none" = Ret t). { intros k I. unfold get_attr. destruct (find_member k doc) as [y|] eqn:FM; [|eauto]. destruct (RD k y I) as (t & ->); [apply says_find, FM|]. cbn. eauto. }
  destruct (G "msg_type") as (t1 & G1); [cbn; tauto|]. destruct (G "msg_val") as (t2 & G2); [cbn; tauto|]. destruct (G "timestamp") as (t3 & G3); [cbn; tauto|].
  destruct (nonstrict_ok (v_clock v) doc _ _ _ G1 G2 G3) as (m' & P & _ & _ & _ & GI). unfold id_of, parsed in IO. rewrite P in IO.
  assert (U : get_attr uint_value doc "id" 0 = Ret i). { unfold get_attr. destruct ID as [(S & R)|(N & ->)]. - apply says_find in S. rewrite S. unfold uint_value, get_value, in_range. destruct (Z.leb_spec 0 i), (Z.ltb_spec i (2 ^ 32)); try lia. reflexivity. - destruct (find_member "id" doc) as [y|] eqn:FM; [|reflexivity]. destruct (N y). apply says_find, FM. }
  rewrite (GI _ U) in IO. injection IO as ->. reflexivity.
Qed.
(** and, for the known requests, the name of the request. *)
Theorem c44_value v client w x s s' d : step v (Ctrl client x) s = (s', Ret tt) -> answered s s' client d -> clean x -> In w requests -> command w x -> says d "msg_val" (JStr w).
Proof.
  cbn [step]. intros H AN CL I C. destruct (request_known w I) as (_ & _ & _ & NV). apply (request_parsed v x w CL I) in C. destruct C as (m & P & T & V). destruct (ctrl_reply _ _ _ _ _ H) as (m' & j & F & _ & _ & _ & GV & _ & B). rewrite (answered_unique _ _ _ _ _ AN B). destruct (doc_says v m' j F) as (_ & X & _). unfold val_of in GV. rewrite P, T, V in GV. rewrite GV, NV in X. exact X.
Qed.
(** Anything else than the known requests - no JSON, another type, another name - is refused and changes nothing. *)
Theorem c44_illegal v client x s s' : step v (Ctrl client x) s = (s', Ret tt) -> clean x -> (forall w, In w requests -> ~ command w x) -> exists d, answered s s' client d /\ refused d /\ unchanged s s'.
Proof.
  cbn [step]. intros H CL N. destruct (ctrl_reply v client x s s' H) as (m & i & F & A & _ & _ & _ & CR & B). exists (reply_doc v m i). split; [exact B|].
  assert (G : g_type (c_reply s') = TNack /\ unchanged s s').
  { destruct (ctrl_shape v client x s s' H) as (s1 & r & j & AT & _ & E & C). destruct (parsed v x) as [m'|e|] eqn:P.
    - destruct (g_type m') eqn:T.
      + unfold attempt, request, seq at 1 in AT. rewrite parse_eq, P in AT. unfold seq at 1, reply_id, change in AT. cbv zeta in AT. rewrite T in AT. injection AT as <- <-. split; [apply C|]. apply (unchanged_end _ _ _ _ _ E). repeat (apply unchanged_reply || apply unchanged_refl).
      + destruct (ctrl_command v client x s s' m' P T H) as (k & _ & C'). rewrite (parsed_not_other v x m' CL P N T) in C'. destruct C' as (C1 & C2). split; [exact C2|]. apply (unchanged_end _ _ _ _ _ C1), unchanged_refl.
      + unfold attempt, request, seq at 1 in AT. rewrite parse_eq, P in AT. unfold seq at 1, reply_id, change in AT. cbv zeta in AT. rewrite T in AT. injection AT as <- <-. split; [apply C|]. apply (unchanged_end _ _ _ _ _ E). repeat (apply unchanged_reply || apply unchanged_refl).
      + unfold attempt, request, seq at 1 in AT. rewrite parse_eq, P in AT. unfold seq at 1, reply_id, change in AT. cbv zeta in AT. rewrite T in AT. injection AT as <- <-. split; [apply C|]. apply (unchanged_end _ _ _ _ _ E). repeat (apply unchanged_reply || apply unchanged_refl).
      + unfold attempt, request, seq at 1 in AT. rewrite parse_eq, P in AT. unfold seq at 1, reply_id, change in AT. cbv zeta in AT. rewrite T in AT. injection AT as <- <-. split; [apply C|]. apply (unchanged_end _ _ _ _ _ E). repeat (apply unchanged_reply || apply unchanged_refl).
    - unfold attempt, request, seq at 1 in AT. rewrite parse_eq, P in AT. destruct e; try discriminate; injection AT as <- <-; (split; [apply C|]); apply (unchanged_end _ _ _ _ _ E); repeat (apply unchanged_reply || apply unchanged_refl).
    - unfold attempt, request, seq at 1 in AT. rewrite parse_eq, P in AT. discriminate. }
  destruct G as (G1 & G2). split; [|exact G2]. destruct (doc_says v m i F) as (T & _ & _ & PS). rewrite CR in G1. destruct A as [A|(A & w & E)]; [congruence|]. rewrite A in T. split; [exact T|]. exists w. apply PS, E.
Qed.
(** Ports are kept as 16 bit numbers. *)
Definition ranged (s : rc) : Prop := in_range16 (c_cfg s).
Ltac rng := idtac; cbv beta in *; unfold ranged, in_range16 in *; fields; first [assumption | apply Forall_forall; intros p I; exact (c50_range _ _ p I)].
Lemma ranged_step v e : keeps ranged (step v e).
Proof.
  assert (C : forall m, keeps ranged (configure v m)).
  { intros m. apply keeps_configure; [intros; rng|]. unfold configure_parts, configure_ipc_channels, configure_channel, setup_channel, set_end, unbind_channel, configure_frame_decoder, load_decoder, load_class, new_decoder_class, configure_buffer_manager, configure_rx_thread, stop_rx_thread, reply_type. cbv zeta. keep3 ltac:(idtac; rng). }
  destruct e as [m|client x|i x|x|]; cbn [step].
  - keep3 ltac:(idtac; rng). apply C.
  - apply keeps_ctrl; intros; try rng. apply C.
  - unfold handle_rx, parse, precharge_buffers. keep3 ltac:(idtac; rng).
  - unfold handle_release, parse, notify_buffer_config. keep3 ltac:(idtac; rng).
  - unfold run_timer, notify_buffer_config, unbind_channel. keep3 ltac:(idtac; rng).
Qed.
Lemma ranged_run l b st fr tot now s : run l (rc_init b st fr tot now) = (s, Ret tt) -> ranged s.
Proof. intros R. refine (keeps_run ranged l _ _ _ R _); [intros; apply ranged_step|]. apply Forall_forall. intros p I. exact (c50_range _ _ p I). Qed.
Lemma flags_run l b st fr tot now s : run l (rc_init b st fr tot now) = (s, Ret tt) -> flags s.
Proof. intros R. refine (keeps_run flags l _ _ _ R _); [intros; apply flags_step|]. repeat split; discriminate. Qed.
(** A configure that was acknowledged, or refused *)
Lemma configure_answer v client x s s' d : step v (Ctrl client x) s = (s', Ret tt) -> answered s s' client d -> clean x -> command "configure" x ->
  exists m R doc, x = Some (JObj doc) /\ g_doc m = doc /\ R = w_c_reply (c_reply R) s /\
    match configure_parts v m R with
    | (s1, Ret _) => acked d /\ c_cfg s' = c_cfg s1 /\ c_debug s' = c_debug s1 /\ (exists i, s' = sent v client i (c_reply s1) s1 /\ d = reply_doc v (c_reply s1) i) /\ g_doc (c_reply s1) = configured_doc s1
    | (s1, Throw e) => ~ acked d /\ (exists i, s' = sent v client i (c_reply s') s1)
    | (_, Undef) => False
    end.
Proof.
  cbn [step]. intros H AN CL C. apply (request_parsed v x "configure" CL) in C; [|cbn; tauto]. destruct C as (m & P & T & V). destruct (configure_shape v client x s s' m P T V H) as (i & R & I & _ & E & K). destruct (parsed_object v x m P) as (doc & ->). destruct (parsed_doc v doc m P) as (D & _).
  destruct (ctrl_reply _ _ _ _ _ H) as (m' & j & F & _ & _ & IJ & _ & CR & B). pose proof (answered_unique _ _ _ _ _ AN B) as ->. pose proof (id_same _ _ _ _ I CR IJ) as <-. exists m, R, doc. split; [reflexivity|]. split; [exact D|]. split; [exact E|].
  destruct (configure_parts v m R) as [s1 [[]|e|]]; [| |destruct K].
  - destruct K as (K1 & K2 & K3). assert (M : m' = c_reply s1) by (rewrite <- CR, K1; reflexivity). clear CR. subst m'. split; [apply (ack_type v _ i F), K2|]. rewrite K1. split; [reflexivity|]. split; [reflexivity|]. split; [exists i; split; reflexivity|exact K3].
  - destruct K as (K1 & K2). split; [|exists i; exact K1]. intros A. rewrite <- CR in A. apply ack_type in A; [congruence|]. rewrite CR. exact F.
Qed.
(** What an acknowledged configure gives is set, and nothing else is. *)
Theorem c44_applied_partial l b st fr tot now v client x s s' d doc :
  run l (rc_init b st fr tot now) = (s, Ret tt) -> (forall t, v_stale v t = t) -> step v (Ctrl client x) s = (s', Ret tt) -> answered s s' client d -> clean x -> command "configure" x -> x = Some (JObj doc) ->
  acked d -> applied doc (c_cfg s) (c_cfg s') /\ (forall n, param doc ["debug_level"] (JInt n) -> c_debug s' = n).
Proof.
  intros RN ST H AN CL C X A. destruct (configure_answer v client x s s' d H AN CL C) as (m & R & doc' & E & D & ER & K). assert (D2 : g_doc m = doc) by congruence. pose proof (parts_set v m R ST) as P. unfold post in P. assert (RG : in_range16 (c_cfg R)) by (rewrite ER; exact (ranged_run _ _ _ _ _ _ _ RN)). specialize (P RG).
  assert (CR : c_cfg R = c_cfg s) by (rewrite ER; reflexivity).
  destruct (configure_parts v m R) as [s1 [[]|e|]]; [|destruct K as (K & _); contradiction|destruct K]. destruct K as (_ & K2 & K3 & _). rewrite D2, CR in P. rewrite K2, K3. exact P.
Qed.
Lemma command_program v client x s s' m a : parsed v x = Ret m -> g_type m = TCmd -> program v m = Some a -> handle_ctrl v client x s = (s', Ret tt) ->
  exists i, g_id (c_reply s') = Some i /\
  match a (w_c_reply (reply0 v m) s) with
  | (s1, Ret _) => s' = sent v client i (c_reply s1) s1
  | (s1, Throw e) => s' = sent v client i (c_reply s') s1 /\ g_type (c_reply s') = TNack /\ exists e', e = EIpc e' /\ at_path ["params"; "error"] (JObj (g_doc (c_reply s'))) = Some (JStr (cstr (v_what v e')))
  | (_, Undef) => False
  end.
Proof. intros P T E H. destruct (ctrl_command v client x s s' m P T H) as (i & I & K). exists i. split; [exact I|]. rewrite E in K. exact K. Qed.
Lemma program_status v m : g_val m = request_val "status" -> program v m = Some get_status. Proof. intros V. unfold program. rewrite V. reflexivity. Qed.
Lemma program_request_configuration v m : g_val m = request_val "request_configuration" -> program v m = Some (request_configuration v). Proof. intros V. unfold program. rewrite V. reflexivity. Qed.
Lemma program_reset_statistics v m : g_val m = request_val "reset_statistics" -> program v m = Some reset_statistics. Proof. intros V. unfold program. rewrite V. reflexivity. Qed.
Lemma program_shutdown v m : g_val m = request_val "shutdown" -> program v m = Some (later TStop ;; reply_type TAck). Proof. intros V. unfold program. rewrite V. reflexivity. Qed.
(** Before a status of the receiver thread came, status cannot fail. *)
Lemma status_plain T V I time strict s : c_status s = None -> c_reply s = Msg strict [("params", JObj [])] T V I time -> exists s1, get_status s = (s1, Ret tt).
Proof. destruct s. cbn. intros -> ->. eexists. vm_compute. reflexivity. Qed.
(** status reports the state; it changes nothing. *)
Theorem c44_status v client x s s' d : step v (Ctrl client x) s = (s', Ret tt) -> answered s s' client d -> clean x -> command "status" x ->
  (acked d -> reports_status s d /\ reports_rx s d /\ unchanged s s') /\ (c_status s = None -> acked d).
Proof.
  cbn [step]. intros H AN CL C. apply (request_parsed v x "status" CL) in C; [|cbn; tauto]. destruct C as (m & P & T & V). destruct (command_program v client x s s' m _ P T (program_status v m V) H) as (i & I & K).
  destruct (ctrl_reply _ _ _ _ _ H) as (m' & j & F & _ & _ & IJ & _ & CR & B). pose proof (answered_unique _ _ _ _ _ AN B) as ->. pose proof (id_same _ _ _ _ I CR IJ) as <-.
  destruct (get_status (w_c_reply (reply0 v m) s)) as [s1 [[]|e|]] eqn:G; [| |destruct K].
  - destruct (status_reports v s s1 (reply0 v m) i G) as (A1 & A2 & A3); [exists []; reflexivity|]. assert (M : m' = c_reply s1) by (rewrite <- CR, K; reflexivity). clear CR. subst m'. split; [intros _; split; [apply A3, F|split; [apply A3, F|exact (unchanged_end _ _ _ _ _ K A2)]]|]. intros _. apply ack_type; [exact F|exact A1].
  - destruct K as (_ & K2 & _). split. { intros A. rewrite <- CR in A. apply ack_type in A; [congruence|rewrite CR; exact F]. }
    intros NS. destruct (status_plain TIllegal (g_val m) (g_id m) (Some (v_now v)) true (w_c_reply (reply0 v m) s) NS eq_refl) as (s2 & G2). rewrite G in G2. discriminate.
Qed.
(** request_configuration reports the settings; it changes nothing. *)
Theorem c44_configuration v client x s s' d : Forall (fun p => param_name (fst p)) (v_config v) -> step v (Ctrl client x) s = (s', Ret tt) -> answered s s' client d -> clean x -> command "request_configuration" x ->
  acked d -> reports_settings (c_cfg s) d /\ unchanged s s'.
Proof.
  cbn [step]. intros CF H AN CL C. apply (request_parsed v x "request_configuration" CL) in C; [|cbn; tauto]. destruct C as (m & P & T & V). destruct (command_program v client x s s' m _ P T (program_request_configuration v m V) H) as (i & I & K).
  destruct (ctrl_reply _ _ _ _ _ H) as (m' & j & F & _ & _ & IJ & _ & CR & B). pose proof (answered_unique _ _ _ _ _ AN B) as ->. pose proof (id_same _ _ _ _ I CR IJ) as <-.
  destruct (request_configuration v (w_c_reply (reply0 v m) s)) as [s1 [[]|e|]] eqn:G; [| |destruct K].
  - destruct (configuration_reports v s s1 (reply0 v m) i CF G) as (A1 & A2 & A3); [exists []; reflexivity|]. assert (M : m' = c_reply s1) by (rewrite <- CR, K; reflexivity). clear CR. subst m'. intros _. split; [apply A3, F|exact (unchanged_end _ _ _ _ _ K A2)].
  - destruct K as (_ & K2 & _). intros A. rewrite <- CR in A. apply ack_type in A; [congruence|rewrite CR; exact F].
Qed.
(** request_version reports the version of the program; it changes nothing. *)
Lemma program_version v m : g_val m = request_val "request_version" -> program v m = Some (get_version v). Proof. intros V. unfold program. rewrite V. reflexivity. Qed.
Theorem c44_version v client x s s' d : Forall (fun p => param_name (fst p)) (v_version v) -> step v (Ctrl client x) s = (s', Ret tt) -> answered s s' client d -> clean x -> command "request_version" x ->
  acked d -> reports_version v d /\ unchanged s s'.
Proof.
  cbn [step]. intros CF H AN CL C. apply (request_parsed v x "request_version" CL) in C; [|cbn; tauto]. destruct C as (m & P & T & V). destruct (command_program v client x s s' m _ P T (program_version v m V) H) as (i & I & K).
  destruct (ctrl_reply _ _ _ _ _ H) as (m' & j & F & _ & _ & IJ & _ & CR & B). pose proof (answered_unique _ _ _ _ _ AN B) as ->. pose proof (id_same _ _ _ _ I CR IJ) as <-.
  destruct (get_version v (w_c_reply (reply0 v m) s)) as [s1 [[]|e|]] eqn:G; [| |destruct K].
  - destruct (version_reports v s s1 (reply0 v m) i CF G) as (A1 & A2 & A3); [exists []; reflexivity|]. assert (M : m' = c_reply s1) by (rewrite <- CR, K; reflexivity). clear CR. subst m'. intros _. split; [apply A3, F|exact (unchanged_end _ _ _ _ _ K A2)].
  - destruct K as (_ & K2 & _). intros A. rewrite <- CR in A. apply ack_type in A; [congruence|rewrite CR; exact F].
Qed.
(** reset_statistics and shutdown *)
Lemma reset_eq s : reset_statistics s = (w_c_released 0 (w_c_received 0 (typed s)), Ret tt). Proof. reflexivity. Qed.
Lemma shutdown_eq s : (later TStop ;; reply_type TAck) s = (typed (w_c_timers (c_timers s ++ [TStop]) s), Ret tt). Proof. reflexivity. Qed.
Lemma reset_end o r R s : w_c_out o (w_c_reply r (w_c_released 0 (w_c_received 0 (typed (w_c_reply R s))))) = w_c_released 0 (w_c_received 0 (w_c_out o (w_c_reply r s))). Proof. destruct s; reflexivity. Qed.
Lemma shutdown_end o r R l s : w_c_out o (w_c_reply r (typed (w_c_timers l (w_c_reply R s)))) = w_c_out o (w_c_reply r (w_c_timers l s)). Proof. destruct s; reflexivity. Qed.
Theorem c44_reset v client x s s' d : step v (Ctrl client x) s = (s', Ret tt) -> answered s s' client d -> clean x -> command "reset_statistics" x ->
  acked d /\ exists r o, s' = w_c_released 0 (w_c_received 0 (w_c_out o (w_c_reply r s))).
Proof.
  cbn [step]. intros H AN CL C. apply (request_parsed v x "reset_statistics" CL) in C; [|cbn; tauto]. destruct C as (m & P & T & V). destruct (command_program v client x s s' m _ P T (program_reset_statistics v m V) H) as (i & I & K).
  destruct (ctrl_reply _ _ _ _ _ H) as (m' & j & F & _ & _ & IJ & _ & CR & B). pose proof (answered_unique _ _ _ _ _ AN B) as ->. clear H AN B IJ.
  rewrite reset_eq in K. split; [|exists (c_reply (w_c_released 0 (w_c_received 0 (typed (w_c_reply (reply0 v m) s))))); eexists; rewrite K; unfold sent; apply reset_end]. apply ack_type; [exact F|]. rewrite <- CR, K. reflexivity.
Qed.
Theorem c44_shutdown v client x s s' d : step v (Ctrl client x) s = (s', Ret tt) -> answered s s' client d -> clean x -> command "shutdown" x ->
  acked d /\ unchanged (w_c_timers (c_timers s ++ [TStop]) s) s'.
Proof.
  cbn [step]. intros H AN CL C. apply (request_parsed v x "shutdown" CL) in C; [|cbn; tauto]. destruct C as (m & P & T & V). destruct (command_program v client x s s' m _ P T (program_shutdown v m V) H) as (i & I & K).
  destruct (ctrl_reply _ _ _ _ _ H) as (m' & j & F & _ & _ & IJ & _ & CR & B). pose proof (answered_unique _ _ _ _ _ AN B) as ->. clear H AN B IJ.
  rewrite shutdown_eq in K. split; [apply ack_type; [exact F|]; rewrite <- CR, K; reflexivity|]. eexists. eexists. rewrite K. unfold sent. apply shutdown_end.
Qed.
(** Requests without the cases that end the process are answered, whatever happened before. *)
Theorem c44_answered_partial l b st fr tot now s v client x :
  (forall t, st t = t) -> (forall v e, In (v, e) l -> calm v /\ tame_event e) -> run l (rc_init b st fr tot now) = (s, Ret tt) -> calm v -> tame_event (Ctrl client x) ->
  exists s' d, step v (Ctrl client x) s = (s', Ret tt) /\ answered s s' client d /\ (acked d \/ refused d).
Proof.
  intros ST K R C T. pose proof (run_sound l _ s K R (init_sound b st fr tot now ST)) as SO. destruct (step_returns v (Ctrl client x) s C T ltac:(discriminate) SO) as (s' & E & _). destruct (c44_one_reply v client x s s' E) as (d & A & B). exists s', d. auto.
Qed.
Theorem c44_survives_partial l b st fr tot now : (forall t, st t = t) -> (forall v e, In (v, e) l -> calm v /\ tame_event e /\ from_outside e) -> exists s, run l (rc_init b st fr tot now) = (s, Ret tt).
Proof.
  intros ST. pose proof (init_sound b st fr tot now ST) as SO. revert SO. generalize (rc_init b st fr tot now). induction l as [|[v e] l IH]; intros s SO K; [exists s; reflexivity|]. destruct (K v e (or_introl eq_refl)) as (C & T & O). destruct (step_returns v e s C T O SO) as (s1 & E & S1). destruct (IH s1 S1) as (s2 & R); [intros v' e' I; apply K; right; exact I|]. exists s2. cbn. rewrite E. exact R.
Qed.

(** * C45: configured only when every part is *)
Lemma run_app l l2 s : run (l ++ l2) s = match run l s with (s1, Ret _) => run l2 s1 | r => r end.
Proof. revert s. induction l as [|[v e] l IH]; intros s; [reflexivity|]. cbn. destruct (step v e s) as [s1 [[]|z|]]; [apply IH|reflexivity|reflexivity]. Qed.
Lemma run_one v e s s' : step v e s = (s', Ret tt) -> run [(v, e)] s = (s', Ret tt). Proof. intros E. cbn. rewrite E. reflexivity. Qed.
(** What other events leave alone *)
Definition kept (P : rc -> Prop) : Prop :=
  (forall s r, P s -> P (w_c_reply r s)) /\ (forall s n, P s -> P (w_c_received n s)) /\ (forall s n, P s -> P (w_c_released n s)) /\ (forall s t, P s -> P (w_c_timers t s)) /\ (forall s o, P s -> P (w_c_out o s)) /\
  (forall s x, P s -> P (w_c_ident x s)) /\ (forall s x, P s -> P (w_c_status x s)) /\ (forall s x, P s -> P (w_c_bound x s)).
Lemma kept_step P v e s s' : kept P -> clean_event e -> ~ configures e -> step v e s = (s', Ret tt) -> P s -> P s'.
Proof.
  intros (K1 & K2 & K3 & K4 & K5 & K6 & K7 & K8) CL N.
  assert (U : forall (a : M unit), keeps P a -> a s = (s', Ret tt) -> P s -> P s') by (intros a K E H; pose proof (K s H) as Q; unfold post in Q; rewrite E in Q; exact Q).
  destruct e as [m|client x|i x|x|]; cbn [step].
  - destruct N. left. eauto.
  - intros H PS.
    assert (UN : forall s1, unchanged s s1 -> P s1) by (intros s1 (r & o & ->); apply K5, K1, PS).
    assert (SE : forall i r s1, P s1 -> P (sent v client i r s1)) by (intros i r s1 A; apply K5, K1, A).
    assert (NC : (forall w, In w requests -> ~ command w x) -> P s') by (intros NO; destruct (c44_illegal v client x s s' H CL NO) as (d & _ & _ & A); exact (UN _ A)).
    destruct (parsed v x) as [m|e|] eqn:PA; [|apply NC; intros w I C; apply (request_parsed v x w CL I) in C; destruct C as (m & A & _); rewrite PA in A; discriminate..].
    assert (T : g_type m = TCmd \/ g_type m <> TCmd) by (clear; destruct (g_type m); try (left; reflexivity); right; discriminate).
    destruct T as [T|T]; [|apply NC; intros w I C; apply (request_parsed v x w CL I) in C; destruct C as (m2 & A & B & _); rewrite PA in A; injection A as <-; contradiction].
    assert (PK : forall a, program v m = Some a -> keeps P a).
    { intros a E. unfold program in E. destruct (g_val m) eqn:V; try discriminate.
      all: try (injection E as <-; unfold get_status, request_configuration, get_version, reset_statistics, reply_type; solve [keep3 ltac:(idtac; cbv beta in *; auto)]).
      destruct N. right. exists client, x. split; [reflexivity|]. apply (request_parsed v x "configure" CL); [cbn; tauto|]. exists m. split; [exact PA|]. split; [exact T|]. rewrite V. reflexivity. }
    destruct (ctrl_command v client x s s' m PA T H) as (i & I & K). destruct (program v m) as [a|]; [|destruct K as (-> & _); apply SE, PS].
    pose proof (PK a eq_refl (w_c_reply (reply0 v m) s) (K1 _ _ PS)) as PA2. unfold post in PA2. destruct (a (w_c_reply (reply0 v m) s)) as [s1 [[]|e|]]; [rewrite K; apply SE, PA2|destruct K as (-> & _); apply SE, PA2|destruct K].
  - apply U. unfold handle_rx, parse, precharge_buffers. keep3 ltac:(idtac; cbv beta in *; auto).
  - apply U. unfold handle_release, parse, notify_buffer_config. keep3 ltac:(idtac; cbv beta in *; auto).
  - apply U. unfold run_timer, notify_buffer_config, unbind_channel. keep3 ltac:(idtac; cbv beta in *; auto).
Qed.
Lemma kept_service d b t : kept (fun s => in_service s d b t).
Proof. unfold kept. repeat match goal with |- _ /\ _ => split end; intros s z H; destruct H; constructor; assumption. Qed.
Lemma once_step c v e : keeps (fun s => In c (c_once s)) (step v e).
Proof.
  assert (A : forall (s : rc) z, In c (c_once s) -> In c (c_once s ++ z)) by (intros; apply in_or_app; left; assumption).
  assert (C : forall m, keeps (fun s => In c (c_once s)) (configure v m)).
  { intros m. apply keeps_configure; [intros; fields; assumption|]. unfold configure_parts, configure_ipc_channels, configure_channel, setup_channel, set_end, unbind_channel, configure_frame_decoder, load_decoder, load_class, new_decoder_class, configure_buffer_manager, configure_rx_thread, stop_rx_thread, reply_type. cbv zeta. keep3 ltac:(idtac; cbv beta in *; fields; try (right; assumption); auto). }
  destruct e as [m|client x|i x|x|]; cbn [step].
  - keep3 ltac:(idtac; cbv beta in *; fields; auto). apply C.
  - apply keeps_ctrl; intros; cbv beta in *; fields; auto.
  - unfold handle_rx, parse, precharge_buffers. keep3 ltac:(idtac; cbv beta in *; fields; auto).
  - unfold handle_release, parse, notify_buffer_config. keep3 ltac:(idtac; cbv beta in *; fields; auto).
  - unfold run_timer, notify_buffer_config, unbind_channel. keep3 ltac:(idtac; cbv beta in *; fields; auto).
Qed.
(** A reply to configure that reports all parts: decoder, buffers and receiver thread are there, belong together and have the settings that apply now.  This stays so until the next configure.  The control, receiver thread and frame ready channels are bound to their endpoints unless some bind failed.  (Missing: the release channel, see below; and bindings after a bind failed.) *)
Theorem c45_complete_partial l l2 b st fr tot now v client x s s' s2 d :
  run l (rc_init b st fr tot now) = (s, Ret tt) -> step v (Ctrl client x) s = (s', Ret tt) -> run l2 s' = (s2, Ret tt) ->
  clean x -> command "configure" x -> (forall v e, In (v, e) l2 -> clean_event e /\ ~ configures e) ->
  answered s s' client d -> reports_all d ->
  c_all s' = true /\ (exists dec buf t, in_service s2 dec buf t) /\
  ((forall v' e, In (v', e) ((v, Ctrl client x) :: l ++ l2) -> exclusive v') -> (forall c e, ~ In (FBindFailed c e) (c_out s2)) -> forall c, In c [CCtrl; CRx; CReady] -> listening c s2).
Proof.
  intros R H R2 CL C NC AN (AK & RA). destruct (configure_answer v client x s s' d H AN CL C) as (m & R0 & doc & _ & _ & ER & K).
  assert (FR : flags R0). { rewrite ER. pose proof (flags_run _ _ _ _ _ _ _ R) as F. unfold flags in *. fields. exact F. }
  pose proof (parts_post v m R0 FR) as P. unfold post in P. destruct (configure_parts v m R0) as [s1 [[]|e|]]; [|destruct K as (K & _); contradiction|destruct K].
  destruct K as (_ & _ & _ & (i & ES & ED) & GD). destruct P as (P1 & P2 & P3).
  assert (FM : form (c_reply s1)) by (unfold form; rewrite GD; eexists; reflexivity).
  destruct (doc_says v (c_reply s1) i FM) as (_ & _ & _ & PS).
  assert (FL : c_ipc s1 = true /\ c_dec s1 = true /\ c_buf s1 = true /\ c_rx s1 = true).
  { assert (Q : forall k z, at_path ["params"; "configured"; k] (JObj (configured_doc s1)) = Some (JBool z) -> In k ["ipc"; "decoder"; "buffer_manager"; "rx_thread"] -> z = true).
    { intros k z A I. specialize (RA k I). rewrite ED in RA. assert (L : param (reply_doc v (c_reply s1) i) ["configured"; k] (JBool z)) by (apply PS; rewrite GD; exact A). pose proof (leads_one _ _ _ L _ RA) as E. injection E as ->. reflexivity. }
    repeat split; [apply (Q "ipc")|apply (Q "decoder")|apply (Q "buffer_manager")|apply (Q "rx_thread")]; try reflexivity; cbn; tauto. }
  destruct FL as (F1 & F2 & F3 & F4). split; [rewrite ES; change (c_all s1 = true); rewrite P3, F1, F2, F3, F4; reflexivity|].
  assert (ONE : forall P : rc -> Prop, kept P -> P s' -> P s2).
  { intros P KP. clear - KP NC R2. revert s' NC R2. induction l2 as [|[v e] l2 IH]; intros s' NC R2 PS; [injection R2 as <-; exact PS|]. cbn in R2. destruct (step v e s') as [s3 [[]|z|]] eqn:E; try discriminate. destruct (NC v e (or_introl eq_refl)) as (A & B). apply (IH s3); [intros v' e' I; apply (NC v' e'); right; exact I|exact R2|exact (kept_step P v e s' s3 KP A B E PS)]. }
  split.
  - destruct (P2 F2 F3 F4) as (dec & buf & t & S). exists dec, buf, t. apply ONE; [apply kept_service|]. rewrite ES. destruct S. constructor; assumption.
  - intros EX NF c I. assert (CI : chan_inv s2).
    { refine (chan_run (l ++ (v, Ctrl client x) :: l2) b st fr tot now s2 _ _); [intros v' e IN; apply (EX v' e); apply in_app_or in IN; destruct IN as [IN|[IN|IN]]; [right; apply in_or_app; left; exact IN|left; exact IN|right; apply in_or_app; right; exact IN]|]. rewrite run_app, R. cbn [run]. rewrite H. exact R2. }
    destruct CI as [(c' & e & B)|CO]; [destruct (NF c' e B)|]. apply (co_once _ CO).
    refine (keeps_run (fun s => In c (c_once s)) l2 s' s2 _ R2 _); [intros; apply once_step|]. rewrite ES. exact (P1 F1 c I).
Qed.
(** Receiver threads come one after the other: one is started only when there is none. *)
Theorem c45_threads l b st fr tot now s : run l (rc_init b st fr tot now) = (s, Ret tt) ->
  thread_log (c_out s) = Some (match c_thread s with Some _ => true | None => false end).
Proof. intros R. exact (one_run l b st fr tot now s R). Qed.
(** An acknowledgement of configure reports each part as it is.  Once a decoder is named, it means that the decoder is loaded and initialised, that there are buffers and that a receiver thread was made; only whether it started is left to the report. *)
Theorem c45_acknowledged l b st fr tot now v client x s s' d :
  run l (rc_init b st fr tot now) = (s, Ret tt) -> step v (Ctrl client x) s = (s', Ret tt) -> clean x -> command "configure" x -> answered s s' client d -> acked d ->
  param d ["configured"; "ipc"] (JBool (c_ipc s')) /\ param d ["configured"; "decoder"] (JBool (c_dec s')) /\ param d ["configured"; "buffer_manager"] (JBool (c_buf s')) /\ param d ["configured"; "rx_thread"] (JBool (c_rx s')) /\
  (s_type (c_cfg s') <> "unknown" -> c_dec s' = true /\ c_buf s' = true /\ c_rx s' = v_start v /\ (exists t, c_thread s' = Some t /\ t_ok t = v_start v) /\ (v_start v = true -> exists dec buf t, in_service s' dec buf t)).
Proof.
  intros R H CL C AN AK. destruct (configure_answer v client x s s' d H AN CL C) as (m & R0 & doc & _ & _ & ER & K).
  assert (FR : flags R0). { rewrite ER. pose proof (flags_run _ _ _ _ _ _ _ R) as F. unfold flags in *. fields. exact F. }
  assert (TR : to_load R0). { rewrite ER. pose proof (typed_run _ _ _ _ _ _ _ R) as F. unfold to_load in *. fields. exact F. }
  pose proof (parts_post v m R0 FR) as P. pose proof (parts_done_ok v m R0 FR TR) as P4. unfold post in P, P4. destruct (configure_parts v m R0) as [s1 [[]|e|]]; [|destruct K as (K & _); contradiction|destruct K].
  destruct K as (_ & _ & _ & (i & ES & ED) & GD). destruct P as (P1 & P2 & P3).
  assert (FM : form (c_reply s1)) by (unfold form; rewrite GD; eexists; reflexivity).
  destruct (doc_says v (c_reply s1) i FM) as (_ & _ & _ & PS). rewrite ED, ES.
  repeat match goal with |- param _ _ _ /\ _ => split; [apply PS; rewrite GD; reflexivity|] end.
  intros N. change (named s1) in N. destruct (P4 N) as [(Q1 & Q2 & Q3) Q4]. unfold sent. fields. repeat (split; [assumption|]). intros ST. rewrite ST in Q3. destruct (P2 Q1 Q2 Q3) as (dec & buf & t & S). exists dec, buf, t. destruct S. constructor; assumption.
Qed.
(** An endpoint is bound only if the message gives one that is not the current one. *)
Theorem c45_bind v client x s s' d doc : step v (Ctrl client x) s = (s', Ret tt) -> answered s s' client d -> clean x -> command "configure" x -> x = Some (JObj doc) ->
  forall l c e, c_out s' = c_out s ++ l -> In (FBind c e) l -> e <> s_end (c_cfg s) c /\ exists t, param doc [endpoint_name c] (JStr t) /\ e = cstr t.
Proof.
  intros H AN CL C X l c e O I. destruct (configure_answer v client x s s' d H AN CL C) as (m & R0 & doc' & E & D & ER & K). assert (D2 : g_doc m = doc) by congruence.
  pose proof (binds_parts v m R0) as P. unfold post in P. assert (OR : c_out R0 = c_out s) by (rewrite ER; reflexivity). assert (CR : c_cfg R0 = c_cfg s) by (rewrite ER; reflexivity).
  assert (Q : exists s1 i r, s' = sent v client i r s1 /\ binds_only doc R0 (c_out R0) s1).
  { destruct (configure_parts v m R0) as [s1 [[]|z|]]; [| |destruct K]; rewrite D2 in P.
    - destruct K as (_ & _ & _ & (i & ES & _) & _). exists s1, i, (c_reply s1). auto.
    - destruct K as (_ & (i & ES)). exists s1, i, (c_reply s'). auto. }
  clear P K. destruct Q as (s1 & i & r & ES & (l1 & B1 & B2)). rewrite ES in O. unfold sent in O. fields in O. rewrite B1, OR, <- app_assoc in O. apply app_inv_head in O. rewrite <- O in I. apply in_app_or in I. destruct I as [I|[I|[]]]; [|discriminate].
  destruct (B2 c e I) as (T & N). rewrite CR in N. auto.
Qed.

(** * C53: notifications *)
(** Every frame ready notification of the receiver thread is published as it came, and counted. *)
Theorem c53_ready v i x j s : plain_clock v -> clean x -> note (v_clock v) "frame_ready" x j ->
  step v (FromRx i x) s = (w_c_received ((c_received s + 1) mod 2 ^ 32) (w_c_out (c_out s ++ [FPublish j]) s), Ret tt).
Proof. intros P CL N. exact (rx_ready v i x j s P CL N). Qed.
(** Every release goes as it came to the receiver thread, and is counted.  The receiver stops once the number of frames asked for is released. *)
Theorem c53_release v x j s : plain_clock v -> clean x -> note (v_clock v) "frame_release" x j ->
  exists s' l, step v (Release x) s = (s', Ret tt) /\ c_out s' = c_out s ++ FToRx (c_ident s) j :: l /\ c_released s' = (c_released s + 1) mod 2 ^ 32 /\ c_received s' = c_received s /\
    (forall f, In f l -> f = FStop) /\ (In FStop l <-> s_frames (c_cfg s) <> 0 /\ s_frames (c_cfg s) <= (c_released s + 1) mod 2 ^ 32).
Proof.
  intros P CL N. destruct (release_note v x j s P CL N) as (s' & E & A & B & C & _). exists s', (if negb (s_frames (c_cfg s) =? 0) && (s_frames (c_cfg s) <=? (c_released s + 1) mod 2 ^ 32) then [FStop] else []).
  split; [exact E|]. split; [exact C|]. split; [exact B|]. split; [exact A|]. destruct (Z.eqb_spec (s_frames (c_cfg s)) 0) as [E0|E0], (Z.leb_spec (s_frames (c_cfg s)) ((c_released s + 1) mod 2 ^ 32)) as [L|L]; cbn [negb andb]; (split; [intros f I; cbn in I; tauto || (destruct I as [<-|[]]; reflexivity)|]); cbn; split; intros; try tauto; try lia.
Qed.
(** The receiver thread makes itself known and gets an acknowledgement; from then on releases go to it. *)
Lemma val_name_identity t : val_of_name t = VIdentity <-> t = "identity".
Proof.
  unfold val_of_name, by_name, val_names, List.find, fst, snd. repeat match goal with |- context [String.eqb ?a t] => destruct (String.eqb_spec a t) as [<-|] end; split; intros H; try congruence; try discriminate; reflexivity.
Qed.
Lemma make_identity v s : exists d, make v TAck VIdentity [] s = (s, Ret (JObj d)) /\ acked d /\ says d "msg_val" (JStr "identity").
Proof. eexists. split; [reflexivity|]. split; apply leads_at; reflexivity. Qed.
Theorem c53_identity v i x j s : plain_clock v -> clean x -> note (v_clock v) "identity" x j ->
  exists d, step v (FromRx i x) s = (w_c_out (c_out s ++ [FToRx i (JObj d)]) (w_c_ident i s), Ret tt) /\ acked d /\ says d "msg_val" (JStr "identity").
Proof.
  intros NO CL N. apply (note_parsed _ x j _ VIdentity NO CL val_name_identity) in N; [|discriminate|apply no_char_ok; reflexivity]. destruct N as (-> & m & E & T & V). destruct (make_identity v (w_c_ident i s)) as (d & M & A & B). exists d. split; [|auto].
  cbn [step]. unfold handle_rx. apply attempt_Ret. unfold seq at 1. rewrite parse_strict, E, T, V. unfold seq at 1, change. unfold seq. rewrite M. reflexivity.
Qed.
(** A whole run: published and returned are exactly the notifications that came, in order; the counters count them since the last reset. *)
Lemma run_notes l : forall s s' n r, observed l -> run l s = (s', Ret tt) -> exists rs qs n' r', notes ready_of l rs /\ notes release_of l qs /\ counted ready_of n l n' /\ counted release_of r l r'.
Proof.
  induction l as [|[v e] l IH]; intros s s' n r OB R; [exists [], [], n, r; repeat constructor|]. cbn in R. destruct (step v e s) as [s1 [[]|z|]] eqn:E; try discriminate. destruct (OB v e (or_introl eq_refl)) as (PC & CL). assert (OB2 : observed l) by (intros v' e' I; apply OB; right; exact I).
  assert (NN : (exists j, ready_of v e j) -> forall j, ~ release_of v e j) by (intros (j & i & x & -> & _) j' (x' & E2 & _); discriminate).
  assert (NM : (exists j, release_of v e j) -> forall j, ~ ready_of v e j) by (intros (j & x & -> & _) j' (i & x' & E2 & _); discriminate).
  assert (NR : forall j, ready_of v e j -> ~ resets e) by (intros j (i & x & -> & _) (c & y & E2 & _); discriminate).
  assert (NQ : forall j, release_of v e j -> ~ resets e) by (intros j (x & -> & _) (c & y & E2 & _); discriminate).
  destruct (step_counts v e s s1 PC CL E) as [(j & H & _)|[(j & o & H & _)|[(H & _)|(H1 & H2 & H3 & _)]]].
  - destruct (IH s1 s' ((n + 1) mod 2 ^ 32) r OB2 R) as (rs & qs & n' & r' & A & B & C & D). exists (j :: rs), qs, n', r'. split; [apply no_hit; assumption|]. split; [apply no_other; [apply NN; eauto|exact B]|]. split; [eapply cn_hit; eassumption|]. apply cn_other; [apply NN; eauto|exact (NR j H)|exact D].
  - destruct (IH s1 s' n ((r + 1) mod 2 ^ 32) OB2 R) as (rs & qs & n' & r' & A & B & C & D). exists rs, (j :: qs), n', r'. split; [apply no_other; [apply NM; eauto|exact A]|]. split; [apply no_hit; assumption|]. split; [|eapply cn_hit; eassumption]. apply cn_other; [apply NM; eauto|exact (NQ j H)|exact C].
  - destruct (IH s1 s' 0 0 OB2 R) as (rs & qs & n' & r' & A & B & C & D). exists rs, qs, n', r'. split; [apply no_other; [intros j J; exact (NR j J H)|exact A]|]. split; [apply no_other; [intros j J; exact (NQ j J H)|exact B]|]. split; apply cn_reset; assumption.
  - destruct (IH s1 s' n r OB2 R) as (rs & qs & n' & r' & A & B & C & D). exists rs, qs, n', r'. split; [apply no_other; assumption|]. split; [apply no_other; assumption|]. split; apply cn_other; assumption.
Qed.
Theorem c53_run l b st fr tot now s : observed l -> run l (rc_init b st fr tot now) = (s, Ret tt) ->
  notes ready_of l (published (c_out s)) /\ notes release_of l (returned (c_out s)) /\ counted ready_of 0 l (c_received s) /\ counted release_of 0 l (c_released s).
Proof.
  intros OB R. destruct (run_notes l _ _ 0 0 OB R) as (rs & qs & n & r & N1 & N2 & C1 & C2). destruct (run_counts l (rc_init b st fr tot now) s rs qs n r OB R N1 N2 C1 C2) as (<- & <- & o & O & <- & <-). cbn in O. rewrite O. auto.
Qed.
(** The receiver thread asks for its buffers: it is given all of them, from the first, once there are buffers and a thread. *)
Lemma asks_parsed c x w V : time_parse c "none" = None -> clean x -> (forall t, val_of_name t = V <-> t = w) -> V <> VIllegal -> no_nul w ->
  asks c w x -> exists j m, x = Some j /\ msg_of_doc c j true = Ret m /\ g_type m = TCmd /\ g_val m = V.
Proof.
  intros NONE CL HV NV NW (doc & t & l & -> & T & W & X & TP & ID & P). exists (JObj doc). destruct (time_parse c t) as [tm|] eqn:E; [|congruence]. apply id_ok in ID. destruct ID as (i & ID). eexists. split; [reflexivity|]. split.
  - apply strict_ret. exists "cmd", w, t, i, tm, l. repeat split; auto; try discriminate.
    + apply attr_says; [exact T|apply no_char_ok; reflexivity].
    + apply attr_says; [exact W|exact NW].
    + intros Z. apply NV. rewrite <- Z. symmetry. apply HV. reflexivity.
    + apply attr_says; [exact X|]. apply (CL doc "timestamp" t eq_refl); [cbn; auto|exact X].
    + apply says_find, P.
  - cbn. split; [reflexivity|apply HV; reflexivity].
Qed.
Lemma val_name_buffers t : (val_of_name t = VBufferPrechargeRequest <-> t = "request_buffer_precharge") /\ (val_of_name t = VBufferConfigRequest <-> t = "request_buffer_config") /\ (val_of_name t = VNotifyStatus <-> t = "notify_status").
Proof.
  unfold val_of_name, by_name, val_names, List.find, fst, snd. repeat match goal with |- context [String.eqb ?a t] => destruct (String.eqb_spec a t) as [<-|] end; repeat split; intros H; try congruence; try discriminate; reflexivity.
Qed.
Lemma make_precharge v n s : exists d, make v TNotify VBufferPrecharge [("start_buffer_id", XInt 0); ("num_buffers", XInt n)] s = (s, Ret (JObj d)) /\ notifies "buffer_precharge" d /\ param d ["start_buffer_id"] (JInt 0) /\ param d ["num_buffers"] (JInt n).
Proof. eexists. split; [reflexivity|]. split; [split; apply leads_at; reflexivity|]. split; apply leads_at; reflexivity. Qed.
Lemma make_config v n s : no_nul n -> exists d, make v TNotify VBufferConfig [("shared_buffer_name", XStr n)] s = (s, Ret (JObj d)) /\ notifies "buffer_config" d /\ param d ["shared_buffer_name"] (JStr n).
Proof. intros N. eexists. split; [reflexivity|]. split; [split; apply leads_at; reflexivity|]. apply leads_at. cbn. rewrite (cstr_id _ N). reflexivity. Qed.
Theorem c53_precharge v i x s b : plain_clock v -> clean x -> asks (v_clock v) "request_buffer_precharge" x -> c_buffers s = Some b -> c_thread s <> None -> 0 <= b_count b < 2 ^ 31 ->
  exists d, step v (FromRx i x) s = (w_c_out (c_out s ++ [FToRx (c_ident s) (JObj d)]) s, Ret tt) /\ notifies "buffer_precharge" d /\ param d ["start_buffer_id"] (JInt 0) /\ param d ["num_buffers"] (JInt (b_count b)).
Proof.
  intros NO CL N B T R. apply (asks_parsed _ x _ VBufferPrechargeRequest NO CL (fun t => proj1 (val_name_buffers t))) in N; [|discriminate|apply no_char_ok; reflexivity]. destruct N as (j & m & -> & E & TY & V).
  destruct (make_precharge v (i32 (b_count b)) s) as (d & M & A & A1 & A2). exists d. split.
  - cbn [step]. unfold handle_rx. apply attempt_Ret. unfold seq at 1. rewrite parse_strict, E, TY, V. unfold precharge_buffers. unfold seq at 1, get at 1. unfold seq at 1, get at 1. rewrite B. destruct (c_thread s); [|congruence]. unfold seq at 1. rewrite M. reflexivity.
  - split; [exact A|]. split; [exact A1|]. unfold i32 in A2. rewrite Z.mod_small in A2 by lia. rewrite Z.add_simpl_r in A2. exact A2.
Qed.
(** A processor asks for the buffer configuration, or its second has passed: the name of the shared memory is published. *)
Theorem c53_buffer_config v x s : no_nul (s_shm (c_cfg s)) ->
  exists d, notifies "buffer_config" d /\ param d ["shared_buffer_name"] (JStr (s_shm (c_cfg s))) /\
    (plain_clock v -> clean x -> asks (v_clock v) "request_buffer_config" x -> step v (Release x) s = (w_c_out (c_out s ++ [FPublish (JObj d)]) s, Ret tt)) /\
    (forall r, c_timers s = TNotifyConfig :: r -> step v Timer s = (w_c_out (c_out s ++ [FPublish (JObj d)]) (w_c_timers r s), Ret tt)).
Proof.
  intros NN. destruct (make_config v (s_shm (c_cfg s)) s NN) as (d & M & A & B). exists d. split; [exact A|]. split; [exact B|]. split.
  - intros NO CL N. apply (asks_parsed _ x _ VBufferConfigRequest NO CL (fun t => proj1 (proj2 (val_name_buffers t)))) in N; [|discriminate|apply no_char_ok; reflexivity]. destruct N as (j & m & -> & E & TY & V).
    cbn [step]. unfold handle_release. apply attempt_Ret. unfold seq at 1. rewrite parse_strict, E, TY, V. unfold notify_buffer_config, setting. unfold seq at 1, get at 1. unfold seq at 1. rewrite M. reflexivity.
  - intros r T. cbn [step]. unfold run_timer. unfold seq at 1, get at 1. rewrite T. unfold seq at 1, change at 1. unfold notify_buffer_config, setting. unfold seq at 1, get at 1. change (c_cfg (w_c_timers r s)) with (c_cfg s).
    assert (M2 : make v TNotify VBufferConfig [("shared_buffer_name", XStr (s_shm (c_cfg s)))] (w_c_timers r s) = (w_c_timers r s, Ret (JObj d))). { clear - M. cbn in M |- *. injection M as <-. reflexivity. }
    unfold seq at 1. rewrite M2. reflexivity.
Qed.
(** The status of the receiver thread is kept with all its parameters; nothing else changes. *)
Theorem c53_status v i x j s : plain_clock v -> clean x -> clock_reads (v_clock v) -> note (v_clock v) "notify_status" x j ->
  exists doc m, j = JObj doc /\ step v (FromRx i x) s = (w_c_status (Some m) s, Ret tt) /\ forall p y, param doc p y <-> param (g_doc m) p y.
Proof.
  intros NO CL CR N. pose proof N as (doc & t0 & l0 & _ & J & _ & _ & _ & _ & ID & PP). apply (note_parsed _ x j _ VNotifyStatus NO CL (fun t => proj2 (proj2 (val_name_buffers t)))) in N; [|discriminate|apply no_char_ok; reflexivity]. destruct N as (-> & m & E & T & V). subst j. exists doc.
  pose proof E as E'. apply strict_ret in E'. destruct E' as (t & w' & tx & k & tm & l & A1 & A2 & A3 & A4 & A5 & A6 & A7 & A8 & ->). cbn [g_type g_val] in T, V.
  set (d := put_member "timestamp" (JStr (cstr (time_text (v_clock v) (Some tm)))) (put_member "id" (JInt k) (put_member "msg_val" (JStr "notify_status") (put_member "msg_type" (JStr "notify") doc)))).
  destruct (time_parse (v_clock v) (cstr (time_text (v_clock v) (Some tm)))) as [tm'|] eqn:TP; [|destruct (CR tm TP)].
  assert (P : msg_of_doc (v_clock v) (JObj d) true = Ret (Msg true d TNotify VNotifyStatus (Some k) (Some tm'))).
  { assert (F : forall n, find_member n d = if String.eqb "timestamp" n then Some (JStr (cstr (time_text (v_clock v) (Some tm)))) else if String.eqb "id" n then Some (JInt k) else if String.eqb "msg_val" n then Some (JStr "notify_status") else if String.eqb "msg_type" n then Some (JStr "notify") else find_member n doc) by (intros n; unfold d; rewrite !find_put; reflexivity).
    assert (K : 0 <= k < 2 ^ 32). { clear - A7. unfold get_attr in A7. destruct (find_member "id" doc) as [y|]; [|injection A7 as <-; lia]. destruct y; try discriminate. unfold uint_value, get_value, in_range in A7. destruct (Z.leb_spec 0 z); [|discriminate]. destruct (Z.ltb_spec z (2 ^ 32)); [|discriminate]. injection A7 as <-. lia. }
    apply strict_ret. exists "notify", "notify_status", (cstr (time_text (v_clock v) (Some tm))), k, tm', l. unfold get_attr. rewrite !F. cbn [String.eqb Ascii.eqb Bool.eqb].
    split; [reflexivity|]. split; [discriminate|]. split; [reflexivity|]. split; [discriminate|]. split; [cbn; rewrite cstr_idem; reflexivity|]. split; [exact TP|].
    split; [|split; [exact A8|reflexivity]]. change (String.eqb "timestamp" "id") with false. unfold uint_value, get_value, in_range. change ((0 <=? k) && (k <? 2 ^ 32)) with (Z.leb 0 k && Z.ltb k (2 ^ 32))%bool. rewrite (proj2 (Z.leb_le 0 k)), (proj2 (Z.ltb_lt k (2 ^ 32))) by lia. reflexivity. }
  eexists. split; [reflexivity|]. split.
  - cbn [step]. unfold handle_rx. apply attempt_Ret. unfold seq at 1. rewrite parse_strict, E. cbn [g_type g_val]. rewrite T, V. unfold seq at 1, lift, encode. cbn [g_id g_time g_type g_val g_doc]. change (name_of_val VNotifyStatus) with "notify_status". change (name_of_type TNotify) with "notify". fold d. unfold seq at 1. rewrite parse_strict, P. reflexivity.
  - cbn [g_doc]. intros p y. unfold param. rewrite !leads_at. unfold d. cbn [at_path]. rewrite !find_put. reflexivity.
Qed.

Print Assumptions c44_one_reply.
Print Assumptions c44_id.
Print Assumptions c44_value.
Print Assumptions c44_illegal.
Print Assumptions c44_applied_partial.
Print Assumptions c44_status.
Print Assumptions c44_configuration.
Print Assumptions c44_reset.
Print Assumptions c44_shutdown.
Print Assumptions c44_answered_partial.
Print Assumptions c44_survives_partial.
Print Assumptions c45_complete_partial.
Print Assumptions c45_bind.
Print Assumptions c45_threads.
Print Assumptions c45_acknowledged.
Print Assumptions c53_ready.
Print Assumptions c53_release.
Print Assumptions c53_identity.
Print Assumptions c53_run.
Print Assumptions c44_version.
Print Assumptions c53_precharge.
Print Assumptions c53_buffer_config.
Print Assumptions c53_status.
