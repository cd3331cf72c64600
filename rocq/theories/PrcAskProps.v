(** C56: replies of the frame processor. *)
From Coq Require Import String Ascii.
From Verif Require Import Base StrOrder PluginModel CtrlModel JsonModel JsonSpec JsonProofs JsonProps MessageProps JsonReadModel JsonDoubleModel PrcModel PrcSpec PrcMoves PrcExec PrcEnds PrcReply PrcAsk PrcLive PrcProps.
Local Open Scope string_scope.
Local Open Scope list_scope.

Section Lemmas.
  Context {P : Type}.
  Variable v : env P.
  Lemma begun_empty m s q : q <> [] -> here (begun v m s) q = None.
  Proof. intros N. unfold here, at_param. cbn. apply at_path_empty, N. Qed.
  Lemma typed_empty m s q t s0 : @reply_type P t (begun v m s) = (s0, Ret tt) -> q <> [] -> here s0 q = None.
  Proof. intros H N. injection H as <-. unfold here, at_param. cbn. apply at_path_empty, N. Qed.
  (** A command that is not to configure *)
  Lemma asked (PO : polite v) n c t w i d s s1 o (a : M P unit) : asks v t w i -> (forall m, g_type m = TCmd -> g_val m = w -> request v n t m = (reply_type TAck ;; a)) ->
    handle_ctrl v n c t s = (s1, o) -> replies c d s s1 ->
    exists s0 s2, p_objs s0 = p_objs s /\ p_graph s0 = p_graph s /\ p_ctrl s0 = p_ctrl s /\ p_meta s0 = p_meta s /\ (forall q, q <> [] -> here s0 q = None) /\ a s0 = (s2, Ret tt) /\ p_objs s1 = p_objs s2 /\ forall q x, param d q x <-> here s2 q = Some x.
  Proof.
    intros (m & MT & T & V & I) RQ H R. destruct (replied v PO n c t m d s s1 o MT H R) as (s2 & E & EN & OB). rewrite (RQ m T V) in E. apply seq_ret in E as ([] & s0 & E0 & E). exists s0, s2.
    assert (ID : g_id (p_reply s2) = Some i). { pose proof (request_fair v PO n t m (begun v m s)) as F. rewrite (RQ m T V) in F. unfold seq at 1 in F. rewrite E0, E in F. destruct F as (_ & F & _). rewrite F. exact I. }
    destruct (encode_says _ _ i d ID EN) as (_ & _ & _ & PA). pose proof (typed_empty m s) as TE. injection E0 as <-. do 4 (split; [reflexivity|]). split; [intros q N; apply (TE q TAck); [reflexivity|exact N]|]. split; [exact E|]. split; [exact OB|exact PA].
  Qed.
End Lemmas.

(** At most one reply, as the last effect. *)
Theorem c56_one_reply {P} (v : env P) n c t s s1 o : polite v -> handle_ctrl v n c t s = (s1, o) ->
  exists l e, p_out s1 = p_out s ++ l ++ e /\ (forall x, In x l -> is_reply x = false) /\ (e = [] \/ (exists d, e = [FReply c d]) \/ exists d, e = [FNobody d]).
Proof.
  intros PO H. destruct (msg_of_text (v_clock v) t true) as [m|e|] eqn:MT.
  2,3: unfold handle_ctrl in H; rewrite MT in H; exists [], []; cbn; rewrite app_nil_r; (split; [|split; [intros x []|auto]]); try (destruct e); injection H as <- _; reflexivity.
  destruct (request v n t m (begun v m s)) as (s2, o2) eqn:RQ. pose proof (handle_request v PO n c t m s s2 o2 MT RQ) as HR. pose proof (request_fair v PO n t m (begun v m s)) as F. rewrite RQ in F. destruct F as ((l & OUT & F) & _). change (p_out (begun v m s)) with (p_out s) in OUT. rewrite Forall_forall in F.
  assert (NO : s1 = s2 -> exists l e, p_out s1 = p_out s ++ l ++ e /\ (forall x, In x l -> is_reply x = false) /\ (e = [] \/ (exists d, e = [FReply c d]) \/ exists d, e = [FNobody d])) by (intros ->; exists l, []; rewrite app_nil_r; auto).
  destruct o2 as [[]|e|].
  - destruct HR as (d & _ & HC). rewrite H in HC. injection HC as -> _. exists l, [FReply c d]. cbn. rewrite OUT, app_assoc. split; [reflexivity|]. split; [exact F|]. right. left. eauto.
  - destruct e as [[[]|w|]|]; try (rewrite H in HR; injection HR as -> _; apply NO; reflexivity). destruct HR as (d & r & _ & HC). rewrite H in HC. injection HC as -> _. exists l, [FNobody d]. cbn. rewrite OUT, app_assoc. split; [reflexivity|]. split; [exact F|]. right. right. eauto.
  - rewrite H in HR. injection HR as -> _. apply NO. reflexivity.
Qed.
(** It has the id and the value of the request, and is an acknowledgement or a refusal. *)
Theorem c56_head {P} (v : env P) n c t m i d s s1 o : polite v -> msg_of_text (v_clock v) t true = Ret m -> g_id m = Some i -> handle_ctrl v n c t s = (s1, o) -> replies c d s s1 ->
  says d "id" (JInt i) /\ says d "msg_val" (JStr (name_of_val (g_val m))) /\ (says d "msg_type" (JStr "ack") \/ says d "msg_type" (JStr "nack")).
Proof.
  intros PO MT I H R. destruct (replied v PO n c t m d s s1 o MT H R) as (s2 & E & EN & _). pose proof (request_fair v PO n t m (begun v m s)) as F. rewrite E in F. destruct F as (_ & F1 & F2 & F3). change (g_id (p_reply (begun v m s))) with (g_id m) in F1. change (g_val (p_reply (begun v m s))) with (g_val m) in F2.
  rewrite I in F1. destruct (encode_says _ _ i d F1 EN) as (A & B & C & _). rewrite F2 in B. split; [exact A|]. split; [exact B|]. destruct (F3 eq_refl) as [X|X]; rewrite X in C; [left|right]; exact C.
Qed.
(** A text that is no message has no effect. *)
Theorem c56_illegal {P} (v : env P) n c t s : (forall m, msg_of_text (v_clock v) t true <> Ret m) -> fst (handle_ctrl v n c t s) = s.
Proof. intros N. unfold handle_ctrl. destruct (msg_of_text (v_clock v) t true) as [m|[]|]; try reflexivity. destruct (N m eq_refl). Qed.
Definition known := [VConfigure; VRequestConfiguration; VExecute; VRequestCommands; VStatus; VRequestVersion; VResetStatistics; VShutdown].
(** A message that is none of the commands: a refusal with the text, and no other effect. *)
Theorem c56_unknown {P} (v : env P) n c t m s : polite v -> msg_of_text (v_clock v) t true = Ret m -> g_type m <> TCmd \/ ~ In (g_val m) known ->
  exists s1 d, handle_ctrl v n c t s = (s1, Ret tt) /\ p_out s1 = p_out s ++ [FReply c d] /\ alike s1 s /\ says d "msg_type" (JStr "nack") /\ param d ["error"] (JStr (cstr ("Invalid control message: " ++ string_of_list_ascii t))).
Proof.
  intros PO MT K. destruct (strict_id v t m MT) as (i & I). assert (RQ : request v n t m (begun v m s) = (put "error" (XStr (append "Invalid control message: " (string_of_list_ascii t))) ;; reply_type TNack) (begun v m s)).
  { unfold request. destruct (g_type m); try reflexivity. destruct K as [K|K]; [congruence|]. destruct (g_val m); try reflexivity; destruct K; cbn; tauto. }
  assert (OP : objectp (begun v m s)) by (exists []; reflexivity). destruct (put_error (append "Invalid control message: " (string_of_list_ascii t)) (begun v m s) OP) as (s2 & PE & _ & OB & TY & ER). destruct (put_run _ _ _ _ PE) as (r & E2 & SP).
  unfold seq in RQ. rewrite PE in RQ. unfold reply_type, change in RQ. pose proof (handle_request v PO n c t m s _ _ MT RQ) as (d & EN & HC). rewrite HC. eexists. exists d. split; [reflexivity|]. split; [subst s2; reflexivity|].
  pose proof (set_param_keeps (p_reply (begun v m s)) "error" (XStr (append "Invalid control message: " (string_of_list_ascii t)))) as (KI & _). rewrite SP in KI. cbn [fst] in KI. change (g_id (p_reply (begun v m s))) with (g_id m) in KI. split.
  - eapply alike_trans; [apply told_alike; reflexivity|]. subst s2. destruct s; reflexivity.
  - match type of EN with encode _ ?R = _ => assert (IDR : g_id R = Some i) by (subst s2; cbn; rewrite KI; exact I) end. destruct (encode_says _ _ _ _ IDR EN) as (_ & _ & C & PA). split; [exact C|]. apply PA. exact ER.
Qed.
(** A message that is not to configure changes nothing but plugins; only "shutdown" wakes the main thread. *)
Theorem c56_reads {P} (v : env P) n c t m s s1 o : polite v -> msg_of_text (v_clock v) t true = Ret m -> (g_type m, g_val m) <> (TCmd, VConfigure) -> sm_ok (p_objs s) -> handle_ctrl v n c t s = (s1, o) ->
  only_plugins s s1 \/ g_val m = VShutdown /\ only_plugins (w_out (p_out s ++ [FExit]) s) s1.
Proof.
  intros PO MT NC OK H. destruct (request v n t m (begun v m s)) as (s2, o2) eqn:RQ. pose proof (handle_request v PO n c t m s s2 o2 MT RQ) as HR. pose proof (calm_request v PO n t m NC (begun v m s)) as CR. rewrite RQ in CR. destruct CR as (l & L & (ST & NM) & OUT & _).
  assert (OB : p_objs s1 = p_objs s2 /\ alike s1 s2).
  { destruct o2 as [[]|e|].
    - destruct HR as (d & _ & HC). rewrite H in HC. injection HC as -> _. split; [reflexivity|apply told_alike; reflexivity].
    - destruct e as [[[]|w|]|]; try (rewrite H in HR; injection HR as -> _; split; reflexivity). destruct HR as (d & r & _ & HC). rewrite H in HC. injection HC as -> _. split; [reflexivity|]. apply (alike_trans _ (w_reply r s2)); [apply (told_alike (FNobody d) (w_reply r s2)); reflexivity|apply reply_alike].
    - rewrite H in HR. injection HR as -> _. split; reflexivity. }
  destruct OB as (OB & AL). destruct (NM OK) as (_ & NM').
  assert (G : alike s1 (w_objs (p_objs s1) (w_out (p_out s ++ l) s))).
  { eapply alike_trans; [exact AL|]. rewrite OB. change (p_out (begun v m s)) with (p_out s) in OUT, ST. clear -ST OUT. destruct s, s2. cbn in *. injection ST. intros. subst. reflexivity. }
  destruct L as [-> | (-> & W)].
  - left. rewrite app_nil_r in G. split; [|rewrite OB; exact NM']. destruct s; exact G.
  - right. split; [exact W|]. split; [|rewrite OB; exact NM']. destruct s; exact G.
Qed.
Theorem c56_shutdown {P} (v : env P) n c t i s : polite v -> asks v t VShutdown i -> exists s1 d, handle_ctrl v n c t s = (s1, Ret tt) /\ p_out s1 = p_out s ++ [FExit; FReply c d] /\ says d "msg_type" (JStr "ack").
Proof.
  intros PO (m & MT & T & V & I). pose proof (handle_request v PO n c t m s (fst (request v n t m (begun v m s))) (Ret tt) MT) as HR. destruct HR as (d & EN & HC); [unfold request; rewrite T, V; reflexivity|]. revert EN HC. unfold request. rewrite T, V. cbn [seq reply_type change tell fst]. intros EN HC. rewrite HC. eexists. exists d. split; [reflexivity|]. split; [cbn; rewrite <- app_assoc; reflexivity|].
  match type of EN with encode _ ?R = _ => assert (IDR : g_id R = Some i) by exact I end. destruct (encode_says _ _ _ _ IDR EN) as (_ & _ & C & _). exact C.
Qed.

(** The configuration: endpoints, and the part of each plugin. *)
Theorem c56_configuration {P} (v : env P) n c t i d s s1 o : polite v -> asks v t VRequestConfiguration i -> named s ["ctrl_endpoint"; "meta_endpoint"; "fr_setup"] -> all_plugins s (fun j p => stays_in j (v_request v) p) -> handle_ctrl v n c t s = (s1, o) -> replies c d s s1 ->
  param d ["ctrl_endpoint"] (JStr (cstr (p_ctrl s))) /\ param d ["meta_endpoint"] (JStr (cstr (p_meta s))) /\
  param d ["fr_setup"; "fr_ready_cnxn"] (JStr (cstr (snd (k_ends (p_graph s))))) /\ param d ["fr_setup"; "fr_release_cnxn"] (JStr (cstr (fst (k_ends (p_graph s))))) /\
  all_plugins s (fun j p => exists p1, sm_get (p_objs s1) j = Some p1 /\ part_of j (v_request v) p p1 d).
Proof.
  intros PO A (OK & NA) ST H R. destruct (asked v PO n c t _ i d s s1 o (request_configuration v) A ltac:(intros m T V; unfold request; rewrite T, V; reflexivity) H R) as (s0 & s2 & O & G & C & M & EM & E & OB & PA).
  destruct (configuration_run v s0 s2) as (V1 & V2 & V3 & V4 & V5); [rewrite O; exact OK|rewrite O; exact ST|rewrite O; intros j J; apply NA, J|exact E|]. rewrite C, M, G, O in *. rewrite !PA. do 4 (split; [assumption|]).
  intros j p GJ. destruct (V5 j p GJ) as (p1 & G1 & r & X1 & X0 & X2 & X3). exists p1. rewrite OB. split; [exact G1|]. exists r. split; [|split; [exact X1|split; [exact X0|]]].
  - intros q x X. apply holds_param in X. rewrite X2, EM in X by discriminate. discriminate.
  - intros q x. rewrite PA, X3. symmetry. apply holds_param.
Qed.
(** The status: the names of all plugins, the status and the timing of each, all errors and warnings, and the state of the receiver interface. *)
Theorem c56_status {P} (v : env P) n c t i d s s1 o : polite v -> asks v t VStatus i -> named s ["plugins"; "error"; "warning"; "shared_memory"] -> all_plugins s (fun j p => stays_in j (v_status v) p) -> handle_ctrl v n c t s = (s1, o) -> replies c d s s1 ->
  (p_objs s <> [] -> param d ["plugins"; "names"] (JArr (map (fun e => JStr (fst e)) (p_objs s)))) /\
  all_plugins s (fun j p => exists p1, sm_get (p_objs s1) j = Some p1 /\ status_part j (v_status v) p p1 d /\ timing_of d j (v_perf v p1)) /\
  listed d ["error"] (texts (v_errors v) s1) /\ listed d ["warning"] (texts (v_warnings v) s1) /\
  (forall x, param d ["shared_memory"; "configured"] x <-> k_shm (p_graph s) <> None /\ x = JBool (v_shm_ok v)).
Proof.
  intros PO A (OK & NA) ST H R. destruct (asked v PO n c t _ i d s s1 o (provide_status v) A ltac:(intros m T V; unfold request; rewrite T, V; reflexivity) H R) as (s0 & s2 & O & G & C & M & EM & E & OB & PA).
  destruct (status_run v s0 s2) as (V1 & V2 & V3 & V4 & V5 & V6); [rewrite O; exact OK|rewrite O; exact NA|rewrite O; exact ST|exact EM|exact E|]. rewrite O, G in *.
  assert (OK2 : sm_ok (p_objs s2) /\ map fst (p_objs s2) = map fst (p_objs s)). { destruct (calm_status v PO s0) as ((_ & X) & _). rewrite E in X. cbn [fst] in X. rewrite O in X. apply X, OK. } destruct OK2 as (OK2 & NM).
  assert (TX : forall f : P -> list string, flat_map (fun j => match sm_get (p_objs s2) j with Some p => f p | None => [] end) (map fst (p_objs s)) = texts f s1).
  { intros f. unfold texts. rewrite OB, <- NM. clear -OK2. assert (K : forall l, (forall e, In e l -> sm_get (p_objs s2) (fst e) = Some (snd e)) -> flat_map (fun j => match sm_get (p_objs s2) j with Some p => f p | None => [] end) (map fst l) = flat_map (fun e => f (snd e)) l).
    { induction l as [|e l IH]; intros Q; [reflexivity|]. cbn. rewrite (Q e (or_introl eq_refl)), IH; [reflexivity|]. intros e' I. apply Q. right. exact I. }
    apply K. intros (j, p) I. apply sm_in_get; [exact OK2|exact I]. }
  assert (LS : forall l h q, lists l None h -> (forall x, param d q x <-> h = Some x) -> listed d q l).
  { intros l h q L Q x. rewrite Q, L. destruct l; [split; [discriminate|intros (X & _); congruence]|]. cbn [elements app]. split; [intros X; injection X as <-; split; [discriminate|reflexivity]|intros (_ & ->); reflexivity]. }
  split; [|split; [|split; [|split]]].
  - intros NE. apply PA. destruct (here s2 ["plugins"; "names"]) as [y|]; [|destruct (p_objs s); [congruence|discriminate]]. destruct y; try (destruct (p_objs s); [congruence|discriminate]). cbn in V1. rewrite V1. reflexivity.
  - intros j p GJ. destruct (V2 j p GJ) as (p1 & G1 & TM & r & X1 & X0 & X2 & X3). exists p1. rewrite OB. split; [exact G1|]. split.
    + exists r. split; [intros q x X; apply holds_param in X; rewrite X2, EM in X by discriminate; discriminate|]. split; [exact X1|]. split; [exact X0|]. intros q x N. rewrite PA, X3 by exact N. symmetry. apply holds_param.
    + unfold timed in TM. unfold timing_of. destruct (v_perf v p1) as ((a & b) & e). rewrite !PA. exact TM.
  - eapply LS; [|intros x; apply PA]. rewrite <- TX. exact V3.
  - eapply LS; [|intros x; apply PA]. rewrite <- TX. exact V4.
  - intros x. rewrite PA. destruct (k_shm (p_graph s)) as [k|].
    + rewrite (V5 k eq_refl). split; [intros X; injection X as <-; split; [discriminate|reflexivity]|intros (_ & ->); reflexivity].
    + specialize (V6 eq_refl). split; [|intros (X & _); congruence]. intros X. exfalso. unfold here, at_param in V6, X. cbn in V6, X. destruct (find_member "params" _) as [[]|]; try discriminate. destruct (find_member "shared_memory" l) as [[]|]; discriminate.
Qed.
(** The commands: those of each plugin; the plugins are not changed. *)
Theorem c56_commands {P} (v : env P) n c t i d s s1 o : polite v -> asks v t VRequestCommands i -> named s [] -> handle_ctrl v n c t s = (s1, o) -> replies c d s s1 ->
  p_objs s1 = p_objs s /\ all_plugins s (fun j p => listed d [j; "command"] (v_commands v p)) /\ (forall k q x, param d (k :: q) x -> In k (map fst (p_objs s))).
Proof.
  intros PO A (OK & NA) H R. destruct (asked v PO n c t _ i d s s1 o (request_commands v) A ltac:(intros m T V; unfold request; rewrite T, V; reflexivity) H R) as (s0 & s2 & O & G & C & M & EM & E & OB & PA).
  destruct (commands_run v s0 s2) as (V1 & V2 & V3); [rewrite O; exact OK|rewrite O; intros j J; apply NA, J|exact E|]. rewrite O in *. split; [congruence|]. split.
  - intros j p GJ x. rewrite PA. specialize (V2 j p GJ). rewrite EM in V2 by discriminate. rewrite V2. destruct (v_commands v p); [split; [discriminate|intros (X & _); congruence]|]. cbn [elements app]. split; [intros X; injection X as <-; split; [discriminate|reflexivity]|intros (_ & ->); reflexivity].
  - intros k q x X. apply PA in X. destruct (in_dec string_dec k (map fst (p_objs s))) as [I|I]; [exact I|]. rewrite V3, EM in X; [discriminate|discriminate|exact I].
Qed.
(** The versions of the application and of each plugin; the plugins are not changed. *)
Theorem c56_version {P} (v : env P) n c t i d s s1 o : polite v -> asks v t VRequestVersion i -> named s ["odin-data"] -> handle_ctrl v n c t s = (s1, o) -> replies c d s s1 ->
  p_objs s1 = p_objs s /\ version_of d "odin-data" (v_major v, v_minor v, v_patch v, v_short v, v_full v) /\ all_plugins s (fun j p => version_of d j (v_vers v p)).
Proof.
  intros PO A (OK & NA) H R. destruct (asked v PO n c t _ i d s s1 o (provide_version v) A ltac:(intros m T V; unfold request; rewrite T, V; reflexivity) H R) as (s0 & s2 & O & G & C & M & EM & E & OB & PA).
  destruct (version_run v s0 s2) as (V1 & V2 & V3); [rewrite O; exact OK|rewrite O; intros j J; destruct (NA j J) as (X & Y); split; [exact X|]; intros ->; apply Y; cbn; tauto|exact E|]. rewrite O in *. split; [congruence|].
  assert (VO : forall k x, version_is (here s2) k x -> version_of d k x) by (intros k ((((a & b) & e) & f) & g); unfold version_is, version_of; rewrite !PA; auto). split; [apply VO, V2|]. intros j p GJ. apply VO, V3, GJ.
Qed.
(** Commands for plugins: each plugin that is named with a command executes it once, no other is changed; without any the request is refused. *)
Theorem c56_execute {P} (v : env P) n c t m i d s s1 o : polite v -> msg_of_text (v_clock v) t true = Ret m -> g_type m = TCmd -> g_val m = VExecute -> g_id m = Some i -> named s [] -> handle_ctrl v n c t s = (s1, o) -> replies c d s s1 ->
  all_plugins s (fun j p => (exists w r, holds m [j; "command"] (JStr w) /\ sm_get (p_objs s1) j = Some (fst (fst (v_execute v p (cstr w) r))) /\ snd (v_execute v p (cstr w) r) = Ret tt) \/ ((forall x, ~ holds m [j; "command"] x) /\ sm_get (p_objs s1) j = Some p)) /\
  ((forall j x, In j (map fst (p_objs s)) -> ~ holds m [j; "command"] x) -> says d "msg_type" (JStr "nack") /\ param d ["error"] (JStr "No valid commands found")) /\
  (all_plugins s (fun j p => forall w r, holds m [j; "command"] (JStr w) -> snd (v_execute v p (cstr w) r) = Ret tt -> g_type (snd (fst (v_execute v p (cstr w) r))) = g_type r) -> (exists j x, In j (map fst (p_objs s)) /\ holds m [j; "command"] x) -> says d "msg_type" (JStr "ack")) /\
  ((exists j p w, sm_get (p_objs s) j = Some p /\ holds m [j; "command"] (JStr w) /\ forall r, snd (v_execute v p (cstr w) r) = Ret tt -> g_type (snd (fst (v_execute v p (cstr w) r))) = TNack) -> says d "msg_type" (JStr "nack")).
Proof.
  intros PO MT T V I (OK & NA) H R. destruct (strict_params v t m MT) as (l & PX & _).
  assert (HM : forall q x, holds m q x <-> at_path q (JObj l) = Some x). { intros q x. rewrite holds_param. unfold at_param. cbn [at_path]. unfold params_of in PX. rewrite PX. destruct q; reflexivity. }
  destruct (replied v PO n c t m d s s1 o MT H R) as (s2 & E & EN & OB). pose proof (request_fair v PO n t m (begun v m s)) as F. rewrite E in F. destruct F as (_ & F & _). change (g_id (p_reply (begun v m s))) with (g_id m) in F. rewrite I in F. destruct (encode_says _ _ i d F EN) as (_ & _ & TY & PA).
  unfold request in E. rewrite T, V in E. apply seq_ret in E as ([] & s0 & E0 & E). unfold execute in E. apply seq_ret in E as (k & s' & E1 & E). injection E1 as <- <-. apply seq_ret in E as (p & s3 & E1 & E2). assert (OP : objectp s0) by (injection E0 as <-; exists []; reflexivity). assert (O0 : p_objs s0 = p_objs s) by (injection E0 as <-; reflexivity). rewrite O0 in E1.
  destruct (exec_run v m (JObj l) (map fst (p_objs s)) PX false s0 s3 p (sm_nodup _ OK)) as (X1 & X2 & X3 & X4 & X5 & X6); [|exact E1|].
  { intros j J. split; [apply NA, J|]. rewrite O0. destruct (in_keys _ _ OK J) as (q & ->). discriminate. }
  assert (O2 : p_objs s2 = p_objs s3). { destruct p; cbn [negb when] in E2; [injection E2 as <-; reflexivity|]. unfold nack in E2. destruct (set_nack _ _) as (r & [[]|e|]); try discriminate. injection E2 as <-. reflexivity. }
  split; [|split; [|split]].
  - intros j q GJ. rewrite OB, O2. destruct (X1 j q (fst_in _ _ _ GJ)) as [(w & r & A & B)|(A & B)]; [rewrite O0; exact GJ| |].
    + left. exists w, r. split; [apply HM, A|exact B].
    + right. split; [intros x X; apply HM in X; congruence|exact B].
  - intros N. assert (N' : forall j, In j (map fst (p_objs s)) -> at_path [j; "command"] (JObj l) = None). { intros j J. destruct (at_path [j; "command"] (JObj l)) as [x|] eqn:AX; [|reflexivity]. destruct (N j x J). apply HM, AX. }
    rewrite (X4 N') in E2. assert (p = false). { destruct p; [|reflexivity]. destruct (proj1 X3 eq_refl) as [?|(j & J & X)]; [discriminate|]. destruct (X (N' j J)). } subst p. cbn [negb when] in E2.
    assert (NE : nack "No valid commands found" s0 = (reply_type TNack ;; put "error" (XStr "No valid commands found")) s0) by (destruct s0; reflexivity). rewrite NE in E2. unfold seq, reply_type, change in E2.
    match type of E2 with put _ _ ?S = _ => destruct (put_error "No valid commands found" S) as (s4 & PE & _ & _ & PT & ER); [exact OP|] end. rewrite PE in E2. injection E2 as <-. rewrite PT in TY. split; [exact TY|]. apply PA. exact ER.
  - intros K (j & x & J & X). assert (p = true). { apply X3. right. exists j. split; [exact J|]. apply HM in X. congruence. } subst p. injection E2 as <-. rewrite X5 in TY; [injection E0 as <-; exact TY|]. rewrite O0. intros k q w r KI GK AK. apply (K k q GK w r). apply HM, AK.
  - intros (j & q & w & GJ & X & K). apply HM in X. assert (p = true). { apply X3. right. exists j. split; [apply (fst_in _ _ _ GJ)|congruence]. } subst p. injection E2 as <-. rewrite (X6 PO) in TY; [exact TY|]. right. exists j, q, w. rewrite O0. split; [apply (fst_in _ _ _ GJ)|]. auto.
Qed.
(** Resetting the statistics: each plugin, and always a reply: a refusal exactly if a plugin refuses, with the name of the last one that does. *)
Theorem c56_reset {P} (v : env P) n c t i s : polite v -> asks v t VResetStatistics i -> sm_ok (p_objs s) ->
  exists s1 d, handle_ctrl v n c t s = (s1, Ret tt) /\ p_out s1 = p_out s ++ [FReply c d] /\
  all_plugins s (fun j p => sm_get (p_objs s1) j = Some (fst (v_reset v (v_reset_perf v p)))) /\
  ((all_plugins s (fun j p => snd (v_reset v (v_reset_perf v p)) = true) /\ says d "msg_type" (JStr "ack")) \/
   exists a j p b, map fst (p_objs s) = a ++ j :: b /\ sm_get (p_objs s) j = Some p /\ snd (v_reset v (v_reset_perf v p)) = false /\ (forall k q, In k b -> sm_get (p_objs s) k = Some q -> snd (v_reset v (v_reset_perf v q)) = true) /\
     says d "msg_type" (JStr "nack") /\ param d ["error"] (JStr (cstr ("Failed to reset statistics on plugin " ++ j)))).
Proof.
  intros PO (m & MT & T & V & I) OK. set (s0 := fst (@reply_type P TAck (begun v m s))). assert (OP : objectp s0) by (exists []; reflexivity). assert (O0 : p_objs s0 = p_objs s) by reflexivity.
  destruct (reset_run v (map fst (p_objs s)) s0 OP (sm_nodup _ OK)) as (s2 & E & _ & R1 & R2 & R3). { intros j J. rewrite O0. destruct (in_keys _ _ OK J) as (q & ->). discriminate. }
  assert (RQ : request v n t m (begun v m s) = (s2, Ret tt)). { unfold request. rewrite T, V. rewrite <- E. reflexivity. }
  destruct (handle_request v PO n c t m s s2 (Ret tt) MT RQ) as (d & EN & HC). pose proof (calm_request v PO n t m ltac:(rewrite V; discriminate) (begun v m s)) as CR. rewrite RQ in CR. destruct CR as (l & L & _ & OUT & ID & _). destruct L as [-> | (_ & L)]; [|congruence]. rewrite app_nil_r in OUT. change (p_out (begun v m s)) with (p_out s) in OUT. change (g_id (p_reply (begun v m s))) with (g_id m) in ID. rewrite I in ID.
  destruct (encode_says _ _ i d ID EN) as (_ & _ & TY & PA). eexists. exists d. split; [exact HC|]. split; [cbn; rewrite OUT; reflexivity|]. split.
  - intros j p GJ. cbn. apply (R1 j p (fst_in _ _ _ GJ)). exact GJ.
  - destruct R3 as [(A & B & _)|(j & (a & b & p & EL & GJ & RJ & RB) & B & C)].
    + left. split; [|rewrite B in TY; exact TY]. intros j p GJ. specialize (A j p (fst_in _ _ _ GJ) GJ). unfold refuses in A. apply negb_false_iff in A. exact A.
    + right. exists a, j, p, b. split; [exact EL|]. split; [exact GJ|]. unfold refuses in RJ, RB. split; [apply negb_true_iff, RJ|]. split; [intros k q K GK; specialize (RB k q K GK); apply negb_false_iff in RB; exact RB|]. rewrite B in TY. split; [exact TY|]. apply PA, C.
Qed.

(** Which requests are answered: names that are not reserved, plugins that return.  Missing: requests to configure or to execute, plugins that throw. *)
Theorem c56_answered_partial {P} (v : env P) n c t w i s : polite v -> asks v t w i -> named s ["plugins"; "error"; "warning"; "shared_memory"; "ctrl_endpoint"; "meta_endpoint"; "fr_setup"] ->
  w = VRequestConfiguration /\ all_plugins s (fun j p => willing j (v_request v) p) \/ w = VStatus /\ all_plugins s (fun j p => obliging j (v_status v) p) \/ w = VRequestCommands \/ w = VRequestVersion ->
  exists s1 d, handle_ctrl v n c t s = (s1, Ret tt) /\ p_out s1 = p_out s ++ [FReply c d].
Proof.
  intros PO (m & MT & T & V & I) (OK & NA) K. set (s0 := fst (@reply_type P TAck (begun v m s))).
  assert (W : forall d, d <> [] -> way ("params" :: d) (JObj (g_doc (p_reply s0)))). { intros d N. change (g_doc (p_reply s0)) with (g_doc (p_reply (begun v m s))). apply (open_fresh v (fun d => d <> []) m s (fun d N => N) d N). }
  assert (EM : forall q, q <> [] -> here s0 q = None) by (intros q N; apply (typed_empty v m s q TAck s0); [reflexivity|exact N]).
  assert (L : exists s1, request v n t m (begun v m s) = (s1, Ret tt)).
  { unfold request. rewrite T, V. destruct K as [(-> & K)|[(-> & K)|[->| ->]]].
    - apply (configuration_live v s0 W EM OK); [|exact K]. intros j J X. apply NA in J as (_ & J). apply J. cbn in X |- *. tauto.
    - apply (status_live v s0 W EM OK); [|exact K]. intros j J. split; [apply NA, J|]. intros X. apply NA in J as (_ & J). apply J. cbn in X |- *. tauto.
    - apply (commands_live v s0 W OK). intros j J. apply NA, J.
    - apply (version_live v s0 W OK). intros j J. apply NA, J. }
  destruct L as (s1 & RQ). destruct (handle_request v PO n c t m s s1 (Ret tt) MT RQ) as (d & _ & HC). pose proof (calm_request v PO n t m) as CR. rewrite V in CR. specialize (CR ltac:(destruct K as [(-> & _)|[(-> & _)|[->| ->]]]; discriminate) (begun v m s)). rewrite RQ in CR. destruct CR as (l & L & _ & OUT & _).
  destruct L as [-> | (_ & L)]; [|destruct K as [(-> & _)|[(-> & _)|[->| ->]]]; discriminate]. rewrite app_nil_r in OUT. eexists. exists d. split; [exact HC|]. cbn. rewrite OUT. reflexivity.
Qed.

(** ** Examples *)
(** Plugins that write a file: they report its path, refuse commands but "start", and refuse to reset statistics while they write. *)
Definition sets_in (k x : string) (r : msg) : msg := fst (set_param r k (XStr x)).
Definition writer_env : env (bool) :=
  Env (fun o m r => match get_param GBool m "on" with Ret (RBool b) => (b, r, Ret tt) | Ret _ => (o, r, Ret tt) | Throw e => (o, r, Throw (XIpc e)) | Undef => (o, r, Undef) end) (fun o r => (o, sets_in "hdf/path" "/data" r, Ret tt))
      (fun o n r => if String.eqb n "start" then (true, r, Ret tt) else (o, fst (set_nack r "no such command"), Ret tt)) (fun o r => (o, sets_in "hdf/state" (if o then "writing" else "idle") r, Ret tt))
      (fun o => ["start"]) (fun o => (o, negb o)) (fun o => o) (fun o => o) (fun o => if o then ["disk slow"] else []) (fun o => []) (fun o => (7, 9, 4617315517961601024)%Z) (fun o => (1, 2, 3, "1.2.3", "1.2.3-5")%Z)
      (fun l => if String.eqb l "libWriter.so" then inr ["Writer"] else inl "no such file") (fun c i => Some false) (fun i => None)
      (fun b e => if existsb (String.eqb e) b then Some "Address already in use" else None) (fun b e => if existsb (String.eqb e) b then Some "Address already in use" else None) (fun p q => if String.eqb p q then Some (XRun "Invalid argument") else None) true
      5%Z a_clock 1%Z 2%Z 3%Z "1.2.3" "1.2.3-4".
Lemma sets_keeps k x r : keeps_head r (sets_in k x r). Proof. apply set_param_keeps. Qed.
Lemma writer_polite : polite writer_env.
Proof.
  intros o r. split; [|split; [apply sets_keeps|split; [|apply sets_keeps]]].
  - intros m. cbn. destruct (get_param GBool m "on") as [[]|e|]; apply head_refl.
  - intros n. cbn. destruct (String.eqb n "start"); [apply head_refl|]. cbn. unfold set_nack. pose proof (set_param_keeps (Msg (g_strict r) (g_doc r) TNack (g_val r) (g_id r) (g_time r)) "error" (XStr "no such command")) as (A & B & C). split; [exact A|]. split; [exact B|]. right. destruct C as [C|C]; exact C.
Qed.
Lemma sets_stay j c (f : bool -> string) o : good_path (j :: c) -> stays_in j (fun (p : bool) r => (p, sets_in (slashed (j :: c)) (f p) r, Ret tt)) o.
Proof.
  intros G r q y N H. cbn [fst snd]. unfold sets_in. destruct (set_param r (slashed (j :: c)) (XStr (f o))) as (r' & e) eqn:S. cbn [fst]. rewrite !holds_param. rewrite (set_param_eq _ _ _ G) in S. destruct (set_at _ _ _) as [z|] eqn:SA; [|injection S as <- _; reflexivity]. destruct z; try (injection S as <- _; reflexivity). injection S as <- _. unfold at_param. cbn [g_doc with_doc].
  rewrite (set_at_apart _ _ _ _ ("params" :: q) SA); [reflexivity|]. apply apart_cons. destruct q as [|k q]; [congruence|]. apply apart_head. cbn in H. congruence.
Qed.
Lemma sets_oblige j k (f : bool -> string) o : good_path [j; k] -> k <> "timing" -> obliging j (fun (p : bool) r => (p, sets_in (slashed [j; k]) (f p) r, Ret tt)) o.
Proof.
  intros G NK. assert (T : forall r c, ready j r -> way ["params"; j; "timing"; c] (JObj (g_doc (sets_in (slashed [j; k]) (f o) r)))).
  { intros r c RD. unfold sets_in. pose proof (ready_way j r ["timing"; c] RD) as W. destruct (set_param r (slashed [j; k]) (XStr (f o))) as (r' & e) eqn:S. cbn [fst]. rewrite (set_param_eq _ _ _ G) in S. destruct (set_at _ _ _) as [z|] eqn:SA; [|injection S as <- _; exact W]. destruct z; try (injection S as <- _; exact W). injection S as <- _. cbn [g_doc with_doc].
    apply (way_after2 _ _ _ _ _ SA); [|exact W]. intros x N E. injection E as E _. congruence. }
  split; [|intros r c RD; apply way_clear, T, RD]. intros r RD. split; [reflexivity|]. split; [|apply (way_object j ["timing"; ""]), T, RD]. apply (sets_stay j [k] f o G).
Qed.
Definition sent (w p : string) (s : prc bool) : prc bool := fst (handle_ctrl writer_env 4 "c" (command_text w p) s).
Definition loaded := sent "configure" "{""plugin"":{""load"":{""name"":""Writer"",""index"":""hdf"",""library"":""libWriter.so""}},""ctrl_endpoint"":""tcp://*:5004""}" (prc_init 0 0).
Ltac asks_ok := eexists; split; [vm_compute; reflexivity|repeat split].
Lemma loaded_named l : ~ In "hdf" l -> named loaded l.
Proof. intros N. split; [vm_compute; auto|]. intros i I. vm_compute in I. destruct I as [<-|[]]. split; [apply nice_check; reflexivity|exact N]. Qed.
Lemma loaded_all (Q : string -> bool -> Prop) : Q "hdf" false -> all_plugins loaded Q.
Proof. intros H i o G. apply sm_get_in in G. vm_compute in G. destruct G as [G|[]]. injection G as <- <-. exact H. Qed.
Definition reply_of (s : prc bool) : list (string * json) := match last (p_out s) FExit with FReply _ d => d | _ => [] end.
Lemma replies_new (s s1 : prc bool) : p_out s1 = p_out s ++ [FReply "c" (reply_of s1)] -> replies "c" (reply_of s1) s s1. Proof. intros H. exists []. split; [exact H|intros e []]. Qed.
(** The hypotheses hold for all of the requests, with a plugin; two plugins when statistics are reset. *)
Example c56_case : let ask := fun w => handle_ctrl writer_env 4 "c" (command_text w "{}") loaded in
  (forall w, In w ["request_configuration"; "status"; "request_commands"; "request_version"; "reset_statistics"] -> snd (ask w) = Ret tt /\ replies "c" (reply_of (fst (ask w))) loaded (fst (ask w))) /\
  asks writer_env (command_text "request_configuration" "{}") VRequestConfiguration 7 /\ asks writer_env (command_text "status" "{}") VStatus 7 /\ asks writer_env (command_text "request_commands" "{}") VRequestCommands 7 /\ asks writer_env (command_text "request_version" "{}") VRequestVersion 7 /\ asks writer_env (command_text "shutdown" "{}") VShutdown 7 /\
  (forall l, ~ In "hdf" l -> named loaded l) /\ all_plugins loaded (fun j p => stays_in j (v_request writer_env) p) /\ all_plugins loaded (fun j p => stays_in j (v_status writer_env) p) /\ all_plugins loaded (fun j p => obliging j (v_status writer_env) p) /\ all_plugins loaded (fun j p => willing j (v_request writer_env) p).
Proof.
  intros ask. split; [intros w W; cbn in W; repeat destruct W as [<-|W]; [..|destruct W]; (split; [vm_compute; reflexivity|apply replies_new; vm_compute; reflexivity])|].
  clear ask. do 5 (split; [asks_ok|]). split; [exact loaded_named|]. split; [apply loaded_all, (sets_stay "hdf" ["path"] (fun _ => "/data") false); apply path_check_ok; reflexivity|]. split; [apply loaded_all, (sets_stay "hdf" ["state"] (fun o => if o then "writing" else "idle") false); apply path_check_ok; reflexivity|].
  split; [apply loaded_all, (sets_oblige "hdf" "state" (fun o => if o then "writing" else "idle") false); [apply path_check_ok; reflexivity|discriminate]|]. apply loaded_all, (sets_oblige "hdf" "path" (fun _ => "/data") false); [apply path_check_ok; reflexivity|discriminate].
Qed.
(** What they look like *)
Example c56_status_case : let s := sent "execute" "{""hdf"":{""command"":""start""}}" loaded in find_member "params" (reply_of (sent "status" "{}" s)) =
  Some (JObj [("plugins", JObj [("names", JArr [JStr "hdf"])]); ("hdf", JObj [("state", JStr "writing"); ("timing", JObj [("last_process", JInt 7); ("max_process", JInt 9); ("mean_process", JDouble 4617315517961601024)])]); ("error", JArr [JStr "disk slow"])]).
Proof. vm_compute. reflexivity. Qed.
Example c56_execute_case : find_member "msg_type" (reply_of (sent "execute" "{""hdf"":{""command"":""start""}}" loaded)) = Some (JStr "ack") /\ sm_get (p_objs (sent "execute" "{""hdf"":{""command"":""start""}}" loaded)) "hdf" = Some true /\
  find_member "msg_type" (reply_of (sent "execute" "{""hdf"":{""command"":""stop""}}" loaded)) = Some (JStr "nack") /\ find_member "params" (reply_of (sent "execute" "{""hdf"":{}}" loaded)) = Some (JObj [("error", JStr "No valid commands found")]).
Proof. vm_compute. auto. Qed.
Example c56_unknown_case : find_member "params" (reply_of (sent "reset" "{}" loaded)) = Some (JObj [("error", JStr (append "Invalid control message: " (string_of_list_ascii (command_text "reset" "{}"))))]) /\
  fst (handle_ctrl writer_env 4 "c" (list_ascii_of_string "{}") loaded) = loaded.
Proof. vm_compute. auto. Qed.

(** ** What does not hold *)
(** A configuration that fails with a message from a library: the refusal has no destination, the client gets no reply. *)
Theorem c56_refused_refuted : exists v n c t s s1 d, polite (P := bool) v /\ asks v t VConfigure 7 /\ handle_ctrl v n c t s = (s1, Ret tt) /\ p_out s1 = p_out s ++ [FNobody d] /\ ~ answered c s s1.
Proof.
  exists writer_env, 4, "c", (command_text "configure" "{""plugin"":{""load"":{""name"":""Writer"",""index"":""hdf"",""library"":""libNone.so""}}}"), (prc_init 0 0). eexists. eexists. split; [exact writer_polite|]. split; [asks_ok|]. split; [vm_compute; reflexivity|]. split; [vm_compute; reflexivity|]. eapply not_answered; [vm_compute; reflexivity|]. constructor; [discriminate|constructor].
Qed.
(** ... and with a parameter of the wrong type there is none at all, although a part of the message was applied. *)
Theorem c56_silent_refuted : exists v n c t s s1, polite (P := bool) v /\ asks v t VConfigure 7 /\ handle_ctrl v n c t s = (s1, Ret tt) /\ p_out s1 = p_out s /\ p_limit s1 = 5%Z /\ p_limit s = 0%Z.
Proof. exists writer_env, 4, "c", (command_text "configure" "{""frames"":5,""debug_level"":""x""}"), (prc_init 0 0). eexists. split; [exact writer_polite|]. split; [asks_ok|]. repeat split; vm_compute; reflexivity. Qed.
(** With a plugin of a name of one character the request for the commands ends the reactor. *)
Theorem c56_short_refuted : exists n c t1 t2 t3 s s1, handle_ctrl writer_env n c t1 s = (s1, Ret tt) /\ answered c s s1 /\ asks writer_env t2 VStatus 7 /\ asks writer_env t3 VRequestCommands 7 /\ snd (handle_ctrl writer_env n c t2 s1) = Throw (PFault (XIpc ERange)) /\ snd (handle_ctrl writer_env n c t3 s1) = Throw (PFault (XIpc ERange)).
Proof.
  exists 4, "c", (command_text "configure" "{""plugin"":{""load"":{""name"":""Writer"",""index"":""h"",""library"":""libWriter.so""}}}"), (command_text "status" "{}"), (command_text "request_commands" "{}"), (prc_init 0 0). eexists. split; [vm_compute; reflexivity|]. split; [exists [FStart "h"]; eexists; vm_compute; reflexivity|]. split; [asks_ok|]. split; [asks_ok|]. split; vm_compute; reflexivity.
Qed.
(** A new control endpoint: the old one stays bound, and cannot be chosen again. *)
Theorem c56_bound_refuted : exists s1 s2 s3, sent "configure" "{""ctrl_endpoint"":""tcp://*:5014""}" loaded = s1 /\ p_ctrl s1 = "tcp://*:5014" /\ p_bound s1 = ["tcp://*:5004"; "tcp://*:5014"] /\ sent "configure" "{""ctrl_endpoint"":""tcp://*:5004""}" s1 = s2 /\ ~ answered "c" s1 s2 /\ p_ctrl s2 = "tcp://*:5014" /\ sent "configure" "{""ctrl_endpoint"":""tcp://*:5014""}" s2 = s3 /\ ~ answered "c" s2 s3.
Proof. do 3 eexists. split; [reflexivity|]. split; [vm_compute; reflexivity|]. split; [vm_compute; reflexivity|]. split; [reflexivity|]. split; [eapply not_answered; [vm_compute; reflexivity|constructor; [discriminate|constructor]]|]. split; [vm_compute; reflexivity|]. split; [reflexivity|]. eapply not_answered; [vm_compute; reflexivity|constructor; [discriminate|constructor]]. Qed.
(** New endpoints of the receiver that cannot be used: the old interface is gone. *)
Theorem c56_receiver_refuted : exists s1 s2, sent "configure" "{""fr_setup"":{""fr_release_cnxn"":""a"",""fr_ready_cnxn"":""b""}}" loaded = s1 /\ k_shm (p_graph s1) <> None /\ sent "configure" "{""fr_setup"":{""fr_release_cnxn"":""c"",""fr_ready_cnxn"":""c""}}" s1 = s2 /\ ~ answered "c" s1 s2 /\ k_shm (p_graph s2) = None /\ k_ends (p_graph s2) = ("a", "b").
Proof. do 2 eexists. split; [reflexivity|]. split; [vm_compute; discriminate|]. split; [reflexivity|]. split; [eapply not_answered; [vm_compute; reflexivity|constructor; [discriminate|constructor]]|]. split; vm_compute; reflexivity. Qed.
(** Two plugins refuse to reset their statistics: one is named. *)
Theorem c56_named_refuted : exists s1 s2, sent "configure" "{""plugin"":{""load"":{""name"":""Writer"",""index"":""raw"",""library"":""libWriter.so""}}}" loaded = s1 /\ sent "execute" "{""hdf"":{""command"":""start""},""raw"":{""command"":""start""}}" s1 = s2 /\
  find_member "params" (reply_of (sent "reset_statistics" "{}" s2)) = Some (JObj [("error", JStr "Failed to reset statistics on plugin raw")]).
Proof. do 2 eexists. split; [reflexivity|]. split; [reflexivity|]. vm_compute. reflexivity. Qed.

Print Assumptions c56_one_reply.
Print Assumptions c56_head.
Print Assumptions c56_illegal.
Print Assumptions c56_unknown.
Print Assumptions c56_reads.
Print Assumptions c56_shutdown.
Print Assumptions c56_configuration.
Print Assumptions c56_status.
Print Assumptions c56_commands.
Print Assumptions c56_version.
Print Assumptions c56_execute.
Print Assumptions c56_reset.
Print Assumptions c56_answered_partial.
Print Assumptions c56_refused_refuted.
Print Assumptions c56_silent_refuted.
Print Assumptions c56_short_refuted.
Print Assumptions c56_bound_refuted.
Print Assumptions c56_receiver_refuted.
Print Assumptions c56_named_refuted.
