(** C62: file writers in a frame processor, as a client sees them. *)
From Coq Require Import String Ascii.
From Verif Require Import Base StrOrder PluginModel CtrlModel JsonModel JsonSpec JsonProofs JsonProps JsonDoubleModel MessageProps PrcModel PrcSpec PrcMoves PrcExec PrcReply PrcAsk PrcProps PrcAskProps PrcSetSpec PrcSet PrcKeep PrcSetProps CfgModel CfgSpec CfgProofs CfgReply PlaceModel NameModel AcqModel FwModel FwSpec FwcModel FwcSpec FwcProofs FwcRestore FwcProps HostSpec HostAccept HostAgain HostProofs.
Local Open Scope string_scope.
Local Open Scope list_scope.

(** ** What clients read *)
(** The configuration of the frame processor has that of each file writer under its name; asking changes no file writer. *)
Theorem c62_reported {P} (v : env P) w look io act dk n c t i d s s1 o j f : hosts v w look io act dk -> courteous v w -> PrcSpec.asks v t VRequestConfiguration i -> named s ["ctrl_endpoint"; "meta_endpoint"; "fr_setup"] ->
  others w s (fun j p => stays_in j (v_request v) p) -> writer w s j f -> presentable f -> handle_ctrl v n c t s = (s1, o) -> replies c d s s1 ->
  (forall q x, param d (j :: q) x <-> leads q (config_json f) x) /\ writer w s1 j f.
Proof.
  intros HO CO A NA OT (G & NM) PR H R. pose proof (host_polite _ _ _ _ _ _ HO CO) as PO. destruct (c56_configuration v n c t i d s s1 o PO A NA) as (_ & _ & _ & _ & K); [|exact H|exact R|].
  { intros k p GK. destruct (OT k p GK) as [(g & -> & E)|X]; [|exact X]. apply (request_stays _ _ _ _ _ _ HO); [|exact E]. apply (proj2 NA), (fst_in _ _ _ GK). }
  destruct (K j _ G) as (p1 & G1 & r & E & -> & RT & PA). subst j. destruct (request_written _ _ _ _ _ _ HO f r) as (r1 & Q & W); [apply (proj2 NA), (fst_in _ _ _ G)|exact PR|exact E|exact RT|]. rewrite Q in G1, PA. cbn [fst snd] in *. split; [|split; [exact G1|reflexivity]]. intros q x. rewrite PA. apply W.
Qed.
(** So has the status; the times of "process" are not those of the file writer. *)
Theorem c62_status {P} (v : env P) w look io act dk n c t i d s s1 o j f : hosts v w look io act dk -> courteous v w -> PrcSpec.asks v t VStatus i -> named s ["plugins"; "error"; "warning"; "shared_memory"] ->
  others w s (fun j p => stays_in j (v_status v) p) -> writer w s j f -> handle_ctrl v n c t s = (s1, o) -> replies c d s s1 ->
  (forall q x, untimed q -> (param d (j :: q) x <-> leads q (status_json f) x)) /\ timing_of d j (v_perf v (w f)) /\ writer w s1 j f.
Proof.
  intros HO CO A NA OT (G & NM) H R. pose proof (host_polite _ _ _ _ _ _ HO CO) as PO. destruct (c56_status v n c t i d s s1 o PO A NA) as (_ & K & _); [|exact H|exact R|].
  { intros k p GK. destruct (OT k p GK) as [(g & -> & E)|X]; [|exact X]. apply (status_stays _ _ _ _ _ _ HO); [|exact E]. apply (proj2 NA), (fst_in _ _ _ GK). }
  destruct (K j _ G) as (p1 & G1 & (r & E & -> & RT & PA) & TI). subst j. destruct (status_written _ _ _ _ _ _ HO f r) as (r1 & Q & W); [apply (proj2 NA), (fst_in _ _ _ G)|exact E|exact RT|]. rewrite Q in G1, PA, TI. cbn [fst snd] in *. split; [|split; [exact TI|split; [exact G1|reflexivity]]]. intros q x U. rewrite (PA q x U). apply W.
Qed.
(** Both are answered. *)
Theorem c62_answered_partial {P} (v : env P) w look io act dk n c t u i s : hosts v w look io act dk -> courteous v w -> PrcSpec.asks v t u i -> named s ["plugins"; "error"; "warning"; "shared_memory"; "ctrl_endpoint"; "meta_endpoint"; "fr_setup"] ->
  u = VRequestConfiguration /\ all_plugins s (fun j p => (exists f, p = w f /\ x_name f = j /\ presentable f) \/ willing j (v_request v) p) \/ u = VStatus /\ others w s (fun j p => obliging j (v_status v) p) ->
  exists s1 d, handle_ctrl v n c t s = (s1, Ret tt) /\ p_out s1 = p_out s ++ [FReply c d].
Proof.
  intros HO CO A NA K. apply (c56_answered_partial v n c t u i s (host_polite _ _ _ _ _ _ HO CO) A NA). assert (NI : forall j p, sm_get (p_objs s) j = Some p -> nice j) by (intros j p G; apply (proj2 NA), (fst_in _ _ _ G)). destruct K as [(-> & K)|(-> & K)]; [left|right; left]; (split; [reflexivity|]); intros j p G; specialize (K j p G).
  - destruct K as [(f & -> & E & PR)|X]; [|exact X]. apply (request_willing _ _ _ _ _ _ HO); [apply (NI j _ G)|exact E|exact PR].
  - destruct K as [(f & -> & E)|X]; [|exact X]. apply (status_obliging _ _ _ _ _ _ HO); [apply (NI j _ G)|exact E].
Qed.

(** ** What clients set *)
(** A file writer and its section of the message *)
Definition set_by (look : string -> place) (x : json) (j : string) (f f1 : fwx) : Prop :=
  (exists y, leads [j] x y /\ applied look y f f1 /\ rest_same f f1 /\ w_out (x_fw f1) = w_out (x_fw f)) \/ ((forall y, ~ leads [j] x y) /\ f1 = f).
Lemma given_set {P} (v : env P) w look io act dk x j f p1 : hosts v w look io act dk -> section_given v x j (w f) p1 -> exists f1, p1 = w f1 /\ x_name f1 = x_name f /\ set_by look x j f f1.
Proof.
  intros HO [(y & m & r & L & HM & _ & _ & C)|(N & ->)]; [|exists f; split; [reflexivity|]; split; [reflexivity|right; auto]]. rewrite (ho_configure _ _ _ _ _ _ HO) in C. destruct (fwx_configure look (v_now v) m f r) as [[f1 r1] o] eqn:E. injection C as <- ->.
  assert (PM : params_of m = Some y). { apply holds_param in HM. unfold at_param in HM. cbn in HM. unfold params_of. destruct (find_member "params" (g_doc m)); exact HM. }
  destruct (c60_applied look (v_now v) m y f r f1 r1 PM E) as (A & RS & W & _). exists f1. split; [reflexivity|]. split; [apply RS|]. left. exists y. auto.
Qed.
(** A message that gets a reply: each file writer has the settings of its section, others are unchanged. *)
Theorem c62_configured {P} (v : env P) w look io act dk n c te x s s1 o j f : hosts v w look io act dk -> courteous v w -> carries v te x -> (forall z, ~ leads ["execute"] x z) -> matched s -> handle_ctrl v (S n) c te s = (s1, o) -> answered c s s1 -> nice j ->
  writer w s j f -> exists f1, writer w s1 j f1 /\ set_by look x j f f1.
Proof.
  intros HO CO C NE M H AN (SL & NU & _) (G & NM). pose proof (c58_plugins v n c te x s s1 o j (host_polite _ _ _ _ _ _ HO CO) C NE M H AN SL NU) as K. rewrite G in K. destruct K as (p1 & G1 & K). rewrite <- NM.
  assert (SG : section_given v x j (w f) p1) by (destruct K as [(_ & K)|(_ & K)]; [rewrite (ho_clear _ _ _ _ _ _ HO) in K|]; exact K). destruct (given_set _ _ _ _ _ _ _ _ _ _ HO SG) as (f1 & -> & E & S). exists f1. rewrite NM. split; [split; [exact G1|congruence]|exact S].
Qed.
(** One that loads a file writer: it is there, with the settings of its section. *)
Theorem c62_loaded {P} (v : env P) w look io act dk n c te x s s1 o j : hosts v w look io act dk -> courteous v w -> carries v te x -> (forall z, ~ leads ["execute"] x z) -> matched s -> handle_ctrl v (S n) c te s = (s1, o) -> answered c s s1 -> nice j ->
  asks_load x [Load j "FileWriterPlugin" true] -> sm_get (p_objs s) j = None -> exists f1, writer w s1 j f1 /\ set_by look x j (fwx_init j act dk) f1.
Proof.
  intros HO CO C NE M H AN (SL & NU & _) AL G. pose proof (c58_plugins v n c te x s s1 o j (host_polite _ _ _ _ _ _ HO CO) C NE M H AN SL NU) as K. rewrite G in K. destruct (sm_get (p_objs s1) j) as [p1|] eqn:G1; [|destruct (K _ AL)]. destruct K as (k & p & A2 & MK & SG). destruct (load_one _ _ _ _ _ AL A2) as (_ & <-).
  rewrite (ho_make _ _ _ _ _ _ HO) in MK. injection MK as <-. destruct (given_set _ _ _ _ _ _ _ _ _ _ HO SG) as (f1 & -> & E & S). exists f1. split; [split; [exact G1|exact E]|exact S].
Qed.
(** A message with sections that suit is acknowledged.  Missing: messages with other sections, of which any step may fail. *)
Theorem c62_accepted_partial {P} (v : env P) w look io act dk n c te x s : hosts v w look io act dk -> courteous v w -> carries v te x -> for_plugins x -> master_read x -> named s [] ->
  all_plugins s (fun j p => forall y, leads [j] x y -> (exists f, p = w f /\ suits look f y) \/ takes v p y) ->
  exists s1 d, handle_ctrl v (S n) c te s = (s1, Ret tt) /\ replies c d s s1 /\ says d "msg_type" (JStr "ack").
Proof.
  intros HO CO C FP MR (OK & NA) A. pose proof (host_polite _ _ _ _ _ _ HO CO) as PO. destruct (carried v te x C) as (m & MT & T & V & PX). destruct (strict_id v te m MT) as (id & ID).
  destruct (configure_live v n m x (started v m s) PX FP MR OK) as (sa & CF & RE).
  { intros p E. injection E as <-. eexists. reflexivity. }
  { intros j p G. destruct (NA j (fst_in _ _ _ G)) as ((SL & NU & _) & _). split; [split; assumption|]. intros y L. destruct (A j p G y L) as [(f & -> & S)|T']; [|exact T']. eapply writer_takes; eassumption. }
  pose proof (does_configure v (S n) m (started v m s)) as MV. rewrite CF in MV. cbn [fst] in MV. destruct (moves_out v _ _ _ MV) as (ml & MO & MF). change (p_out (started v m s)) with (p_out s) in MO.
  destruct (handle_configure v PO (S n) c te m s sa _ MT T V CF) as [(_ & s3 & d & HC & EN & E3 & _)|(N & _)]; [|congruence]. exists s3, d. split; [exact HC|].
  destruct RE as (_ & RT & _ & RI). assert (HI : g_id (p_reply sa) = Some id) by (rewrite RI; exact ID). destruct (encode_says _ _ _ _ HI EN) as (_ & _ & SY & _). rewrite RT in SY. split; [|exact SY]. exists ml. split; [rewrite E3; cbn; rewrite MO, <- app_assoc; reflexivity|]. intros e I. rewrite Forall_forall in MF. apply MF, I.
Qed.
(** Loading an index that is taken is acknowledged, and changes nothing. *)
Theorem c62_again {P} (v : env P) w look io act dk n c te i k b s : hosts v w look io act dk -> courteous v w -> carries v te (load_again i k b) -> named s [] -> matched s -> sm_get (p_objs s) (cstr i) <> None ->
  all_plugins s (fun j _ => j <> "plugin") ->
  exists s1 d, handle_ctrl v (S n) c te s = (s1, Ret tt) /\ replies c d s s1 /\ says d "msg_type" (JStr "ack") /\ p_objs s1 = p_objs s /\ p_graph s1 = p_graph s.
Proof. intros HO CO. apply loaded_again. exact (host_polite _ _ _ _ _ _ HO CO). Qed.
(** A path that cannot be written to is refused, and the old one kept. *)
Theorem c62_path {P} (v : env P) w look io act dk n c te x d s s1 o j f t : hosts v w look io act dk -> courteous v w -> carries v te x -> (forall z, ~ leads ["execute"] x z) -> matched s -> handle_ctrl v (S n) c te s = (s1, o) -> replies c d s s1 -> nice j ->
  writer w s j f -> leads [j; "file"; "path"] x (JStr t) -> look (cstr t) <> Writable -> says d "msg_type" (JStr "nack") /\ exists f1, writer w s1 j f1 /\ p_path (next f1) = p_path (next f).
Proof.
  intros HO CO C NE M H R NJ WR L LK. assert (AN : answered c s s1) by (destruct R as (l & R & _); exists l, d; exact R). pose proof (host_polite _ _ _ _ _ _ HO CO) as PO.
  assert (LY : exists y, leads [j] x y /\ leads ["file"; "path"] y (JStr t)). { apply leads_at in L. cbn [at_path] in L. destruct x as [| | | | | |l]; try discriminate. destruct (find_member j l) as [y|] eqn:F; [|discriminate]. exists y. split; apply leads_at; [cbn; rewrite F; reflexivity|exact L]. }
  destruct LY as (y & LY & LP). split.
  - apply (c58_reply v n c te x d s s1 o PO C NE M H R). destruct WR as (G & NM). exists j, (w f), y. split.
    { destruct (at_path ["clear_errors"] x) as [z|] eqn:Z; [rewrite <- (ho_clear _ _ _ _ _ _ HO); eapply ad_cleared; [exact G|apply leads_at, Z]|apply ad_there; [exact G|apply no_lead, Z]]. }
    destruct NJ as (SL & NU & _). split; [exact SL|]. split; [exact NU|]. split; [exact LY|]. intros m r HM _ _ RT. rewrite (ho_configure _ _ _ _ _ _ HO) in *. destruct (fwx_configure look (v_now v) m f r) as [[f1 r1] q] eqn:E. cbn [fst snd] in *. subst q.
    assert (PM : params_of m = Some y). { apply holds_param in HM. unfold at_param in HM. cbn in HM. unfold params_of. destruct (find_member "params" (g_doc m)); exact HM. }
    destruct (c60_applied look (v_now v) m y f r f1 r1 PM E) as (_ & _ & _ & [(_ & _ & _ & _ & (TN & _))|(X & _)]); [exact TN|]. exfalso. unfold FwcSpec.refusal in X. destruct (look (cstr t)) eqn:LT; try congruence; (eapply X; [exact LP|rewrite LT; reflexivity]).
  - destruct (c62_configured v w look io act dk n c te x s s1 o j f HO CO C NE M H AN NJ WR) as (f1 & W1 & [(y' & L' & A & _)|(X & _)]); [|destruct (X y LY)]. exists f1. split; [exact W1|]. assert (y' = y) as -> by (eapply leads_one; eassumption). pose proof (ap_path _ _ _ _ A) as GP. apply given_at in GP. apply leads_at in LP. rewrite LP in GP. cbn in GP. injection GP as <-. unfold accepted. destruct (look (cstr t)) eqn:LT; congruence.
Qed.

(** ** Commands *)
Lemma executed_by {P} (v : env P) w look io act dk n c t m i d s s1 o j f u : hosts v w look io act dk -> courteous v w -> msg_of_text (v_clock v) t true = Ret m -> g_type m = TCmd -> g_val m = VExecute -> g_id m = Some i -> named s [] -> handle_ctrl v n c t s = (s1, o) -> replies c d s s1 ->
  writer w s j f -> holds m [j; "command"] (JStr u) -> exists r f1 r1, fwx_execute io (cstr u) f r = (f1, r1, Ret tt) /\ sm_get (p_objs s1) j = Some (w f1).
Proof.
  intros HO CO MT T V I NA H R (G & NM) HU. destruct (c56_execute v n c t m i d s s1 o (host_polite _ _ _ _ _ _ HO CO) MT T V I NA H R) as (K & _). destruct (K j _ G) as [(u' & r & HU' & G1 & RT)|(X & _)]; [|destruct (X _ HU)]. apply holds_param in HU, HU'. rewrite HU in HU'. injection HU' as <-.
  rewrite (ho_execute _ _ _ _ _ _ HO) in G1, RT. destruct (fwx_execute io (cstr u) f r) as [[f1 r1] q] eqn:E. cbn [fst snd] in *. subst q. exists r, f1, r1. auto.
Qed.
Lemma execute_other io c f r : ~ In c fwx_commands -> exists r1 q, fwx_execute io c f r = (f, r1, q) /\ g_type r1 = TNack.
Proof.
  intros NC. unfold fwx_execute. destruct (String.eqb_spec c "start_writing") as [->|_]; [destruct NC; cbn; tauto|]. destruct (String.eqb_spec c "stop_writing") as [->|_]; [destruct NC; cbn; tauto|]. unfold cseq, base. change (fw_execute io CmdOther (x_fw f)) with (x_fw f, @Ret fexn unit tt). cbv beta iota. rewrite w_fw_id. unfold cnack, set_nack.
  match goal with |- context [set_param ?a ?b ?x] => pose proof (set_param_keeps a b x) as (_ & _ & K); destruct (set_param a b x) as (r1 & q) end. cbn [fst g_type] in K. exists r1. eexists. split; [reflexivity|]. destruct K; assumption.
Qed.
Lemma execute_name io c f r : x_name (fst (fst (fwx_execute io c f r))) = x_name f.
Proof.
  destruct (in_dec string_dec c fwx_commands) as [[<-|[<-|[]]]|N]; [unfold fwx_execute; cbn [String.eqb Ascii.eqb Bool.eqb]; unfold base; destruct (fw_execute _ _ _); reflexivity..|]. destruct (execute_other io c f r N) as (r1 & q & -> & _). reflexivity.
Qed.
(** Stopping: the file writer does not write any more, its files and settings are as before. *)
Theorem c62_stopped {P} (v : env P) w look io act dk n c t m i d s s1 o j f u : hosts v w look io act dk -> courteous v w -> msg_of_text (v_clock v) t true = Ret m -> g_type m = TCmd -> g_val m = VExecute -> g_id m = Some i -> named s [] -> handle_ctrl v n c t s = (s1, o) -> replies c d s s1 ->
  writer w s j f -> holds m [j; "command"] (JStr u) -> cstr u = "stop_writing" -> exists f1, writer w s1 j f1 /\ w_writing (x_fw f1) = false /\ w_disk (x_fw f1) = w_disk (x_fw f) /\ next f1 = next f /\ geometry f1 = geometry f.
Proof.
  intros HO CO MT T V I NA H R WR HU E. destruct (executed_by v w look io act dk n c t m i d s s1 o j f u HO CO MT T V I NA H R WR HU) as (r & f1 & r1 & X & G1). pose proof (execute_name io (cstr u) f r) as NM. rewrite X in NM. cbn in NM. rewrite E in X. destruct (c61_stop _ _ _ _ _ _ X) as (A & _ & B & C & D). exists f1. split; [split; [exact G1|rewrite NM; apply WR]|auto].
Qed.
(** Starting: the file writer writes with the settings it had, unless no frames are expected or there is no name. *)
Theorem c62_started {P} (v : env P) w look io act dk n c t m i d s s1 o j f u : hosts v w look io act dk -> courteous v w -> msg_of_text (v_clock v) t true = Ret m -> g_type m = TCmd -> g_val m = VExecute -> g_id m = Some i -> named s [] -> handle_ctrl v n c t s = (s1, o) -> replies c d s s1 ->
  writer w s j f -> holds m [j; "command"] (JStr u) -> cstr u = "start_writing" -> w_writing (x_fw f) = false -> exists f1, writer w s1 j f1 /\
    ((w_writing (x_fw f1) = true /\ next f1 = no_prep /\ exists k, calc_num_frames (geometry f) (p_total (next f)) = Ret k /\
        settings (w_cur (x_fw f1)) = (geometry f, naming_next f, p_path (next f), w_master (x_fw f), p_total (next f), k, w_defs (x_fw f))) \/
     (w_writing (x_fw f1) = false /\ (expects_none (next f) \/ generate_filename (naming_next f) (g_rank (geometry f)) = ""))).
Proof.
  intros HO CO MT T V I NA H R WR HU E W. destruct (executed_by v w look io act dk n c t m i d s s1 o j f u HO CO MT T V I NA H R WR HU) as (r & f1 & r1 & X & G1). pose proof (execute_name io (cstr u) f r) as NM. rewrite X in NM. cbn in NM. rewrite E in X. exists f1. split; [split; [exact G1|rewrite NM; apply WR]|].
  destruct (c61_start _ _ _ _ _ _ W X ltac:(discriminate)) as [(A & _ & _ & B & C)|(A & [B|[B|(e & B)]])]; [left; auto|right; auto|right; auto|discriminate].
Qed.
(** Another command is refused; the file writer is as before. *)
Theorem c62_unknown {P} (v : env P) w look io act dk n c t m i d s s1 o j f u : hosts v w look io act dk -> courteous v w -> msg_of_text (v_clock v) t true = Ret m -> g_type m = TCmd -> g_val m = VExecute -> g_id m = Some i -> named s [] -> handle_ctrl v n c t s = (s1, o) -> replies c d s s1 ->
  writer w s j f -> holds m [j; "command"] (JStr u) -> ~ In (cstr u) fwx_commands -> says d "msg_type" (JStr "nack") /\ writer w s1 j f.
Proof.
  intros HO CO MT T V I NA H R (G & NM) HU NC.
  pose proof (fun r => execute_other io (cstr u) f r NC) as EX.
  split.
  - apply (c56_execute v n c t m i d s s1 o (host_polite _ _ _ _ _ _ HO CO) MT T V I NA H R). exists j, (w f), u. split; [exact G|]. split; [exact HU|]. intros r _. rewrite (ho_execute _ _ _ _ _ _ HO). destruct (EX r) as (r1 & q & -> & TN). exact TN.
  - destruct (executed_by v w look io act dk n c t m i d s s1 o j f u HO CO MT T V I NA H R (conj G NM) HU) as (r & f1 & r1 & X & G1). destruct (EX r) as (r2 & q & X2 & _). rewrite X in X2. injection X2 as -> _ _. split; [exact G1|exact NM].
Qed.
(** Statistics are always reset; the durations that file writers report are then 0. *)
Theorem c62_reset {P} (v : env P) w look io act dk n c t i s : hosts v w look io act dk -> courteous v w -> PrcSpec.asks v t VResetStatistics i -> sm_ok (p_objs s) ->
  exists s1 d, handle_ctrl v n c t s = (s1, Ret tt) /\ p_out s1 = p_out s ++ [FReply c d] /\ forall j f, writer w s j f -> exists f1, writer w s1 j f1 /\ x_fw f1 = x_fw f /\ config_json f1 = config_json f /\ forall k x, leads ["timing"; k] (status_json f1) x -> x = JInt 0.
Proof.
  intros HO CO A OK. destruct (c56_reset v n c t i s (host_polite _ _ _ _ _ _ HO CO) A OK) as (s1 & d & H & OU & K & _). exists s1, d. split; [exact H|]. split; [exact OU|]. intros j f (G & NM). specialize (K j _ G). cbv beta in K. rewrite (ho_perf _ _ _ _ _ _ HO), (ho_reset _ _ _ _ _ _ HO) in K. destruct (fwx_reset f) as (f1 & b) eqn:E. cbn [fst] in K.
  destruct (c61_reset f f1 b E) as (_ & A1 & A2 & _ & A3 & _). exists f1. split; [split; [exact K|]|auto]. unfold fwx_reset in E. injection E as <- _. exact NM.
Qed.

(** ** Whole lives *)
(** In a frame processor at work, whatever the messages: plugins are file writers that are in states of C14 to C17, with fitting numbers and texts and their own names, or others; file writers can be connected. *)
Theorem c62_lived {P} (v : env P) w look io act dk work O depth Q limit debug s : hosts v w look io act dk -> separate v w work O -> running v w work depth io Q limit debug s ->
  matched s /\ forall j p, sm_get (p_objs s) j = Some p ->
    (exists f, p = w f /\ writer w s j f /\ sane f /\ exists l rs, Forall (op_ok (eq io) Q) l /\ fw_run (fw_init act dk) l = (x_fw f, rs) /\ ~ In Undef rs) \/ O j p.
Proof.
  intros HO SE RU. destruct (running_fine v w look io act dk Q work O HO SE depth limit debug s RU) as (M & F). split; [exact M|]. intros j p G. destruct (F j p G) as [(f & -> & L)|X]; [left|right; exact X]. destruct (c60_lived _ _ _ _ _ _ L) as (A & B & NM). exists f. split; [reflexivity|]. split; [split; assumption|]. split; [exact B|exact A].
Qed.
(** What one frame processor reports of a file writer, sent to a file writer of another: acknowledged, and that one has the same settings.  Missing: as in C60, numbers of 2^31 and more, paths that cannot be written to, names of data sets with slashes, definitions with dimensions and no chunks; indexes are not reported. *)
Theorem c62_restored_partial {P P'} (v : env P) (v' : env P') w w' look look' io io' act act' dk dk' n n' c c' t te i d s s1 s' o j k f f' y : hosts v w look io act dk -> courteous v w -> hosts v' w' look' io' act' dk' -> courteous v' w' ->
  PrcSpec.asks v t VRequestConfiguration i -> named s ["ctrl_endpoint"; "meta_endpoint"; "fr_setup"] -> others w s (fun j p => stays_in j (v_request v) p) -> writer w s j f -> sane f -> restorable f -> handle_ctrl v n c t s = (s1, o) -> replies c d s s1 -> param d [j] y ->
  carries v' te (JObj [(k, y)]) -> ~ In k reserved -> named s' [] -> matched s' -> writer w' s' k f' -> w_defs (x_fw f') = [] -> (w_writing (x_fw f') = true -> geometry f' = geometry f) -> look' (p_path (next f)) = Writable ->
  exists s1' d' f1, handle_ctrl v' (S n') c' te s' = (s1', Ret tt) /\ replies c' d' s' s1' /\ says d' "msg_type" (JStr "ack") /\ writer w' s1' k f1 /\ restored f f1 /\ rest_same f' f1.
Proof.
  intros HO CO HO' CO' A NA OT WR SA RS H R PY CA NK NA' M WR' ND WG LK. 
  destruct (c62_reported v w look io act dk n c t i d s s1 o j f HO CO A NA OT WR (conj SA (rs_names f RS)) H R) as (K & _). apply K in PY. apply leads_at in PY. cbn in PY. injection PY as <-.
  assert (ONE : forall q z, leads [q] (JObj [(k, config_json f)]) z -> q = k /\ z = config_json f). { intros q z L. apply leads_at in L. cbn -[config_json String.eqb] in L. destruct (String.eqb_spec k q) as [->|_]; [injection L as <-; auto|discriminate]. }
  assert (SU : suits look' f' (config_json f)).
  { split; [apply config_well_formed; assumption|]. intros tt' L. apply leads_at in L. rewrite at_settings in L by (cbn; tauto). cbn in L. injection L as <-. destruct (sn_next f SA) as (NP & _). rewrite !(cstr_id _ NP). exact LK. }
  destruct (c62_accepted_partial v' w' look' io' act' dk' n' c' te _ s' HO' CO' CA) as (s1' & d' & H' & R' & SY).
  - split; [eexists; reflexivity|]. intros q I z L. apply ONE in L as (-> & _). contradiction.
  - intros z L. apply ONE in L as (_ & ->). split; [eexists; reflexivity|]. intros m L. apply leads_at in L. rewrite at_settings in L by (cbn; tauto). cbn in L. injection L as <-. eexists. reflexivity.
  - exact NA'.
  - intros q p G z L. apply ONE in L as (-> & ->). left. exists f'. split; [|exact SU]. destruct WR' as (G' & _). congruence.
  - assert (AN : answered c' s' s1') by (destruct R' as (l & R' & _); exists l, d'; exact R').
    assert (NE : forall z, ~ leads ["execute"] (JObj [(k, config_json f)]) z). { intros z L. apply ONE in L as (E & _). apply NK. rewrite <- E. cbn. tauto. }
    destruct (c62_configured v' w' look' io' act' dk' n' c' te _ s' s1' _ k f' HO' CO' CA NE M H' AN (proj1 (proj2 NA' k (fst_in _ _ _ (proj1 WR')))) WR') as (f1 & W1 & S).
    destruct S as [(z & L & AP & RE & _)|(X & _)]; [|exfalso; apply (X (config_json f)), leads_at; cbn -[config_json String.eqb]; rewrite String.eqb_refl; reflexivity]. apply ONE in L as (_ & ->). exists s1', d', f1. split; [exact H'|]. split; [exact R'|]. split; [exact SY|]. split; [exact W1|]. split; [exact (applied_restored look' f f' f1 SA RS LK ND AP)|exact RE].
Qed.

(** ** Examples *)
(** File writers and plugins that do nothing *)
Definition writers_env : env (fwx + unit) :=
  Env (fun o m r => match o with inl s => let '(s1, r1, q) := fwx_configure places 5 m s r in (inl s1, r1, q) | inr _ => (o, r, Ret tt) end)
      (fun o r => match o with inl s => let '(s1, r1, q) := fwx_request s r in (inl s1, r1, q) | inr _ => (o, r, Ret tt) end)
      (fun o n r => match o with inl s => let '(s1, r1, q) := fwx_execute io_ok n s r in (inl s1, r1, q) | inr _ => (o, r, Ret tt) end)
      (fun o r => match o with inl s => let '(s1, r1, q) := fwx_status s r in (inl s1, r1, q) | inr _ => (o, r, Ret tt) end)
      (fun o => match o with inl _ => fwx_commands | inr _ => [] end) (fun o => match o with inl s => let '(s1, b) := fwx_reset s in (inl s1, b) | inr _ => (o, true) end)
      (fun o => o) (fun o => o) (fun o => []) (fun o => []) (fun o => (7, 9, 4617315517961601024)%Z) (fun o => (1, 2, 3, "1.2.3", "1.2.3-5")%Z)
      (fun l => inr ["FileWriterPlugin"; "DummyPlugin"]) (fun c i => if String.eqb c "FileWriterPlugin" then Some (inl (fwx_init i true (fun _ => None))) else Some (inr tt)) (fun i => None)
      (fun b e => None) (fun b e => None) (fun p q => None) true 5%Z a_clock 1%Z 2%Z 3%Z "1.2.3" "1.2.3-4".
Lemma writers_hosts : hosts writers_env inl places io_ok true (fun _ => None).
Proof. split; try reflexivity. intros f g E. injection E as ->. reflexivity. Qed.
Lemma writers_courteous : courteous writers_env inl.
Proof. intros [f|u]; [left; exists f; reflexivity|right]. intros r. split; [intros m|split; [|split; [intros n|]]]; apply head_refl. Qed.
Lemma writers_separate : separate writers_env inl (fun _ o o1 => o1 = o) (fun _ o => o = inr tt).
Proof.
  split.
  - intros j f E. discriminate.
  - intros k j o E. cbn in E. destruct (String.eqb_spec k "FileWriterPlugin") as [->|_]; [left; reflexivity|right]. injection E as <-. reflexivity.
  - intros j o r ->. cbn. auto.
  - intros j o ->. cbn. auto.
  - intros j o o1 -> ->. reflexivity.
Qed.
Definition says_to (w p : string) (s : prc (fwx + unit)) := fst (handle_ctrl writers_env 4 "c" (command_text w p) s).
Definition last_reply (s : prc (fwx + unit)) : list (string * json) := match last (p_out s) FExit with FReply _ d => d | _ => [] end.
Definition load_text (k i : string) : string := ("{""plugin"":{""load"":{""name"":""" ++ k ++ """,""index"":""" ++ i ++ """,""library"":""lib.so""}}}")%string.
Definition two := says_to "configure" (load_text "DummyPlugin" "dummy") (says_to "configure" (load_text "FileWriterPlugin" "hdf") (prc_init 0 0)).
Definition set_text : string := string_of_list_ascii (fst (JsonDoubleModel.emit (JObj [("hdf", all_x); ("dummy", JObj [])]))).
Definition set_up := says_to "configure" set_text two.
Definition set_writer : fwx := match sm_get (p_objs set_up) "hdf" with Some (inl f) => f | _ => fresh end.
(** Its settings are those of [busy] in C60; the message was acknowledged. *)
Example c62_case : writer inl set_up "hdf" set_writer /\ config_json set_writer = config_json busy /\ says (last_reply set_up) "msg_type" (JStr "ack") /\ carries writers_env (command_text "configure" set_text) (JObj [("hdf", all_x); ("dummy", JObj [])]) /\
  for_plugins (JObj [("hdf", all_x); ("dummy", JObj [])]) /\ master_read (JObj [("hdf", all_x); ("dummy", JObj [])]) /\ nice "hdf" /\ nice "dummy".
Proof.
  split; [split; vm_compute; reflexivity|]. split; [vm_compute; reflexivity|]. split; [apply leads_at; vm_compute; reflexivity|]. split; [eexists; split; [vm_compute; reflexivity|]; split; [reflexivity|]; split; [reflexivity|]; apply holds_at; vm_compute; reflexivity|].
  split; [split; [eexists; reflexivity|]; intros k I y L; apply leads_at in L; cbn in I; repeat destruct I as [<-|I]; try destruct I; vm_compute in L; discriminate|].
  split; [intros y L; apply leads_at in L; vm_compute in L; injection L as <-; split; [eexists; reflexivity|]; intros z L; apply leads_at in L; vm_compute in L; discriminate|]. split; apply nice_check; reflexivity.
Qed.
Example c62_again_case : let t := command_text "configure" (load_text "DummyPlugin" "hdf") in (exists b, carries writers_env t (load_again "hdf" "DummyPlugin" b)) /\ named two [] /\ matched two /\ sm_get (p_objs two) (cstr "hdf") <> None /\ all_plugins two (fun j _ => j <> "plugin").
Proof.
  assert (K : forall j, In j (map fst (p_objs two)) -> j = "dummy" \/ j = "hdf"). { intros j I. vm_compute in I. destruct I as [<-|[<-|[]]]; auto. }
  cbv zeta. split; [eexists; eexists; split; [vm_compute; reflexivity|]; split; [reflexivity|]; split; [reflexivity|]; apply holds_at; vm_compute; reflexivity|].
  assert (OK : sm_ok (p_objs two)) by (vm_compute; repeat constructor). split; [|split; [|split; [vm_compute; discriminate|]]].
  - split; [exact OK|]. intros j I. split; [|intros []]. destruct (K j I) as [-> | ->]; apply nice_check; reflexivity.
  - unfold two, says_to. apply sf_handle, sf_handle. split; [exact Logic.I|intros i; split; reflexivity].
  - intros j p G. destruct (K j (fst_in _ _ _ G)) as [-> | ->]; discriminate.
Qed.
Definition a_frame : frame := Frame 4 0 "data" "" T16 CBlosc [512; 1024]%N [] 1 [7%N].
Definition begun_prc := says_to "execute" "{""hdf"":{""command"":""start_writing""}}" set_up.
Definition begun_writer : fwx := match sm_get (p_objs begun_prc) "hdf" with Some (inl f) => f | _ => FwcProps.fresh end.
Definition framed_fw : fw := fst (fw_call (OFrame io_ok io_ok io_ok a_frame) (x_fw begun_writer)).
Definition with_fw (w : fw) (f : fwx) : fwx := FWX w (x_earliest f) (x_threshold f) (x_value f) (x_create f) (x_write f) (x_flush f) (x_close f) (x_blosc f) "/data/run_000008.h5" 0 (fun _ => 3%Z) (x_name f).
Definition framed_prc := w_objs (sm_put (p_objs begun_prc) "hdf" (inl (with_fw framed_fw begun_writer))) begun_prc.
Notation at_work := (running writers_env inl (fun _ o o1 => o1 = o) 4 io_ok (fun _ => True) 0 0).
Lemma at_work_says w p s : at_work s -> snd (handle_ctrl writers_env 4 "c" (command_text w p) s) = Ret tt -> at_work (says_to w p s).
Proof. intros R E. unfold says_to. destruct (handle_ctrl writers_env 4 "c" (command_text w p) s) as (s1 & o) eqn:H. cbn in E. subst o. eapply ru_message; [exact R|exact H]. Qed.
Lemma set_up_at_work : at_work set_up.
Proof. unfold set_up, two. do 3 (apply at_work_says; [|vm_compute; reflexivity]). constructor. Qed.
(** Messages, then a frame that is written *)
Example c62_lived_case : at_work framed_prc /\ a_written (w_cur framed_fw) = 1%N /\ w_writing framed_fw = true /\ sm_get (p_objs framed_prc) "dummy" = Some (inr tt).
Proof.
  split; [|vm_compute; repeat split]. unfold framed_prc, with_fw, framed_fw. destruct (fw_call (OFrame io_ok io_ok io_ok a_frame) (x_fw begun_writer)) as (fw & o) eqn:E. cbn [fst].
  eapply (ru_frame _ _ _ _ _ _ _ _ begun_prc "hdf" begun_writer (OFrame io_ok io_ok io_ok a_frame) fw o); [|vm_compute; reflexivity|intros []|cbn; auto|exact E|]; [apply at_work_says; [exact set_up_at_work|vm_compute; reflexivity]|].
  intros ->. apply (f_equal snd) in E. vm_compute in E. discriminate.
Qed.
(** What it reports, sent to a file writer of another name in another frame processor *)
Definition asked := says_to "request_configuration" "{}" set_up.
Definition alone := says_to "configure" (load_text "FileWriterPlugin" "raw") (prc_init 0 0).
Definition copy_text : string := string_of_list_ascii (fst (JsonDoubleModel.emit (JObj [("raw", config_json set_writer)]))).
Lemma replies_last (s s1 : prc (fwx + unit)) : p_out s1 = p_out s ++ [FReply "c" (last_reply s1)] -> replies "c" (last_reply s1) s s1. Proof. intros H. exists []. split; [exact H|intros e []]. Qed.
Lemma two_plugins : p_objs set_up = [("dummy", inr tt); ("hdf", inl set_writer)]. Proof. vm_compute. reflexivity. Qed.
Lemma alone_plugins : p_objs alone = [("raw", inl (fwx_init "raw" true (fun _ => None)))]. Proof. vm_compute. reflexivity. Qed.
Lemma named_as (s : prc (fwx + unit)) l k : sm_ok (p_objs s) -> map fst (p_objs s) = k -> forallb (fun i => path_check [i] && negb (existsb (String.eqb i) l)) k = true -> named s l.
Proof.
  intros OK E F. split; [exact OK|]. rewrite E. intros i I. rewrite forallb_forall in F. specialize (F i I). apply andb_true_iff in F as (A & B). split; [apply nice_check, A|]. intros X. apply negb_true_iff in B. assert (existsb (String.eqb i) l = true) by (apply existsb_exists; exists i; split; [exact X|apply String.eqb_refl]). congruence.
Qed.
Ltac not_in := let H := fresh in intros H; cbn in H; repeat destruct H as [H|H]; try discriminate; exact H.
Example c62_restored_case : PrcSpec.asks writers_env (command_text "request_configuration" "{}") VRequestConfiguration 7 /\ named set_up ["ctrl_endpoint"; "meta_endpoint"; "fr_setup"] /\ others inl set_up (fun j p => stays_in j (v_request writers_env) p) /\
  writer inl set_up "hdf" set_writer /\ sane set_writer /\ restorable set_writer /\ handle_ctrl writers_env 4 "c" (command_text "request_configuration" "{}") set_up = (asked, Ret tt) /\ replies "c" (last_reply asked) set_up asked /\ param (last_reply asked) ["hdf"] (config_json set_writer) /\
  carries writers_env (command_text "configure" copy_text) (JObj [("raw", config_json set_writer)]) /\ ~ In "raw" reserved /\ named alone [] /\ matched alone /\ writer inl alone "raw" (fwx_init "raw" true (fun _ => None)) /\ places (p_path (next set_writer)) = Writable /\
  says (last_reply (says_to "configure" copy_text alone)) "msg_type" (JStr "ack").
Proof.
  split; [asks_ok|]. split; [apply (named_as _ _ ["dummy"; "hdf"]); [vm_compute; auto|rewrite two_plugins; reflexivity|vm_compute; reflexivity]|]. split.
  { intros j p G. apply sm_get_in in G. rewrite two_plugins in G. destruct G as [G|[G|[]]]; [injection G as <- <-; right|left; exists set_writer; split; [congruence|]; assert (j = "hdf") as -> by congruence; vm_compute; reflexivity]. intros r q x _ _. cbn. split; auto. }
  split; [split; vm_compute; reflexivity|]. split.
  { destruct (c62_lived writers_env inl places io_ok true (fun _ => None) _ _ 4 _ 0%Z 0%Z set_up writers_hosts writers_separate set_up_at_work) as (_ & K). destruct (K "hdf" (inl set_writer)) as [(f & E & _ & S & _)|E]; [vm_compute; reflexivity| |discriminate]. rewrite <- (ho_one _ _ _ _ _ _ writers_hosts _ _ E) in S. exact S. }
  split.
  { assert (E : w_defs (x_fw set_writer) = w_defs (x_fw busy)) by (vm_compute; reflexivity). pose proof busy_restorable as B. split.
    - vm_compute. discriminate.
    - vm_compute. reflexivity.
    - rewrite E. apply B.
    - rewrite E. apply B.
    - assert (E2 : w_defs (x_fw set_writer) = [DsDef "data" T16 CBlosc [512; 1024]%N [1; 512; 1024]%N true; DsDef "mask" T8 CNone [] [1]%N false]) by (vm_compute; reflexivity). rewrite E2. intros d [<-|[<-|[]]]; vm_compute; repeat split. }
  split; [unfold asked, says_to; vm_compute; reflexivity|]. split; [apply replies_last; vm_compute; reflexivity|]. split; [apply leads_at; vm_compute; reflexivity|].
  split; [eexists; split; [vm_compute; reflexivity|]; split; [reflexivity|]; split; [reflexivity|]; apply holds_at; vm_compute; reflexivity|]. split; [not_in|].
  split; [apply (named_as _ _ ["raw"]); [vm_compute; auto|rewrite alone_plugins; reflexivity|vm_compute; reflexivity]|].
  split; [unfold alone, says_to; apply sf_handle; split; [exact Logic.I|intros i; split; reflexivity]|]. split; [split; vm_compute; reflexivity|]. split; [vm_compute; reflexivity|]. apply leads_at. vm_compute. reflexivity.
Qed.
(** Commands and refusals *)
Example c62_commands_case : let stopped := says_to "execute" "{""hdf"":{""command"":""stop_writing""}}" framed_prc in let odd := says_to "execute" "{""hdf"":{""command"":""restart""}}" framed_prc in let lost := says_to "configure" "{""hdf"":{""file"":{""path"":""/nowhere""}}}" set_up in
  replies "c" (last_reply begun_prc) set_up begun_prc /\ w_writing (x_fw begun_writer) = true /\ replies "c" (last_reply stopped) framed_prc stopped /\ (exists f, writer inl stopped "hdf" f /\ w_writing (x_fw f) = false) /\
  replies "c" (last_reply odd) framed_prc odd /\ says (last_reply odd) "msg_type" (JStr "nack") /\ replies "c" (last_reply lost) set_up lost /\ says (last_reply lost) "msg_type" (JStr "nack") /\
  exists y, leads ["timing"; "max_flush"] (status_json (with_fw framed_fw begun_writer)) y /\ y = JInt 3.
Proof.
  cbv zeta. split; [apply replies_last; vm_compute; reflexivity|]. split; [vm_compute; reflexivity|]. split; [apply replies_last; vm_compute; reflexivity|]. split.
  { exists (match sm_get (p_objs (says_to "execute" "{""hdf"":{""command"":""stop_writing""}}" framed_prc)) "hdf" with Some (inl f) => f | _ => FwcProps.fresh end). split; [split; vm_compute; reflexivity|vm_compute; reflexivity]. }
  split; [apply replies_last; vm_compute; reflexivity|]. split; [apply leads_at; vm_compute; reflexivity|]. split; [apply replies_last; vm_compute; reflexivity|]. split; [apply leads_at; vm_compute; reflexivity|]. eexists. split; [apply leads_at; vm_compute; reflexivity|reflexivity].
Qed.

Print Assumptions c62_reported.
Print Assumptions c62_status.
Print Assumptions c62_answered_partial.
Print Assumptions c62_configured.
Print Assumptions c62_loaded.
Print Assumptions c62_accepted_partial.
Print Assumptions c62_again.
Print Assumptions c62_path.
Print Assumptions c62_stopped.
Print Assumptions c62_started.
Print Assumptions c62_unknown.
Print Assumptions c62_reset.
Print Assumptions c62_lived.
Print Assumptions c62_restored_partial.
