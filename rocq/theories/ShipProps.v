(** C68: a frame processor with the plugins of the distribution, as a client sees it. *)
From Coq Require Import String Ascii.
From Verif Require Import Base StrOrder PluginModel CtrlModel JsonModel JsonSpec JsonProofs JsonProps JsonDoubleModel MessageProps PrcModel PrcSpec PrcMoves PrcExec PrcReply PrcAsk PrcProps PrcAskProps PrcSetSpec PrcSet PrcKeep PrcSetProps CfgModel CfgSpec CfgProofs CfgReply FrameModel AdjModel LiveModel GapModel BloscModel KafkaModel PlaceModel NameModel AcqModel FwModel FwSpec FwcModel FwcSpec FwcProofs FwcRestore FwcProps HostSpec HostAccept HostProofs HostProps PcfModel PcfSpec PcfProofs PcfFit PcfAsk PcfRestore PcfProps ShipSpec ShipProofs.
Local Open Scope string_scope.
Local Open Scope list_scope.

Lemma named_less {P} (s : prc P) l k : incl l k -> named s k -> named s l.
Proof. intros I (OK & N). split; [exact OK|]. intros i J. destruct (N i J) as (A & B). split; [exact A|]. intros X. apply B, I, X. Qed.
Lemma named_nice {P} (s : prc P) l j p : named s l -> sm_get (p_objs s) j = Some p -> nice j.
Proof. intros (_ & N) G. apply N, (fst_in _ _ _ G). Qed.
Ltac lesser := let x := fresh in let H := fresh in intros x H; cbn in H |- *; tauto.

(** ** What clients read *)
(** Whoever asks for the configuration gets it, with the settings of each plugin under its name; asking changes no plugin. *)
Theorem c68_reported {P} (v : env P) w u W look io act dk n c t i s : shop v w u W look io act dk -> PrcSpec.asks v t VRequestConfiguration i -> apart_named s -> in_order w u s ->
  exists s1 d, handle_ctrl v n c t s = (s1, Ret tt) /\ p_out s1 = p_out s ++ [FReply c d] /\
    param d ["ctrl_endpoint"] (JStr (cstr (p_ctrl s))) /\ param d ["meta_endpoint"] (JStr (cstr (p_meta s))) /\ param d ["fr_setup"; "fr_ready_cnxn"] (JStr (cstr (snd (k_ends (p_graph s))))) /\ param d ["fr_setup"; "fr_release_cnxn"] (JStr (cstr (fst (k_ends (p_graph s))))) /\
    (forall j f, writer w s j f -> writer w s1 j f /\ forall q x, param d (j :: q) x <-> leads q (config_json f) x) /\
    (forall j q, there u s j q -> there u s1 j q /\ told d j (members q)).
Proof.
  intros (HO & SH) A NA IO. pose proof (ship_courteous _ _ _ _ SH) as CO. pose proof (host_polite _ _ _ _ _ _ HO CO) as PO.
  destruct (c56_answered_partial v n c t _ i s PO A NA) as (s1 & d & H & OU).
  { left. split; [reflexivity|]. intros j p G. destruct (IO j p G) as [(f & -> & E & PR)|(q & -> & L & NM)]; [apply (request_willing _ _ _ _ _ _ HO); [exact (named_nice _ _ _ _ NA G)|exact E|exact PR]|]. apply (ship_willing _ _ _ _ SH); [exact (named_nice _ _ _ _ NA G)|apply c67_fit, L|exact NM]. }
  assert (R : replies c d s s1) by (exists []; split; [exact OU|intros e []]). assert (NB : named s ["ctrl_endpoint"; "meta_endpoint"; "fr_setup"]) by (eapply named_less; [|exact NA]; lesser).
  assert (ST : all_plugins s (fun j p => stays_in j (v_request v) p)). { intros j p G. destruct (IO j p G) as [(f & -> & E & PR)|(q & -> & _)]; [apply (request_stays _ _ _ _ _ _ HO); [exact (named_nice _ _ _ _ NA G)|exact E]|]. apply (ship_request_stays _ _ _ _ SH), (named_nice _ _ _ _ NA G). }
  destruct (c56_configuration v n c t i d s s1 _ PO A NB ST H R) as (A1 & A2 & A3 & A4 & K). exists s1, d. split; [exact H|]. split; [exact OU|]. split; [exact A1|]. split; [exact A2|]. split; [exact A3|]. split; [exact A4|]. split.
  - intros j f WR. assert (PR : presentable f). { destruct (IO j _ (proj1 WR)) as [(g & E & _ & PR)|(q & E & _)]; [|destruct (sp_apart _ _ _ _ SH _ _ _ E)]. apply (ho_one _ _ _ _ _ _ HO) in E. subst g. exact PR. }
    destruct (c62_reported v w look io act dk n c t i d s s1 (Ret tt) j f HO CO A NB) as (B1 & B2); [|exact WR|exact PR|exact H|exact R|split; assumption]. intros k p G. right. apply ST, G.
  - intros j q G. destruct (K j _ G) as (p1 & G1 & r & E & -> & RT & PA). destruct (IO j _ G) as [(g & X & _)|(q0 & X & L & NM)]; [destruct (sp_apart _ _ _ _ SH g j q); congruence|]. apply (sp_one _ _ _ _ SH) in X as (_ & <-).
    rewrite (sp_request _ _ _ _ SH) in *. destruct (unit_asked j q r (named_nice _ _ _ _ NA G) (c67_fit q L) NM E) as (r1 & Q & T); [destruct (plugin_request j q r) as [[a b] o]; exact RT|]. rewrite Q in G1, PA. cbn [fst snd] in *. split; [exact G1|]. intros z x. rewrite PA. apply T.
Qed.
(** Whoever asks for the status gets it: the names, what each plugin has to say, the times. *)
Theorem c68_status {P} (v : env P) w u W look io act dk n c t i s : shop v w u W look io act dk -> PrcSpec.asks v t VStatus i -> apart_named s -> all_plugins s (fun j p => (exists f, p = w f /\ x_name f = j) \/ exists q, p = u j q) ->
  exists s1 d, handle_ctrl v n c t s = (s1, Ret tt) /\ p_out s1 = p_out s ++ [FReply c d] /\ (p_objs s <> [] -> param d ["plugins"; "names"] (JArr (map (fun e => JStr (fst e)) (p_objs s)))) /\
    (forall j f, writer w s j f -> writer w s1 j f /\ (forall q x, untimed q -> (param d (j :: q) x <-> leads q (status_json f) x)) /\ timing_of d j (v_perf v (w f))) /\
    (forall j q, there u s j q -> exists q1, there u s1 j q1 /\ q1 = polled (W j) q /\ members q1 = members q /\ told_status d j (status_members q1) /\ timing_of d j (v_perf v (u j q1))).
Proof.
  intros (HO & SH) A NA IO. pose proof (ship_courteous _ _ _ _ SH) as CO. pose proof (host_polite _ _ _ _ _ _ HO CO) as PO.
  destruct (c56_answered_partial v n c t _ i s PO A NA) as (s1 & d & H & OU).
  { right. left. split; [reflexivity|]. intros j p G. destruct (IO j p G) as [(f & -> & E)|(q & ->)]; [apply (status_obliging _ _ _ _ _ _ HO); [exact (named_nice _ _ _ _ NA G)|exact E]|]. apply (ship_obliging _ _ _ _ SH), (named_nice _ _ _ _ NA G). }
  assert (R : replies c d s s1) by (exists []; split; [exact OU|intros e []]). assert (NB : named s ["plugins"; "error"; "warning"; "shared_memory"]) by (eapply named_less; [|exact NA]; lesser).
  assert (ST : all_plugins s (fun j p => stays_in j (v_status v) p)). { intros j p G. destruct (IO j p G) as [(f & -> & E)|(q & ->)]; [apply (status_stays _ _ _ _ _ _ HO); [exact (named_nice _ _ _ _ NA G)|exact E]|]. apply (ship_status_stays _ _ _ _ SH), (named_nice _ _ _ _ NA G). }
  destruct (c56_status v n c t i d s s1 _ PO A NB ST H R) as (A1 & K & _). exists s1, d. split; [exact H|]. split; [exact OU|]. split; [exact A1|]. split.
  - intros j f WR. destruct (c62_status v w look io act dk n c t i d s s1 (Ret tt) j f HO CO A NB) as (B1 & B2 & B3); [|exact WR|exact H|exact R|auto]. intros k p G. right. apply ST, G.
  - intros j q G. destruct (K j _ G) as (p1 & G1 & (r & E & -> & RT & PA) & TI). pose proof (named_nice _ _ _ _ NA G) as NJ. rewrite (sp_status _ _ _ _ SH) in *.
    destruct (unit_polled (W j) j q r NJ E) as (r1 & Q & T); [destruct (plugin_status (W j) j q r) as [[a b] o]; exact RT|]. rewrite Q in G1, PA, TI. cbn [fst snd] in *. exists (polled (W j) q). split; [exact G1|]. split; [reflexivity|]. split; [|split; [|exact TI]].
    + assert (RD : ready j (new_msg TAck VStatus true 0)) by (split; [intros y Y; injection Y as <-; eexists; reflexivity|intros y Y; apply leads_at in Y; discriminate Y]). destruct (c67_status (W j) j q _ NJ RD) as (_ & _ & _ & M). exact M.
    + intros z x U. rewrite (PA z x U), (T z x). split; [intros (_ & L); exact L|]. intros L. split; [|exact L]. intros X. rewrite X in L. destruct z as [|k z]; [|apply leads_at in L; discriminate L]. destruct (U "last_process") as (_ & U'); [left; reflexivity|]. apply U'. exists ["timing"; "last_process"]. reflexivity.
Qed.

(** ** What clients set *)
(** A message that gets a reply: each plugin was given its section, and nothing else. *)
Theorem c68_configured {P} (v : env P) w u W look io act dk n c te x s s1 o j q : shop v w u W look io act dk -> carries v te x -> (forall z, ~ leads ["execute"] x z) -> matched s -> handle_ctrl v (S n) c te s = (s1, o) -> answered c s s1 -> nice j ->
  there u s j q -> exists q1, there u s1 j q1 /\ given_by W x j q q1.
Proof.
  intros (HO & SH) C NE M H AN (SL & NU & _) G. pose proof (c58_plugins v n c te x s s1 o j (ship_polite _ _ _ _ _ _ _ _ HO SH) C NE M H AN SL NU) as K. unfold there in *. rewrite G in K. destruct K as (p1 & G1 & K).
  assert (SG : section_given v x j (u j q) p1) by (destruct K as [(_ & K)|(_ & K)]; [rewrite (sp_clear _ _ _ _ SH) in K|]; exact K). destruct (ship_given _ _ _ _ SH _ _ _ _ SG) as (q1 & -> & S). exists q1. auto.
Qed.
(** One that loads a plugin: it is there, as its constructor makes it, and was given its section. *)
Theorem c68_loaded {P} (v : env P) w u W look io act dk n c te x s s1 o j k : shop v w u W look io act dk -> carries v te x -> (forall z, ~ leads ["execute"] x z) -> matched s -> handle_ctrl v (S n) c te s = (s1, o) -> answered c s s1 -> nice j ->
  asks_load x [Load j k true] -> k <> "FileWriterPlugin" -> sm_get (p_objs s) j = None -> exists q q1, built k q /\ there u s1 j q1 /\ given_by W x j q q1.
Proof.
  intros (HO & SH) C NE M H AN (SL & NU & _) AL NK G. pose proof (c58_plugins v n c te x s s1 o j (ship_polite _ _ _ _ _ _ _ _ HO SH) C NE M H AN SL NU) as K. rewrite G in K. destruct (sm_get (p_objs s1) j) as [p1|] eqn:G1; [|destruct (K _ AL)].
  destruct K as (k' & p & A2 & MK & SG). destruct (load_one _ _ _ _ _ AL A2) as (_ & <-). destruct (sp_make _ _ _ _ SH _ _ _ MK) as [E|(q & -> & B)]; [congruence|]. destruct (ship_given _ _ _ _ SH _ _ _ _ SG) as (q1 & -> & S). exists q, q1. auto.
Qed.
(** A message with sections that fit is acknowledged.  Missing: other sections; adjustments of parameters. *)
Theorem c68_accepted_partial {P} (v : env P) w u W look io act dk n c te x s : shop v w u W look io act dk -> carries v te x -> for_plugins x -> master_read x -> named s [] -> all_plugins s (fun j p => forall y, leads [j] x y -> fits_section W look w u j p y) ->
  exists s1 d, handle_ctrl v (S n) c te s = (s1, Ret tt) /\ replies c d s s1 /\ says d "msg_type" (JStr "ack").
Proof.
  intros (HO & SH) C FP MR NA A. apply (c62_accepted_partial v w look io act dk n c te x s HO (ship_courteous _ _ _ _ SH) C FP MR NA). intros j p G y L. destruct (A j p G y L) as [X|(q & l & -> & -> & LV & WT)]; [left; exact X|right]. apply (ship_takes _ _ _ _ SH); assumption.
Qed.

(** ** Commands *)
(** The commands of the plugins are listed.  A message that gets a reply has commands that are listed; the plugins other than file writers are as before. *)
Theorem c68_commands {P} (v : env P) w u W look io act dk n c t i d s s1 o : shop v w u W look io act dk -> PrcSpec.asks v t VRequestCommands i -> named s [] -> handle_ctrl v n c t s = (s1, o) -> replies c d s s1 ->
  p_objs s1 = p_objs s /\ (forall j f, writer w s j f -> listed d [j; "command"] fwx_commands) /\ (forall j q, there u s j q -> listed d [j; "command"] (plugin_commands q)).
Proof.
  intros (HO & SH) A NA H R. destruct (c56_commands v n c t i d s s1 o (ship_polite _ _ _ _ _ _ _ _ HO SH) A NA H R) as (K1 & K2 & _). split; [exact K1|]. split.
  - intros j f (G & _). specialize (K2 j _ G). cbv beta in K2. rewrite (ho_commands _ _ _ _ _ _ HO) in K2. exact K2.
  - intros j q G. specialize (K2 j _ G). cbv beta in K2. rewrite (sp_commands _ _ _ _ SH) in K2. exact K2.
Qed.
Theorem c68_executed {P} (v : env P) w u W look io act dk n c t m i d s s1 o : shop v w u W look io act dk -> msg_of_text (v_clock v) t true = Ret m -> g_type m = TCmd -> g_val m = VExecute -> g_id m = Some i -> named s [] -> handle_ctrl v n c t s = (s1, o) -> replies c d s s1 ->
  forall j q, there u s j q -> there u s1 j q /\ forall y, holds m [j; "command"] y -> exists k, y = JStr k /\ In (cstr k) (plugin_commands q).
Proof.
  intros (HO & SH) MT T V I NA H R j q G. destruct (c56_execute v n c t m i d s s1 o (ship_polite _ _ _ _ _ _ _ _ HO SH) MT T V I NA H R) as (K & _). destruct (K j _ G) as [(k & r & HK & G1 & RT)|(X & G1)]; [|split; [exact G1|intros y Y; destruct (X y Y)]].
  rewrite (sp_execute _ _ _ _ SH) in G1, RT. destruct (c67_commands (cstr k) q r) as (e & Q & B & _). rewrite Q in G1, RT. cbn [fst snd] in *. split; [exact G1|]. intros y Y. exists k. split; [apply holds_param in Y, HK; congruence|]. apply B, RT.
Qed.
(** Statistics are reset and this is acknowledged; settings stay. *)
Theorem c68_reset {P} (v : env P) w u W look io act dk n c t i s : shop v w u W look io act dk -> PrcSpec.asks v t VResetStatistics i -> sm_ok (p_objs s) ->
  exists s1 d, handle_ctrl v n c t s = (s1, Ret tt) /\ p_out s1 = p_out s ++ [FReply c d] /\ says d "msg_type" (JStr "ack") /\
    (forall j f, writer w s j f -> exists f1, writer w s1 j f1 /\ x_fw f1 = x_fw f /\ config_json f1 = config_json f /\ forall k x, leads ["timing"; k] (status_json f1) x -> x = JInt 0) /\
    (forall j q, there u s j q -> exists q1, there u s1 j q1 /\ reset_of q q1).
Proof.
  intros (HO & SH) A OK. pose proof (ship_courteous _ _ _ _ SH) as CO. pose proof (host_polite _ _ _ _ _ _ HO CO) as PO. destruct (c56_reset v n c t i s PO A OK) as (s1 & d & H & OU & K & AK). exists s1, d. split; [exact H|]. split; [exact OU|]. split; [|split].
  - destruct AK as [(_ & X)|(a & j & p & b & _ & _ & F & _)]; [exact X|exfalso]. destruct (sp_all _ _ _ _ SH p) as [(f & ->)|(k & q & ->)].
    + rewrite (ho_perf _ _ _ _ _ _ HO), (ho_reset _ _ _ _ _ _ HO) in F. destruct (fwx_reset f) as (f1 & e) eqn:E. destruct (c61_reset f f1 e E) as (-> & _). discriminate F.
    + rewrite (sp_perf _ _ _ _ SH), (sp_reset _ _ _ _ SH) in F. discriminate F.
  - destruct (c62_reset v w look io act dk n c t i s HO CO A OK) as (s2 & d2 & H2 & _ & X). rewrite H in H2. injection H2 as <-. exact X.
  - intros j q G. specialize (K j _ G). cbv beta in K. rewrite (sp_perf _ _ _ _ SH), (sp_reset _ _ _ _ SH) in K. destruct (plugin_reset q) as (q1 & b) eqn:E. cbn [fst] in K. destruct (c67_reset q q1 b E) as (_ & B). exists q1. auto.
Qed.

(** ** Whole lives *)
(** In a frame processor at work, whatever the messages and the frames: each plugin is a file writer in a state of C14 to C17, or another in a state of C67; all have the names they were loaded with. *)
Theorem c68_lived {P} (v : env P) w u W look io act dk depth Q limit debug s : shop v w u W look io act dk -> running v w (frames_of u) depth io Q limit debug s ->
  matched s /\ forall j p, sm_get (p_objs s) j = Some p -> (exists f, p = w f /\ writer w s j f /\ sane f /\ exists l rs, Forall (op_ok (eq io) Q) l /\ fw_run (fw_init act dk) l = (x_fw f, rs) /\ ~ In Undef rs) \/ (exists q, p = u j q /\ there u s j q /\ PcfSpec.lived q /\ fit q).
Proof.
  intros (HO & SH) RU. destruct (c62_lived v w look io act dk _ _ depth Q limit debug s HO (ship_separate _ _ _ _ SH) RU) as (M & K). split; [exact M|]. intros j p G. destruct (K j p G) as [X|(q & -> & L)]; [left; exact X|right]. exists q. split; [reflexivity|]. split; [exact G|]. split; [exact L|apply c67_fit, L].
Qed.
(** The configuration that one frame processor reports, sent to another with plugins of the same names and kinds: acknowledged, and its plugins have the settings of the first; plugins that the first does not have are as before.  Missing: as in C60 and C67. *)
Theorem c68_restored_partial {P P'} (v : env P) (v' : env P') w w' u u' W W' look look' io io' act act' dk dk' n n' c c' t te i d x s s1 o s' : shop v w u W look io act dk -> shop v' w' u' W' look' io' act' dk' ->
  PrcSpec.asks v t VRequestConfiguration i -> apart_named s -> named s reserved -> in_order w u s -> handle_ctrl v n c t s = (s1, o) -> replies c d s s1 -> taken_from s d x ->
  carries v' te x -> named s' [] -> matched s' -> (forall j p, sm_get (p_objs s) j = Some p -> exists p', sm_get (p_objs s') j = Some p' /\ passes w u w' u' W' look' j p p') ->
  exists s1' d', handle_ctrl v' (S n') c' te s' = (s1', Ret tt) /\ replies c' d' s' s1' /\ says d' "msg_type" (JStr "ack") /\
    (forall j p, sm_get (p_objs s) j = Some p -> exists p' p1, sm_get (p_objs s') j = Some p' /\ sm_get (p_objs s1') j = Some p1 /\ passed w u w' u' j p p' p1) /\
    (forall j p', sm_get (p_objs s) j = None -> sm_get (p_objs s') j = Some p' -> sm_get (p_objs s1') j = Some p').
Proof.
  intros SP SP' A NA NR IO H R (OX & TX) CA NA' M' PS. destruct (c68_reported v w u W look io act dk n c t i s SP A NA IO) as (s2 & d2 & H2 & OU2 & _ & _ & _ & _ & RW & RU). destruct SP as (HO & SH). pose proof SP' as (HO' & SH').
  rewrite H in H2. injection H2 as <- _. assert (d2 = d) as ->. { destruct R as (l & OU & NL). rewrite OU2 in OU. apply app_inv_head in OU. destruct l as [|a [|b l]]; cbn in OU; [injection OU; auto|discriminate|discriminate]. }
  (* the section of each plugin *)
  assert (SW : forall j f, sm_get (p_objs s) j = Some (w f) -> x_name f = j -> forall y, leads [j] x y <-> y = config_json f).
  { intros j f G E y. rewrite TX. destruct (RW j f (conj G E)) as (_ & K). rewrite (K [] y), leads_at. cbn [at_path]. split; [intros (_ & X); congruence|intros ->; split; [congruence|reflexivity]]. }
  assert (SU : forall j q, sm_get (p_objs s) j = Some (u j q) -> forall y, leads [j] x y <-> members q <> [] /\ y = JObj (members q)).
  { intros j q G y. rewrite TX. destruct (RU j q G) as (_ & K). rewrite (K [] y), leads_at. cbn [at_path]. split; [intros (_ & X & Y); split; congruence|intros (X & ->); split; [congruence|auto]]. }
  assert (RES : forall j y, leads [j] x y -> ~ In j reserved). { intros j y L. apply TX in L as (G & _). destruct (sm_get (p_objs s) j) as [p|] eqn:E; [|congruence]. apply (proj2 (proj2 NR j (fst_in _ _ _ E))). }
  assert (NE : forall z, ~ leads ["execute"] x z) by (intros z L; apply (RES _ _ L); cbn; tauto).
  assert (FP : for_plugins x) by (split; [exact OX|]; intros k I y L; exact (RES _ _ L I)).
  assert (MR : master_read x).
  { intros y L. pose proof L as L0. apply TX in L0 as (G & _). destruct (sm_get (p_objs s) "hdf") as [p|] eqn:E; [|congruence]. destruct (IO _ _ E) as [(f & -> & NM & _)|(q & -> & _)].
    - apply (SW _ _ E NM) in L. subst y. split; [eexists; reflexivity|]. intros z L. apply leads_at in L. rewrite at_settings in L by (cbn; tauto). cbn in L. injection L as <-. eexists. reflexivity.
    - apply (SU _ _ E) in L. destruct L as (_ & EY). subst y. split; [eexists; reflexivity|]. intros z L. exfalso. apply leads_at in L. destruct q; try discriminate L; cbn [members] in L.
      + destruct (ad_adjustments a); discriminate L.
      + cbn [at_path] in L. destruct g as [[|? ?] [|? ?] [|? ?] [|? ?]]; cbn in L; discriminate L. }
  destruct (c62_accepted_partial v' w' look' io' act' dk' n' c' te x s' HO' (ship_courteous _ _ _ _ SH') CA FP MR NA') as (s1' & d' & H' & R' & SY).
  { intros j p' G' y L. pose proof L as L0. apply TX in L0 as (G & _). destruct (sm_get (p_objs s) j) as [p|] eqn:E; [|congruence]. destruct (PS j p E) as (p2 & G2 & PA). rewrite G' in G2. injection G2 as <-. destruct PA as [(f & f' & -> & -> & NM & NM' & SA & RS & ND & WG & LK)|(q & q' & -> & -> & LV & NB & LV' & RS)].
    - left. exists f'. split; [reflexivity|]. apply (SW _ _ E NM) in L. subst y. split; [apply config_well_formed; assumption|]. intros k L. apply leads_at in L. rewrite at_settings in L by (cbn; tauto). cbn in L. injection L as <-. destruct (sn_next f SA) as (NP & _). rewrite !(cstr_id _ NP). exact LK.
    - right. apply (SU _ _ E) in L. destruct L as (_ & EY). subst y. apply (ship_restored_takes _ _ _ _ SH'); [apply c67_fit, LV|apply c67_fit, LV'|exact RS]. }
  assert (AN : answered c' s' s1') by (destruct R' as (l & R' & _); exists l, d'; exact R'). exists s1', d'. split; [exact H'|]. split; [exact R'|]. split; [exact SY|]. split.
  - intros j p E. destruct (PS j p E) as (p' & G' & PA). pose proof (named_nice _ _ _ _ NA' G') as NJ. destruct PA as [(f & f' & -> & -> & NM & NM' & SA & RS & ND & WG & LK)|(q & q' & -> & -> & LV & NB & LV' & RS)].
    + destruct (c62_configured v' w' look' io' act' dk' n' c' te x s' s1' _ j f' HO' (ship_courteous _ _ _ _ SH') CA NE M' H' AN NJ (conj G' NM')) as (f1 & (G1 & N1) & [(z & L & AP & RE & _)|(X & _)]); [|exfalso; apply (X (config_json f)), (SW _ _ E NM); reflexivity].
      apply (SW _ _ E NM) in L. subst z. exists (w' f'), (w' f1). split; [exact G'|]. split; [exact G1|]. left. exists f, f', f1. split; [reflexivity|]. split; [reflexivity|]. split; [reflexivity|]. split; [exact N1|]. split; [exact (applied_restored look' f f' f1 SA RS LK ND AP)|exact RE].
    + destruct (c68_configured v' w' u' W' look' io' act' dk' n' c' te x s' s1' _ j q' SP' CA NE M' H' AN NJ G') as (q1 & G1 & [(y & m & r & r1 & L & HM & E1 & _)|(X & ->)]).
      * apply (SU _ _ E) in L. destruct L as (_ & EY). subst y. destruct (restored (W' j) m q q' r (c67_fit q LV) (c67_fit q' LV') RS (holds_params m _ HM)) as (q2 & E2 & SS & CK). rewrite E1 in E2. injection E2 as <- _. exists (u' j q'), (u' j q1). split; [exact G'|]. split; [exact G1|]. right. exists q, q', q1. auto 6.
      * assert (EM : members q = []). { destruct (members q) as [|e l] eqn:EM; [reflexivity|]. exfalso. apply (X (JObj (members q))), (SU _ _ E). rewrite EM. split; [discriminate|reflexivity]. }
        exists (u' j q'), (u' j q'). split; [exact G'|]. split; [exact G1|]. right. exists q, q', q'. split; [reflexivity|]. split; [reflexivity|]. split; [reflexivity|].
        destruct q, q'; try contradiction; try discriminate EM; cbn [PcfSpec.restorable same_settings counters_kept] in *; auto.
        -- exfalso. destruct RS as (RS & _). cbn [members] in EM. destruct (ad_adjustments a); [congruence|discriminate].
        -- exfalso. destruct RS as (RS & _). cbn [members] in EM. destruct (gp_grid g); [congruence|discriminate].
  - intros j p' E G'. assert (NL : forall y, ~ leads [j] x y) by (intros y L; apply TX in L as (G & _); congruence). pose proof (named_nice _ _ _ _ NA' G') as (SL & NU & _).
    pose proof (c58_plugins v' n' c' te x s' s1' _ j (ship_polite _ _ _ _ _ _ _ _ HO' SH') CA NE M' H' AN SL NU) as K. rewrite G' in K. destruct K as (p1 & G1 & K).
    assert (CL : forall y, ~ leads ["clear_errors"] x y) by (intros y L; apply (RES _ _ L); cbn; tauto). destruct K as [((y & Y) & _)|(_ & [(y & _ & _ & Y & _)|(_ & ->)])]; [destruct (CL y Y)|destruct (NL y Y)|exact G1].
Qed.

(** ** Examples *)
Definition unit_make (k : string) : option plugin :=
  if String.eqb k "OffsetAdjustmentPlugin" then Some (POffset 0) else if String.eqb k "ParameterAdjustmentPlugin" then Some (PAdjust (Adj [] [])) else if String.eqb k "LiveViewPlugin" then Some (PLive (new_live 0)) else if String.eqb k "GapFillPlugin" then Some (PGap (Gap [] [] [] [])) else
  if String.eqb k "BloscPlugin" then Some (PBlosc (fst (new_blosc (wo_blosc a_world) (Bglobal 1 1))) (snd (new_blosc (wo_blosc a_world) (Bglobal 1 1)))) else if String.eqb k "KafkaProducerPlugin" then Some (PKafka new_kafka) else if String.eqb k "DummyUDPProcessPlugin" then Some (PDummy new_dummy) else if String.eqb k "SumPlugin" then Some PSum else None.
Notation any := (fwx + string * plugin)%type.
Definition un (j : string) (q : plugin) : any := inr (j, q).
Definition ship_env : env any :=
  Env (fun o m r => match o with inl s => let '(s1, r1, q) := fwx_configure places 5 m s r in (inl s1, r1, q) | inr (j, s) => let '(s1, r1, q) := plugin_configure a_world m s r in (un j s1, r1, q) end)
      (fun o r => match o with inl s => let '(s1, r1, q) := fwx_request s r in (inl s1, r1, q) | inr (j, s) => let '(s1, r1, q) := plugin_request j s r in (un j s1, r1, q) end)
      (fun o n r => match o with inl s => let '(s1, r1, q) := fwx_execute io_ok n s r in (inl s1, r1, q) | inr (j, s) => let '(s1, r1, q) := plugin_execute n s r in (un j s1, r1, q) end)
      (fun o r => match o with inl s => let '(s1, r1, q) := fwx_status s r in (inl s1, r1, q) | inr (j, s) => let '(s1, r1, q) := plugin_status a_world j s r in (un j s1, r1, q) end)
      (fun o => match o with inl _ => fwx_commands | inr (_, s) => plugin_commands s end) (fun o => match o with inl s => let '(s1, b) := fwx_reset s in (inl s1, b) | inr (j, s) => let '(s1, b) := plugin_reset s in (un j s1, b) end)
      (fun o => o) (fun o => o) (fun o => []) (fun o => []) (fun o => (7, 9, 4617315517961601024)%Z) (fun o => (1, 2, 3, "1.2.3", "1.2.3-5")%Z)
      (fun l => inr ["FileWriterPlugin"; "OffsetAdjustmentPlugin"; "ParameterAdjustmentPlugin"; "LiveViewPlugin"; "GapFillPlugin"; "BloscPlugin"; "KafkaProducerPlugin"; "DummyUDPProcessPlugin"; "SumPlugin"])
      (fun c i => if String.eqb c "FileWriterPlugin" then Some (inl (fwx_init i true (fun _ => None))) else match unit_make c with Some s => Some (un i s) | None => None end) (fun i => None)
      (fun b e => None) (fun b e => None) (fun p q => None) true 5%Z a_clock 1%Z 2%Z 3%Z "1.2.3" "1.2.3-4".
Lemma unit_built k q : unit_make k = Some q -> built k q.
Proof. unfold unit_make. repeat (match goal with |- context [String.eqb k ?n] => destruct (String.eqb_spec k n) as [->|_] end; [intros E; apply (f_equal (fun o => match o with Some z => z | None => PSum end)) in E; cbv beta iota in E; rewrite <- E; constructor|cbv iota]). intros E. discriminate E. Qed.
Lemma ship_shop : shop ship_env inl un (fun _ => a_world) places io_ok true (fun _ => None).
Proof.
  split; split; try reflexivity.
  - intros f g E. injection E as ->. reflexivity.
  - intros [f|(j, q)]; [left; exists f; reflexivity|right; exists j, q; reflexivity].
  - intros f j q E. discriminate.
  - intros j k q r E. injection E as -> ->. auto.
  - intros k j p E. cbn [v_make ship_env] in E. destruct (String.eqb_spec k "FileWriterPlugin") as [->|_]; [left; reflexivity|right]. destruct (unit_make k) as [q|] eqn:U; [|discriminate]. injection E as <-. exists q. split; [reflexivity|apply unit_built, U].
Qed.
Definition tell (w p : string) (s : prc any) := fst (handle_ctrl ship_env 4 "c" (command_text w p) s).
Definition final_reply (s : prc any) : list (string * json) := match last (p_out s) FExit with FReply _ d => d | _ => [] end.
Definition load (k i : string) (s : prc any) : prc any := tell "configure" (load_text k i) s.
Definition empty_shop : prc any := load "SumPlugin" "sum" (load "DummyUDPProcessPlugin" "dummy" (load "KafkaProducerPlugin" "kafka" (load "BloscPlugin" "blosc" (load "GapFillPlugin" "gap" (load "LiveViewPlugin" "view" (load "ParameterAdjustmentPlugin" "adj" (load "OffsetAdjustmentPlugin" "offset" (load "FileWriterPlugin" "hdf" (prc_init 0 0))))))))).
Definition sections : json := JObj [("hdf", all_x); ("offset", JObj [("offset_adjustment", JInt (-7))]); ("adj", adjust_doc); ("view", JObj [("frame_frequency", JInt 2)]); ("gap", gap_doc); ("blosc", blosc_doc); ("kafka", kafka_doc); ("dummy", JObj [("width", JInt 5)])].
Definition text_of (x : json) : string := string_of_list_ascii (fst (JsonDoubleModel.emit x)).
Definition full_shop : prc any := tell "configure" (text_of sections) empty_shop.
Definition read_shop : prc any := tell "request_configuration" "{}" full_shop.
(** The sections of plugins in a reply *)
Definition plugin_parts (s : prc any) (d : list (string * json)) : json := JObj (filter (fun e => match sm_get (p_objs s) (fst e) with Some _ => true | None => false end) (match find_member "params" d with Some (JObj l) => l | _ => [] end)).
Lemma find_filter p j (l : list (string * json)) : find_member j (filter (fun e => p (fst e)) l) = if p j then find_member j l else None.
Proof.
  induction l as [|(k, y) l IH]; [destruct (p j); reflexivity|]. cbn [filter fst]. destruct (p k) eqn:PK; cbn [find_member]; destruct (String.eqb_spec k j) as [->|N]; rewrite ?PK; try reflexivity; try exact IH. rewrite IH, PK. reflexivity.
Qed.
Lemma parts_taken s d l : find_member "params" d = Some (JObj l) -> taken_from s d (plugin_parts s d).
Proof.
  intros E. split; [eexists; reflexivity|]. intros j y. unfold plugin_parts. rewrite E. unfold param. rewrite !leads_at. cbn [at_path]. rewrite E. cbn [at_path].
  rewrite (find_filter (fun n => match sm_get (p_objs s) n with Some _ => true | None => false end)). destruct (sm_get (p_objs s) j); [split; [intros H; split; [discriminate|exact H]|intros (_ & H); exact H]|split; [discriminate|intros (H & _); congruence]].
Qed.
Definition copy : json := plugin_parts full_shop (final_reply read_shop).
Definition copied_shop : prc any := tell "configure" (text_of copy) empty_shop.
(** Every plugin of the first has passed its settings on. *)
Definition part (s : prc any) (j : string) : list (string * json) := match sm_get (p_objs s) j with Some (inr (_, q)) => members q | Some (inl f) => match config_json f with JObj l => l | _ => [] end | None => [] end.
Example c68_case : says (final_reply full_shop) "msg_type" (JStr "ack") /\ says (final_reply copied_shop) "msg_type" (JStr "ack") /\ map fst (p_objs full_shop) = ["adj"; "blosc"; "dummy"; "gap"; "hdf"; "kafka"; "offset"; "sum"; "view"] /\
  map (part copied_shop) (map fst (p_objs full_shop)) = map (part full_shop) (map fst (p_objs full_shop)) /\ part full_shop "blosc" = [("compressor", JInt 1); ("threads", JInt 4); ("shuffle", JInt 2); ("level", JInt 9)] /\ part full_shop "offset" = [("offset_adjustment", JInt (-7))] /\
  param (final_reply full_shop) ["warning: level"] (JStr "Capped at upper range: 9") /\ part empty_shop "gap" = [] /\ part full_shop "gap" <> [].
Proof. split; [apply leads_at; vm_compute; reflexivity|]. split; [apply leads_at; vm_compute; reflexivity|]. split; [vm_compute; reflexivity|]. split; [vm_compute; reflexivity|]. split; [vm_compute; reflexivity|]. split; [vm_compute; reflexivity|]. split; [apply leads_at; vm_compute; reflexivity|]. split; vm_compute; [reflexivity|discriminate]. Qed.
Definition unit_of (s : prc any) (j : string) : plugin := match sm_get (p_objs s) j with Some (inr (_, q)) => q | _ => PSum end.
Definition hdf_of (s : prc any) : fwx := match sm_get (p_objs s) "hdf" with Some (inl f) => f | _ => FwcProps.fresh end.
Definition all_of (s : prc any) : smap any := map (fun j => (j, if String.eqb j "hdf" then inl (hdf_of s) else un j (unit_of s j))) ["adj"; "blosc"; "dummy"; "gap"; "hdf"; "kafka"; "offset"; "sum"; "view"].
Lemma full_all : p_objs full_shop = all_of full_shop. Proof. vm_compute. reflexivity. Qed.
Lemma empty_all : p_objs empty_shop = all_of empty_shop. Proof. vm_compute. reflexivity. Qed.
Notation at_shop := (running ship_env inl (frames_of un) 4 io_ok (fun _ => True) 0 0).
Lemma at_shop_tell w p s : at_shop s -> snd (handle_ctrl ship_env 4 "c" (command_text w p) s) = Ret tt -> at_shop (tell w p s).
Proof. intros R E. unfold tell. destruct (handle_ctrl ship_env 4 "c" (command_text w p) s) as (s1 & o) eqn:H. cbn in E. subst o. eapply ru_message; [exact R|exact H]. Qed.
Lemma empty_at_shop : at_shop empty_shop. Proof. unfold empty_shop, load. do 9 (apply at_shop_tell; [|vm_compute; reflexivity]). constructor. Qed.
Lemma full_at_shop : at_shop full_shop. Proof. apply at_shop_tell; [exact empty_at_shop|vm_compute; reflexivity]. Qed.
Lemma shop_matched s : at_shop s -> matched s. Proof. intros R. destruct (c68_lived _ _ _ _ _ _ _ _ _ _ _ _ _ ship_shop R) as (M & _). exact M. Qed.
Lemma shop_ok s : at_shop s -> sm_ok (p_objs s). Proof. intros R. destruct (shop_matched s R) as (M & _). exact M. Qed.
Lemma unit_lived s j q : at_shop s -> sm_get (p_objs s) j = Some (un j q) -> PcfSpec.lived q.
Proof. intros R G. destruct (c68_lived _ _ _ _ _ _ _ _ _ _ _ _ _ ship_shop R) as (_ & K). destruct (K j _ G) as [(f & E & _)|(q1 & E & _ & L & _)]; [discriminate|]. injection E as ->. exact L. Qed.
Lemma hdf_sane s f : at_shop s -> sm_get (p_objs s) "hdf" = Some (inl f) -> sane f /\ x_name f = "hdf".
Proof. intros R G. destruct (c68_lived _ _ _ _ _ _ _ _ _ _ _ _ _ ship_shop R) as (_ & K). destruct (K _ _ G) as [(f1 & E & (_ & N) & S & _)|(q & E & _)]; [|discriminate]. injection E as ->. auto. Qed.
Lemma full_restorable : FwcSpec.restorable (hdf_of full_shop).
Proof.
  assert (E : w_defs (x_fw (hdf_of full_shop)) = w_defs (x_fw busy)) by (vm_compute; reflexivity). pose proof busy_restorable as B. split.
  - vm_compute. discriminate.
  - vm_compute. reflexivity.
  - rewrite E. apply B.
  - rewrite E. apply B.
  - assert (E2 : w_defs (x_fw (hdf_of full_shop)) = [DsDef "data" T16 CBlosc [512; 1024]%N [1; 512; 1024]%N true; DsDef "mask" T8 CNone [] [1]%N false]) by (vm_compute; reflexivity). rewrite E2. intros d [<-|[<-|[]]]; vm_compute; repeat split.
Qed.
Lemma full_adj : unit_of full_shop "adj" = PAdjust (Adj [("UID", 5); ("ts", -1)] [("UID", "id"); ("ts", "")])%Z. Proof. vm_compute. reflexivity. Qed.
Lemma empty_adj : unit_of empty_shop "adj" = PAdjust (Adj [] []). Proof. vm_compute. reflexivity. Qed.
Lemma full_nameable : nameable (unit_of full_shop "adj").
Proof. rewrite full_adj. repeat constructor; unfold no_slash; cbn; intuition discriminate. Qed.
(** The plugins of the first can pass on what they report, and the rest of what c68_restored_partial asks for. *)
Example c68_restored_case : PrcSpec.asks ship_env (command_text "request_configuration" "{}") VRequestConfiguration 7 /\ apart_named full_shop /\ named full_shop reserved /\ in_order inl un full_shop /\
  handle_ctrl ship_env 4 "c" (command_text "request_configuration" "{}") full_shop = (read_shop, Ret tt) /\ replies "c" (final_reply read_shop) full_shop read_shop /\ taken_from full_shop (final_reply read_shop) copy /\
  carries ship_env (command_text "configure" (text_of copy)) copy /\ named empty_shop [] /\ matched empty_shop /\
  (forall j p, sm_get (p_objs full_shop) j = Some p -> exists p', sm_get (p_objs empty_shop) j = Some p' /\ passes inl un inl un (fun _ => a_world) places j p p').
Proof.
  assert (NM : forall (s : prc any) l k, sm_ok (p_objs s) -> map fst (p_objs s) = k -> forallb (fun i => path_check [i] && negb (existsb (String.eqb i) l)) k = true -> named s l).
  { intros s l k OK E F. split; [exact OK|]. rewrite E. intros i I. rewrite forallb_forall in F. specialize (F i I). apply andb_true_iff in F as (A & B). split; [apply nice_check, A|]. intros X. apply negb_true_iff in B. assert (existsb (String.eqb i) l = true) by (apply existsb_exists; exists i; split; [exact X|apply String.eqb_refl]). congruence. }
  assert (IN : forall j p, sm_get (p_objs full_shop) j = Some p -> In j ["adj"; "blosc"; "dummy"; "gap"; "kafka"; "offset"; "sum"; "view"] /\ p = un j (unit_of full_shop j) \/ j = "hdf" /\ p = inl (hdf_of full_shop)).
  { intros j p G. apply sm_get_in in G. rewrite full_all in G. unfold all_of in G. apply in_map_iff in G as (k & E & I). injection E as -> <-. destruct (String.eqb_spec j "hdf") as [->|N]; [right; auto|left]. split; [|reflexivity]. cbn in I |- *. intuition congruence. }
  assert (NO : forall j, In j ["adj"; "blosc"; "dummy"; "gap"; "kafka"; "offset"; "sum"; "view"] -> nameable (unit_of full_shop j)). { intros j I. cbn in I. destruct I as [<-|I]; [exact full_nameable|]. repeat destruct I as [<-|I]; try destruct I; vm_compute; exact Logic.I. }
  assert (OF : sm_ok (p_objs full_shop)) by exact (shop_ok _ full_at_shop). assert (OE : sm_ok (p_objs empty_shop)) by exact (shop_ok _ empty_at_shop).
  split; [asks_ok|]. split; [eapply NM; [exact OF|vm_compute; reflexivity|vm_compute; reflexivity]|]. split; [eapply NM; [exact OF|vm_compute; reflexivity|vm_compute; reflexivity]|]. split.
  { intros j p G. destruct (IN j p G) as [(I & ->)|(-> & ->)]; [right|left].
    - exists (unit_of full_shop j). split; [reflexivity|]. split; [exact (unit_lived _ _ _ full_at_shop G)|apply NO, I].
    - exists (hdf_of full_shop). split; [reflexivity|]. destruct (hdf_sane _ _ full_at_shop G) as (S & N). split; [exact N|]. split; [exact S|apply (rs_names _ full_restorable)]. }
  split; [unfold read_shop, tell; vm_compute; reflexivity|]. split; [exists []; split; [vm_compute; reflexivity|intros e []]|]. split; [eapply parts_taken; vm_compute; reflexivity|].
  split; [eexists; split; [vm_compute; reflexivity|]; split; [reflexivity|]; split; [reflexivity|]; apply holds_at; vm_compute; reflexivity|].
  split; [eapply NM; [exact OE|vm_compute; reflexivity|vm_compute; reflexivity]|]. split; [exact (shop_matched _ empty_at_shop)|].
  intros j p G. destruct (IN j p G) as [(I & ->)|(-> & ->)].
  - exists (un j (unit_of empty_shop j)). assert (G' : sm_get (p_objs empty_shop) j = Some (un j (unit_of empty_shop j))). { rewrite empty_all. unfold all_of. cbn in I. repeat destruct I as [<-|I]; try destruct I; reflexivity. } split; [exact G'|]. right. exists (unit_of full_shop j), (unit_of empty_shop j). split; [reflexivity|]. split; [reflexivity|].
    split; [exact (unit_lived _ _ _ full_at_shop G)|]. split; [apply NO, I|]. split; [exact (unit_lived _ _ _ empty_at_shop G')|].
    cbn in I. destruct I as [<-|I]; [pose proof full_nameable as FN; rewrite full_adj in FN |- *; rewrite empty_adj; split; [discriminate|]; split; [exact FN|intros z []]|]. repeat destruct I as [<-|I]; try destruct I; vm_compute; intuition discriminate.
  - exists (inl (hdf_of empty_shop)). assert (G' : sm_get (p_objs empty_shop) "hdf" = Some (inl (hdf_of empty_shop))) by (rewrite empty_all; reflexivity). split; [exact G'|]. left. exists (hdf_of full_shop), (hdf_of empty_shop). split; [reflexivity|]. split; [reflexivity|]. destruct (hdf_sane _ _ full_at_shop G) as (S & N), (hdf_sane _ _ empty_at_shop G') as (_ & N').
    split; [exact N|]. split; [exact N'|]. split; [exact S|]. split; [exact full_restorable|]. split; [vm_compute; reflexivity|]. split; [intros X; vm_compute in X; discriminate|vm_compute; reflexivity].
Qed.

(** ** Claims that do not hold *)
(** A message with a section that is refused: no reply, yet the plugins before it have their new settings. *)
Theorem c68_atomic_refuted : exists t s1, tell "configure" t full_shop = s1 /\ ~ answered "c" full_shop s1 /\ In ("level", JInt 9) (part full_shop "blosc") /\ In ("level", JInt 3) (part s1 "blosc") /\ part s1 "dummy" = part full_shop "dummy".
Proof. exists "{""blosc"":{""level"":3},""dummy"":{""width"":""x""}}". eexists. split; [reflexivity|]. split; [eapply not_answered; [vm_compute; reflexivity|repeat constructor; discriminate]|]. split; [vm_compute; tauto|]. split; vm_compute; [tauto|reflexivity]. Qed.
(** A command that a plugin does not have: no reply, yet another plugin has carried out its command. *)
Theorem c68_command_refuted : exists t s1, tell "execute" t full_shop = s1 /\ ~ answered "c" full_shop s1 /\ w_writing (x_fw (hdf_of full_shop)) = false /\ w_writing (x_fw (hdf_of s1)) = true.
Proof. exists "{""hdf"":{""command"":""start_writing""},""kafka"":{""command"":""flush""}}". eexists. split; [reflexivity|]. split; [eapply not_answered; [vm_compute; reflexivity|repeat constructor; discriminate]|]. split; vm_compute; reflexivity. Qed.
(** The warnings of BloscPlugin go to the top of the reply, where those of two BloscPlugins overwrite each other. *)
Theorem c68_warning_refuted : exists t s s1, load "BloscPlugin" "zip" full_shop = s /\ tell "configure" t s = s1 /\ answered "c" s s1 /\ In ("level", JInt 1) (part s1 "blosc") /\ In ("level", JInt 9) (part s1 "zip") /\ leads ["params"] (JObj (final_reply s1)) (JObj [("warning: level", JStr "Capped at upper range: 9")]).
Proof.
  exists "{""blosc"":{""level"":0},""zip"":{""level"":12}}". do 2 eexists. split; [reflexivity|]. split; [reflexivity|]. split; [exists []; eexists; vm_compute; reflexivity|]. split; [vm_compute; tauto|]. split; [vm_compute; tauto|]. apply leads_at. vm_compute. reflexivity.
Qed.

Print Assumptions c68_reported.
Print Assumptions c68_status.
Print Assumptions c68_configured.
Print Assumptions c68_loaded.
Print Assumptions c68_accepted_partial.
Print Assumptions c68_commands.
Print Assumptions c68_executed.
Print Assumptions c68_reset.
Print Assumptions c68_lived.
Print Assumptions c68_restored_partial.
Print Assumptions c68_atomic_refuted.
Print Assumptions c68_command_refuted.
Print Assumptions c68_warning_refuted.
