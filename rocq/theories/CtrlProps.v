(** C47: the processing graph is the one the commands describe. *)
From Verif Require Import Base StrOrder PluginModel PluginSpec PluginProofs CtrlModel CtrlSpec CtrlProofs.
Local Open Scope string_scope.
Local Open Scope list_scope.

(** After any commands (none of which dereferences a null pointer): a plugin's frames are queued to exactly the plugins
    connected to it, once each.  The name "controller" is kept for the link from a file writer to the controller. *)
Theorem c47_graph_partial h s : do_cmds h ctrl_init = Some s ->
  forall a, NoDup (map d_name (pushed_by a s)) /\
  (forall b d, b <> "controller" -> d_name d = b -> (In d (pushed_by a s) <-> d = Queued b (Plugin b) /\ edge h a b)).
Proof.
  intros R a. destruct (wired_run h s R) as [W1 W2 W3 W4 _ _ _]. unfold pushed_by.
  destruct (sm_get (k_plugins s) a) as [p|] eqn:G.
  - pose proof (W3 a p G) as C. rewrite push_result, call_all_all by auto. cbn [fst snd]. split; [apply all_nodup, C|].
    intros b d Hb Hd. rewrite all_in by exact C. rewrite Hd, (W4 a p b _ G Hb). destruct d as [n cb|n cb]; cbn in *; subst n.
    + split; intros (X & _); discriminate.
    + split; intros (X & Y); (split; [|exact Y]); [injection X as ->; reflexivity|injection X as ->; reflexivity].
  - split; [constructor|]. intros b d Hb Hd. split; [intros []|]. intros (_ & X). exfalso. apply (not_loaded_no_edge h a b); [|exact X].
    intros L. apply W2 in L. congruence.
Qed.

(** Frames from the frame receiver are handed to exactly the plugins connected to it, once each. *)
Theorem c47_receiver h s : do_cmds h ctrl_init = Some s -> NoDup (handed_over s) /\ forall b, In b (handed_over s) <-> fr_edge h b.
Proof.
  intros R. destruct (wired_run h s R) as [_ _ _ _ W5 _ W7]. unfold handed_over. destruct (k_shm s) as [cbs|] eqn:G.
  - destruct (W7 cbs eq_refl) as (O & F).
    assert (E : map snd cbs = map fst cbs).
    { apply map_ext_in. intros [b x] H. apply sm_in_get in H; [|exact O]. apply F in H as (-> & _). reflexivity. }
    rewrite E. split; [apply sm_nodup, O|]. intros b. rewrite in_map_iff. split.
    + intros ([b' x] & <- & H). apply sm_in_get in H; [|exact O]. apply F in H. apply H.
    + intros H. exists (b, b). split; [reflexivity|]. apply sm_get_in, F. auto.
  - split; [constructor|]. intros b. split; [intros []|]. intros (h1 & h2 & -> & _ & (p & q & Hr) & _). exfalso.
    assert (N : ~ has_receiver (h1 ++ Connect b "frame_receiver" :: h2)) by (rewrite <- W5; congruence). apply N. exists p, q. apply in_or_app. auto.
Qed.

(** A name is loaded when it was loaded successfully before, once: a second load changes nothing. *)
Theorem c47_loaded h s : do_cmds h ctrl_init = Some s ->
  NoDup (map fst (k_plugins s)) /\ (forall i, In i (map fst (k_plugins s)) <-> loaded h i) /\
  (forall i n f, loaded h i -> do_cmd (Load i n f) s = Ret s).
Proof.
  intros R. destruct (wired_run h s R) as [W1 W2 _ _ _ _ _]. split; [apply sm_nodup, W1|]. split.
  - intros i. rewrite <- W2. split.
    + intros H. apply in_map_iff in H as ([k v] & <- & H). apply sm_in_get in H; [|exact W1]. cbn. congruence.
    + intros H. destruct (sm_get (k_plugins s) i) as [v|] eqn:G; [|congruence]. apply in_map_iff. exists (i, v). split; [reflexivity|apply sm_get_in, G].
  - intros i n f L. apply W2 in L. cbn. unfold load. destruct (sm_get (k_plugins s) i); [reflexivity|congruence].
Qed.

(** Which commands are refused; a refused command changes nothing (an exception carries no new state). *)
Theorem c47_refused h s i t : do_cmds h ctrl_init = Some s ->
  ((exists e, do_cmd (Connect i t) s = Throw e) <-> ~ loaded h i \/ (t = "frame_receiver" /\ ~ has_receiver h)) /\
  ((exists e, do_cmd (Disconnect i t) s = Throw e) <-> ~ loaded h i) /\
  (do_cmd (Disconnect i t) s = Undef <-> loaded h i /\ t = "frame_receiver" /\ ~ has_receiver h).
Proof.
  intros R. destruct (wired_run h s R) as [_ W2 _ _ W5 _ _]. cbn. unfold connect, disconnect. rewrite <- W2, <- W5.
  destruct (sm_get (k_plugins s) i) as [p|].
  - destruct (String.eqb_spec t "frame_receiver") as [->|N].
    + destruct (k_shm s) as [cbs|].
      * split; [split; [intros (e & X); discriminate|intros [X|(_ & X)]; exfalso; apply X; discriminate]|].
        split; [split; [intros (e & X); discriminate|intros X; exfalso; apply X; discriminate]|].
        split; [discriminate|]. intros (_ & _ & X). exfalso. apply X. discriminate.
      * split; [split; [intros _; right; split; [reflexivity|congruence]|intros _; eauto]|].
        split; [split; [intros (e & X); discriminate|intros X; exfalso; apply X; discriminate]|].
        split; [intros _; split; [discriminate|split; [reflexivity|congruence]]|reflexivity].
    + split; [split; [intros (e & X); destruct (sm_get (k_plugins s) t); discriminate|intros [X|(X & _)]; [exfalso; apply X; discriminate|congruence]]|].
      split; [split; [intros (e & X); destruct (sm_get (k_plugins s) t); discriminate|intros X; exfalso; apply X; discriminate]|].
      split; [destruct (sm_get (k_plugins s) t); discriminate|]. intros (_ & X & _). congruence.
  - split; [split; [intros _; left; congruence|eauto]|]. split; [split; [intros _; congruence|eauto]|]. split; [discriminate|]. intros (X & _). congruence.
Qed.

Definition cmds : list cmd :=
  [Setup "tcp://p" "tcp://s"; Load "dummy" "DummyUDPProcessPlugin" true; Load "hdf" "FileWriterPlugin" true; Load "view" "LiveViewPlugin" true;
   Connect "dummy" "frame_receiver"; Connect "hdf" "dummy"; Connect "view" "dummy"; Disconnect "view" "dummy"; Connect "view" "hdf";
   Connect "none" "hdf"].
Example c47_case : exists s, do_cmds cmds ctrl_init = Some s /\ pushed_by "dummy" s = [Queued "hdf" (Plugin "hdf")] /\
  pushed_by "hdf" s = [Called "controller" Controller; Queued "view" (Plugin "view")] /\ handed_over s = ["dummy"].
Proof. eexists. vm_compute. repeat split. Qed.

(** Disconnecting from a frame receiver that was never set up dereferences a null pointer. *)
Theorem c47_null_refuted : do_cmds [Load "a" "SumPlugin" true; Disconnect "a" "frame_receiver"] ctrl_init = None.
Proof. reflexivity. Qed.
(** Connecting to a plugin that is not loaded is accepted, and has no effect even when the plugin is loaded later. *)
Theorem c47_connect_unloaded_refuted : exists s, do_cmds [Load "a" "SumPlugin" true] ctrl_init = Some s /\
  do_cmd (Connect "a" "b") s = Ret s /\
  exists s', do_cmds [Load "a" "SumPlugin" true; Connect "a" "b"; Load "b" "SumPlugin" true] ctrl_init = Some s' /\ pushed_by "b" s' = [].
Proof. eexists. split; [reflexivity|]. split; [reflexivity|]. eexists. split; [reflexivity|]. vm_compute. reflexivity. Qed.
(** "Disconnect all" cuts the file writer off from the controller, and does not disconnect from the frame receiver. *)
Theorem c47_disconnect_all_refuted : exists s s', do_cmds cmds ctrl_init = Some s /\ do_cmds (cmds ++ [DisconnectAll]) ctrl_init = Some s' /\
  In (Called "controller" Controller) (pushed_by "hdf" s) /\ pushed_by "hdf" s' = [] /\ handed_over s' = ["dummy"].
Proof. eexists. eexists. split; [vm_compute; reflexivity|]. split; [vm_compute; reflexivity|]. vm_compute. repeat split. left. reflexivity. Qed.
(** Changing the frame receiver endpoints drops the connections to it. *)
Theorem c47_endpoint_change_refuted : exists s, do_cmds (cmds ++ [Setup "tcp://p2" "tcp://s"]) ctrl_init = Some s /\ handed_over s = [].
Proof. eexists. split; [vm_compute; reflexivity|]. reflexivity. Qed.

Print Assumptions c47_graph_partial.
Print Assumptions c47_receiver.
Print Assumptions c47_loaded.
Print Assumptions c47_refused.
Print Assumptions c47_null_refuted.
Print Assumptions c47_connect_unloaded_refuted.
Print Assumptions c47_disconnect_all_refuted.
Print Assumptions c47_endpoint_change_refuted.
