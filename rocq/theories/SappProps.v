(** C78: the command line of the simulator. *)
From Coq Require Import String Ascii.
From Verif Require Import Base OptModel OptSpec OptProofs OptMain SappModel SappSpec SappProofs.
Local Open Scope string_scope.
Local Open Scope list_scope.

(** The library of a detector in a directory *)
Lemma library_path dir det : dir <> "" -> ~ ends_with dir "/" -> library dir det = (dir ++ "/lib" ++ det ++ "FrameSimulatorPlugin.so")%string.
Proof.
  intros Hne Hs. unfold library. destruct (has_suffix dir "/") eqn:E; [exfalso; apply Hs; apply has_suffix_iff; exact E|]. destruct (String.eqb_spec dir ""); [contradiction|reflexivity].
Qed.

(** The detector first, then options of the simulator and the plugin in any order, each at most once, with readable numbers: the plugin of that detector is loaded from its directory and simulates with exactly what is told and the defaults for the rest; without a destination it simulates nothing.  Missing: options before the detector, abbreviations, values that begin with two dashes. *)
Theorem c78_simulates_partial load log_ok det l dir : no_dash det -> Forall gproper l -> NoDup (List.map g_name l) -> readable l -> tells l "lib-path" dir -> dir <> "" -> ~ ends_with dir "/" ->
  (forall b f, tells l "log-config" f -> log_ok b f = true) ->
  load (det ++ "FrameSimulatorPlugin")%string (dir ++ "/lib" ++ det ++ "FrameSimulatorPlugin.so")%string = Some dummy_options ->
  ((forall ip, ~ tells l "dest-ip" ip) -> simulate load log_ok (det :: gline l) = Some (0%Z, None)) /\
  (forall ip, tells l "dest-ip" ip -> exists s, simulate load log_ok (det :: gline l) = Some (0%Z, Some s) /\
    z_ip s = ip /\ text_is l "ports" "9999" (z_ports s) /\ int_is l "frames" 1000 (z_frames s) /\
    int_is l "width" 1400 (z_width s) /\ int_is l "height" 1024 (z_height s) /\ int_is l "packet-len" 8000 (z_len s) /\
    maybe_text l "pcap-file" (z_pcap s) /\ maybe_text l "drop-fraction" (z_frac s) /\ maybe_text l "drop-packets" (z_drops s) /\ maybe_int l "packet-gap" (z_gap s)).
Proof.
  intros Hd Hp Hnd Hr Hlib H1 H2 Hlog Hload. rewrite <- (library_path dir det H1 H2) in Hload.
  destruct (simulator_line load log_ok det l dir Hd Hp Hnd Hr Hlib Hlog Hload) as (m & E & Hm). unfold simulate. rewrite E. unfold dummy_setup.
  split.
  - intros Hno. rewrite defaults_at, (told_none det l m "dest-ip" Hm ltac:(discriminate) Hno). reflexivity.
  - intros ip Hip. rewrite defaults_at. rewrite (told_at det l m "dest-ip" ip Hm Hr Hip). cbn [gval existsb integer_names]. change (gval "dest-ip" ip) with (Some (VStr ip)). cbv iota.
    assert (Po : exists ports, defaults dummy_options m "ports" = Some (VStr ports) /\ text_is l "ports" "9999" ports).
    { rewrite defaults_at. destruct (tells_dec l "ports") as [(w & Hw)|Hw].
      - exists w. rewrite (told_at det l m "ports" w Hm Hr Hw). split; [reflexivity|left; exact Hw].
      - exists "9999". rewrite (told_none det l m "ports" Hm ltac:(discriminate) Hw). split; [reflexivity|right; split; [exact Hw|reflexivity]]. }
    destruct Po as (ports & -> & Hports).
    eexists. split; [reflexivity|]. cbn [z_ip z_ports z_frames z_width z_height z_len z_pcap z_frac z_drops z_gap].
    split; [reflexivity|]. split; [exact Hports|].
    split; [apply (int_setting det); [exact Hm|exact Hr|cbn; tauto|right; reflexivity]|].
    split; [apply (int_setting det); [exact Hm|exact Hr|cbn; tauto|left; split; reflexivity]|].
    split; [apply (int_setting det); [exact Hm|exact Hr|cbn; tauto|left; split; reflexivity]|].
    split; [apply (int_setting det); [exact Hm|exact Hr|cbn; tauto|left; split; reflexivity]|].
    split; [apply (text_maybe det); [exact Hm|exact Hr|exact Hnd|cbn; tauto|reflexivity]|].
    split; [apply (text_maybe det); [exact Hm|exact Hr|exact Hnd|cbn; tauto|reflexivity]|].
    split; [apply (text_maybe det); [exact Hm|exact Hr|exact Hnd|cbn; tauto|reflexivity]|].
    apply (int_maybe det); [exact Hm|exact Hr|exact Hnd|cbn; tauto|reflexivity].
Qed.
Definition sim_ex : list given := [Given "frames" false "-1"; Given "lib-path" true "/opt/lib"; Given "dest-ip" false "127.0.0.1"; Given "ports" true "61649,61650"; Given "packet-gap" false "10"].
Definition load_ex : loader := fun c p => if String.eqb c "DummyUDPFrameSimulatorPlugin" && String.eqb p "/opt/lib/libDummyUDPFrameSimulatorPlugin.so" then Some dummy_options else None.
Example c78_simulates_ex : no_dash "DummyUDP" /\ Forall gproper sim_ex /\ NoDup (List.map g_name sim_ex) /\ readable sim_ex /\ tells sim_ex "lib-path" "/opt/lib" /\ ~ ends_with "/opt/lib" "/" /\
  gline sim_ex = ["--frames"; "-1"; "--lib-path=/opt/lib"; "--dest-ip"; "127.0.0.1"; "--ports=61649,61650"; "--packet-gap"; "10"] /\
  simulate load_ex (fun _ _ => true) ("DummyUDP" :: gline sim_ex) = Some (0%Z, Some (Simulation (-1) "127.0.0.1" "61649,61650" None (Some 10%Z) None None 1400 1024 8000)).
Proof.
  assert (B : forall w, String.prefix "--" w = false -> ~ begins "--" w). { intros w H (r & ->). cbn in H. destruct r; discriminate H. }
  split; [right; intros (r & E); discriminate E|]. split.
  { repeat (apply Forall_cons; [split; [cbn; tauto|cbn; first [discriminate|apply B; reflexivity]]|]). apply Forall_nil. }
  split; [repeat constructor; cbn; intuition discriminate|]. split.
  { split.
    - intros w (j & H). cbn in H. intuition discriminate.
    - intros n w Hn (j & H). cbn in H. destruct H as [[= <- _ <-]|[[= <- _ <-]|[[= <- _ <-]|[[= <- _ <-]|[[= <- _ <-]|[]]]]]]; try (cbn in Hn; intuition discriminate).
      + exists (-1)%Z. apply cast_int_iff. reflexivity.
      + exists 10%Z. apply cast_int_iff. reflexivity. }
  split; [exists true; cbn; tauto|]. split; [|split; reflexivity]. intros H. apply has_suffix_iff in H. discriminate H.
Qed.

(** Whatever the line: nothing is simulated unless a plugin was loaded, from the directory told, and the code is 0 or 1. *)
Theorem c78_codes load log_ok args rc r : simulate load log_ok args = Some (rc, r) -> (rc = 0%Z \/ rc = 1%Z) /\
  (r <> None -> rc = 0%Z /\ exists det dir, load (det ++ "FrameSimulatorPlugin")%string (library dir det) <> None).
Proof.
  unfold simulate. destruct (simulator load log_ok args) as [n|m] eqn:E.
  - intros [= <- <-]. split; [|intros X; contradiction]. revert E. unfold simulator. destruct (run _ generic_options true args) as [l|]; [|intros [= <-]; left; reflexivity].
    destruct (store generic_options _ _ vempty) as [m [|]]; [|intros [= <-]; left; reflexivity]. destruct (is_some (m "log-config") && _); [intros [= <-]; left; reflexivity|].
    destruct (is_some (m "detector")); [|intros [= <-]; right; reflexivity]. destruct (negb (is_some (m "lib-path"))); [intros [= <-]; right; reflexivity|].
    destruct (load _ _) as [ds|]; cbn [is_some].
    + destruct (run _ ds false _) as [l2|]; [|discriminate]. destruct (store ds _ l2 m) as [m2 [|]]; [|discriminate]. destruct (is_some (m "help")); [intros [= <-]; right; reflexivity|].
      destruct (is_some (m "version")); [intros [= <-]; right; reflexivity|discriminate].
    + destruct (run _ [] false _) as [l2|]; [|intros [= <-]; left; reflexivity]. destruct (store [] _ l2 m) as [m2 [|]]; [|intros [= <-]; left; reflexivity].
      destruct (is_some (m "help")); [intros [= <-]; right; reflexivity|]. destruct (is_some (m "version")); intros [= <-]; [right|left]; reflexivity.
  - destruct (dummy_setup m) as [x| |] eqn:D; [|discriminate|discriminate]. intros [= <- <-]. split; [left; reflexivity|]. intros _. split; [reflexivity|].
    revert E. unfold simulator. destruct (run _ generic_options true args) as [l|]; [|discriminate]. destruct (store generic_options _ _ vempty) as [m1 [|]]; [|discriminate].
    destruct (is_some (m1 "log-config") && _); [discriminate|]. destruct (is_some (m1 "detector")); [|discriminate]. destruct (negb (is_some (m1 "lib-path"))); [discriminate|].
    destruct (load (str m1 "detector" ++ "FrameSimulatorPlugin")%string (library (str m1 "lib-path") (str m1 "detector"))) as [ds|] eqn:L; cbn [is_some].
    + intros _. exists (str m1 "detector"), (str m1 "lib-path"). rewrite L. discriminate.
    + destruct (run _ [] false _) as [l2|]; [|discriminate]. destruct (store [] _ l2 m1) as [m2 [|]]; [|discriminate]. destruct (is_some (m1 "help")); [discriminate|]. destruct (is_some (m1 "version")); discriminate.
Qed.
Example c78_codes_ex : simulate load_ex (fun _ _ => true) ["DummyUDP"] = Some (1%Z, None) /\ simulate load_ex (fun _ _ => true) ["Excalibur"; "--lib-path"; "/opt/lib"] = Some (0%Z, None).
Proof. split; reflexivity. Qed.

(** A detector without a directory is refused with code 1. *)
Theorem c78_directory load log_ok det l : no_dash det -> Forall gproper l -> NoDup (List.map g_name l) -> readable l -> (forall w, ~ tells l "lib-path" w) -> (forall b f, tells l "log-config" f -> log_ok b f = true) ->
  simulate load log_ok (det :: gline l) = Some (1%Z, None).
Proof.
  intros Hd Hp Hnd Hr Hlib Hlog. unfold simulate, simulator. rewrite (start_line _ _ _ _ _ Hd (Nat.le_refl _)).
  rewrite (first_line l Hp) by (cbn; lia). destruct (first_store det l Hp Hnd Hr) as (m & E & Hm). rewrite E.
  assert (O : forall n, own n = true -> forall g, In g l -> g_name g = n -> In g (ours l)) by (intros n Hn g Hg X; apply filter_In; split; [exact Hg|rewrite X; exact Hn]).
  assert (Log : is_some (m "log-config") && negb (log_ok (has_suffix (str m "log-config") ".xml") (str m "log-config")) = false).
  { destruct (tells_dec l "log-config") as [(f & Hf)|Hf].
    - destruct (tells_in l _ f Hf) as (g & Hg & Gn & Gw). pose proof (to_in _ _ _ Hm g (O "log-config" eq_refl g Hg Gn)) as X. rewrite Gn in X. unfold str. rewrite X. unfold gv. rewrite Gn, Gw. change (gval "log-config" f) with (Some (VStr f)).
      cbv iota. rewrite (Hlog _ f Hf). reflexivity.
    - assert (N : m "log-config" = None). { apply (to_out _ _ _ Hm); [discriminate|]. intros g Hg X. apply filter_In in Hg as (Hg & _). apply (Hf (g_value g)). rewrite <- X. apply in_tells. exact Hg. }
      rewrite N. reflexivity. }
  rewrite Log, (to_det _ _ _ Hm). cbn [is_some].
  assert (N : m "lib-path" = None). { apply (to_out _ _ _ Hm); [discriminate|]. intros g Hg X. apply filter_In in Hg as (Hg & _). apply (Hlib (g_value g)). rewrite <- X. apply in_tells. exact Hg. }
  rewrite N. reflexivity.
Qed.
Example c78_directory_ex : simulate load_ex (fun _ _ => true) ("DummyUDP" :: gline [Given "frames" true "5"]) = Some (1%Z, None) /\ (forall w, ~ tells [Given "frames" true "5"] "lib-path" w).
Proof. split; [reflexivity|]. intros w (j & [X|[]]). discriminate X. Qed.

(** ** What a user might expect and does not get *)

(** A number that cannot be read does not stop the simulation: the error is printed, the code ignored, and the default used. *)
Theorem c78_unreadable_refuted : ~ forall load log_ok args w, In "--frames" args -> In w args -> (forall z, ~ integer w z) -> args = ["DummyUDP"; "--lib-path=/opt/lib"; "--ports=1"; "--dest-ip=127.0.0.1"; "--frames"; w] ->
  forall s, simulate load log_ok args <> Some (0%Z, Some s).
Proof.
  intros H. refine (H load_ex (fun _ _ => true) ["DummyUDP"; "--lib-path=/opt/lib"; "--ports=1"; "--dest-ip=127.0.0.1"; "--frames"; "ten"] "ten" ltac:(cbn; tauto) ltac:(cbn; tauto) _ eq_refl _ eq_refl).
  intros z X. apply cast_int_iff in X. discriminate X.
Qed.
(** The same mistake before the ports are told ends in an exception nobody catches. *)
Theorem c78_dies_refuted : ~ forall load log_ok args, simulate load log_ok args <> None.
Proof. intros H. exact (H load_ex (fun _ _ => true) ["DummyUDP"; "--lib-path=/opt/lib"; "--dest-ip=127.0.0.1"; "--frames"; "ten"; "--ports=1"] eq_refl). Qed.
(** Before the detector, the value of a plugin's option is taken for the detector. *)
Theorem c78_order_refuted : ~ forall load log_ok l det l', no_dash det -> Forall gproper (l ++ l') -> simulate load log_ok (gline l ++ det :: gline l') = simulate load log_ok (det :: gline (l ++ l')).
Proof.
  intros H. assert (X := H load_ex (fun _ _ => true) [Given "frames" false "10"] "DummyUDP" [Given "lib-path" true "/opt/lib"; Given "dest-ip" true "127.0.0.1"]
    ltac:(right; intros (r & E); discriminate E) ltac:(repeat (apply Forall_cons; [split; [cbn; tauto|cbn; first [discriminate|intros (r & E); discriminate E]]|]); apply Forall_nil)).
  vm_compute in X. discriminate X.
Qed.
(** The code does not tell success: a plugin that cannot be loaded gives 0, a request for help 1. *)
Theorem c78_code_refuted : ~ forall load log_ok args rc, simulate load log_ok args = Some (rc, None) -> ~ In "--help" args -> rc <> 0%Z.
Proof. intros H. exact (H (fun _ _ => None) (fun _ _ => true) ["DummyUDP"; "--lib-path=/opt/lib"; "--dest-ip=127.0.0.1"] 0%Z eq_refl ltac:(cbn; intuition discriminate) eq_refl). Qed.
Example c78_refuted_ex :
  simulate load_ex (fun _ _ => true) ["DummyUDP"; "--lib-path=/opt/lib"; "--ports=1"; "--dest-ip=127.0.0.1"; "--frames"; "ten"] = Some (0%Z, Some (Simulation 1000 "127.0.0.1" "1" None None None None 1400 1024 8000)) /\
  simulate load_ex (fun _ _ => true) ["DummyUDP"; "--lib-path=/opt/lib"; "--help"] = Some (1%Z, None).
Proof. split; reflexivity. Qed.

Print Assumptions c78_simulates_partial.
Print Assumptions c78_codes.
Print Assumptions c78_directory.
Print Assumptions c78_unreadable_refuted.
Print Assumptions c78_dies_refuted.
Print Assumptions c78_order_refuted.
Print Assumptions c78_code_refuted.
