(** Messages to the file writer as calls of FwModel. *)
From Coq Require Import String Ascii.
From Verif Require Import Base JsonModel JsonSpec JsonProofs FrameModel PrcModel PrcReply PrcSet CfgModel CfgSpec CfgProofs PlaceModel NameModel AcqModel FwModel FwcModel FwcSpec FwcProofs.
Local Open Scope string_scope.
Local Open Scope list_scope.
Local Open Scope Z_scope.

Lemma runs_app w l w1 rs l2 w2 rs2 : fw_run w l = (w1, rs) -> ~ In Undef rs -> fw_run w1 l2 = (w2, rs2) -> fw_run w (l ++ l2) = (w2, rs ++ rs2).
Proof.
  revert w rs. induction l as [|o l IH]; intros w rs; cbn [fw_run app].
  - intros H _ H2. injection H as <- <-. exact H2.
  - destruct (fw_call o w) as (w', r). destruct (fw_run w' l) as (w3, rs3) eqn:R. destruct r as [u|e|].
    + intros H N H2. injection H as <- <-. rewrite (IH _ _ R) with (1 := fun I => N (or_intror I)) (2 := H2). reflexivity.
    + intros H N H2. injection H as <- <-. rewrite (IH _ _ R) with (1 := fun I => N (or_intror I)) (2 := H2). reflexivity.
    + intros H N _. injection H as <- <-. destruct N. left. reflexivity.
Qed.
Lemma configures_refl w : configures w w. Proof. exists [], []. split; [constructor|]. split; [reflexivity|intros []]. Qed.
Lemma configures_trans a b c : configures a b -> configures b c -> configures a c.
Proof. intros (l & rs & F & R & N) (l' & rs' & F' & R' & N'). exists (l ++ l'), (rs ++ rs'). split; [apply Forall_app; auto|]. split; [exact (runs_app _ _ _ _ _ _ _ R N R')|]. intros I. apply in_app_or in I as [I|I]; contradiction. Qed.
Lemma configures_one ok c w w' r : fw_configure ok c w = (w', r) -> r <> Undef -> configures w w'.
Proof. intros H N. exists [OConfigure ok c], [r]. split; [repeat constructor|]. cbn. rewrite H. split; [destruct r; congruence|]. intros [E|[]]; congruence. Qed.

Definition outside (s s1 : fwx) : Prop := x_file s1 = x_file s /\ x_timing s1 = x_timing s /\ x_name s1 = x_name s.
Definition refines_to (s : fwx) {A} (x : fwx * msg * outcome fault A) : Prop :=
  let '(s1, r1, o) := x in outside s s1 /\ match o with Undef => True | Throw (XRun _) => configures (x_fw s) (say [Err ErrConfig] (x_fw s1)) | _ => configures (x_fw s) (x_fw s1) end.
Definition refines {A} (a : X A) : Prop := forall s r, refines_to s (a s r).
Lemma rf_seq {A B} (a : X A) (f : A -> X B) : refines a -> (forall x, refines (f x)) -> refines (cseq a f).
Proof.
  intros HA HF s r. unfold cseq. specialize (HA s r). unfold refines_to in *. destruct (a s r) as ((s1 & r1) & [x|e|]); [|exact HA|exact HA]. specialize (HF x s1 r1). unfold refines_to in HF. destruct (f x s1 r1) as ((s2 & r2) & o). destruct HA as ((O1 & O2 & O3) & HA), HF as ((P1 & P2 & P3) & HF). split; [unfold outside; repeat split; congruence|].
  destruct o as [|[]|]; try (eapply configures_trans; eassumption). exact HF.
Qed.
Lemma rf_same {A} (a : X A) : (forall s r, x_fw (fst (fst (a s r))) = x_fw s /\ outside s (fst (fst (a s r))) /\ forall w, snd (a s r) <> Throw (XRun w)) -> refines a.
Proof. intros H s r. specialize (H s r). unfold refines_to. destruct (a s r) as ((s1 & r1) & o). cbn in H. destruct H as (E & O & N). split; [exact O|]. rewrite E. destruct o as [|[]|]; try apply configures_refl; [|exact Logic.I]. destruct (N what eq_refl). Qed.
Lemma out_refl s : outside s s. Proof. repeat split. Qed.
Lemma rf_ret {A} (a : A) : refines (cret a). Proof. apply rf_same. intros s r. split; [reflexivity|]. split; [apply out_refl|discriminate]. Qed.
Lemma rf_ipc {A} e : refines (@cthrow fwx A (XIpc e)). Proof. apply rf_same. intros s r. split; [reflexivity|]. split; [apply out_refl|discriminate]. Qed.
Lemma rf_lift {A} (o : outcome ipcexc A) : refines (clift o). Proof. apply rf_same. intros s r. split; [reflexivity|]. split; [apply out_refl|]. cbn. destruct o; discriminate. Qed.
Lemma rf_get : refines cget. Proof. apply rf_same. intros s r. split; [reflexivity|]. split; [apply out_refl|discriminate]. Qed.
Lemma rf_set f : (forall s, x_fw (f s) = x_fw s /\ outside s (f s)) -> refines (cset f).
Proof. intros H. apply rf_same. intros s r. cbn. destruct (H s) as (A & B). split; [exact A|]. split; [exact B|discriminate]. Qed.
Lemma rf_nack w : refines (cnack w). Proof. apply rf_same. intros s r. unfold cnack. destruct (set_nack r w) as (m & [[]| |]); (split; [reflexivity|]; split; [apply out_refl|discriminate]). Qed.
Lemma rf_setting {A} m k (get : msg -> string -> outcome ipcexc A) f : (forall a, refines (f a)) -> refines (setting m k get f).
Proof. intros H. apply rf_seq; [apply rf_lift|]. intros []; [|apply rf_ret]. apply rf_seq; [apply rf_lift|exact H]. Qed.
Lemma rf_local {A} m k (get : msg -> string -> outcome ipcexc A) : refines (local m k get).
Proof. apply rf_seq; [apply rf_lift|]. intros []; [|apply rf_ret]. apply rf_seq; [apply rf_lift|]. intros a. apply rf_ret. Qed.
(** [base] of something that is a call of configure *)
Lemma rf_base t (a : FM unit) s r : (forall e, snd (a (x_fw s)) <> Throw (FHdf5 e)) -> (exists ok c, FwModel.configure_body ok c (x_fw s) = a (x_fw s)) -> refines_to s (base t a s r).
Proof.
  intros NH (ok & c & E). unfold base, refines_to. specialize (NH). destruct (a (x_fw s)) as (w & o) eqn:AW. cbn [snd] in NH. split; [repeat split|]. cbn [x_fw w_fw]. destruct o as [u|[]|].
  - apply (configures_one ok c _ _ (Ret u)); [unfold fw_configure; rewrite E; reflexivity|discriminate].
  - apply (configures_one ok c _ _ (Throw FMsg)); [unfold fw_configure; rewrite E; reflexivity|discriminate].
  - apply (configures_one ok c _ _ (Throw FRuntime)); [unfold fw_configure; rewrite E; reflexivity|discriminate].
  - destruct (NH e eq_refl).
  - exact Logic.I.
Qed.
Lemma kind_process ok p w : FwModel.configure_body ok (Config (Some p) None DsNone false Absent Absent Absent Absent) w = configure_process p w.
Proof. unfold FwModel.configure_body. cbn -[configure_process]. unfold fbind, fret. destruct (configure_process p w) as (w' & [[]| |]); reflexivity. Qed.
Lemma kind_file ok p w : FwModel.configure_body ok (Config None (Some p) DsNone false Absent Absent Absent Absent) w = configure_file ok p w.
Proof. unfold FwModel.configure_body. cbn -[configure_file]. unfold fbind, fret. destruct (configure_file ok p w) as (w' & [[]| |]); reflexivity. Qed.
Lemma kind_name ok n w : FwModel.configure_body ok (Config None None (DsName n) false Absent Absent Absent Absent) w = create_new_dataset n w.
Proof. unfold FwModel.configure_body. cbn -[create_new_dataset]. unfold fbind, fret. destruct (create_new_dataset n w) as (w' & [[]| |]); reflexivity. Qed.
Lemma kind_delete ok w : FwModel.configure_body ok (Config None None DsNone true Absent Absent Absent Absent) w = fput (set_defs []) w. Proof. reflexivity. Qed.
Lemma kind_dataset ok n c w : find_def (w_defs w) n <> None -> FwModel.configure_body ok (Config None None (DsObj [(n, c)]) false Absent Absent Absent Absent) w = configure_dataset n c w.
Proof.
  intros F. unfold FwModel.configure_body. cbn -[create_new_dataset configure_dataset]. unfold create_new_dataset. unfold fbind at 1 2 3 4, fput at 1, fret. destruct (find_def (w_defs w) n) eqn:E; [|congruence]. unfold fbind. destruct (configure_dataset n c w) as (w' & [[]| |]); reflexivity.
Qed.
Lemma process_no_h p w e : snd (configure_process p w) <> Throw (FHdf5 e).
Proof.
  unfold configure_process, on_field, fbind, fret, fthrow, fget, change, fput. destruct p as [[| |a] [| |b] [| |c] [| |d]]; cbn; try discriminate;
    repeat (match goal with |- context [if ?x then _ else _] => destruct x; cbn; try discriminate; unfold fbind, fret, fthrow, fget, fput; cbn; try discriminate end).
Qed.
Lemma rf_process t p : refines (base t (configure_process p)).
Proof. intros s r. apply rf_base; [intros e; apply process_no_h|]. exists (fun _ => true), (Config (Some p) None DsNone false Absent Absent Absent Absent). apply kind_process. Qed.
Lemma file_no_h ok p w e : snd (configure_file ok p w) <> Throw (FHdf5 e).
Proof.
  unfold configure_file, on_field, fbind, fret, fthrow, fput. destruct p as [[| |a] [| |b] [| |c] [| |d] [| |f] [| |g]]; cbn; try discriminate; destruct (ok a); discriminate.
Qed.
Lemma rf_only t a b c d e f : refines (base t (only a b c d e f)).
Proof. intros s r. apply rf_base; [intros h; apply file_no_h|]. exists (fun _ => true), (Config None (Some (FCfg a b c d e f)) DsNone false Absent Absent Absent Absent). apply kind_file. Qed.
Lemma rf_new n : refines (new_dataset n).
Proof.
  apply rf_seq; [apply rf_set; intros s; destruct (find_def (w_defs (x_fw s)) n); (split; [reflexivity|repeat split])|]. intros [] s r. apply rf_base; [discriminate|]. exists (fun _ => true), (Config None None (DsName n) false Absent Absent Absent Absent). apply kind_name.
Qed.
Lemma rf_rest t frames master id period : refines (base t (FwModel.configure_body (fun _ => true) (config_only frames master id period))).
Proof.
  intros s r. apply rf_base; [|eauto]. intros e. unfold FwModel.configure_body, config_only, on_field, fbind, fret, fthrow, fget, fput, flift. cbn. destruct frames as [| |n]; cbn; try discriminate.
  - destruct master, id, period; discriminate.
  - destruct (calc_num_frames (w_geom (x_fw s)) n) as [k|[]|]; unfold fundef, fret; cbn; try discriminate. destruct master, id, period; discriminate.
Qed.
Lemma rf_delete : refines delete_datasets.
Proof. apply rf_seq; [|intros []; apply rf_set; intros s; split; [reflexivity|repeat split]]. intros s r. apply rf_base; [discriminate|]. exists (fun _ => true), (Config None None DsNone true Absent Absent Absent Absent). apply kind_delete. Qed.
Lemma process_refines m : refines (process_section m).
Proof. unfold process_section. repeat (apply rf_seq; [|intros _]); apply rf_setting; intros a; first [apply rf_process|apply rf_set; intros s; split; [reflexivity|repeat split]]. Qed.
Lemma file_refines look m : refines (file_section look m).
Proof. unfold file_section. repeat (apply rf_seq; [|intros _]); apply rf_setting; intros a; first [destruct (look a); first [apply rf_only|apply rf_nack]|apply rf_only|apply rf_set; intros s; split; [reflexivity|repeat split]]. Qed.
(** The definition is there. *)
Definition refines_at (n : string) {A} (a : X A) : Prop := forall s r, find_def (w_defs (x_fw s)) n <> None -> refines_to s (a s r).
Lemma local_case {A} m k (get : msg -> string -> outcome ipcexc A) (s : fwx) r : (exists o, local m k get s r = (s, r, Ret o)) \/ (exists e, local m k get s r = (s, r, Throw (XIpc e))) \/ local m k get s r = (s, r, Undef).
Proof. unfold local, cseq, clift, cret. destruct (has_param m k) as [[]|e|]; [destruct (get m k)| | |]; first [left; eexists; reflexivity|right; left; eexists; reflexivity|right; right; reflexivity]. Qed.
Lemma ra_local {A B} n m k (get : msg -> string -> outcome ipcexc A) (f : option A -> X B) : (forall o, refines_at n (f o)) -> refines_at n (cseq (local m k get) f).
Proof.
  intros H s r F. unfold cseq. destruct (local_case m k get s r) as [(o & ->)|[(e & ->)| ->]]; [apply H, F|split; [apply out_refl|apply configures_refl]|split; [apply out_refl|exact Logic.I]].
Qed.
Lemma section_refines n m : refines_at n (dataset_section n m).
Proof.
  unfold dataset_section. do 8 (apply ra_local; intros ?). intros s r F. pose proof F as F0. destruct (find_def (w_defs (x_fw s)) n) as [d|] eqn:FD; [clear F|congruence].
  assert (B : forall c, no_bad (dc_type c) -> no_bad (dc_dims c) -> no_bad (dc_chunks c) -> no_bad (dc_comp c) -> no_bad (dc_lowhigh c) -> refines_to s (base "" (configure_dataset n c) s r)).
  { intros c X1 X2 X3 X4 X5. apply rf_base. - intros e. pose proof (base_dataset n c s r d FD X1 X2 X3 X4 X5) as X. unfold base in X. destruct (configure_dataset n c (x_fw s)) as (w & [| |]); try discriminate. destruct e0; discriminate.
    - exists (fun _ => true), (Config None None (DsObj [(n, c)]) false Absent Absent Absent Absent). apply kind_dataset. rewrite FD. discriminate. }
  match goal with |- refines_to s (cseq (base "" (configure_dataset n ?c)) _ s r) => specialize (B c); assert (E := base_dataset n c s r d FD) end. rewrite E in B by apply as_field_good. unfold cseq. rewrite E by apply as_field_good. specialize (B (as_field_good _ _) (as_field_good _ _) (as_field_good _ _) (as_field_good _ _) (as_field_good _ _)). unfold cset. cbn. destruct (x_blosc s n) as ((u & v) & z). exact B.
Qed.
Lemma sections_refine now m l : refines (dataset_sections now m l).
Proof.
  induction l as [|n l IH]; cbn [dataset_sections]; [apply rf_ret|]. intros s r. pose proof (rf_new n s r) as N. destruct (new_dataset n s r) as ((s1 & r1) & o) eqn:E. assert (exists u, o = Ret u) as (u & ->) by (unfold new_dataset, cseq, cset, base, create_new_dataset, fput in E; injection E as _ _ <-; eauto). destruct u.
  assert (F : find_def (w_defs (x_fw s1)) n <> None). { pose proof (new_ret n s r s1 r1 E) as (_ & _ & D & _). unfold dataset in D. destruct (find_def (w_defs (x_fw s1)) n); congruence. }
  rewrite (cseq_go _ _ _ _ _ _ _ E). assert (K : refines_to s1 (cseq (clift (part now m n)) (fun c => cseq (dataset_section n c) (fun _ => dataset_sections now m l)) s1 r1)).
  { unfold cseq at 1, clift. destruct (part now m n) as [c|e|]; [|split; [apply out_refl|apply configures_refl]|split; [apply out_refl|exact Logic.I]]. unfold cseq. pose proof (section_refines n c s1 r1 F) as S. destruct (dataset_section n c s1 r1) as ((s2 & r2) & [x|e|]); [|exact S|exact S].
    pose proof (IH s2 r2) as I. unfold refines_to in *. destruct (dataset_sections now m l s2 r2) as ((s3 & r3) & o). destruct S as ((O1 & O2 & O3) & S), I as ((P1 & P2 & P3) & I). split; [unfold outside; repeat split; congruence|]. destruct o as [|[]|]; try (eapply configures_trans; eassumption). exact I. }
  unfold refines_to in *. destruct (cseq (clift (part now m n)) _ s1 r1) as ((s3 & r3) & o). destruct N as ((O1 & O2 & O3) & N), K as ((P1 & P2 & P3) & K). split; [unfold outside; repeat split; congruence|]. destruct o as [|[]|]; try (eapply configures_trans; eassumption). exact K.
Qed.
Lemma body_refines look now m : refines (configure_body look now m).
Proof.
  unfold configure_body. apply rf_seq; [apply rf_setting, process_refines|intros _]. apply rf_seq; [apply rf_setting, file_refines|intros _].
  apply rf_seq.
  { apply rf_seq; [apply rf_lift|]. intros []; [|apply rf_ret]. destruct (text m "dataset") as [n|e|]; [apply rf_new| |intros s r; split; [apply out_refl|exact Logic.I]].
    assert (Q : refines (cseq (clift (part now m "dataset")) (fun c => cseq (clift (get_param_names c)) (fun names => dataset_sections now c names)))) by (apply rf_seq; [apply rf_lift|]; intros c; apply rf_seq; [apply rf_lift|]; intros names; apply sections_refine).
    destruct e; try exact Q; apply rf_ipc. }
  intros _. apply rf_seq; [apply rf_seq; [apply rf_lift|]; intros []; [apply rf_delete|apply rf_ret]|intros _].
  do 4 (apply rf_seq; [apply rf_setting; intros a; apply rf_rest|intros _]). apply rf_setting. intros b. apply rf_seq; [apply rf_get|]. intros s0. destruct (b && w_writing (x_fw s0)); [|apply rf_ret]. apply rf_set. intros s. destruct (w_active (x_fw s)); (split; [reflexivity|repeat split]).
Qed.
Lemma configure_refines look now m s r s1 r1 o : fwx_configure look now m s r = (s1, r1, o) -> o <> Undef -> configures (x_fw s) (x_fw s1) /\ outside s s1.
Proof.
  intros H N. pose proof (body_refines look now m s r) as B. unfold fwx_configure in H. unfold refines_to in B. destruct (configure_body look now m s r) as ((s0 & r0) & [u|[e|w|]|]); injection H as <- <- <-; try congruence; destruct B as (O & B); (split; [exact B|exact O]).
Qed.
