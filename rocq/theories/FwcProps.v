(** C60: messages that configure the file writer, and what it reports.  C61: its status and its commands. *)
From Coq Require Import String Ascii.
From Verif Require Import Base JsonModel JsonProofs FrameModel PrcModel PrcSpec PrcReply PrcSet CfgModel PlaceModel NameModel AcqModel FwModel FwSpec FwProofs JsonSpec CfgSpec CfgProofs CfgReply FwcModel FwcSpec FwcProofs FwcSet FwcLive FwcAsk FwcRefine FwcSane FwcRestore.
Local Open Scope string_scope.
Local Open Scope list_scope.
Local Open Scope Z_scope.

(** ** Messages *)
(** A message that returns: all it asks for is done and nothing else; only a path can be refused, and the reply says so. *)
Theorem c60_applied look now m x s r s1 r1 : params_of m = Some x -> fwx_configure look now m s r = (s1, r1, Ret tt) ->
  applied look x s s1 /\ rest_same s s1 /\ w_out (x_fw s1) = w_out (x_fw s) /\ reply_after look x r r1.
Proof. intros E H. destruct (applied_ret _ _ _ _ _ _ _ _ E H) as (A & B & C & D). repeat (split; [assumption|]). apply replied_after, D. Qed.
(** Messages that are well formed return. *)
Theorem c60_accepted look now m x s r : params_of m = Some x -> well_formed x s -> (forall p, params_of r = Some p -> object p) ->
  exists s1 r1, fwx_configure look now m s r = (s1, r1, Ret tt) /\ applied look x s s1 /\ rest_same s s1 /\ reply_after look x r r1.
Proof. intros E W R. destruct (configure_live look now m x s r E W R) as (s1 & r1 & H). exists s1, r1. destruct (c60_applied _ _ _ _ _ _ _ _ E H) as (A & B & _ & D). auto. Qed.
(** However a message ends: it is a number of calls of configure in the model of C14 to C17; the acquisition, the files and the timer are as before, and while writing the process settings are. *)
Lemma configures_keep w w' : configures w w' -> w_writing w' = w_writing w /\ w_cur w' = w_cur w /\ w_disk w' = w_disk w /\ w_log w' = w_log w /\ w_active w' = w_active w /\ (w_writing w = true -> w_geom w' = w_geom w) /\ (1 <= g_fpb (w_geom w) -> 1 <= g_fpb (w_geom w'))%N /\ exists o, w_out w' = w_out w ++ o /\ only_errors o.
Proof.
  intros (l & rs & F & R & N). revert w rs R N. induction F as [|c l IC F IH]; intros w rs R N; cbn [fw_run] in R.
  { injection R as <- <-. repeat (split; [auto|]). exists []. rewrite app_nil_r. split; [reflexivity|constructor]. }
  destruct c as [ok c| | | | |]; try contradiction. cbn [fw_call] in R. pose proof (cfgs_configure ok c w) as K. cbv zeta in K. destruct (fw_configure ok c w) as (w1 & o1). cbn [fst] in K. destruct K as (K1 & K2 & K3 & K4 & K5 & K6 & KF & _ & o & K7 & K8).
  assert (exists rs', fw_run w1 l = (w', rs') /\ ~ In Undef rs') as (rs' & R' & N').
  { destruct o1; [| |injection R as <- <-; destruct N; left; reflexivity]; destruct (fw_run w1 l) as (w2 & rs'); injection R as <- <-; exists rs'; (split; [reflexivity|intros I; apply N; right; exact I]). }
  destruct (IH w1 rs' R' N') as (A1 & A2 & A3 & A4 & A5 & A6 & AF & o' & A7 & A8). repeat (split; [congruence|]). split; [intros W; rewrite A6 by congruence; auto|]. split; [auto|]. exists (o ++ o'). rewrite A7, K7, app_assoc. split; [reflexivity|apply Forall_app; auto].
Qed.
Theorem c60_undisturbed look now m s r s1 r1 o : fwx_configure look now m s r = (s1, r1, o) -> o <> Undef ->
  configures (x_fw s) (x_fw s1) /\ rest_same s s1 /\ (w_writing (x_fw s) = true -> geometry s1 = geometry s) /\ exists e, w_out (x_fw s1) = w_out (x_fw s) ++ e /\ only_errors e.
Proof.
  intros H N. destruct (configure_refines _ _ _ _ _ _ _ _ H N) as (C & O1 & O2 & O3). split; [exact C|]. destruct (configures_keep _ _ C) as (K1 & K2 & K3 & K4 & K5 & K6 & _ & K7). split; [unfold rest_same; repeat split; assumption|]. split; [exact K6|exact K7].
Qed.
(** While writing, a message that gives a process setting another value is refused. *)
Definition process_settings : list (string * (geom -> N)) := [("number", g_procs); ("rank", g_rank); ("frames_per_block", g_fpb); ("blocks_per_file", g_bpf)].
Theorem c60_refused look now m x s r s1 r1 o k f y : params_of m = Some x -> w_writing (x_fw s) = true -> In (k, f) process_settings -> leads ["process"; k] x y -> as_size y <> Some (f (geometry s)) ->
  fwx_configure look now m s r = (s1, r1, o) -> o <> Ret tt.
Proof.
  intros E W I L NE H ->. destruct (c60_undisturbed _ _ _ _ _ _ _ _ H ltac:(discriminate)) as (_ & _ & K & _). specialize (K W). destruct (c60_applied _ _ _ _ _ _ _ _ E H) as (A & _). apply NE.
  assert (G : given x ["process"; k] as_size (f (geometry s)) (f (geometry s1))). { destruct I as [I|[I|[I|[I|[]]]]]; injection I as <- <-; apply A. }
  apply given_at in G. apply leads_at in L. rewrite L in G. rewrite K in G. exact G.
Qed.
(** Blocks without frames are refused. *)
Theorem c60_no_empty_blocks look now m x s r s1 r1 o y : params_of m = Some x -> sane s -> leads ["process"; "frames_per_block"] x y -> as_size y = Some 0%N -> fwx_configure look now m s r = (s1, r1, o) -> o <> Ret tt.
Proof.
  intros E S L Z H ->. destruct (c60_applied _ _ _ _ _ _ _ _ E H) as (A & _). pose proof (ap_block _ _ _ _ A) as G. apply given_at in G. apply leads_at in L. rewrite L, Z in G. injection G as G.
  destruct (c60_undisturbed _ _ _ _ _ _ _ _ H ltac:(discriminate)) as (C & _). destruct (configures_keep _ _ C) as (_ & _ & _ & _ & _ & _ & K & _). pose proof (sn_block s S) as N. unfold geometry in *. lia.
Qed.
(** Without parameters nothing happens. *)
Theorem c60_nothing look now m s r : params_of m = None -> fwx_configure look now m s r = (s, r, Ret tt).
Proof. intros E. unfold fwx_configure, configure_body, setting, cseq, clift, cret, has_param. rewrite !E. reflexivity. Qed.

(** ** Every file writer *)
(** Messages, commands and frames lead to states of the model of C14 to C17; numbers and texts fit, names of data sets are different. *)
Theorem c60_lived P Q n act dk s : lived P Q n act dk s -> (exists l rs, Forall (op_ok P Q) l /\ fw_run (fw_init act dk) l = (x_fw s, rs) /\ ~ In Undef rs) /\ sane s /\ x_name s = n.
Proof. intros L. split; [exact (lived_run _ _ _ _ _ _ L)|exact (lived_sane _ _ _ _ _ _ L)]. Qed.

(** ** What is reported *)
Lemma ready_roomy i r : ready i r -> roomy r /\ at_param r [i] = None.
Proof. intros (A & B). split; [exact A|]. destruct (at_param r [i]) as [x|] eqn:E; [|reflexivity]. destruct (B x). apply leads_at. exact E. Qed.
Lemma grown_adds i y r r1 : grown i y r r1 -> adds i y r r1.
Proof.
  intros G. split; [exact (grown_holds _ _ _ _ G)|]. split; [|exact (grown_keeps _ _ _ _ G)]. intros q x N H. unfold holds. rewrite !leads_at. change (at_param r1 q = Some x <-> at_param r q = Some x). rewrite (grown_apart _ _ _ _ _ G N H). reflexivity.
Qed.
(** The configuration is put under the name of the file writer, with all settings; the rest of the reply and the file writer stay the same. *)
Theorem c60_reported s r : nice (x_name s) -> Forall usable (map d_name (w_defs (x_fw s))) -> sane s -> ready (x_name s) r -> exists r1, fwx_request s r = (s, r1, Ret tt) /\ adds (x_name s) (config_json s) r r1.
Proof. intros N U S R. apply ready_roomy in R as (R & A). destruct (request_ret s r N U (sn_one s S) R A) as (r1 & H & G). exists r1. split; [exact H|apply grown_adds, G]. Qed.
(** Asking changes nothing. *)
Lemma puts_same {S} l : forall (s : S) r, fst (fst (cputs l s r)) = s.
Proof. induction l as [|(n, x) l IH]; intros s r; [reflexivity|]. cbn [cputs]. unfold cseq, cput. destruct (set_param r n x) as (m & [u|e|]); [apply IH|reflexivity|reflexivity]. Qed.
Theorem c60_asking s r : fst (fst (fwx_request s r)) = s /\ fst (fst (fwx_status s r)) = s.
Proof. split; [rewrite request_items|rewrite status_named]; apply puts_same. Qed.
(** What one file writer reports, sent to another without data sets: that one has the same settings, but for indexes.  Missing: numbers of 2^31 and more, paths that cannot be written to, names of data sets with slashes, definitions with dimensions and no chunks. *)
Theorem c60_restored_partial look s r s' : nice (x_name s) -> sane s -> restorable s -> look (p_path (next s)) = Writable -> w_defs (x_fw s') = [] -> (w_writing (x_fw s') = true -> geometry s' = geometry s) -> ready (x_name s) r ->
  exists r1, fwx_request s r = (s, r1, Ret tt) /\ exists y, holds r1 [x_name s] y /\
    forall m now r', params_of m = Some y -> (forall p, params_of r' = Some p -> object p) -> exists s1, fwx_configure look now m s' r' = (s1, r', Ret tt) /\ restored s s1 /\ rest_same s' s1.
Proof.
  intros N S R LK ND W RD. destruct (c60_reported s r N (rs_names s R) S RD) as (r1 & H & (HO & _)). exists r1. split; [exact H|]. exists (config_json s). split; [exact HO|]. intros m now r' E RO.
  destruct (c60_accepted look now m _ s' r' E (config_well_formed s s' S R W) RO) as (s1 & r2 & C & A & RS & RP). exists s1. assert (r2 = r') as ->; [|split; [exact C|]; split; [exact (applied_restored look s s' s1 S R LK ND A)|exact RS]].
  destruct RP as [(t & w & L & F & _)|(_ & E2)]; [|exact E2]. exfalso. apply leads_at in L. rewrite at_settings in L by (cbn; tauto). cbn in L. injection L as <-. destruct (sn_next s S) as (NP & _). rewrite !(cstr_id _ NP) in F. unfold refusal in F. rewrite LK in F. discriminate.
Qed.

(** ** Status and commands *)
Theorem c61_status s r : nice (x_name s) -> ready (x_name s) r -> exists r1, fwx_status s r = (s, r1, Ret tt) /\ adds (x_name s) (status_json s) r r1.
Proof. intros N R. apply ready_roomy in R as (R & A). destruct (status_ret s r N R A) as (r1 & H & G). exists r1. split; [exact H|apply grown_adds, G]. Qed.
(** The counters in it are those of the acquisition if they are below 2^31. *)
Theorem c61_counters_partial s r r1 : nice (x_name s) -> ready (x_name s) r -> fwx_status s r = (s, r1, Ret tt) ->
  forall k n, In (k, n) [("frames_max", a_towrite (w_cur (x_fw s))); ("frames_written", a_written (w_cur (x_fw s))); ("frames_processed", a_processed (w_cur (x_fw s))); ("processes", g_procs (geometry s)); ("rank", g_rank (geometry s))] -> small n -> holds r1 [x_name s; k] (JInt (Z.of_N n)).
Proof.
  intros N R H k n I B. apply ready_roomy in R as (R & A). destruct (status_ret s r N R A) as (r2 & H2 & G). rewrite H in H2. injection H2 as ->. apply leads_at. change (at_param r2 (x_name s :: [k]) = Some (JInt (Z.of_N n))). rewrite (grown_at _ _ _ _ _ G).
  assert (W : Z.of_N n = wrapped (Z.of_N n)) by (unfold small in B; rewrite wrapped_of; lia). rewrite W. destruct I as [I|[I|[I|[I|[I|[]]]]]]; injection I as <- <-; reflexivity.
Qed.
(** The commands it names are those it does not refuse; another changes nothing. *)
Theorem c61_commands i c s r : (In c fwx_commands -> snd (fst (fwx_execute i c s r)) = r) /\
  (~ In c fwx_commands -> (forall p, params_of r = Some p -> object p) -> exists r1, fwx_execute i c s r = (s, r1, Ret tt) /\ refused r ("Command " ++ c ++ " not implemented for FileWriterPlugin")%string r1).
Proof.
  assert (B : forall t cmd, snd (fst (base t (fw_execute i cmd) s r)) = r) by (intros t cmd; unfold base; destruct (fw_execute i cmd (x_fw s)); reflexivity).
  split.
  - intros [<-|[<-|[]]]; apply B.
  - intros N R. unfold fwx_execute. destruct (String.eqb_spec c "start_writing") as [->|N1]; [destruct N; cbn; tauto|]. destruct (String.eqb_spec c "stop_writing") as [->|N2]; [destruct N; cbn; tauto|].
    unfold cseq, base. change (fw_execute i CmdOther (x_fw s)) with (x_fw s, @Ret fexn unit tt). cbv beta iota. rewrite w_fw_id. unfold cnack. destruct (nack_live r ("Command " ++ c ++ " not implemented for FileWriterPlugin")%string R) as (r1 & H & _). rewrite H. exists r1. split; [reflexivity|]. apply nack_refused, H.
Qed.
(** Stopping ends the acquisition, however it ends. *)
Theorem c61_stop i s r s1 r1 o : fwx_execute i "stop_writing" s r = (s1, r1, o) -> w_writing (x_fw s1) = false /\ o = Ret tt /\ w_disk (x_fw s1) = w_disk (x_fw s) /\ next s1 = next s /\ geometry s1 = geometry s.
Proof.
  intros H. unfold fwx_execute in H. cbn [String.eqb Ascii.eqb Bool.eqb] in H. unfold base, fw_execute in H. rewrite fbind_get in H. unfold stop_writing in H. rewrite fbind_get in H. destruct (w_writing (x_fw s)) eqn:W.
  - rewrite fbind_put in H. unfold on_cur in H. destruct (stop_run (St (w_cur (set_writing false (x_fw s))) (w_disk (set_writing false (x_fw s))) (w_log (set_writing false (x_fw s))))) as (a & l & E & _). rewrite E in H. injection H as <- <- <-. repeat split.
  - injection H as <- <- <-. rewrite w_fw_id. auto.
Qed.
Definition naming_next (s : fwx) : naming := Naming (p_file (next s)) (p_id (next s)) (w_postfix (x_fw s)) (sanitise_ext (w_ext (x_fw s))) (w_numbers (x_fw s)) (w_start (x_fw s)).
(** Starting: the acquisition has the settings of the moment and those prepared are gone.  Nothing starts if no frames are expected or there is no name. *)
Theorem c61_start i s r s1 r1 o : w_writing (x_fw s) = false -> fwx_execute i "start_writing" s r = (s1, r1, o) -> o <> Undef ->
  (w_writing (x_fw s1) = true /\ o = Ret tt /\ ~ expects_none (next s) /\ next s1 = no_prep /\ exists n, calc_num_frames (geometry s) (p_total (next s)) = Ret n /\
     settings (w_cur (x_fw s1)) = (geometry s, naming_next s, p_path (next s), w_master (x_fw s), p_total (next s), n, w_defs (x_fw s))) \/
  (w_writing (x_fw s1) = false /\ (expects_none (next s) \/ generate_filename (naming_next s) (g_rank (geometry s)) = "" \/ exists e, o = Throw e)).
Proof.
  intros W H N. unfold fwx_execute in H. cbn [String.eqb Ascii.eqb Bool.eqb] in H. unfold base, fw_execute in H. rewrite fbind_get in H. unfold next, geometry, expects_none.
  destruct ((0 <? p_total (w_next (x_fw s)))%N && (p_towrite (w_next (x_fw s)) =? 0)%N) eqn:X.
  { right. rewrite W in H. injection H as <- <- <-. apply andb_true_iff in X as (X1 & X2). apply N.ltb_lt in X1. apply N.eqb_eq in X2. split; [exact W|]. left. auto. }
  assert (NE : ~ (0 < p_total (w_next (x_fw s)) /\ p_towrite (w_next (x_fw s)) = 0)%N). { intros (A & B). apply N.ltb_lt in A. apply N.eqb_eq in B. rewrite A, B in X. discriminate. }
  unfold start_writing in H. rewrite fbind_get, W in H. destruct (calc_num_frames (w_geom (x_fw s)) (p_total (w_next (x_fw s)))) as [n|[]|] eqn:CN; cbn [flift] in H; [|unfold fbind at 1, fundef in H; injection H as <- <- <-; congruence].
  rewrite fbind_ret in H. cbv zeta in H. rewrite !fbind_put in H. unfold fbind, on_cur in H.
  match type of H with context [start_acquisition i ?st] => destruct (start_run i st) as [(G & E)|(G & a & dk & l & u & E & _ & SE & NF)]; rewrite E in H end.
  - injection H as <- <- <-. right. split; [reflexivity|]. right. left. exact G.
  - destruct u as [[]|e|].
    + injection H as <- <- <-. left. split; [reflexivity|]. split; [reflexivity|]. split; [exact NE|]. split; [reflexivity|]. exists n. split; [reflexivity|]. exact SE.
    + congruence.
    + injection H as <- <- <-. right. split; [exact W|]. right. right. eauto.
    + injection H as <- <- <-. congruence.
Qed.
(** Resetting the statistics: the durations of HDF5 calls that are reported are 0, and nothing else changes. *)
Theorem c61_reset s s1 b : fwx_reset s = (s1, b) -> b = true /\ x_fw s1 = x_fw s /\ config_json s1 = config_json s /\ (forall k, (exists x, leads ["timing"; k] (status_json s) x) <-> leads ["timing"; k] (status_json s1) (JInt 0)) /\
  (forall k x, leads ["timing"; k] (status_json s1) x -> x = JInt 0) /\ forall q x, q <> [] -> hd "" q <> "timing" -> (leads q (status_json s1) x <-> leads q (status_json s) x).
Proof.
  intros H. injection H as <- <-. do 3 (split; [reflexivity|]).
  assert (T : forall f k, at_path [k] (JObj (flat_map (fun k => map (fun t => (append t (append "_" k), JInt (wrapped (f (append t (append "_" k)))))) ["last"; "max"; "mean"]) ["create"; "write"; "flush"; "close"])) = if existsb (fun a => String.eqb a k) timing_names then Some (JInt (wrapped (f k))) else None).
  { intros f k. cbn -[String.eqb]. repeat (match goal with |- context [String.eqb ?a k] => destruct (String.eqb_spec a k) as [<-|] end; [reflexivity|]). reflexivity. }
  assert (A : forall s k, at_path ["timing"; k] (status_json s) = if existsb (fun a => String.eqb a k) timing_names then Some (JInt (wrapped (x_timing s k))) else None) by (intros s' k; rewrite <- T; reflexivity).
  split; [|split].
  - intros k. rewrite leads_at, A. split.
    + intros (x & L). apply leads_at in L. rewrite A in L. destruct (existsb (fun a => String.eqb a k) timing_names); [reflexivity|discriminate].
    + intros L. exists (JInt (wrapped (x_timing s k))). apply leads_at. rewrite A. destruct (existsb (fun a => String.eqb a k) timing_names); [reflexivity|discriminate].
  - intros k x L. apply leads_at in L. rewrite A in L. destruct (existsb (fun a => String.eqb a k) timing_names); [|discriminate]. injection L as <-. reflexivity.
  - intros [|k q] x N HD; [congruence|]. cbn in HD. rewrite !leads_at. unfold status_json. cbn -[String.eqb]. repeat (match goal with |- context [String.eqb ?a k] => destruct (String.eqb_spec a k) as [<-|] end; [reflexivity || congruence|]). reflexivity.
Qed.

(** ** Examples *)
Definition ask (x : json) : msg := msg_of_value x TCmd VConfigure true 0.
Definition reply : msg := new_msg TAck VConfigure true 0.
Definition places (p : string) : place := if String.eqb p "/data" then Writable else NoPath.
Definition fresh : fwx := fwx_init "hdf" false (fun _ => None).
Definition after (x : json) (s : fwx) : fwx := fst (fst (fwx_configure places 0 (ask x) s reply)).
Definition ended (x : json) (s : fwx) : outcome fault unit := snd (fwx_configure places 0 (ask x) s reply).
Definition told (x : json) (s : fwx) : msg := snd (fst (fwx_configure places 0 (ask x) s reply)).
Definition all_x : json := JObj
  [("process", JObj [("number", JInt 2); ("rank", JInt 1); ("frames_per_block", JInt 4)]); ("file", JObj [("path", JStr "/data"); ("prefix", JStr "run"); ("first_number", JInt 7)]);
   ("dataset", JObj [("data", JObj [("datatype", JStr "uint16"); ("dims", JArr [JInt 512; JInt 1024]); ("compression", JStr "blosc"); ("blosc_level", JInt 4); ("indexes", JBool true)]); ("mask", JObj [("dims", JArr [])])]);
   ("frames", JInt 10); ("acquisition_id", JStr "scan")].
Definition busy : fwx := after all_x fresh.
Example c60_case : ended all_x fresh = Ret tt /\ geometry busy = Geom 2 1 4 0 /\ next busy = Prep "/data" "run" "scan" 10 4 /\ w_start (x_fw busy) = 7%N /\
  dataset busy "data" = Some (DsDef "data" T16 CBlosc [512; 1024]%N [1; 512; 1024]%N true, (0, 4, 0)) /\ dataset busy "mask" = Some (DsDef "mask" T8 CNone [] [1]%N false, (0, 0, 0)).
Proof. vm_compute. repeat split. Qed.
Lemma busy_lived : lived (fun _ => True) (fun _ => True) "hdf" false (fun _ => None) busy.
Proof. unfold busy, after. destruct (fwx_configure places 0 (ask all_x) fresh reply) as ((s1 & r1) & o) eqn:E. eapply lv_configure; [apply lv_start|exact E|]. intros ->. pose proof (f_equal snd E) as X. vm_compute in X. discriminate. Qed.
Ltac plain_text := let H := fresh in unfold no_slash, no_nul; intros H; vm_compute in H; intuition discriminate.
Lemma busy_restorable : restorable busy.
Proof.
  assert (E : w_defs (x_fw busy) = [DsDef "data" T16 CBlosc [512; 1024]%N [1; 512; 1024]%N true; DsDef "mask" T8 CNone [] [1]%N false]) by (vm_compute; reflexivity).
  split.
  - vm_compute. discriminate.
  - vm_compute. reflexivity.
  - rewrite E. repeat constructor; first [plain_text|discriminate].
  - rewrite E. intros d [<-|[<-|[]]]; cbn; (split; [|split]); try (repeat constructor; fail); auto; discriminate.
  - rewrite E. intros d [<-|[<-|[]]]; vm_compute; repeat split.
Qed.
Lemma nice_hdf : nice "hdf". Proof. split; [plain_text|]. split; [plain_text|]. split; [cbn; lia|]. intros (p & E). do 2 (destruct p as [|? p]; [discriminate|injection E as _ E]). destruct p as [|? p]; [discriminate|]. injection E as _ E. destruct p; discriminate. Qed.
(** A reply that is ready, a message that is well formed, and what is reported sent to a new file writer *)
Example c60_restored_case : nice (x_name busy) /\ sane busy /\ restorable busy /\ places (p_path (next busy)) = Writable /\ w_defs (x_fw fresh) = [] /\ ready (x_name busy) reply /\ well_formed (config_json busy) fresh /\
  restored busy (after (config_json busy) fresh) /\ dataset (after (config_json busy) fresh) "data" = Some (DsDef "data" T16 CBlosc [512; 1024]%N [1; 512; 1024]%N false, (0, 4, 0)).
Proof.
  assert (S : sane busy) by (apply (lived_sane _ _ _ _ _ _ busy_lived)). split; [exact nice_hdf|]. split; [exact S|]. split; [exact busy_restorable|]. split; [vm_compute; reflexivity|]. split; [reflexivity|].
  split; [split; [intros p E; vm_compute in E; injection E as <-; eexists; reflexivity|intros x L; apply leads_at in L; vm_compute in L; discriminate]|].
  assert (W : well_formed (config_json busy) fresh) by (apply config_well_formed; [exact S|exact busy_restorable|discriminate]). split; [exact W|].
  destruct (c60_accepted places 0 (ask (config_json busy)) _ fresh reply eq_refl W) as (s1 & r1 & H & A & _); [intros p E; vm_compute in E; injection E as <-; eexists; reflexivity|].
  unfold after. rewrite H. cbn [fst]. split; [apply (applied_restored places busy fresh s1 S busy_restorable); [vm_compute; reflexivity|reflexivity|exact A]|]. assert (E : s1 = after (config_json busy) fresh) by (unfold after; rewrite H; reflexivity). rewrite E. vm_compute. reflexivity.
Qed.
(** While writing *)
Definition writing : fwx := fst (fst (fwx_execute io_ok "start_writing" busy reply)).
Example c60_refused_case : w_writing (x_fw writing) = true /\ (exists w, ended (JObj [("process", JObj [("number", JInt 3)])]) writing = Throw (XRun w)) /\ ended (JObj [("process", JObj [("number", JInt 2)])]) writing = Ret tt /\
  (exists w, ended (JObj [("process", JObj [("frames_per_block", JInt 0)])]) fresh = Throw (XRun w)).
Proof. vm_compute. repeat split; eexists; reflexivity. Qed.
Example c61_case : exists r1, fwx_status writing reply = (writing, r1, Ret tt) /\ holds r1 ["hdf"; "frames_max"] (JInt 4) /\ holds r1 ["hdf"; "writing"] (JBool true) /\ holds r1 ["hdf"; "acquisition_id"] (JStr "scan") /\ holds r1 ["hdf"; "timing"; "mean_flush"] (JInt 0).
Proof. eexists. split; [vm_compute; reflexivity|]. repeat split; apply leads_at; vm_compute; reflexivity. Qed.
Example c61_command_case : let '(s1, r1, o) := fwx_execute io_ok "restart" busy reply in s1 = busy /\ o = Ret tt /\ g_type r1 = TNack /\ w_writing (x_fw (fst (fst (fwx_execute io_ok "stop_writing" writing reply)))) = false.
Proof. vm_compute. repeat split. Qed.

(** ** What fails *)
(** A message that is refused may have changed settings: there is no rollback. *)
Theorem c60_atomic_refuted : exists x s e, ended x s = Throw e /\ g_rank (geometry s) = 0%N /\ g_rank (geometry (after x s)) = 1%N.
Proof. exists (JObj [("process", JObj [("rank", JInt 1)]); ("file", JStr "/data/run.h5")]), fresh, (XIpc EAssert). vm_compute. repeat split. Qed.
(** A path that does not exist gets a nack; all the rest of the message is in force. *)
Theorem c60_nack_refuted : exists x s, ended x s = Ret tt /\ g_type (told x s) = TNack /\ p_path (next (after x s)) = "" /\ p_file (next (after x s)) = "run" /\ p_total (next (after x s)) = 5%N.
Proof. exists (JObj [("file", JObj [("path", JStr "/nowhere"); ("prefix", JStr "run")]); ("frames", JInt 5)]), fresh. vm_compute. repeat split. Qed.
(** What a new file writer reports, it refuses: the path is empty. *)
Theorem c60_path_refuted : g_type (told (config_json fresh) fresh) = TNack.
Proof. vm_compute. reflexivity. Qed.
(** Indexes are not reported. *)
Theorem c60_indexes_refuted : exists s, lived (fun _ => True) (fun _ => True) "hdf" false (fun _ => None) s /\ restorable s /\ ended (config_json s) fresh = Ret tt /\ dataset (after (config_json s) fresh) "data" <> dataset s "data".
Proof. exists busy. split; [exact busy_lived|]. split; [exact busy_restorable|]. split; vm_compute; [reflexivity|discriminate]. Qed.
(** A negative first number is accepted; what is then reported is refused. *)
Theorem c60_first_refuted : exists x e, let s := after x fresh in ended x fresh = Ret tt /\ w_start (x_fw s) = 4294967295%N /\ ended (config_json s) fresh = Throw e.
Proof. exists (JObj [("file", JObj [("path", JStr "/data"); ("first_number", JInt (-1))])]), (XIpc EAssert). vm_compute. repeat split. Qed.
(** Dimensions of 2^31 and more are reported as negative numbers, which are refused. *)
Theorem c60_dims_refuted : exists x e, let s := after x fresh in ended x fresh = Ret tt /\ leads ["dataset"; "data"; "dims"] (config_json s) (JArr [JInt (-2147483648)]) /\ ended (config_json s) fresh = Throw e.
Proof. exists (JObj [("file", JObj [("path", JStr "/data")]); ("dataset", JObj [("data", JObj [("dims", JArr [JInt 2147483648])])])]), (XIpc EAssert). split; [vm_compute; reflexivity|]. split; [apply leads_at; vm_compute; reflexivity|vm_compute; reflexivity]. Qed.
(** A data set whose name has a slash is reported as another one. *)
Theorem c60_slash_refuted : exists x, let s := after x fresh in ended x fresh = Ret tt /\ dataset s "entry/data" <> None /\ exists r1, fwx_request s reply = (s, r1, Ret tt) /\ holds r1 ["hdf"; "dataset"; "entry"; "data"; "datatype"] (JStr "uint8") /\ forall y, ~ holds r1 ["hdf"; "dataset"; "entry/data"] y.
Proof. exists (JObj [("dataset", JStr "entry/data")]). split; [vm_compute; reflexivity|]. split; [vm_compute; discriminate|]. eexists. split; [vm_compute; reflexivity|]. split; [apply leads_at; vm_compute; reflexivity|]. intros y L. apply leads_at in L. vm_compute in L. discriminate. Qed.
(** Data types and compressions that do not exist are accepted. *)
Theorem c60_unknown_refuted : exists x, ended x fresh = Ret tt /\ g_type (told x fresh) = TAck /\ exists d b, dataset (after x fresh) "data" = Some (d, b) /\ d_type d = TUnknown /\ d_comp d = CUnknown.
Proof. exists (JObj [("dataset", JObj [("data", JObj [("datatype", JStr "int16"); ("compression", JStr "lz4")])])]). split; [vm_compute; reflexivity|]. split; [vm_compute; reflexivity|]. eexists. eexists. split; [vm_compute; reflexivity|]. split; reflexivity. Qed.
(** A data set that is only named is accepted; starting then reads the first of its chunks, of which there are none. *)
Theorem c60_named_refuted : exists x, let s := after x fresh in ended x fresh = Ret tt /\ g_type (told x fresh) = TAck /\ snd (fwx_execute io_ok "start_writing" s reply) = Undef.
Proof. exists (JObj [("file", JObj [("path", JStr "/data"); ("prefix", JStr "run")]); ("dataset", JStr "data")]). vm_compute. repeat split. Qed.
(** Once started, neither path nor id are reported any more: what is reported is the next acquisition. *)
Theorem c60_started_refuted : w_writing (x_fw writing) = true /\ a_path (w_cur (x_fw writing)) = "/data" /\ leads ["file"; "path"] (config_json writing) (JStr "") /\ leads ["acquisition_id"] (config_json writing) (JStr "") /\ leads ["frames"] (config_json writing) (JInt 0).
Proof. split; [vm_compute; reflexivity|]. split; [vm_compute; reflexivity|]. repeat split; apply leads_at; vm_compute; reflexivity. Qed.
(** The same settings in two messages: how many frames are expected is only calculated with the number of frames.  An acquisition of one frame is then not started, without an error. *)
Theorem c60_order_refuted : exists x1 x2 x, let s := after x2 (after x1 fresh) in let t := after x (after x1 fresh) in
  ended x2 (after x1 fresh) = Ret tt /\ ended x (after x1 fresh) = Ret tt /\ geometry s = geometry t /\ p_total (next s) = p_total (next t) /\ config_json s = config_json t /\
  fwx_execute io_ok "start_writing" s reply = (fst (fst (fwx_execute io_ok "start_writing" s reply)), reply, Ret tt) /\
  w_writing (x_fw (fst (fst (fwx_execute io_ok "start_writing" s reply)))) = false /\ w_writing (x_fw (fst (fst (fwx_execute io_ok "start_writing" t reply)))) = true.
Proof.
  exists (JObj [("process", JObj [("number", JInt 2); ("rank", JInt 1)]); ("file", JObj [("path", JStr "/data"); ("prefix", JStr "run")]); ("frames", JInt 1)]), (JObj [("process", JObj [("number", JInt 1); ("rank", JInt 0)])]), (JObj [("process", JObj [("number", JInt 1); ("rank", JInt 0)]); ("frames", JInt 1)]).
  vm_compute. repeat split.
Qed.
(** Counters of 2^31 and more are negative in the status. *)
Theorem c61_counters_refuted : exists x, let s := fst (fst (fwx_execute io_ok "start_writing" (after x fresh) reply)) in ended x fresh = Ret tt /\ a_towrite (w_cur (x_fw s)) = 2147483648%N /\ leads ["frames_max"] (status_json s) (JInt (-2147483648)).
Proof. exists (JObj [("file", JObj [("path", JStr "/data"); ("prefix", JStr "run")]); ("frames", JInt 2147483648)]). split; [vm_compute; reflexivity|]. split; [vm_compute; reflexivity|]. apply leads_at. vm_compute. reflexivity. Qed.

Print Assumptions c60_applied.
Print Assumptions c60_accepted.
Print Assumptions c60_undisturbed.
Print Assumptions c60_refused.
Print Assumptions c60_no_empty_blocks.
Print Assumptions c60_nothing.
Print Assumptions c60_lived.
Print Assumptions c60_reported.
Print Assumptions c60_asking.
Print Assumptions c60_restored_partial.
Print Assumptions c61_status.
Print Assumptions c61_counters_partial.
Print Assumptions c61_commands.
Print Assumptions c61_stop.
Print Assumptions c61_start.
Print Assumptions c61_reset.
Print Assumptions c60_atomic_refuted.
Print Assumptions c60_nack_refuted.
Print Assumptions c60_path_refuted.
Print Assumptions c60_indexes_refuted.
Print Assumptions c60_first_refuted.
Print Assumptions c60_dims_refuted.
Print Assumptions c60_slash_refuted.
Print Assumptions c60_unknown_refuted.
Print Assumptions c60_named_refuted.
Print Assumptions c60_started_refuted.
Print Assumptions c60_order_refuted.
Print Assumptions c61_counters_refuted.
