(** C67: configuring the plugins other than the file writer, and what they report. *)
From Coq Require Import String Ascii.
From Verif Require Import Base StrOrder JsonModel JsonSpec JsonProofs JsonProps PrcModel PrcSpec PrcReply PrcLive PrcSet PrcExec CfgModel CfgSpec CfgProofs CfgReply FwcAsk FrameModel AdjModel LiveModel LiveSpec LiveProps GapModel BloscModel BloscProps KafkaModel KafkaProps PcfModel PcfSpec PcfProofs PcfFit PcfAsk PcfRestore.
Local Open Scope string_scope.
Local Open Scope list_scope.
Local Open Scope Z_scope.

(** ** Configuring *)
(** A configuration that is accepted sets what it names, and nothing else. *)
Theorem c67_applied w m x s r s1 r1 : params_of m = Some x -> plugin_configure w m s r = (s1, r1, Ret tt) -> configured x s s1.
Proof. apply applied. Qed.
(** A well typed configuration is accepted, the reply can be written to. *)
Lemma has_type w s l k p y : well_typed w s l -> In (k, p) (settings_of w s) -> find_member k l = Some y -> p y.
Proof. intros (T & _) I F. apply (T k p y I). apply leads_at. cbn. rewrite F. reflexivity. Qed.
Lemma typed_int y : ok as_int y -> exists r, get_value GInt y = Ret r.
Proof. unfold ok, as_int, number_in. destruct y; try congruence. unfold get_value, in_range. destruct (_ && _); [eauto|congruence]. Qed.
Lemma typed_i64 y : ok as_i64 y -> exists r, get_value GInt64 y = Ret r.
Proof. unfold ok, as_i64, number_in. destruct y; try congruence. unfold get_value, in_range. destruct (_ && _); [eauto|congruence]. Qed.
Lemma typed_uint y : ok as_uint y -> exists r, get_value GUint y = Ret r.
Proof. unfold ok, as_uint, number_in. destruct y; try congruence. unfold get_value, in_range. destruct (_ && _); [eauto|congruence]. Qed.
Lemma typed_text y : ok as_text y -> exists r, get_value GStr y = Ret r.
Proof. unfold ok. destruct y; cbn; try congruence. eauto. Qed.
Lemma typed_bool y : ok as_bool y -> exists r, get_value GBool y = Ret r.
Proof. unfold ok. destruct y; cbn; try congruence. eauto. Qed.
Ltac go T E L := erewrite if_has_go; [|name|exact E|let y := fresh in let F := fresh in intros y F; apply L; apply (has_type _ _ _ _ _ _ T) with (2 := F); cbn; tauto].
Lemma step_go lib m l k get (rd : json -> option Z) (w : Z -> option (string * value)) (f : Z -> settings -> settings) s r : reads get rd -> name_ok k -> params_of m = Some (JObj l) -> roomy r -> (forall y, find_member k l = Some y -> ok rd y) -> (forall v n x, w v = Some (n, x) -> path_check [n] = true) ->
  (forall y v, find_member k l = Some y -> rd y = Some v -> bp_acq (snd s) = "" -> bl_supports lib (bs_compressor (f v (bp_cmd (snd s)))) = true) ->
  exists s1 r1, setting m k get (fun v => cseq (warn (w v)) (fun _ => blosc_command lib (f v))) s r = (s1, r1, Ret tt) /\ roomy r1 /\ bp_acq (snd s1) = bp_acq (snd s) /\ (bp_cmd (snd s1) = bp_cmd (snd s) \/ exists y v, find_member k l = Some y /\ rd y = Some v /\ bp_cmd (snd s1) = f v (bp_cmd (snd s))).
Proof.
  intros RD N E R T W S. destruct (find_member k l) as [y|] eqn:F.
  - assert (A : at_path [k] (JObj l) = Some y) by (cbn; rewrite F; reflexivity). destruct (rd y) as [v|] eqn:V; [|destruct (T y eq_refl V)]. rewrite (setting_go get rd k m l y v _ _ _ RD N E A V).
    assert (X : exists r1, warn (w v) s r = (s, r1, Ret tt) /\ roomy r1). { destruct (w v) as [(n, x)|] eqn:WZ; [|exists r; auto]. destruct (put_room r n x (path_check_ok _ (W _ _ _ WZ)) R) as (r1 & EQ & R1). exists r1. unfold warn, cput. rewrite EQ. auto. }
    destruct X as (r1 & X & R1). rewrite (cseq_go _ _ _ _ _ _ _ X). destruct s as (g, p). destruct (command_go lib (f v) g p r1) as (g1 & p1 & C & D1 & D2 & _); [apply (S y v eq_refl V)|]. exists (g1, p1), r1. split; [exact C|]. split; [exact R1|]. split; [exact D2|]. right. eauto.
  - exists s, r. split; [apply (setting_off get k m l); [exact N|exact E|cbn; rewrite F; reflexivity]|]. auto.
Qed.
Theorem c67_accepted w m l s r : lived s -> params_of m = Some (JObj l) -> well_typed w s l -> (forall p, params_of r = Some p -> object p) -> exists s1 r1, plugin_configure w m s r = (s1, r1, Ret tt) /\ forall p, params_of r1 = Some p -> object p.
Proof.
  intros L E T R. pose proof (lived_fit s L) as F. clear L. destruct s; cbn [plugin_configure].
  - unfold offset_configure. go T E typed_i64. eauto.
  - unfold adjust_configure. rewrite (has_go "parameter" m l ltac:(name) E). cbn [at_path]. destruct (find_member "parameter" l) as [y|] eqn:P; [destruct (has_type _ _ _ _ _ _ T (or_introl eq_refl) P)|]. eauto.
  - unfold live_configure. go T E typed_int. go T E typed_int. go T E typed_text. go T E typed_text. match goal with |- context [if lv_bound ?q then _ else _] => generalize q end. intros q. rewrite (has_go "live_view_socket_addr" m l ltac:(name) E). cbn [at_path]. destruct (find_member "live_view_socket_addr" l) as [y|] eqn:P; [|eauto].
    destruct (typed_text y) as (v & V); [apply (has_type _ _ _ _ _ _ T) with (2 := P); cbn; tauto|]. rewrite (proj2 (get_at m _ "live_view_socket_addr" GStr ltac:(name) E v)); [|exists y; cbn; rewrite P; auto]. eauto.
  - unfold gap_configure. erewrite (gap_go m l "grid_size") by first [name|exact E|intros y Y; exact (has_type _ _ _ _ _ _ T (or_introl eq_refl) Y)]. erewrite (gap_go m l "chip_size") by first [name|exact E|intros y Y; exact (has_type _ _ _ _ _ _ T (or_intror (or_introl eq_refl)) Y)].
    assert (N : forall k, In (k, ok (as_list as_int)) (settings_of w (PGap g)) -> forall y, find_member k l = Some y -> exists a, as_list as_int y = Some a /\ (false = true -> (2 <= List.length a)%nat)) by (intros k I y Y; pose proof (has_type _ _ _ _ _ _ T I Y) as O; unfold ok in O; destruct (as_list as_int y) as [a|]; [exists a; split; [reflexivity|discriminate]|congruence]).
    erewrite (gap_go m l "x_gaps") by first [name|exact E|apply N; cbn; tauto]. erewrite (gap_go m l "y_gaps") by first [name|exact E|apply N; cbn; tauto]. eauto.
  - destruct F as ((K1 & K2 & K3 & K4) & _). pose proof (proj2 T) as SUP. cbn in SUP. unfold bloscx_configure.
    destruct (step_go (wo_blosc w) m l "level" int as_int level_warning set_level (g, p) r reads_int ltac:(name) E R) as (s1 & r1 & C1 & R1 & A1 & M1); [intros y Y; apply (has_type _ _ _ _ _ _ T) with (2 := Y); cbn; tauto|intros v n x; unfold level_warning; destruct (v <? 1); [intros Q; injection Q as <- _; reflexivity|]; destruct (9 <? v); [intros Q; injection Q as <- _; reflexivity|discriminate]|intros y v _ _ Q; apply SUP; [exact Q|exact K4]|].
    cbn [snd] in A1. rewrite (cseq_go _ _ _ _ _ _ _ C1). assert (B1 : bs_compressor (bp_cmd (snd s1)) = bs_compressor (bp_cmd p)) by (destruct M1 as [->|(y & v & _ & _ & ->)]; reflexivity).
    destruct (step_go (wo_blosc w) m l "shuffle" uint as_uint shuffle_warning set_shuffle s1 r1 reads_uint ltac:(name) E R1) as (s2 & r2 & C2 & R2 & A2 & M2); [intros y Y; apply (has_type _ _ _ _ _ _ T) with (2 := Y); cbn; tauto|intros v n x; unfold shuffle_warning; destruct (2 <? v); [intros Q; injection Q as <- _; reflexivity|discriminate]|intros y v _ _ Q; apply SUP; [congruence|cbn; rewrite B1; exact K4]|].
    rewrite (cseq_go _ _ _ _ _ _ _ C2). assert (B2 : bs_compressor (bp_cmd (snd s2)) = bs_compressor (bp_cmd p)) by (destruct M2 as [->|(y & v & _ & _ & ->)]; exact B1).
    destruct (step_go (wo_blosc w) m l "threads" uint as_uint threads_warning set_threads s2 r2 reads_uint ltac:(name) E R2) as (s3 & r3 & C3 & R3 & A3 & M3); [intros y Y; apply (has_type _ _ _ _ _ _ T) with (2 := Y); cbn; tauto|intros v n x; unfold threads_warning; destruct (256 <? v); [intros Q; injection Q as <- _; reflexivity|discriminate]|intros y v _ _ Q; apply SUP; [congruence|cbn; rewrite B2; exact K4]|].
    rewrite (cseq_go _ _ _ _ _ _ _ C3).
    destruct (step_go (wo_blosc w) m l "compressor" uint as_uint compressor_warning set_compressor s3 r3 reads_uint ltac:(name) E R3) as (s4 & r4 & C4 & R4 & _); [intros y Y; apply (has_type _ _ _ _ _ _ T) with (2 := Y); cbn; tauto|intros v n x; unfold compressor_warning; destruct (5 <? v); [intros Q; injection Q as <- _; reflexivity|discriminate]| |].
    { intros y v Y V Q. apply SUP; [cbn in *; congruence|]. cbn. unfold as_uint, number_in in V. destruct y; try discriminate. destruct (Z.leb_spec 0 z); [|discriminate]. cbn [andb] in V. destruct (z <? 2 ^ 32); [|discriminate]. injection V as ->. destruct (Z.ltb_spec 5 v); lia. }
    rewrite C4. destruct s4 as (g4, p4). do 2 eexists. split; [reflexivity|exact R4].
  - unfold kafka_configure. rewrite !(kstep_if _ "include_parameters"), !(kstep_if _ "dataset"), !(kstep_if _ "partition"), !(kstep_if _ "topic").
    match goal with |- context [kstep m "servers" ?h ?d ?f ?st] => assert (S : exists q, kstep m "servers" h d f st = (q, Ret tt)) end.
    { unfold kstep. rewrite (has_go "servers" m l ltac:(name) E). cbn [at_path]. destruct (find_member "servers" l) as [y|] eqn:P; [|eauto]. destruct (typed_text y) as (v & V); [apply (has_type _ _ _ _ _ _ T) with (2 := P); cbn; tauto|]. rewrite (proj2 (get_at m _ "servers" GStr ltac:(name) E v)); [|exists y; cbn; rewrite P; auto]. eauto. }
    destruct S as (q & ->). go T E typed_text. go T E typed_uint. go T E typed_text. go T E typed_bool. eauto.
  - unfold dummy_configure. go T E typed_int. go T E typed_int. go T E typed_bool. eauto.
  - eauto.
Qed.
(** BloscPlugin tells which settings it changed. *)
Theorem c67_warned w m x g p r s1 r1 : params_of m = Some x -> (forall q, params_of r = Some q -> object q) -> plugin_configure w m (PBlosc g p) r = (s1, r1, Ret tt) -> warnings x r r1.
Proof.
  intros E R H. cbn [plugin_configure] in H. destruct (bloscx_configure (wo_blosc w) m (g, p) r) as [[[g1 p1] q1] [[]| |]] eqn:C; try discriminate. injection H as <- <-. exact (blosc_warned _ _ _ _ _ _ _ E R C).
Qed.
(** The other plugins do not write into the reply. *)
Theorem c67_silent w m s r : (forall g p, s <> PBlosc g p) -> snd (fst (plugin_configure w m s r)) = r.
Proof.
  intros N. destruct s; cbn [plugin_configure]; try (match goal with |- context [let '(_, _) := ?t in _] => destruct t end; reflexivity); [|reflexivity]. destruct (N g p). reflexivity.
Qed.
(** What c40 says about configuring BloscPlugin is said about it with its warnings. *)
Theorem c67_blosc_refines w m g p r g1 p1 r1 o : (forall q, params_of r = Some q -> object q) -> plugin_configure w m (PBlosc g p) r = (PBlosc g1 p1, r1, o) -> exists o1, blosc_configure (wo_blosc w) g p m = (g1, p1, o1) /\ (o = Ret tt <-> o1 = Ret tt) /\ (o = Undef <-> o1 = Undef).
Proof.
  intros R H. cbn [plugin_configure] in H. destruct (bloscx_configure (wo_blosc w) m (g, p) r) as [[[g2 p2] q] o2] eqn:C. injection H as <- <- <- <-. exists (plain_outcome o2). split; [exact (blosc_refines _ _ _ _ _ _ _ _ _ R C)|]. destruct o2 as [[]|[]|]; cbn; split; split; intros Q; try discriminate; reflexivity.
Qed.
(** Without parameters nothing is set; the live view opens its default socket if it has none. *)
Theorem c67_nothing w m s r : params_of m = None -> match s with PLive p => lv_bound p = true | _ => True end -> plugin_configure w m s r = (s, r, Ret tt).
Proof.
  intros E B. assert (H : forall k, has_param m k = Ret false) by (intros k; unfold has_param; rewrite E; reflexivity).
  destruct s; cbn [plugin_configure]; unfold offset_configure, adjust_configure, live_configure, gap_configure, gap_step, bloscx_configure, setting, cseq, clift, kafka_configure, kstep, dummy_configure, if_has; rewrite ?H; cbn beta iota zeta; rewrite ?H; try reflexivity. rewrite B. reflexivity.
Qed.
(** Whatever happens to a plugin, its numbers stay within their types and its texts have no zeros. *)
Theorem c67_fit s : lived s -> fit s.
Proof. apply lived_fit. Qed.

(** ** What is reported *)
Theorem c67_reported i s r : lived s -> nice i -> nameable s -> ready i r -> exists r1, plugin_request i s r = (s, r1, Ret tt) /\ tells i (members s) r r1.
Proof. intros L N NA R. exact (reported i s r N (lived_fit s L) NA R). Qed.
Theorem c67_status w i s r : nice i -> ready i r -> exists r1, plugin_status w i s r = (polled w s, r1, Ret tt) /\ tells i (status_members (polled w s)) r r1 /\ members (polled w s) = members s.
Proof.
  intros N R. destruct (status_told w i s r N R) as (r1 & A & B). exists r1. split; [exact A|]. split; [exact B|]. destruct s; try reflexivity. cbn [polled]. destruct (kp_producer p); [|reflexivity]. cbn [members]. destruct (reports_same (wo_reports w) p) as (_ & _ & -> & _ & _ & ->), (reports_more (wo_reports w) p) as (-> & -> & ->). reflexivity.
Qed.
(** What was reported can be sent back, to the same plugin or another of its kind: it has the settings then.  Missing: see the refuted claims below. *)
Theorem c67_restored_partial w i s r s' m r' : lived s -> lived s' -> nice i -> nameable s -> ready i r -> restorable w s s' -> (forall r1, plugin_request i s r = (s, r1, Ret tt) -> members s <> [] -> params_of m = at_path ["params"; i] (JObj (g_doc r1))) -> (members s = [] -> params_of m = Some (JObj [])) ->
  exists s1, plugin_configure w m s' r' = (s1, r', Ret tt) /\ same_settings s s1 /\ counters_kept s' s1.
Proof.
  intros L L' N NA R RE M M0. apply restored; [apply lived_fit, L|apply lived_fit, L'|exact RE|]. destruct (c67_reported i s r L N NA R) as (r1 & Q & T). specialize (M r1 Q). destruct (members s) as [|e l]; [exact (M0 eq_refl)|]. rewrite M by discriminate. destruct T as (T & _). apply holds_at in T. exact T.
Qed.
(** Only the dummy plugin has a command, which does nothing; other commands are refused. *)
Theorem c67_commands c s r : exists o, plugin_execute c s r = (s, r, o) /\ (o = Ret tt <-> In c (plugin_commands s)) /\ (~ In c (plugin_commands s) -> exists t, o = Throw (XRun t)).
Proof.
  unfold plugin_execute, plugin_commands. destruct s; try (eexists; split; [reflexivity|]; split; [split; [discriminate|intros []]|eauto]). destruct (String.eqb_spec c "print") as [->|N]; eexists; (split; [reflexivity|]); cbn.
  - split; [tauto|]. intros Q. destruct Q. auto.
  - split; [|eauto]. split; [discriminate|]. intros [Q|[]]. congruence.
Qed.
Theorem c67_reset s s1 b : plugin_reset s = (s1, b) -> b = true /\ reset_of s s1.
Proof. intros H. injection H as <- <-. split; [reflexivity|]. destruct s; split; reflexivity || (cbn; auto 10). Qed.

(** ** Cases *)
Definition a_world : world := World (Zmq (fun _ => true) (fun _ => true)) (Blib (fun k => negb (k =? 3)) (fun _ _ _ _ _ _ => None) (fun _ => [])) (Klib (fun _ => true) (fun _ => true) (fun _ => 0) 1000 (fun _ => [])) [true] false.
Definition reply : msg := sub_msg (JObj []).
Definition given_to (x : json) (s : plugin) : plugin := fst (fst (plugin_configure a_world (sub_msg x) s reply)).
Definition ends (x : json) (s : plugin) : outcome fault unit := snd (plugin_configure a_world (sub_msg x) s reply).
Lemma lives x s : lived s -> lived (given_to x s).
Proof. intros L. unfold given_to. destruct (plugin_configure a_world (sub_msg x) s reply) as [[s1 r1] o] eqn:E. exact (li_configure _ _ _ _ _ _ _ L E). Qed.
Definition kafka_doc : json := JObj [("servers", JStr "kafka:9092"); ("topic", JStr "raw"); ("partition", JInt 3); ("dataset", JStr "data")].
Definition adjust_doc : json := JObj [("parameter", JObj [("UID", JObj [("adjustment", JInt 5); ("input", JStr "id")]); ("ts", JObj [("adjustment", JInt (-1))])])].
Definition blosc_doc : json := JObj [("level", JInt 12); ("threads", JInt 4)].
Definition gap_doc : json := JObj [("grid_size", JArr [JInt 2; JInt 2]); ("chip_size", JArr [JInt 3; JInt 4]); ("x_gaps", JArr [JInt 0; JInt 1; JInt 0]); ("y_gaps", JArr [JInt 0; JInt 2; JInt 0])].
Example c67_kafka_case : lived (given_to kafka_doc (PKafka new_kafka)) /\ ends kafka_doc (PKafka new_kafka) = Ret tt /\ restorable a_world (given_to kafka_doc (PKafka new_kafka)) (PKafka new_kafka) /\ well_typed a_world (PKafka new_kafka) [("servers", JStr "kafka:9092"); ("partition", JInt 3)] /\
  members (given_to kafka_doc (PKafka new_kafka)) = [("servers", JStr "kafka:9092"); ("topic", JStr "raw"); ("partition", JInt 3); ("dataset", JStr "data"); ("include_parameters", JBool true)].
Proof.
  split; [apply lives, li_made, ma_kafka|]. split; [vm_compute; reflexivity|]. split; [vm_compute; split; [discriminate|reflexivity]|]. split; [|vm_compute; reflexivity]. split; [|exact Logic.I]. intros k p y I L. apply leads_at in L. cbn in I. repeat (destruct I as [I|I]; [injection I as <- <-; cbn in L; first [discriminate L|injection L as <-; cbn; discriminate]|]). destruct I.
Qed.
Example c67_adjust_case : lived (given_to adjust_doc (PAdjust (Adj [] []))) /\ nameable (given_to adjust_doc (PAdjust (Adj [] []))) /\ restorable a_world (given_to adjust_doc (PAdjust (Adj [] []))) (PAdjust (Adj [] [])) /\
  members (given_to adjust_doc (PAdjust (Adj [] []))) = [("parameter", JObj [("UID", JObj [("adjustment", JInt 5); ("input", JStr "id")]); ("ts", JObj [("adjustment", JInt (-1)); ("input", JStr "")])])].
Proof.
  assert (E : given_to adjust_doc (PAdjust (Adj [] [])) = PAdjust (Adj [("UID", 5); ("ts", -1)] [("UID", "id"); ("ts", "")])) by (vm_compute; reflexivity). split; [apply lives, li_made, ma_adjust|]. rewrite E. assert (N : nameable (PAdjust (Adj [("UID", 5); ("ts", -1)] [("UID", "id"); ("ts", "")]))) by (repeat constructor; unfold no_slash; cbn; intuition discriminate). split; [exact N|]. split; [|reflexivity]. split; [discriminate|]. split; [exact N|]. intros x [].
Qed.
Example c67_blosc_case : let s := given_to blosc_doc (PBlosc (fst (new_blosc (wo_blosc a_world) (Bglobal 1 1))) (snd (new_blosc (wo_blosc a_world) (Bglobal 1 1)))) in lived s /\ restorable a_world s s /\
  members s = [("compressor", JInt 1); ("threads", JInt 4); ("shuffle", JInt 2); ("level", JInt 9)] /\
  holds (snd (fst (plugin_configure a_world (sub_msg blosc_doc) (PBlosc (fst (new_blosc (wo_blosc a_world) (Bglobal 1 1))) (snd (new_blosc (wo_blosc a_world) (Bglobal 1 1)))) reply))) ["warning: level"] (JStr "Capped at upper range: 9").
Proof. split; [apply lives, li_made, ma_blosc|]. split; [vm_compute; auto|]. split; [vm_compute; reflexivity|]. apply holds_at. vm_compute. reflexivity. Qed.
Example c67_gap_case : let s := given_to gap_doc (PGap (Gap [] [] [] [])) in lived s /\ restorable a_world s (PGap (Gap [] [] [] [])) /\ JObj (members s) = gap_doc.
Proof. split; [apply lives, li_made, ma_gap|]. split; [|vm_compute; reflexivity]. vm_compute. repeat split; try discriminate. Qed.
Example c67_ready_case : nice "gap" /\ ready "gap" reply /\ nice "kafka" /\ params_of reply = Some (JObj []).
Proof. split; [apply nice_check; reflexivity|]. split; [split; [intros p E; injection E as <-; eexists; reflexivity|intros x H; apply holds_at in H; discriminate]|]. split; [apply nice_check; reflexivity|reflexivity]. Qed.
Example c67_live_case : let s := given_to (JObj [("frame_frequency", JInt 2)]) (PLive (new_live 0)) in lived s /\ restorable a_world s (PLive (new_live 0)) /\ members s = [("frame_frequency", JInt 2); ("live_view_socket_addr", JStr "tcp://127.0.0.1:5020"); ("per_second", JInt 0)].
Proof. split; [apply lives, li_made, ma_live|]. split; [vm_compute; discriminate|vm_compute; reflexivity]. Qed.

(** ** Claims that do not hold *)
(** The live view reports neither dataset_name nor filter_tagged: another live view that is given the report sends more. *)
Theorem c67_live_refuted : exists x p p1, given_to x (PLive (new_live 0)) = PLive p /\ restorable a_world (PLive p) (PLive (new_live 0)) /\ given_to (JObj (members (PLive p))) (PLive (new_live 0)) = PLive p1 /\ lv_datasets p = [("data", 0)] /\ lv_tags p = ["flat"] /\ lv_datasets p1 = [] /\ lv_tags p1 = [].
Proof. exists (JObj [("dataset_name", JStr "data"); ("filter_tagged", JStr "flat")]). do 2 eexists. split; [vm_compute; reflexivity|]. split; [vm_compute; discriminate|]. split; [vm_compute; reflexivity|]. repeat split. Qed.
(** KafkaProducerPlugin refuses its own report as long as no partition is set. *)
Theorem c67_kafka_refuted : exists e, lived (PKafka new_kafka) /\ ends (JObj (members (PKafka new_kafka))) (PKafka new_kafka) = Throw e.
Proof. eexists. split; [apply li_made, ma_kafka|]. vm_compute. reflexivity. Qed.
(** A partition from 2^31 on is accepted and becomes negative. *)
Theorem c67_partition_refuted : exists x p, ends x (PKafka new_kafka) = Ret tt /\ given_to x (PKafka new_kafka) = PKafka p /\ leads ["partition"] x (JInt (2 ^ 31 + 1)) /\ kp_partition p = - 2 ^ 31 + 1.
Proof. exists (JObj [("partition", JInt (2 ^ 31 + 1))]). eexists. split; [vm_compute; reflexivity|]. split; [vm_compute; reflexivity|]. split; [apply leads_at; reflexivity|reflexivity]. Qed.
(** Without adjustments, or with an empty list of gaps, nothing is reported; what the other plugin had stays. *)
Theorem c67_adjust_refuted : exists a, lived (PAdjust a) /\ ad_adjustments a <> [] /\ lived (PAdjust (Adj [] [])) /\ given_to (JObj (members (PAdjust (Adj [] [])))) (PAdjust a) = PAdjust a.
Proof. exists (Adj [("UID", 5); ("ts", -1)] [("UID", "id"); ("ts", "")]). split; [|split; [discriminate|split; [apply li_made, ma_adjust|vm_compute; reflexivity]]]. assert (E : given_to adjust_doc (PAdjust (Adj [] [])) = PAdjust (Adj [("UID", 5); ("ts", -1)] [("UID", "id"); ("ts", "")])) by (vm_compute; reflexivity). rewrite <- E. apply lives, li_made, ma_adjust. Qed.
Theorem c67_gap_refuted : exists g x, given_to x (PGap g) = PGap (Gap (gp_grid g) (gp_chip g) [] (gp_y g)) /\ gp_x g <> [] /\ ends x (PGap g) = Ret tt /\ given_to (JObj (members (given_to x (PGap g)))) (PGap g) = PGap g.
Proof. exists (Gap [2; 2] [3; 4] [0; 1; 0] [0; 2; 0]), (JObj [("x_gaps", JArr [])]). split; [vm_compute; reflexivity|]. split; [discriminate|]. split; vm_compute; reflexivity. Qed.
(** At debug level 1 a grid of less than two numbers is read beyond its end. *)
Theorem c67_gap_short_refuted : exists x w, wo_debug w = true /\ leads ["grid_size"] x (JArr [JInt 2]) /\ snd (plugin_configure w (sub_msg x) (PGap (Gap [] [] [] [])) reply) = Undef.
Proof. exists (JObj [("grid_size", JArr [JInt 2])]), (World (wo_zmq a_world) (wo_blosc a_world) (wo_kafka a_world) [] true). split; [reflexivity|]. split; [apply leads_at; reflexivity|vm_compute; reflexivity]. Qed.
(** A configuration that is refused is carried out in part: a grid with zeros, the settings before the refused one. *)
Theorem c67_gap_atomic_refuted : exists x e, ends x (PGap (Gap [2; 2] [3; 4] [] [])) = Throw e /\ given_to x (PGap (Gap [2; 2] [3; 4] [] [])) = PGap (Gap [5; 0] [3; 4] [] []).
Proof. exists (JObj [("grid_size", JArr [JInt 5; JStr "x"])]). eexists. split; vm_compute; reflexivity. Qed.
Theorem c67_atomic_refuted : exists x e, ends x (PDummy new_dummy) = Throw e /\ given_to x (PDummy new_dummy) = PDummy (Dummy 5 1024 0 true).
Proof. exists (JObj [("width", JInt 5); ("height", JStr "x")]). eexists. split; vm_compute; reflexivity. Qed.
(** With a compressor that is not built in BloscPlugin refuses to be configured, also with a good compressor, unless the message has nothing else. *)
Theorem c67_blosc_stuck_refuted : exists x s y e1 e2 s2, lived s /\ ends x s = Throw e1 /\ ends y (given_to x s) = Throw e2 /\ ends y s = Ret tt /\ leads ["compressor"] y (JInt 1) /\ given_to y (given_to x s) = s2 /\ In ("compressor", JInt 3) (members s2).
Proof.
  exists (JObj [("compressor", JInt 3)]), (PBlosc (fst (new_blosc (wo_blosc a_world) (Bglobal 1 1))) (snd (new_blosc (wo_blosc a_world) (Bglobal 1 1)))), (JObj [("compressor", JInt 1); ("level", JInt 2)]). do 3 eexists. split; [apply li_made, ma_blosc|]. split; [vm_compute; reflexivity|]. split; [vm_compute; reflexivity|]. split; [vm_compute; reflexivity|]. split; [apply leads_at; reflexivity|]. split; [vm_compute; reflexivity|]. cbn. tauto.
Qed.
(** A parameter with a slash in its name cannot be adjusted. *)
Theorem c67_slash_refuted : exists x e, leads ["parameter"; "det/id"; "adjustment"] x (JInt 5) /\ ends x (PAdjust (Adj [] [])) = Throw e.
Proof. exists (JObj [("parameter", JObj [("det/id", JObj [("adjustment", JInt 5)])])]). eexists. split; [apply leads_at; reflexivity|]. vm_compute. reflexivity. Qed.

Print Assumptions c67_applied.
Print Assumptions c67_accepted.
Print Assumptions c67_warned.
Print Assumptions c67_silent.
Print Assumptions c67_blosc_refines.
Print Assumptions c67_nothing.
Print Assumptions c67_fit.
Print Assumptions c67_reported.
Print Assumptions c67_status.
Print Assumptions c67_restored_partial.
Print Assumptions c67_commands.
Print Assumptions c67_reset.
Print Assumptions c67_live_refuted.
Print Assumptions c67_kafka_refuted.
Print Assumptions c67_partition_refuted.
Print Assumptions c67_adjust_refuted.
Print Assumptions c67_gap_refuted.
Print Assumptions c67_gap_short_refuted.
Print Assumptions c67_gap_atomic_refuted.
Print Assumptions c67_atomic_refuted.
Print Assumptions c67_blosc_stuck_refuted.
Print Assumptions c67_slash_refuted.
