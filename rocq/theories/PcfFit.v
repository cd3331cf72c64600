(** Plugins stay within their types; the two models of configuring BloscPlugin agree. *)
From Coq Require Import String Ascii.
From Verif Require Import Base StrOrder JsonModel JsonSpec JsonProofs JsonProps PrcModel PrcSpec PrcReply PrcLive PrcSet PrcExec CfgModel CfgSpec CfgProofs CfgReply FrameModel AdjModel LiveModel LiveSpec LiveProps GapModel BloscModel BloscProps KafkaModel KafkaProps PcfModel PcfSpec PcfProofs.
Local Open Scope string_scope.
Local Open Scope list_scope.
Local Open Scope Z_scope.

Lemma cstr_plain s : no_nul (cstr s).
Proof. unfold no_nul. induction s as [|c s IH]; [intros []|]. cbn. destruct (Ascii.eqb_spec c zero) as [->|N]; [intros []|]. cbn. intros [E|I]; [congruence|auto]. Qed.
Lemma text_plain g c n r : get_param g c n = Ret r -> no_nul (str r).
Proof. unfold get_param. destruct (get_raw c n) as [y| |]; try discriminate. destruct y, g; cbn; unfold in_range; try discriminate; try (intros H; injection H as <-; cbn; first [intros []|apply cstr_plain]); repeat match goal with |- context [if ?b then _ else _] => destruct b end; try discriminate; intros H; injection H as <-; intros []. Qed.
(** Offset and dummy *)
Lemma offset_fit c v : int64 v -> int64 (fst (offset_configure c v)).
Proof. intros H. unfold offset_configure. apply if_has_inv; [exact H|]. intros y r s V _. apply value_i64 in V as (z & -> & _ & B). exact B. Qed.
Lemma dummy_fit c d : fit (PDummy d) -> fit (PDummy (fst (dummy_configure c d))).
Proof.
  intros H. unfold dummy_configure. apply (if_has_inv (fun d => fit (PDummy d))); [apply (if_has_inv (fun d => fit (PDummy d))); [apply (if_has_inv (fun d => fit (PDummy d))); [exact H|]|]|].
  - intros y r s V (A & B & C). apply value_int in V as (z & -> & _ & R). cbn. auto.
  - intros y r s V (A & B & C). apply value_int in V as (z & -> & _ & R). cbn. auto.
  - intros y r s V (A & B & C). cbn. auto.
Qed.
(** Adjustments *)
Lemma row_fit a n v i : no_nul n -> int64 v -> no_nul i -> fit (PAdjust a) -> fit (PAdjust (Adj (sm_put (ad_adjustments a) n v) (sm_put (ad_inputs a) n i))).
Proof.
  intros N V I (A & B & C & D). cbn [fit ad_adjustments ad_inputs]. split; [apply sm_put_ok, A|]. split; [apply sm_put_ok, B|]. split.
  - apply Forall_forall. intros e E. apply sm_put_in in E as [->|E]; [auto|]. exact (proj1 (Forall_forall _ _) C e E).
  - apply Forall_forall. intros e E. apply sm_put_in in E as [->|E]; cbn [fst snd]; [split; [exact I|]|destruct (proj1 (Forall_forall _ _) D e E) as (D1 & D2); split; [exact D1|]; apply sm_put_keeps, D2].
    assert (G : sm_get (sm_put (ad_adjustments a) n v) n = Some v) by (rewrite sm_get_put, String.eqb_refl; reflexivity). apply sm_get_in in G. apply (in_map fst) in G. exact G.
Qed.
Lemma half_fit a n v : no_nul n -> int64 v -> fit (PAdjust a) -> fit (PAdjust (Adj (sm_put (ad_adjustments a) n v) (ad_inputs a))).
Proof.
  intros N V (A & B & C & D). cbn [fit ad_adjustments ad_inputs]. split; [apply sm_put_ok, A|]. split; [exact B|]. split.
  - apply Forall_forall. intros e E. apply sm_put_in in E as [->|E]; [auto|]. exact (proj1 (Forall_forall _ _) C e E).
  - apply Forall_forall. intros e E. destruct (proj1 (Forall_forall _ _) D e E) as (D1 & D2). split; [exact D1|]. apply sm_put_keeps, D2.
Qed.
Lemma names_fit c l : Forall no_nul l -> forall a, fit (PAdjust a) -> fit (PAdjust (fst (configure_names c l a))).
Proof.
  induction l as [|n l IH]; intros N a F; [exact F|]. inversion N as [|? ? N1 N2]; subst. cbn [configure_names]. destruct (get_ref c n) as [x| |]; try exact F. destruct (get_param GInt64 (sub_msg x) "adjustment") as [r| |] eqn:G; try exact F. destruct r as [v| | | |]; try exact F.
  assert (V : int64 v). { unfold get_param in G. destruct (get_raw (sub_msg x) "adjustment") as [y| |]; try discriminate. apply value_i64 in G as (z & E & _ & R). injection E as ->. exact R. }
  destruct (has_param (sub_msg x) "input") as [[|]| |]; try (apply half_fit; assumption).
  - destruct (get_param GStr (sub_msg x) "input") as [r| |] eqn:T; try (apply half_fit; assumption). apply text_plain in T. destruct r; try (apply half_fit; assumption). apply IH; [exact N2|]. exact (row_fit a n v s N1 V T F).
  - apply IH; [exact N2|]. apply (row_fit a n v "" N1 V); [intros []|exact F].
Qed.
Lemma adjust_fit c a : fit (PAdjust a) -> fit (PAdjust (fst (adjust_configure c a))).
Proof.
  intros F. unfold adjust_configure. destruct (has_param c "parameter") as [[|]| |]; try exact F. destruct (get_ref c "parameter") as [x| |]; try exact F. destruct (get_param_names (sub_msg x)) as [l| |] eqn:N; try exact F. destruct l as [|n l]; [cbn; repeat split; constructor|].
  apply names_fit; [|exact F]. unfold get_param_names in N. destruct (params_of (sub_msg x)) as [[]|]; try discriminate. injection N as <-. apply Forall_forall. intros k K. apply in_map_iff in K as (e & <- & _). apply cstr_plain.
Qed.
(** Live view *)
Lemma socket_fit z a p : no_nul a -> fit (PLive p) -> fit (PLive (set_socket z a p)).
Proof.
  intros N (A & B & C & D). destruct (socket_same z a p) as (S1 & S2 & _). cbn [fit]. rewrite S1, S2. split; [exact A|]. split; [exact B|]. split; [|apply set_socket_ok, D]. unfold set_socket. destruct (sm_get (lv_endpoints p) a); [exact C|]. destruct (_ && _); [exact C|exact N].
Qed.
Lemma live_fit z c p : fit (PLive p) -> fit (PLive (fst (live_configure z c p))).
Proof.
  intros F. unfold live_configure. match goal with |- context [match ?t with (_, _) => _ end] => assert (K : fit (PLive (fst t))) end.
  { apply (if_has_inv (fun d => fit (PLive d))); [apply (if_has_inv (fun d => fit (PLive d))); [apply (if_has_inv (fun d => fit (PLive d))); [apply (if_has_inv (fun d => fit (PLive d))); [exact F|]|]|]|].
    - intros y r s V (A & B & C). apply value_int in V as (v & -> & _ & R). cbn. auto.
    - intros y r s V (A & B & C). apply value_int in V as (v & -> & _ & R). cbn. auto.
    - intros y r s V H. exact H.
    - intros y r s V H. exact H. }
  match goal with |- context [match ?t with (_, _) => _ end] => destruct t as [p1 [x|e|]] end; cbn [fst] in *; [|exact K|exact K].
  destruct (has_param c "live_view_socket_addr") as [[|]|e|]; cbn [fst]; try exact K.
  - destruct (get_param GStr c "live_view_socket_addr") as [r| |] eqn:G; cbn [fst]; try exact K. apply socket_fit; [exact (text_plain _ _ _ _ G)|exact K].
  - destruct (lv_bound p1) eqn:B; [exact K|]. apply socket_fit; [unfold no_nul; cbn; intuition discriminate|exact K].
Qed.
Lemma processed_fit count p f t1 t2 count' p' s out : live_process count p f t1 t2 = Ret (count', p', s, out) -> fit (PLive p) -> fit (PLive p').
Proof.
  intros H F. unfold live_process in H. match type of H with (if ?b then _ else _) = _ => destruct b end; [|destruct (push f); try discriminate; injection H as <- <- <- <-; exact F].
  destruct (sm_get (lv_datasets p) _) as [n|].
  - destruct (in_i32 (n + 1)); cbn [obind] in H; [|discriminate]. destruct (_ && _); [discriminate|]. destruct (_ || _); [destruct (live_packet p f); try discriminate; cbn [obind] in H|]; destruct (push f); try discriminate; injection H as <- <- <- <-; exact F.
  - cbn [obind] in H. destruct (_ && _); [discriminate|]. destruct (_ || _); [destruct (live_packet p f); try discriminate; cbn [obind] in H|]; destruct (push f); try discriminate; injection H as <- <- <- <-; exact F.
Qed.
(** Gap fill *)
Lemma gap_fit d c g : fit (PGap g) -> fit (PGap (fst (gap_configure d c g))).
Proof.
  intros F. unfold gap_configure. apply (gap_inv (fun g => fit (PGap g))); [apply (gap_inv (fun g => fit (PGap g))); [apply (gap_inv (fun g => fit (PGap g))); [apply (gap_inv (fun g => fit (PGap g))); [exact F|]|]|]|]; intros l q L (A & B & C & D); cbn; auto.
Qed.
(** Compression *)
Definition held (s : bglobal * bst) : Prop := known (bp_cmd (snd s)) /\ known (bp_cur (snd s)).
Lemma level_known v c : known c -> known (set_level v c).
Proof. intros (A & B & C & D). unfold known, set_level. cbn. destruct (Z.ltb_spec v 1), (Z.ltb_spec 9 v); repeat split; lia. Qed.
Lemma shuffle_known v c : 0 <= v -> known c -> known (set_shuffle v c).
Proof. intros V (A & B & C & D). unfold known, set_shuffle. cbn. destruct (Z.ltb_spec 2 v); repeat split; lia. Qed.
Lemma threads_known v c : 0 <= v -> known c -> known (set_threads v c).
Proof. intros V (A & B & C & D). unfold known, set_threads. cbn. destruct (Z.ltb_spec 256 v); repeat split; lia. Qed.
Lemma compressor_known v c : 0 <= v -> known c -> known (set_compressor v c).
Proof. intros V (A & B & C & D). unfold known, set_compressor. cbn. destruct (Z.ltb_spec 5 v); repeat split; lia. Qed.
Lemma command_held lib f s r : (known (bp_cmd (snd s)) -> known (f (bp_cmd (snd s)))) -> held s -> held (fst (fst (blosc_command lib f s r))).
Proof.
  destruct s as (g, p). intros F (A & B). unfold blosc_command, cseq, cset, cget. cbn [bp_acq]. destruct (String.eqb (bp_acq p) ""); [|split; [apply F, A|exact B]]. unfold blosc_update, update_settings. cbn [bp_cmd]. destruct (bl_supports lib _); split; apply F, A.
Qed.
Lemma warn_same w (s : bglobal * bst) r : fst (fst (warn w s r)) = s.
Proof. destruct w as [(n, v)|]; [|reflexivity]. unfold warn, cput. destruct (set_param r n v). reflexivity. Qed.
Lemma one_held lib m k (get : msg -> string -> outcome ipcexc Z) w f s r : (forall v, get m k = Ret v -> known (bp_cmd (snd s)) -> known (f v (bp_cmd (snd s)))) -> held s -> held (fst (fst (setting m k get (fun v => cseq (warn (w v)) (fun _ => blosc_command lib (f v))) s r))).
Proof.
  intros F H. unfold setting, cseq, clift. destruct (has_param m k) as [[|]| |]; try exact H. destruct (get m k) as [v| |] eqn:G; try exact H. pose proof (warn_same (w v) s r) as W. destruct (warn (w v) s r) as [[s0 r0] [[]| |]]; cbn [fst] in W; subst s0; try exact H. apply command_held; [|exact H]. apply F. reflexivity.
Qed.
Lemma uint_pos m k v : uint m k = Ret v -> 0 <= v.
Proof. unfold uint, get_param. destruct (get_raw m k) as [y| |]; try discriminate. destruct (get_value GUint y) as [r| |] eqn:V; try discriminate. apply value_uint in V as (z & -> & _ & B). cbn. intros H. injection H as <-. lia. Qed.
Lemma seq_held {A B} (a : C (bglobal * bst) A) (f : A -> C (bglobal * bst) B) s r : held (fst (fst (a s r))) -> (forall x s1 r1, held s1 -> held (fst (fst (f x s1 r1)))) -> held (fst (fst (cseq a f s r))).
Proof. intros H F. unfold cseq. destruct (a s r) as [[s1 r1] [x| |]]; [apply F|..]; exact H. Qed.
Lemma blosc_fit lib m s r : held s -> held (fst (fst (bloscx_configure lib m s r))).
Proof.
  intros H. unfold bloscx_configure. apply seq_held; [apply one_held; [intros v _; apply level_known|exact H]|]. intros _ s1 r1 H1. apply seq_held; [apply one_held; [intros v V; apply shuffle_known, (uint_pos _ _ _ V)|exact H1]|]. intros _ s2 r2 H2.
  apply seq_held; [apply one_held; [intros v V; apply threads_known, (uint_pos _ _ _ V)|exact H2]|]. intros _ s3 r3 H3. apply one_held; [intros v V; apply compressor_known, (uint_pos _ _ _ V)|exact H3].
Qed.
Lemma compressed_fit lib g p f g' p' o : blosc_process lib g p f = (g', p', o) -> held (g, p) -> held (g', p').
Proof.
  intros H (A & B). cbn [snd] in A, B. unfold blosc_process in H. destruct (String.eqb (md_acq (fr_meta f)) (bp_acq p)); [injection H as <- <- _; split; assumption|]. unfold update_settings in H. cbn [bp_cmd bp_acq] in H. destruct (bl_supports lib _); injection H as <- <- _; split; assumption.
Qed.
(** Kafka *)
Definition kfit (p : kafka) : Prop := fit (PKafka p).
Lemma count_up_fit n : counter (count_up n). Proof. unfold counter, count_up. apply Z.mod_pos_bound. lia. Qed.
Lemma reports_fit r : forall p, kfit p -> kfit (reports r p).
Proof. unfold reports. induction r as [|b r IH]; intros p F; [exact F|]. cbn [fold_left]. apply IH. destruct b; [|exact F]. destruct F as (A & B & C & D & E & G & _). cbn. repeat (split; [assumption|]). apply count_up_fit. Qed.
Lemma destroy_fit r p : kfit p -> kfit (destroy_kafka r p).
Proof. intros F. unfold destroy_kafka. assert (G : kfit (if kp_topic p then reports r p else p)) by (destruct (kp_topic p); [apply reports_fit|]; exact F). assert (S : no_nul (kp_servers p)) by apply F. destruct G as (_ & G). exact (conj S G). Qed.
Lemma topic_fit k n p : no_nul n -> kfit p -> kfit (configure_topic k n p).
Proof. intros N (A & B & C & D). unfold configure_topic. destruct (kp_producer p); cbn; auto. Qed.
Lemma kafka_fit k r m p : kfit p -> kfit (fst (kafka_configure k r m p)).
Proof.
  intros F. unfold kafka_configure. rewrite !(kstep_if _ "include_parameters"), !(kstep_if _ "dataset"), !(kstep_if _ "partition"), !(kstep_if _ "topic"). apply if_has_inv; [apply if_has_inv; [apply if_has_inv; [apply if_has_inv|]|]|].
  - unfold kstep. destruct (has_param m "servers") as [[|]| |]; try exact F. pose proof (destroy_fit r p F) as D. destruct (get_param GStr m "servers") as [v| |] eqn:G; try exact D. cbn [fst]. apply text_plain in G. assert (S : kfit (configure_servers k (str v) (destroy_kafka r p))) by (unfold configure_servers; destruct (kl_servers k (str v)); [destruct D as (_ & D); exact (conj G D)|exact D]). apply topic_fit; [apply S|exact S].
  - intros y v q V H. apply value_text in V as (t & -> & _ & N). apply topic_fit; assumption.
  - intros y v q V (A & B & C & D & E). apply value_uint in V as (t & -> & _ & N). destruct (to_int32_is t N) as (_ & I). cbn. auto.
  - intros y v q V (A & B & C & E). apply value_text in V as (t & -> & _ & N). cbn. auto.
  - intros y v q V H. exact H.
Qed.
Lemma configures_fit k l : forall p, kfit p -> kfit (configure_all k l p).
Proof. unfold configure_all. induction l as [|e l IH]; intros p F; [exact F|]. cbn [fold_left]. apply IH, kafka_fit, F. Qed.
Lemma step_fit k p e q x : kafka_step k p e = (q, x) -> kfit p -> kfit q.
Proof.
  intros H F. destruct e as [f ok r l|c r|r|]; cbn [kafka_step] in H.
  - destruct (_ && _); [|injection H as <- _; apply configures_fit, F]. pose proof (configures_fit k l p F) as G. set (p0 := configure_all k l p) in *. clearbody p0. unfold enqueue_locked in H. destruct (create_message k p0 f) as [[b|]| |]; try (injection H as <- _; exact G). destruct (kp_topic p0 && kp_producer p0); [|injection H as <- _; exact G].
    injection H as <- _. apply reports_fit. destruct G as (A & B & C & D & E & G & K). destruct ok; cbn; repeat (split; [assumption|]); auto using count_up_fit.
  - pose proof (kafka_fit k r c p F) as K. destruct (kafka_configure k r c p). injection H as <- _. exact K.
  - injection H as <- _. destruct (kp_producer p); [apply reports_fit|]; exact F.
  - injection H as <- _. destruct F as (A & B & C & D & _). cbn. unfold counter. repeat (split; [assumption|]). repeat split; lia.
Qed.
(** All of them *)
Lemma first_known : known first_settings. Proof. unfold known, first_settings. cbn. lia. Qed.
Lemma made_fit s : made s -> fit s.
Proof.
  intros M. destruct M; cbn; unfold int64, int32, counter, no_nul; try (repeat split; try constructor; try lia; cbn; intuition discriminate).
Qed.
Lemma configure_fit w m s r s1 r1 o : plugin_configure w m s r = (s1, r1, o) -> fit s -> fit s1.
Proof.
  intros H F. unfold plugin_configure in H. destruct s.
  - pose proof (offset_fit m v F) as K. destruct (offset_configure m v). injection H as <- _ _. exact K.
  - pose proof (adjust_fit m a F) as K. destruct (adjust_configure m a). injection H as <- _ _. exact K.
  - pose proof (live_fit (wo_zmq w) m p F) as K. destruct (live_configure _ m p). injection H as <- _ _. exact K.
  - pose proof (gap_fit (wo_debug w) m g F) as K. destruct (gap_configure _ m g). injection H as <- _ _. exact K.
  - pose proof (blosc_fit (wo_blosc w) m (g, p) r F) as K. destruct (bloscx_configure _ m (g, p) r) as [[[g1 p1] q] o1]. injection H as <- _ _. exact K.
  - pose proof (kafka_fit (wo_kafka w) (wo_reports w) m p F) as K. destruct (kafka_configure _ _ m p). injection H as <- _ _. exact K.
  - pose proof (dummy_fit m d F) as K. destruct (dummy_configure m d). injection H as <- _ _. exact K.
  - injection H as <- _ _. exact F.
Qed.
Lemma worked_fit s s1 : worked s s1 -> fit s -> fit s1.
Proof.
  intros W F. destruct W.
  - exact (processed_fit _ _ _ _ _ _ _ _ _ H F).
  - exact (compressed_fit _ _ _ _ _ _ _ H F).
  - exact F.
  - exact (step_fit _ _ _ _ _ H0 F).
  - destruct F as (A & B & _). cbn. auto.
Qed.
Lemma puts_same {S} l : forall (s : S) r, fst (fst (cputs l s r)) = s.
Proof. induction l as [|(n, v) l IH]; intros s r; [reflexivity|]. cbn. unfold cseq, cput. destruct (set_param r n v) as [m [[]| |]]; try reflexivity. apply IH. Qed.
Lemma status_state w i s r : fst (fst (plugin_status w i s r)) = polled w s.
Proof. unfold plugin_status, cseq, cset, cget. apply puts_same. Qed.
Lemma polled_fit w s : fit s -> fit (polled w s).
Proof. destruct s; intros F; try exact F. cbn [polled]. destruct (kp_producer p); [apply (reports_fit _ _ F)|exact F]. Qed.
Lemma reset_fit s s1 b : plugin_reset s = (s1, b) -> fit s -> fit s1.
Proof. intros H F. injection H as <- _. destruct s; try exact F; [destruct F as (A & B & C & D & _)|destruct F as (A & B & _)]; cbn; unfold counter, int32 in *; repeat split; try assumption; lia. Qed.
Lemma lived_fit s : lived s -> fit s.
Proof.
  intros L. induction L as [s M|w m s r s1 r1 o L IH H|s s1 L IH H|w i s r s1 r1 o L IH H|s s1 b L IH H].
  - apply made_fit, M.
  - exact (configure_fit _ _ _ _ _ _ _ H IH).
  - exact (worked_fit _ _ H IH).
  - pose proof (status_state w i s r) as E. rewrite H in E. cbn in E. subst s1. apply polled_fit, IH.
  - exact (reset_fit _ _ _ H IH).
Qed.
(** Refinement *)
Definition plain_outcome (o : outcome fault unit) : outcome bexc unit := match o with Ret a => Ret a | Throw (XIpc e) => Throw (BIpc e) | Throw _ => Throw BRuntime | Undef => Undef end.
Lemma put_room r n v : good_path [n] -> roomy r -> exists r1, set_param r n v = (r1, Ret tt) /\ roomy r1.
Proof.
  intros G R. destruct (roomy_set n (set_value v) r R) as (d & S). exists (with_doc d r). assert (E : set_param r n v = (with_doc d r, Ret tt)) by (change n with (slashed [n]) at 1; rewrite (set_param_eq _ _ _ G), S; reflexivity). split; [exact E|]. exact (grown_roomy _ _ _ _ (put_top _ _ _ _ G R E)).
Qed.
Lemma one_refines lib m k t w f g p r : roomy r -> (forall v n x, w v = Some (n, x) -> path_check [n] = true) ->
  (t = GInt \/ t = GUint) -> exists g1 p1 r1 o, setting m k (fun m n => bind (get_param t m n) (fun r => Ret (match r with RInt z => z | _ => 0 end))) (fun v => cseq (warn (w v)) (fun _ => blosc_command lib (f v))) (g, p) r = ((g1, p1), r1, o) /\ roomy r1 /\ blosc_param lib m k t f (g, p, Ret tt) = (g1, p1, plain_outcome o).
Proof.
  intros R W T. unfold setting, cseq, clift, blosc_param. destruct (has_param m k) as [[|]| |]; try (do 4 eexists; split; [reflexivity|]; split; [exact R|reflexivity]).
  destruct (get_param t m k) as [v| |] eqn:G; cbn [bind]; try (do 4 eexists; split; [reflexivity|]; split; [exact R|reflexivity]).
  assert (V : exists z, v = RInt z). { unfold get_param in G. destruct (get_raw m k) as [y| |]; try discriminate. destruct T as [->| ->]; [apply value_int in G as (z & -> & _)|apply value_uint in G as (z & -> & _)]; eauto. } destruct V as (z & ->).
  assert (X : exists r1, warn (w z) (g, p) r = ((g, p), r1, Ret tt) /\ roomy r1). { destruct (w z) as [(n, x)|] eqn:WZ; [|exists r; auto]. destruct (put_room r n x (path_check_ok _ (W _ _ _ WZ)) R) as (r1 & E & R1). exists r1. unfold warn, cput. rewrite E. auto. }
  destruct X as (r1 & -> & R1). unfold blosc_command, cseq, cset, cget. cbn [bp_acq]. destruct (String.eqb (bp_acq p) ""); [|do 4 eexists; split; [reflexivity|]; split; [exact R1|reflexivity]].
  unfold blosc_update. unfold update_settings. cbn [bp_cmd bp_acq]. destruct (bl_supports lib _); do 4 eexists; (split; [reflexivity|]; split; [exact R1|reflexivity]).
Qed.
Lemma param_stops lib m k t f g p o : (forall a, o <> Ret a) -> blosc_param lib m k t f (g, p, o) = (g, p, o).
Proof. intros N. destruct o; [destruct (N a); reflexivity|reflexivity|reflexivity]. Qed.
Lemma blosc_refines lib m g p r g1 p1 r1 o : roomy r -> bloscx_configure lib m (g, p) r = ((g1, p1), r1, o) -> blosc_configure lib g p m = (g1, p1, plain_outcome o).
Proof.
  intros R H. unfold bloscx_configure in H. unfold blosc_configure.
  destruct (one_refines lib m "level" GInt level_warning set_level g p r R) as (ga & pa & ra & oa & E1 & R1 & B1); [intros v n x; unfold level_warning; destruct (v <? 1); [intros Q; injection Q as <- _; reflexivity|]; destruct (9 <? v); [intros Q; injection Q as <- _; reflexivity|discriminate]|auto|].
  rewrite B1. unfold cseq at 1 in H. unfold int in H. rewrite E1 in H. destruct oa as [[]|e|]; [|injection H as <- <- <- <-; cbn [plain_outcome]; rewrite !param_stops by (destruct e; discriminate); reflexivity|injection H as <- <- <- <-; reflexivity]. cbn [plain_outcome].
  destruct (one_refines lib m "shuffle" GUint shuffle_warning set_shuffle ga pa ra R1) as (gb & pb & rb & ob & E2 & R2 & B2); [intros v n x; unfold shuffle_warning; destruct (2 <? v); [intros Q; injection Q as <- _; reflexivity|discriminate]|auto|].
  rewrite B2. unfold cseq at 1 in H. unfold uint at 1 in H. rewrite E2 in H. destruct ob as [[]|e|]; [|injection H as <- <- <- <-; cbn [plain_outcome]; rewrite !param_stops by (destruct e; discriminate); reflexivity|injection H as <- <- <- <-; reflexivity]. cbn [plain_outcome].
  destruct (one_refines lib m "threads" GUint threads_warning set_threads gb pb rb R2) as (gc & pc & rc & oc & E3 & R3 & B3); [intros v n x; unfold threads_warning; destruct (256 <? v); [intros Q; injection Q as <- _; reflexivity|discriminate]|auto|].
  rewrite B3. unfold cseq at 1 in H. unfold uint at 1 in H. rewrite E3 in H. destruct oc as [[]|e|]; [|injection H as <- <- <- <-; cbn [plain_outcome]; rewrite !param_stops by (destruct e; discriminate); reflexivity|injection H as <- <- <- <-; reflexivity]. cbn [plain_outcome].
  destruct (one_refines lib m "compressor" GUint compressor_warning set_compressor gc pc rc R3) as (gd & pd & rd & od & E4 & R4 & B4); [intros v n x; unfold compressor_warning; destruct (5 <? v); [intros Q; injection Q as <- _; reflexivity|discriminate]|auto|].
  rewrite B4. unfold uint in H. rewrite E4 in H. injection H as <- <- <- <-. reflexivity.
Qed.
