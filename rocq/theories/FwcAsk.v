(** What the file writer reports. *)
From Coq Require Import String Ascii.
From Verif Require Import Base JsonModel JsonSpec JsonProofs JsonProps PrcModel PrcSpec PrcReply PrcLive CfgModel CfgProofs CfgReply FrameModel PlaceModel NameModel AcqModel FwModel FwcModel CfgSpec FwcSpec.
Local Open Scope string_scope.
Local Open Scope list_scope.
Local Open Scope Z_scope.


Definition settings_items (s : fwx) : list item :=
  let w := x_fw s in
  [IPut ["process"; "number"] (XUint64 (Z.of_N (g_procs (w_geom w)))); IPut ["process"; "rank"] (XUint64 (Z.of_N (g_rank (w_geom w))));
   IPut ["process"; "frames_per_block"] (XUint64 (Z.of_N (g_fpb (w_geom w)))); IPut ["process"; "blocks_per_file"] (XUint64 (Z.of_N (g_bpf (w_geom w))));
   IPut ["process"; "earliest_version"] (XBool (x_earliest s)); IPut ["process"; "alignment_threshold"] (XUint64 (x_threshold s)); IPut ["process"; "alignment_value"] (XUint64 (x_value s));
   IPut ["file"; "path"] (XStr (p_path (w_next w))); IPut ["file"; "prefix"] (XStr (p_file (w_next w))); IPut ["file"; "use_numbers"] (XBool (w_numbers w));
   IPut ["file"; "first_number"] (XUint (Z.of_N (w_start w))); IPut ["file"; "postfix"] (XStr (w_postfix w)); IPut ["file"; "extension"] (XStr (w_ext w));
   IPut ["file"; "create_error_duration"] (XUint (x_create s)); IPut ["file"; "write_error_duration"] (XUint (x_write s)); IPut ["file"; "flush_error_duration"] (XUint (x_flush s)); IPut ["file"; "close_error_duration"] (XUint (x_close s));
   IPut ["frames"] (XUint64 (Z.of_N (p_total (w_next w)))); IPut ["master"] (XStr (w_master w)); IPut ["acquisition_id"] (XStr (p_id (w_next w))); IPut ["timeout_timer_period"] (XUint64 (Z.of_N (w_period w)))].
Lemma settings_named s : settings_shown s = map (item_name (x_name s)) (settings_items s). Proof. reflexivity. Qed.
Lemma settings_grow s : grow (settings_items s) (JObj []) = Some (JObj (settings_json s)). Proof. reflexivity. Qed.
Definition five (t c : string) (a b e : Z) : list item := [IPut ["datatype"] (XStr t); IPut ["compression"] (XStr c); IPut ["blosc_compressor"] (XInt a); IPut ["blosc_level"] (XInt b); IPut ["blosc_shuffle"] (XInt e)].
Definition dataset_items (d : dsdef) (b : Z * Z * Z) : list item :=
  five (get_type_from_enum (code_of_type (d_type d))) (get_compress_from_enum (code_of_comp (d_comp d))) (i32 (fst (fst b))) (i32 (snd (fst b))) (i32 (snd b)) ++
  map (fun n => IPush [] "dims" (XInt (i32 (Z.of_N n)))) (d_dims d) ++ map (fun n => IPush [] "chunks" (XInt (i32 (Z.of_N n)))) (d_chunks d).
Lemma dataset_named p d b : dataset_shown p d b = map (item_name p) (map (under ["dataset"; d_name d]) (dataset_items d b)).
Proof. unfold dataset_shown, dataset_items. rewrite !map_app, !map_map. reflexivity. Qed.
Lemma i32_wrapped z : i32 z = wrapped z.
Proof. reflexivity. Qed.
Lemma put_end k v ms : find_member k ms = None -> put_member k v ms = ms ++ [(k, v)].
Proof. induction ms as [|(n, x) ms IH]; cbn; [reflexivity|]. destruct (String.eqb n k); [discriminate|]. intros H. rewrite (IH H). reflexivity. Qed.
Lemma sizes_grow k (l : list N) ms : find_member k ms = None -> grow (map (fun n => IPush [] k (XInt (i32 (Z.of_N n)))) l) (JObj ms) = Some (JObj (ms ++ sizes_json k l)).
Proof.
  intros F. rewrite <- (map_map (fun n => XInt (i32 (Z.of_N n))) (IPush [] k)). destruct l as [|n l]; [cbn; rewrite app_nil_r; reflexivity|]. rewrite grow_push by discriminate. rewrite F, (put_end _ _ _ F). cbn [elems app]. unfold sizes_json. rewrite map_map. reflexivity.
Qed.
Lemma dataset_grow d b : grow (dataset_items d b) (JObj []) = Some (dataset_json (d, b)).
Proof.
  unfold dataset_items, dataset_json. destruct b as ((a, b), c). cbn [fst snd]. erewrite grow_app by reflexivity. erewrite grow_app by (apply sizes_grow; reflexivity). rewrite sizes_grow by (destruct (d_dims d); reflexivity). rewrite !i32_wrapped. rewrite <- app_assoc.
  destruct (d_type d), (d_comp d); reflexivity.
Qed.
Lemma add_dataset n z (s : fwx) l : find_member n l = None -> set_at ["dataset"; n] z (JObj (settings_json s ++ some_object "dataset" l)) = Some (JObj (settings_json s ++ some_object "dataset" (l ++ [(n, z)]))) /\ sub ["dataset"; n] (JObj (settings_json s ++ some_object "dataset" l)) = JObj [].
Proof.
  intros F. destruct l as [|e l]; [split; reflexivity|]. set (l0 := e :: l) in *. change (some_object "dataset" l0) with [("dataset", JObj l0)]. assert (E : some_object "dataset" (l0 ++ [(n, z)]) = [("dataset", JObj (l0 ++ [(n, z)]))]) by reflexivity. rewrite E. clearbody l0. split.
  - change (match set_at [n] z (JObj l0) with Some y => Some (JObj (settings_json s ++ [("dataset", y)])) | None => None end = Some (JObj (settings_json s ++ [("dataset", JObj (l0 ++ [(n, z)]))]))). cbn [set_at]. rewrite (put_end _ _ _ F). reflexivity.
  - unfold sub. cbn. rewrite F. reflexivity.
Qed.
Lemma datasets_grow (s : fwx) ds : forall l, (forall n, In n (map d_name ds) -> find_member n l = None) -> NoDup (map d_name ds) ->
  grow (flat_map (fun d => map (under ["dataset"; d_name d]) (dataset_items d (x_blosc s (d_name d)))) ds) (JObj (settings_json s ++ some_object "dataset" l)) =
  Some (JObj (settings_json s ++ some_object "dataset" (l ++ map (fun d => (d_name d, dataset_json (d, x_blosc s (d_name d)))) ds))).
Proof.
  induction ds as [|d ds IH]; intros l F N; [cbn; rewrite app_nil_r; reflexivity|]. inversion N as [|? ? N1 N2]; subst. destruct (add_dataset (d_name d) (dataset_json (d, x_blosc s (d_name d))) s l (F _ (or_introl eq_refl))) as (A & B). cbn [flat_map map].
  erewrite grow_app; [|eapply grow_under; [|rewrite B; apply dataset_grow|exact A]; unfold dataset_items, five; discriminate]. rewrite IH.
  - rewrite <- app_assoc. reflexivity.
  - intros n I. assert (D : n <> d_name d) by (intros ->; contradiction). clear - F I D. specialize (F n (or_intror I)). induction l as [|(k, v) l IH]; cbn in *; [destruct (String.eqb_spec (d_name d) n); congruence|]. destruct (String.eqb k n); [discriminate|auto].
  - exact N2.
Qed.
Definition config_items (s : fwx) : list item := settings_items s ++ flat_map (fun d => map (under ["dataset"; d_name d]) (dataset_items d (x_blosc s (d_name d)))) (w_defs (x_fw s)).
Lemma request_items s r : fwx_request s r = cputs (map (item_name (x_name s)) (config_items s)) s r.
Proof.
  unfold fwx_request, config_items. cbn -[cputs settings_shown dataset_shown settings_items dataset_items map]. rewrite map_app, cputs_app, <- settings_named. unfold cseq. cbn [cget]. destruct (cputs (settings_shown s) s r) as [[s1 r1] [a| |]]; try reflexivity. f_equal.
  induction (w_defs (x_fw s)) as [|d l IH]; [reflexivity|]. cbn [flat_map]. rewrite map_app, IH, dataset_named. reflexivity.
Qed.
Lemma config_grow s : NoDup (map d_name (w_defs (x_fw s))) -> grow (config_items s) (JObj []) = Some (config_json s).
Proof. intros N. unfold config_items. erewrite grow_app by apply settings_grow. pose proof (datasets_grow s (w_defs (x_fw s)) [] ltac:(reflexivity) N) as G. cbn [some_object app] in G. rewrite app_nil_r in G. exact G. Qed.

Lemma nice_item i k c : nice i -> good_path (k :: c) -> good_path (i :: k :: c).
Proof. intros (A & B & C) (_ & D & E & _ & F). split; [discriminate|]. split; [constructor; assumption|]. split; [constructor; assumption|]. split; [exact C|exact F]. Qed.
Lemma nice_put i e : nice i -> match e with IPut (k :: c) _ => good_path (k :: c) | _ => False end -> item_ok i e.
Proof. intros N. destruct e as [[|k c] v|]; try contradiction. intros G. split; [discriminate|]. exact (nice_item _ _ _ N G). Qed.
Ltac good := apply path_check_ok; reflexivity.
Lemma settings_ok i s : nice i -> Forall (item_ok i) (settings_items s).
Proof. intros N. unfold settings_items. repeat (apply Forall_cons; [apply (nice_put _ _ N); good|]). apply Forall_nil. Qed.
Lemma dataset_ok i n d b : nice i -> usable n -> Forall (item_ok i) (map (under ["dataset"; n]) (dataset_items d b)).
Proof.
  intros N (U1 & U2 & U3 & U4). assert (G : forall k, path_check [k] = true -> good_path [i; "dataset"; n; k]).
  { intros k K. apply path_check_ok in K as (_ & A & B & _ & C). destruct N as (X & Y & Z). split; [discriminate|]. inversion A; inversion B; subst. split; [repeat constructor; try assumption; intros Q; cbn in Q; intuition discriminate|]. split; [repeat constructor; try assumption; intros Q; cbn in Q; intuition discriminate|]. split; assumption. }
  assert (NA : forall k, i <> append k "[]"). { intros k E. destruct N as (_ & _ & _ & N). apply N. exists k. exact E. }
  unfold dataset_items. rewrite !map_app, !map_map. apply Forall_app. split; [|apply Forall_app; split].
  - cbn. repeat (apply Forall_cons; [split; [discriminate|apply G; reflexivity]|]). apply Forall_nil.
  - apply Forall_map, Forall_forall. intros x _. split; [apply G; reflexivity|]. intros [E|[E|[E|[]]]]; [destruct (NA _ E)|discriminate|contradiction].
  - apply Forall_map, Forall_forall. intros x _. split; [apply G; reflexivity|]. intros [E|[E|[E|[]]]]; [destruct (NA _ E)|discriminate|contradiction].
Qed.
Lemma config_ok s : nice (x_name s) -> Forall usable (map d_name (w_defs (x_fw s))) -> Forall (item_ok (x_name s)) (config_items s).
Proof.
  intros N U. unfold config_items. apply Forall_app. split; [apply settings_ok, N|]. induction (w_defs (x_fw s)) as [|d l IH]; [constructor|]. inversion U; subst. cbn [flat_map]. apply Forall_app. split; [apply dataset_ok; assumption|auto].
Qed.
Lemma request_ret s r : nice (x_name s) -> Forall usable (map d_name (w_defs (x_fw s))) -> NoDup (map d_name (w_defs (x_fw s))) -> roomy r -> at_param r [x_name s] = None ->
  exists r1, fwx_request s r = (s, r1, Ret tt) /\ grown (x_name s) (config_json s) r r1.
Proof.
  intros N U D R A. rewrite request_items. apply cputs_grow; [discriminate|apply config_ok; assumption|exact R|]. unfold own, sub. unfold at_param in A. cbn [app] in A. rewrite A. apply config_grow, D.
Qed.
(** Status *)
Definition status_items (s : fwx) : list item :=
  let w := x_fw s in
  [IPut ["writing"] (XBool (w_writing w)); IPut ["frames_max"] (XInt (i32 (Z.of_N (a_towrite (w_cur w))))); IPut ["frames_written"] (XInt (i32 (Z.of_N (a_written (w_cur w)))));
   IPut ["frames_processed"] (XInt (i32 (Z.of_N (a_processed (w_cur w))))); IPut ["file_path"] (XStr (a_path (w_cur w))); IPut ["file_name"] (XStr (x_file s));
   IPut ["acquisition_id"] (XStr (id_of (w_cur w))); IPut ["processes"] (XInt (i32 (Z.of_N (g_procs (w_geom w))))); IPut ["rank"] (XInt (i32 (Z.of_N (g_rank (w_geom w)))));
   IPut ["timeout_active"] (XBool (w_active w))] ++ map (fun n => IPut ["timing"; n] (XInt (i32 (x_timing s n)))) timing_names.
Lemma status_named s r : fwx_status s r = cputs (map (item_name (x_name s)) (status_items s)) s r.
Proof. unfold status_items. rewrite map_app, cputs_app. reflexivity. Qed.
Lemma status_ret s r : nice (x_name s) -> roomy r -> at_param r [x_name s] = None -> exists r1, fwx_status s r = (s, r1, Ret tt) /\ grown (x_name s) (status_json s) r r1.
Proof.
  intros N R A. rewrite status_named. apply cputs_grow; [discriminate| |exact R|].
  - unfold status_items. cbn [app map timing_names]. repeat (apply Forall_cons; [apply (nice_put _ _ N); good|]). apply Forall_nil.
  - unfold own, sub. unfold at_param in A. cbn [app] in A. rewrite A. reflexivity.
Qed.
