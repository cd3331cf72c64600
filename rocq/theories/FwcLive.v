(** Messages that are accepted by the file writer. *)
From Coq Require Import String Ascii.
From Verif Require Import Base JsonModel JsonSpec JsonProofs JsonProps FrameModel PrcModel PrcReply PrcSet PrcAsk CfgModel CfgSpec CfgProofs CfgReply PlaceModel NameModel AcqModel FwModel FwcModel FwcSpec FwcProofs FwcSet.
Local Open Scope string_scope.
Local Open Scope list_scope.
Local Open Scope Z_scope.

Section Live.
  Context {S : Type}.
  Lemma setting_live {A} (get : msg -> string -> outcome ipcexc A) rd k m l (f : A -> C S unit) s r : reads get rd -> name_ok k -> params_of m = Some (JObj l) ->
    (forall y, at_path [k] (JObj l) = Some y -> exists a s1 r1, rd y = Some a /\ f a s r = (s1, r1, Ret tt)) -> exists s1 r1, setting m k get f s r = (s1, r1, Ret tt).
  Proof.
    intros R N E H. destruct (at_path [k] (JObj l)) as [y|] eqn:Y; [|exists s, r; apply (setting_off _ _ _ l); assumption]. destruct (H y eq_refl) as (a & s1 & r1 & RY & F). exists s1, r1. rewrite (setting_go get rd k m l y a f s r R N E Y RY). exact F.
  Qed.
  Lemma local_live {A} (get : msg -> string -> outcome ipcexc A) rd k m l (s : S) r : reads get rd -> name_ok k -> params_of m = Some (JObj l) ->
    (forall y, at_path [k] (JObj l) = Some y -> exists a, rd y = Some a) -> exists o, local m k get s r = (s, r, Ret o).
  Proof. intros R N E H. destruct (at_path [k] (JObj l)) as [y|] eqn:Y; [|exists None; apply (local_off _ _ _ l); assumption]. destruct (H y eq_refl) as (a & RY). exists (Some a). apply (local_go get rd k m l y); assumption. Qed.
End Live.
Lemma procs_live t n s r : (w_writing (x_fw s) = true -> n = g_procs (geometry s)) -> exists s1 r1, base t (configure_process (PCfg (Val n) Absent Absent Absent)) s r = (s1, r1, Ret tt).
Proof. intros K. unfold geometry in K. unfold base, configure_process. cbn. unfold change, fbind, fget, fput, fthrow, fret. cbn. destruct (N.eqb_spec (g_procs (w_geom (x_fw s))) n) as [X|X]; [cbn; eauto|]. destruct (w_writing (x_fw s)) eqn:W; [exfalso; apply X; exact (eq_sym (K eq_refl))|cbn; eauto]. Qed.
Lemma rank_live t n s r : (w_writing (x_fw s) = true -> n = g_rank (geometry s)) -> exists s1 r1, base t (configure_process (PCfg Absent (Val n) Absent Absent)) s r = (s1, r1, Ret tt).
Proof. intros K. unfold geometry in K. unfold base, configure_process. cbn. unfold change, fbind, fget, fput, fthrow, fret. cbn. destruct (N.eqb_spec (g_rank (w_geom (x_fw s))) n) as [X|X]; [cbn; eauto|]. destruct (w_writing (x_fw s)) eqn:W; [exfalso; apply X; exact (eq_sym (K eq_refl))|cbn; eauto]. Qed.
Lemma block_live t n s r : n <> 0%N -> (w_writing (x_fw s) = true -> n = g_fpb (geometry s)) -> exists s1 r1, base t (configure_process (PCfg Absent Absent (Val n) Absent)) s r = (s1, r1, Ret tt).
Proof. intros Z K. unfold geometry in K. unfold base, configure_process. cbn. unfold change, fbind, fget, fput, fthrow, fret. cbn. destruct (N.eqb_spec (g_fpb (w_geom (x_fw s))) n) as [X|X]; [cbn; eauto|]. destruct (N.ltb_spec n 1) as [LN|_]; [lia|]. destruct (w_writing (x_fw s)) eqn:W; [exfalso; apply X; exact (eq_sym (K eq_refl))|cbn; eauto]. Qed.
Lemma blocks_live t n s r : (w_writing (x_fw s) = true -> n = g_bpf (geometry s)) -> exists s1 r1, base t (configure_process (PCfg Absent Absent Absent (Val n))) s r = (s1, r1, Ret tt).
Proof. intros K. unfold geometry in K. unfold base, configure_process. cbn. unfold change, fbind, fget, fput, fthrow, fret. cbn. destruct (N.eqb_spec (g_bpf (w_geom (x_fw s))) n) as [X|X]; [cbn; eauto|]. destruct (w_writing (x_fw s)) eqn:W; [exfalso; apply X; exact (eq_sym (K eq_refl))|cbn; eauto]. Qed.
Definition may (s : fwx) (x : json) (k : string) (now : N) : Prop := forall y, at_path [k] x = Some y -> exists n, as_size y = Some n /\ (w_writing (x_fw s) = true -> n = now).
Definition tp {A} (x : json) (q : list string) (rd : json -> option A) : Prop := forall y, at_path q x = Some y -> exists a, rd y = Some a.
Lemma size_u64 y n : as_size y = Some n -> exists z, as_u64 y = Some z /\ Z.to_N z = n.
Proof. unfold as_size, omap. destruct (as_u64 y) as [z|]; [|discriminate]. intros H. injection H as <-. eauto. Qed.
Lemma tp_live {A} (get : msg -> string -> outcome ipcexc A) rd k m l (f : A -> X unit) s r : reads get rd -> name_ok k -> params_of m = Some (JObj l) -> tp (JObj l) [k] rd -> (forall a, exists s1 r1, f a s r = (s1, r1, Ret tt)) -> exists s1 r1, setting m k get f s r = (s1, r1, Ret tt).
Proof. intros R N E T F. apply (setting_live get rd k m l); [assumption..|]. intros y Y. destruct (T y Y) as (a & RY). destruct (F a) as (s1 & r1 & H). eauto. Qed.
Lemma process_live m l s r : params_of m = Some (JObj l) -> may s (JObj l) "number" (g_procs (geometry s)) -> may s (JObj l) "rank" (g_rank (geometry s)) -> may s (JObj l) "frames_per_block" (g_fpb (geometry s)) ->
  (forall y, at_path ["frames_per_block"] (JObj l) = Some y -> as_size y <> Some 0%N) -> may s (JObj l) "blocks_per_file" (g_bpf (geometry s)) -> tp (JObj l) ["earliest_version"] as_bool -> tp (JObj l) ["alignment_threshold"] as_u64 -> tp (JObj l) ["alignment_value"] as_u64 ->
  exists s1 r1, process_section m s r = (s1, r1, Ret tt).
Proof.
  intros E M1 M2 M3 Z3 M4 T5 T6 T7. unfold process_section.
  assert (ST : forall t k (P : N -> pcfg) (V : fwx -> N) (s0 : fwx), name_ok k -> may s0 (JObj l) k (V s0) -> (forall n r, (forall y, at_path [k] (JObj l) = Some y -> as_size y = Some n -> True) -> (exists y, at_path [k] (JObj l) = Some y /\ as_size y = Some n) -> (w_writing (x_fw s0) = true -> n = V s0) -> exists s1 r1, base (t (Z.of_N n)) (configure_process (P n)) s0 r = (s1, r1, Ret tt)) ->
    forall r, exists s1 r1, setting m k u64 (fun n => base (t n) (configure_process (P (Z.to_N n)))) s0 r = (s1, r1, Ret tt)).
  { intros t k P V s0 NK M B r0. apply (setting_live u64 as_u64 k m l _ _ _ reads_u64 NK E). intros y Y. destruct (M y Y) as (n & R & K). destruct (size_u64 _ _ R) as (z & RZ & <-). destruct (B (Z.to_N z) r0) as (s1 & r1 & H); [auto|eauto|exact K|]. exists z, s1, r1. split; [exact RZ|].
    unfold as_u64, number_in in RZ. destruct y; try discriminate. destruct ((0 <=? z0) && (z0 <? 2 ^ 64)) eqn:B2; [|discriminate]. injection RZ as ->. apply andb_prop in B2 as (B2 & _). apply Z.leb_le in B2. rewrite Z2N.id in H by lia. exact H. }
  destruct (ST (fun _ => "Cannot change concurrent processes whilst writing") "number" (fun n => PCfg (Val n) Absent Absent Absent) (fun s => g_procs (geometry s)) s ltac:(nm) M1) with (r := r) as (s1 & r1 & H1).
  { intros n r0 _ _ K. apply procs_live, K. }
  rewrite (cseq_go _ _ _ _ _ _ _ H1). apply (setting_upd u64 as_u64 "number" m (JObj l) _ (fun n s => u_geom (let g := geometry s in Geom (Z.to_N n) (g_rank g) (g_fpb g) (g_bpf g)) s) (fun s => Z.of_N (g_procs (geometry s)))) in H1 as (n1 & -> & -> & G1);
    [|apply reads_u64|nm|exact E|intros a s0 r0 s3 r3 X; apply base_procs in X; exact X|intros s0; cbv beta; rewrite N2Z.id; dd s0].
  set (s1 := u_geom _ s). destruct (ST (fun _ => "Cannot change process rank whilst writing") "rank" (fun n => PCfg Absent (Val n) Absent Absent) (fun s => g_rank (geometry s)) s1 ltac:(nm) M2) with (r := r) as (s2 & r2 & H1).
  { intros n r0 _ _ K. apply rank_live, K. }
  rewrite (cseq_go _ _ _ _ _ _ _ H1). apply (setting_upd u64 as_u64 "rank" m (JObj l) _ (fun n s => u_geom (let g := geometry s in Geom (g_procs g) (Z.to_N n) (g_fpb g) (g_bpf g)) s) (fun s => Z.of_N (g_rank (geometry s)))) in H1 as (n2 & -> & -> & G2);
    [|apply reads_u64|nm|exact E|intros a s0 r0 s3 r3 X; apply base_rank in X; exact X|intros s0; cbv beta; rewrite N2Z.id; dd s0].
  set (s2 := u_geom _ s1). destruct (ST (fun n => if n <? 1 then "Must have at least one frame per block" else "Cannot change block size whilst writing") "frames_per_block" (fun n => PCfg Absent Absent (Val n) Absent) (fun s => g_fpb (geometry s)) s2 ltac:(nm) M3) with (r := r) as (s3 & r3 & H1).
  { intros n r0 _ (y & Y & YN) K. apply block_live; [intros ->; exact (Z3 y Y YN)|exact K]. }
  rewrite (cseq_go _ _ _ _ _ _ _ H1). apply (setting_upd u64 as_u64 "frames_per_block" m (JObj l) _ (fun n s => u_geom (let g := geometry s in Geom (g_procs g) (g_rank g) (Z.to_N n) (g_bpf g)) s) (fun s => Z.of_N (g_fpb (geometry s)))) in H1 as (n3 & -> & -> & G3);
    [|apply reads_u64|nm|exact E|intros a s0 r0 s4 r4 X; apply base_block in X; exact X|intros s0; cbv beta; rewrite N2Z.id; dd s0].
  set (s3 := u_geom _ s2). destruct (ST (fun _ => "Cannot change blocks per file whilst writing") "blocks_per_file" (fun n => PCfg Absent Absent Absent (Val n)) (fun s => g_bpf (geometry s)) s3 ltac:(nm) M4) with (r := r) as (s4 & r4 & H1).
  { intros n r0 _ _ K. apply blocks_live, K. }
  rewrite (cseq_go _ _ _ _ _ _ _ H1). clear H1.
  destruct (tp_live boolean as_bool "earliest_version" m l (fun b => cset (w_earliest b)) s4 r4 reads_bool ltac:(nm) E T5) as (s5 & r5 & H5); [intros a; unfold cset; eauto|]. rewrite (cseq_go _ _ _ _ _ _ _ H5).
  destruct (tp_live u64 as_u64 "alignment_threshold" m l (fun n => cset (fun s => w_align n (x_value s) s)) s5 r5 reads_u64 ltac:(nm) E T6) as (s6 & r6 & H6); [intros a; unfold cset; eauto|]. rewrite (cseq_go _ _ _ _ _ _ _ H6).
  apply (tp_live u64 as_u64 "alignment_value" m l _ s6 r6 reads_u64 ltac:(nm) E T7). intros a. unfold cset. eauto.
Qed.
Definition nacked (r : msg) : msg := Msg (g_strict r) (g_doc r) TNack (g_val r) (g_id r) (g_time r).
Lemma nack_live r w : roomy r -> exists r1, set_nack r w = (r1, Ret tt) /\ grown "error" (JStr (cstr w)) (nacked r) r1.
Proof.
  intros R. unfold set_nack. fold (nacked r). destruct (roomy_set "error" (JStr (cstr w)) (nacked r) R) as (d & S). exists (with_doc d (nacked r)). split; [|exists d; split; [reflexivity|exact S]].
  change "error" with (slashed ["error"]) at 1. rewrite (set_param_eq (nacked r) ["error"] (XStr w)) by (apply path_check_ok; reflexivity). cbn [set_value]. rewrite S. reflexivity.
Qed.
Lemma nack_refused r w r1 : set_nack r w = (r1, Ret tt) -> refused r w r1.
Proof.
  intros H. unfold set_nack in H. fold (nacked r) in H. change "error" with (slashed ["error"]) in H at 1. rewrite (set_param_eq (nacked r) ["error"] (XStr w)) in H by (apply path_check_ok; reflexivity). destruct (set_at ("params" :: ["error"]) (set_value (XStr w)) (JObj (g_doc (nacked r)))) as [y|] eqn:S; [|discriminate]. destruct y as [| | | | | |d]; try discriminate. injection H as <-.
  assert (G : grown "error" (JStr (cstr w)) (nacked r) (with_doc d (nacked r))) by (exists d; split; [reflexivity|exact S]). split; [reflexivity|]. split; [reflexivity|]. split; [reflexivity|]. split; [apply (grown_holds _ _ _ _ G)|]. intros q x N Q. rewrite !holds_at. unfold at_param in *. pose proof (grown_apart _ _ _ _ q G N Q) as A. unfold at_param in A. rewrite A. reflexivity.
Qed.
Lemma replied_after look x r r1 : replied look (at_path ["file"; "path"] x) r r1 -> reply_after look x r r1.
Proof.
  unfold replied, reply_after. assert (L : forall t, leads ["file"; "path"] x (JStr t) <-> at_path ["file"; "path"] x = Some (JStr t)) by (intros t; apply leads_at). destruct (at_path ["file"; "path"] x) as [[| | | |t| |]|] eqn:E; try (intros ->; right; split; [intros t w H; apply L in H; discriminate|reflexivity]).
  destruct (refusal look (cstr t)) as [w|] eqn:R.
  - intros H. left. exists t, w. split; [apply L; reflexivity|]. split; [exact R|apply nack_refused, H].
  - intros ->. right. split; [|reflexivity]. intros t' w H. apply L in H. injection H as <-. congruence.
Qed.
Lemma cnack_live w (s : fwx) r : roomy r -> exists s1 r1, cnack w s r = (s1, r1, Ret tt).
Proof. intros R. unfold cnack. destruct (nack_live r w R) as (r1 & -> & _). eauto. Qed.
Lemma file_live look m l s r : params_of m = Some (JObj l) -> roomy r -> tp (JObj l) ["path"] as_text -> tp (JObj l) ["prefix"] as_text -> tp (JObj l) ["use_numbers"] as_bool -> tp (JObj l) ["first_number"] as_int -> tp (JObj l) ["postfix"] as_text -> tp (JObj l) ["extension"] as_text ->
  tp (JObj l) ["create_error_duration"] as_uint -> tp (JObj l) ["write_error_duration"] as_uint -> tp (JObj l) ["flush_error_duration"] as_uint -> tp (JObj l) ["close_error_duration"] as_uint -> exists s1 r1, file_section look m s r = (s1, r1, Ret tt).
Proof.
  intros E R T1 T2 T3 T4 T5 T6 T7 T8 T9 T10. unfold file_section.
  match goal with |- context [cseq (setting m "path" text ?f)] => destruct (tp_live text as_text "path" m l f s r reads_text ltac:(nm) E T1) as (s1 & r1 & H1) end; [intros a; destruct (look a); [unfold base; cbn; eauto|apply cnack_live, R..]|]. rewrite (cseq_go _ _ _ _ _ _ _ H1). clear H1.
  match goal with |- context [cseq (setting m "prefix" text ?f)] => destruct (tp_live text as_text "prefix" m l f s1 r1 reads_text ltac:(nm) E T2) as (s2 & r2 & H1) end; [intros a; unfold base; cbn; eauto|]. rewrite (cseq_go _ _ _ _ _ _ _ H1). clear H1.
  match goal with |- context [cseq (setting m "use_numbers" boolean ?f)] => destruct (tp_live boolean as_bool "use_numbers" m l f s2 r2 reads_bool ltac:(nm) E T3) as (s3 & r3 & H1) end; [intros a; unfold base; cbn; eauto|]. rewrite (cseq_go _ _ _ _ _ _ _ H1). clear H1.
  match goal with |- context [cseq (setting m "first_number" int ?f)] => destruct (tp_live int as_int "first_number" m l f s3 r3 reads_int ltac:(nm) E T4) as (s4 & r4 & H1) end; [intros a; unfold base; cbn; eauto|]. rewrite (cseq_go _ _ _ _ _ _ _ H1). clear H1.
  match goal with |- context [cseq (setting m "postfix" text ?f)] => destruct (tp_live text as_text "postfix" m l f s4 r4 reads_text ltac:(nm) E T5) as (s5 & r5 & H1) end; [intros a; unfold base; cbn; eauto|]. rewrite (cseq_go _ _ _ _ _ _ _ H1). clear H1.
  match goal with |- context [cseq (setting m "extension" text ?f)] => destruct (tp_live text as_text "extension" m l f s5 r5 reads_text ltac:(nm) E T6) as (s6 & r6 & H1) end; [intros a; unfold base; cbn; eauto|]. rewrite (cseq_go _ _ _ _ _ _ _ H1). clear H1.
  match goal with |- context [cseq (setting m "create_error_duration" uint ?f)] => destruct (tp_live uint as_uint "create_error_duration" m l f s6 r6 reads_uint ltac:(nm) E T7) as (s7 & r7 & H1) end; [intros a; unfold cset; eauto|]. rewrite (cseq_go _ _ _ _ _ _ _ H1). clear H1.
  match goal with |- context [cseq (setting m "write_error_duration" uint ?f)] => destruct (tp_live uint as_uint "write_error_duration" m l f s7 r7 reads_uint ltac:(nm) E T8) as (s8 & r8 & H1) end; [intros a; unfold cset; eauto|]. rewrite (cseq_go _ _ _ _ _ _ _ H1). clear H1.
  match goal with |- context [cseq (setting m "flush_error_duration" uint ?f)] => destruct (tp_live uint as_uint "flush_error_duration" m l f s8 r8 reads_uint ltac:(nm) E T9) as (s9 & r9 & H1) end; [intros a; unfold cset; eauto|]. rewrite (cseq_go _ _ _ _ _ _ _ H1). clear H1.
  apply (tp_live uint as_uint "close_error_duration" m l _ s9 r9 reads_uint ltac:(nm) E T10). intros a. unfold cset. eauto.
Qed.
Lemma sizes_tp y q : tp y q as_sizes -> tp y q (as_list as_u64).
Proof. intros T z Z. destruct (T z Z) as (a & R). unfold as_sizes, as_size in R. rewrite as_list_map in R. unfold omap in R. destruct (as_list as_u64 z) as [b|]; [eauto|discriminate]. Qed.
Lemma section_live n m l s r d : params_of m = Some (JObj l) -> dataset s n = Some d -> tp (JObj l) ["datatype"] as_text -> tp (JObj l) ["dims"] as_sizes -> tp (JObj l) ["chunks"] as_sizes -> tp (JObj l) ["compression"] as_text -> tp (JObj l) ["indexes"] as_bool ->
  tp (JObj l) ["blosc_compressor"] as_uint -> tp (JObj l) ["blosc_level"] as_uint -> tp (JObj l) ["blosc_shuffle"] as_uint -> exists s1 r1, dataset_section n m s r = (s1, r1, Ret tt).
Proof.
  intros E D T1 T2 T3 T4 T5 T6 T7 T8. unfold dataset in D. destruct (find_def (w_defs (x_fw s)) n) as [dd|] eqn:F; [|discriminate]. unfold dataset_section.
  destruct (local_live text as_text "datatype" m l s r reads_text ltac:(nm) E T1) as (o1 & H). rewrite (cseq_go _ _ _ _ _ _ _ H). clear H.
  destruct (local_live u64_array (as_list as_u64) "dims" m l s r reads_array ltac:(nm) E (sizes_tp _ _ T2)) as (o2 & H). rewrite (cseq_go _ _ _ _ _ _ _ H). clear H.
  destruct (local_live u64_array (as_list as_u64) "chunks" m l s r reads_array ltac:(nm) E (sizes_tp _ _ T3)) as (o3 & H). rewrite (cseq_go _ _ _ _ _ _ _ H). clear H.
  destruct (local_live text as_text "compression" m l s r reads_text ltac:(nm) E T4) as (o4 & H). rewrite (cseq_go _ _ _ _ _ _ _ H). clear H.
  destruct (local_live uint as_uint "blosc_compressor" m l s r reads_uint ltac:(nm) E T6) as (o5 & H). rewrite (cseq_go _ _ _ _ _ _ _ H). clear H.
  destruct (local_live uint as_uint "blosc_level" m l s r reads_uint ltac:(nm) E T7) as (o6 & H). rewrite (cseq_go _ _ _ _ _ _ _ H). clear H.
  destruct (local_live uint as_uint "blosc_shuffle" m l s r reads_uint ltac:(nm) E T8) as (o7 & H). rewrite (cseq_go _ _ _ _ _ _ _ H). clear H.
  destruct (local_live boolean as_bool "indexes" m l s r reads_bool ltac:(nm) E T5) as (o8 & H). rewrite (cseq_go _ _ _ _ _ _ _ H). clear H.
  unfold cseq. rewrite (base_dataset _ _ _ _ _ F) by apply as_field_good. unfold cset. cbn. destruct (x_blosc s n) as ((a & b) & c). eauto.
Qed.
Definition field_ok (y : json) : Prop := object y /\ tp y ["datatype"] as_text /\ tp y ["dims"] as_sizes /\ tp y ["chunks"] as_sizes /\ tp y ["compression"] as_text /\ tp y ["indexes"] as_bool /\ tp y ["blosc_compressor"] as_uint /\ tp y ["blosc_level"] as_uint /\ tp y ["blosc_shuffle"] as_uint.
Lemma sections_live now m ms l : forall s r, params_of m = Some (JObj ms) -> Forall (fun n => name_ok n /\ exists y, at_path [n] (JObj ms) = Some y /\ field_ok y) l -> exists s1 r1, dataset_sections now m l s r = (s1, r1, Ret tt).
Proof.
  induction l as [|n l IH]; intros s r E F; cbn [dataset_sections]; [exists s, r; reflexivity|]. inversion F as [|? ? (NK & y & Y & (O & T1 & T2 & T3 & T4 & T5 & T6 & T7 & T8)) F']; subst. destruct O as (l' & ->).
  assert (H1 : exists s1, new_dataset n s r = (s1, r, Ret tt)). { unfold new_dataset, cseq, cset, base, create_new_dataset, fput. eexists. reflexivity. } destruct H1 as (s1 & H1). rewrite (cseq_go _ _ _ _ _ _ _ H1). apply new_ret in H1 as (_ & _ & D & _).
  assert (P : part now m n = Ret (msg_of_value (JObj l') TIllegal VIllegal true now)) by (apply (reads_part now m (JObj ms) n _ NK E); eauto). unfold cseq at 1, clift at 1. rewrite P.
  destruct (section_live n (msg_of_value (JObj l') TIllegal VIllegal true now) l' s1 r _ eq_refl D T1 T2 T3 T4 T5 T6 T7 T8) as (s2 & r2 & H2). rewrite (cseq_go _ _ _ _ _ _ _ H2). apply IH; assumption.
Qed.
Lemma typed_tp {A} x q (rd : json -> option A) : typed x q rd -> tp x q rd. Proof. intros T y Y. apply T, leads_at, Y. Qed.
Lemma tp_in {A} k q x z (rd : json -> option A) : at_path [k] x = Some z -> typed x (k :: q) rd -> tp z q rd. Proof. intros E T y Y. apply T, leads_at. rewrite (at1 _ _ _ _ E). exact Y. Qed.
Lemma may_in s k x z n now : at_path [k] x = Some z -> allowed s x [k; n] now -> may s z n now. Proof. intros E T y Y. apply T, leads_at. rewrite (at1 _ _ _ _ E). exact Y. Qed.
Lemma configure_live look now m x s r : params_of m = Some x -> well_formed x s -> roomy r -> exists s1 r1, fwx_configure look now m s r = (s1, r1, Ret tt).
Proof.
  intros E W R. cut (exists s1 r1, configure_body look now m s r = (s1, r1, Ret tt)). { intros (s1 & r1 & H). exists s1, r1. unfold fwx_configure. rewrite H. reflexivity. }
  destruct W as [WX WP W1 W2 W3 WZ W4 W5 W6 W7 WF F1 F2 F3 F4 F5 F6 F7 F8 F9 F10 WD WS G1 GD G2 G3 G4 G5]. destruct WX as (l & ->). unfold configure_body.
  (* process *)
  match goal with |- context [cseq (setting m "process" ?g ?f)] => destruct (setting_live (part now) _ "process" m l f s r (reads_part now) ltac:(nm) E) as (s1 & r1 & H1) end.
  { intros y Y. destruct (WP y (proj2 (leads_at _ _ _) Y)) as (ly & ->). destruct (process_live (msg_of_value (JObj ly) TIllegal VIllegal true now) ly s r eq_refl) as (s1 & r1 & H); try (eapply may_in; eassumption); try (eapply tp_in; eassumption); [|eauto 6].
    intros z Z. apply WZ, leads_at. rewrite (at1 _ _ _ _ Y). exact Z. }
  rewrite (cseq_go _ _ _ _ _ _ _ H1). apply (process_part now m (JObj l)) in H1 as (g & e & t & a & -> & -> & P1 & P2 & P3 & _); [|exact E]. set (s1 := w_align _ _ _). assert (B1 : geometry s1 = g /\ x_fw s1 = set_geom g (x_fw s)) by (split; reflexivity). clearbody s1. destruct B1 as (B1 & B1').
  (* file *)
  match goal with |- context [cseq (setting m "file" ?g ?f)] => destruct (setting_live (part now) _ "file" m l f s1 r (reads_part now) ltac:(nm) E) as (s2 & r2 & H1) end.
  { intros y Y. destruct (WF y (proj2 (leads_at _ _ _) Y)) as (ly & ->). destruct (file_live look (msg_of_value (JObj ly) TIllegal VIllegal true now) ly s1 r eq_refl R) as (s2 & r2 & H); try (eapply tp_in; eassumption). eauto 6. }
  rewrite (cseq_go _ _ _ _ _ _ _ H1). apply (file_part look now m (JObj l)) in H1 as (p & f & u & n & o & ex & da & db & dc & ddd & -> & _); [|exact E]. set (s2 := w_durations _ _ _ _ _). assert (B2 : geometry s2 = g) by exact B1. clearbody s2.
  (* dataset *)
  match goal with |- context [cseq (cseq (clift (has_param m "dataset")) ?f)] => assert (X : exists s3 r3, cseq (clift (has_param m "dataset")) f s2 r2 = (s3, r3, Ret tt)) end.
  { unfold cseq at 1, clift at 1. rewrite (has_go "dataset" m l ltac:(nm) E). destruct (at_path ["dataset"] (JObj l)) as [y|] eqn:Y; [|exists s2, r2; reflexivity]. destruct (WD y (proj2 (leads_at _ _ _) Y)) as [(tx & ->)|(ms & -> & NS)].
    - assert (T : text m "dataset" = Ret (cstr tx)) by (apply (reads_text m (JObj l) "dataset" _ ltac:(nm) E); exists (JStr tx); split; [exact Y|reflexivity]). rewrite T. unfold new_dataset, cseq, cset, base, create_new_dataset, fput. eauto.
    - assert (T : text m "dataset" = Throw EAssert). { unfold text, get_param. rewrite (proj2 (raw_one m (JObj l) "dataset" (JObj ms) ltac:(nm) E) Y). reflexivity. } rewrite T.
      assert (P : part now m "dataset" = Ret (msg_of_value (JObj ms) TIllegal VIllegal true now)) by (apply (reads_part now m (JObj l) "dataset" _ ltac:(nm) E); eauto). unfold cseq at 1, clift at 1. rewrite P. unfold cseq at 1, clift at 1. change (get_param_names (msg_of_value (JObj ms) TIllegal VIllegal true now)) with (@Ret ipcexc _ (map (fun e => cstr (fst e)) ms)).
      apply (sections_live now _ ms); [reflexivity|]. apply Forall_forall. intros k I. apply in_map_iff in I as ((k0, z0) & <- & I). cbn [fst]. destruct (NS k0 z0 I) as (N1 & N2). rewrite (cstr_id _ N2). split; [split; assumption|].
      destruct (find_member k0 ms) as [z|] eqn:FM. 2:{ clear - FM I. exfalso. induction ms as [|(a, b) ms IH]; [destruct I|]. cbn in FM. destruct (String.eqb_spec a k0) as [|N]; [discriminate|]. destruct I as [X|I]; [injection X as -> _; congruence|auto]. }
      exists z. split; [cbn; rewrite FM; reflexivity|]. destruct (WS k0 z) as (O & A1 & A2 & A3 & A4 & A5 & A6 & A7 & A8); [apply leads_at; rewrite (at1 _ _ _ _ Y); cbn; rewrite FM; reflexivity|]. unfold field_ok. repeat split; try (apply typed_tp; assumption). exact O. }
  destruct X as (s3 & r3 & H1). rewrite (cseq_go _ _ _ _ _ _ _ H1). apply (dataset_part now m (JObj l)) in H1 as (-> & (ds & bl & ->) & _); [|exact E]. set (s3 := u_sets _ _ _). assert (B3 : geometry s3 = g) by exact B2. clearbody s3.
  match goal with |- context [cseq (cseq (clift (has_param m "delete_datasets")) ?f)] => assert (X : exists s4, cseq (clift (has_param m "delete_datasets")) f s3 r2 = (s4, r2, Ret tt) /\ geometry s4 = g) end.
  { unfold cseq at 1, clift at 1. rewrite (has_go "delete_datasets" m l ltac:(nm) E). destruct (at_path ["delete_datasets"] (JObj l)); [|exists s3; split; [reflexivity|exact B3]]. unfold delete_datasets, cseq, base, fput, cset. eexists. split; [reflexivity|]. exact B3. }
  destruct X as (s4 & H1 & B4). rewrite (cseq_go _ _ _ _ _ _ _ H1). clear H1.
  match goal with |- context [cseq (setting m "frames" ?g ?f)] => destruct (setting_live u64 as_u64 "frames" m l f s4 r2 reads_u64 ltac:(nm) E) as (s5 & r5 & H1) end.
  { intros y Y. destruct (G1 y (proj2 (leads_at _ _ _) Y)) as (k & RK). destruct (size_u64 _ _ RK) as (z & RZ & <-). destruct GD as (pn & bn & D1 & D2 & D3 & D4); [exists y; apply leads_at, Y|]. exists z.
    assert (QP : pn = g_procs g). { revert D1 P1. rewrite !given_at. destruct (at_path ["process"; "number"] (JObj l)); congruence. } assert (QB : bn = g_fpb g). { revert D3 P3. rewrite !given_at. destruct (at_path ["process"; "frames_per_block"] (JObj l)); congruence. } subst pn bn.
    assert (CN : exists k, calc_num_frames g (Z.to_N z) = Ret k). { unfold calc_num_frames. apply N.eqb_neq in D2. apply N.eqb_neq in D4. rewrite D2, D4. cbn. eauto. } destruct CN as (k & CN).
    unfold base, FwModel.configure_body, config_only. cbn. unfold fbind, fget, fput, fret, flift. cbn. unfold geometry in B4. rewrite B4, CN. cbn. eauto. }
  rewrite (cseq_go _ _ _ _ _ _ _ H1). clear H1.
  match goal with |- context [cseq (setting m "master" text ?f)] => destruct (tp_live text as_text "master" m l f s5 r5 reads_text ltac:(nm) E (typed_tp _ _ _ G2)) as (s6 & r6 & H1) end; [intros b; unfold base; cbn; eauto|]. rewrite (cseq_go _ _ _ _ _ _ _ H1). clear H1.
  match goal with |- context [cseq (setting m "acquisition_id" text ?f)] => destruct (tp_live text as_text "acquisition_id" m l f s6 r6 reads_text ltac:(nm) E (typed_tp _ _ _ G3)) as (s7 & r7 & H1) end; [intros b; unfold base; cbn; eauto|]. rewrite (cseq_go _ _ _ _ _ _ _ H1). clear H1.
  match goal with |- context [cseq (setting m "timeout_timer_period" u64 ?f)] => destruct (tp_live u64 as_u64 "timeout_timer_period" m l f s7 r7 reads_u64 ltac:(nm) E (typed_tp _ _ _ G4)) as (s8 & r8 & H1) end; [intros b; unfold base; cbn; eauto|]. rewrite (cseq_go _ _ _ _ _ _ _ H1). clear H1.
  apply (tp_live boolean as_bool "start_timeout_timer" m l _ s8 r8 reads_bool ltac:(nm) E (typed_tp _ _ _ G5)). intros b. unfold cseq, cget, start_timeout, cset, cret. destruct (b && w_writing (x_fw s8)); eauto.
Qed.
