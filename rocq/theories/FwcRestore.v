(** What a file writer reports, sent to another one. *)
From Coq Require Import String Ascii.
From Verif Require Import Base JsonModel JsonProofs FrameModel PrcModel PrcReply PrcSet CfgModel PlaceModel NameModel AcqModel FwModel FwSpec FwProofs JsonSpec CfgSpec CfgProofs CfgReply FwcModel FwcSpec FwcProofs FwcSet FwcLive FwcAsk FwcRefine FwcSane.
Local Open Scope string_scope.
Local Open Scope list_scope.
Local Open Scope Z_scope.
Transparent find_def.

Lemma at_settings s k q : In k ["process"; "file"; "frames"; "master"; "acquisition_id"; "timeout_timer_period"] -> at_path (k :: q) (config_json s) = at_path (k :: q) (JObj (settings_json s)).
Proof. intros [<-|[<-|[<-|[<-|[<-|[<-|[]]]]]]]; reflexivity. Qed.
Lemma find_named (f : dsdef -> json) l n : find_member n (map (fun d => (d_name d, f d)) l) = match find_def l n with Some d => Some (f d) | None => None end.
Proof. induction l as [|d l IH]; [reflexivity|]. cbn [map find_member]. unfold find_def in *. cbn [find]. destruct (String.eqb (d_name d) n); [reflexivity|exact IH]. Qed.
Lemma at_dataset s n : at_path ["dataset"; n] (config_json s) = match dataset s n with Some d => Some (dataset_json d) | None => None end.
Proof.
  unfold config_json. cbn [at_path find_member app]. unfold dataset. assert (E : find_member "dataset" (settings_json s ++ some_object "dataset" (map (fun d => (d_name d, dataset_json (d, x_blosc s (d_name d)))) (w_defs (x_fw s)))) = find_member "dataset" (some_object "dataset" (map (fun d => (d_name d, dataset_json (d, x_blosc s (d_name d)))) (w_defs (x_fw s))))) by reflexivity.
  rewrite E. clear E. destruct (w_defs (x_fw s)) as [|d l] eqn:W; [reflexivity|]. unfold some_object at 1. cbn [map find_member String.eqb Ascii.eqb Bool.eqb at_path].
  pose proof (find_named (fun d => dataset_json (d, x_blosc s (d_name d))) (d :: l) n) as Q. cbn [map find_member] in Q. rewrite Q. unfold find_def. destruct (find _ (d :: l)) as [e|] eqn:F; [|reflexivity]. apply find_some in F as (_ & F). apply String.eqb_eq in F. rewrite F. reflexivity.
Qed.
Lemma at_no k s : In k ["delete_datasets"; "start_timeout_timer"] -> at_path [k] (config_json s) = None.
Proof. unfold config_json. intros [<-|[<-|[]]]; cbn; destruct (w_defs (x_fw s)); reflexivity. Qed.
Lemma as_size_of n : size n -> as_size (jsize n) = Some n.
Proof. unfold size, as_size, omap, as_u64, jsize, number_in. intros S. destruct (Z.leb_spec 0 (Z.of_N n)); [|lia]. destruct (Z.ltb_spec (Z.of_N n) (2 ^ 64)); [|lia]. cbn. rewrite N2Z.id. reflexivity. Qed.
Lemma as_u64_of z : uint64 z -> as_u64 (JInt z) = Some z.
Proof. unfold uint64, as_u64, number_in. intros S. destruct (Z.leb_spec 0 z); [|lia]. destruct (Z.ltb_spec z (2 ^ 64)); [|lia]. reflexivity. Qed.
Lemma as_uint_of z : uint32 z -> as_uint (JInt z) = Some z.
Proof. unfold uint32, as_uint, number_in. intros S. destruct (Z.leb_spec 0 z); [|lia]. destruct (Z.ltb_spec z (2 ^ 32)); [|lia]. reflexivity. Qed.
Lemma as_int_of n : small n -> as_int (jsize n) = Some (Z.of_N n).
Proof. unfold small, as_int, jsize, number_in. intros S. destruct (Z.leb_spec (- 2 ^ 31) (Z.of_N n)); [|lia]. destruct (Z.ltb_spec (Z.of_N n) (2 ^ 31)); [|lia]. reflexivity. Qed.
Lemma as_text_of t : as_text (jtext t) = Some (cstr t). Proof. cbn. rewrite cstr_idem. reflexivity. Qed.
Lemma wrapped_of z : 0 <= z < 2 ^ 31 -> wrapped z = z. Proof. intros S. unfold wrapped. rewrite Z.mod_small by lia. lia. Qed.
Lemma as_sizes_of l : Forall small l -> as_sizes (JArr (map (fun n => JInt (wrapped (Z.of_N n))) l)) = Some l.
Proof.
  unfold as_sizes, as_list. induction 1 as [|n l S F IH]; [reflexivity|]. cbn [map all_some]. unfold small in S. rewrite wrapped_of by lia. change (JInt (Z.of_N n)) with (jsize n). rewrite as_size_of by (unfold size; lia). rewrite IH. reflexivity.
Qed.
Lemma find_In l n d : find_def l n = Some d -> In d l /\ d_name d = n. Proof. unfold find_def. intros F. apply find_some in F as (I & E). apply String.eqb_eq in E. auto. Qed.
Lemma sizes_at k pre l rest : find_member k pre = None -> find_member k rest = None -> find_member k (pre ++ sizes_json k l ++ rest) = match l with [] => None | _ => Some (JArr (map (fun n => JInt (wrapped (Z.of_N n))) l)) end.
Proof.
  intros P R. assert (A : forall b, find_member k (pre ++ b) = find_member k b). { clear R. intros b. induction pre as [|(i, v) pre IH]; [reflexivity|]. cbn in *. destruct (String.eqb i k); [discriminate|auto]. }
  rewrite A. destruct l; [exact R|]. cbn [sizes_json app find_member]. rewrite String.eqb_refl. reflexivity.
Qed.
(** The members of the description of a data set *)
Lemma dataset_members d a b c : let y := dataset_json (d, (a, b, c)) in
  at_path ["datatype"] y = Some (JStr (type_name (d_type d))) /\ at_path ["compression"] y = Some (JStr (comp_name (d_comp d))) /\ at_path ["blosc_compressor"] y = Some (JInt (wrapped a)) /\ at_path ["blosc_level"] y = Some (JInt (wrapped b)) /\ at_path ["blosc_shuffle"] y = Some (JInt (wrapped c)) /\
  at_path ["dims"] y = (match d_dims d with [] => None | l => Some (JArr (map (fun n => JInt (wrapped (Z.of_N n))) l)) end) /\ at_path ["chunks"] y = (match d_chunks d with [] => None | l => Some (JArr (map (fun n => JInt (wrapped (Z.of_N n))) l)) end) /\ at_path ["indexes"] y = None.
Proof.
  cbv zeta. do 5 (split; [reflexivity|]). destruct d as [n t k dims chunks lh]. cbn [d_dims d_chunks]. split; [|split].
  - destruct dims; [destruct chunks|]; reflexivity.
  - destruct dims, chunks; reflexivity.
  - destruct dims, chunks; reflexivity.
Qed.
Lemma type_back t : as_type (JStr (type_name t)) = Some t. Proof. destruct t; reflexivity. Qed.
Lemma comp_back t : as_comp (JStr (comp_name t)) = Some t. Proof. destruct t; reflexivity. Qed.
Lemma as_uint_wrapped z : uint32 z -> z < 2 ^ 31 -> as_uint (JInt (wrapped z)) = Some z. Proof. intros U L. unfold uint32 in U. rewrite wrapped_of by lia. apply as_uint_of. exact U. Qed.
(** A new data set after its description *)
Lemma dataset_back s n d old d1 : sane s -> restorable s -> dataset s n = Some d -> d_dims (fst old) = [] -> d_chunks (fst old) = [] -> d_lowhigh (fst old) = false -> dataset_given (dataset_json d) n old d1 -> Some d1 = without_indexes (Some d).
Proof.
  intros S R D O1 O2 O3 G. unfold dataset in D. destruct (find_def (w_defs (x_fw s)) n) as [e|] eqn:F; [|discriminate]. injection D as <-. apply find_In in F as (I & <-). destruct (rs_sizes s R e I) as (Z1 & Z2 & Z3). pose proof (rs_blosc s R e I) as ZB. pose proof (sn_blosc s S (d_name e)) as UB.
  destruct (x_blosc s (d_name e)) as ((a & b) & c). destruct ZB as (B1 & B2 & B3), UB as (U1 & U2 & U3).
  pose proof (dataset_members e a b c) as (M1 & M2 & M3 & M4 & M5 & M6 & M7 & M8). destruct old as (od & ((oa & ob) & oc)), d1 as ([nn nt nk nd nc nl] & ((xa & xb) & xc)). cbn [fst] in *. cbn [dataset_given] in G. revert G. rewrite !given_at, chunks_at, M1, M2, M3, M4, M5, M6, M7, M8, type_back, comp_back, !as_uint_wrapped by assumption. cbn [d_name d_type d_comp d_dims d_chunks d_lowhigh].
  intros (G1 & G2 & G3 & G4 & G5 & G6 & G7 & G8 & G9). cbn [without_indexes]. injection G2 as <-. injection G5 as <-. injection G7 as <-. injection G8 as <-. injection G9 as <-. subst nn. rewrite O3 in G6. subst nl. rewrite O1 in G3. rewrite O2 in G4.
  assert (E1 : nd = d_dims e). { destruct (d_dims e) as [|p l]; [exact G3|]. rewrite as_sizes_of in G3 by exact Z1. injection G3 as <-. reflexivity. }
  assert (E2 : nc = d_chunks e). { destruct (d_chunks e) as [|p l]; [rewrite (Z3 eq_refl) in G4; exact G4|]. rewrite as_sizes_of in G4 by exact Z2. injection G4 as <-. reflexivity. }
  subst. reflexivity.
Qed.
Ltac at_it L := apply leads_at in L; first [rewrite at_settings in L by (cbn; tauto); cbn in L; injection L as <-|rewrite (at_no _ _) in L by (cbn; tauto); discriminate L].
Lemma config_well_formed s s' : sane s -> restorable s -> (w_writing (x_fw s') = true -> geometry s' = geometry s) -> well_formed (config_json s) s'.
Proof.
  intros S R W. destruct (sn_geometry s S) as (G1 & G2 & G3 & G4). destruct (sn_align s S) as (A1 & A2). destruct (sn_next s S) as (_ & _ & _ & NT). destruct (sn_names s S) as (_ & _ & _ & _ & NP). destruct (sn_durations s S) as (D1 & D2 & D3 & D4).
  split.
  all: try (intros y L; at_it L; first [eexists; reflexivity|eexists; first [apply as_size_of|apply as_u64_of|apply as_uint_of|apply as_int_of, (rs_start s R)|apply as_text_of]; assumption]).
  all: try (intros y L; at_it L; eexists; split; [apply as_size_of; assumption|]; intros X; rewrite (W X); reflexivity).
  - eexists. reflexivity.
  - intros y L. at_it L. rewrite as_size_of by assumption. intros [= X]. exact (sn_block s S X).
  - intros y L. right. apply leads_at in L. unfold config_json in L. cbn [at_path] in L. destruct (w_defs (x_fw s)) as [|d l] eqn:E; [discriminate|]. cbn in L. injection L as <-. eexists. split; [reflexivity|]. intros n z I. pose proof (rs_names s R) as U. rewrite E in U. rewrite Forall_forall in U.
    assert (I' : In n (map d_name (d :: l))). { cbn. destruct I as [I|I]; [injection I as <- _; auto|]. apply in_map_iff in I as (e & X & I). injection X as <- _. right. apply in_map, I. } destruct (U n I') as (P1 & P2 & _). auto.
  - intros n y L. apply leads_at in L. rewrite at_dataset in L. destruct (dataset s n) as [d|] eqn:D; [|discriminate]. injection L as <-. unfold dataset in D. destruct (find_def (w_defs (x_fw s)) n) as [e|] eqn:F; [|discriminate]. injection D as <-. apply find_In in F as (I & <-). destruct (rs_sizes s R e I) as (Z1 & Z2 & Z3). pose proof (rs_blosc s R e I) as ZB. pose proof (sn_blosc s S (d_name e)) as UB.
    destruct (x_blosc s (d_name e)) as ((a & b) & c). destruct ZB as (B1 & B2 & B3), UB as (U1 & U2 & U3). pose proof (dataset_members e a b c) as (M1 & M2 & M3 & M4 & M5 & M6 & M7 & M8).
    split; [eexists; reflexivity|]. repeat split; intros y L; apply leads_at in L.
    + rewrite M1 in L. injection L as <-. eexists; reflexivity.
    + rewrite M6 in L. destruct (d_dims e); [discriminate|]. injection L as <-. eexists. exact (as_sizes_of _ Z1).
    + rewrite M7 in L. destruct (d_chunks e); [discriminate|]. injection L as <-. eexists. exact (as_sizes_of _ Z2).
    + rewrite M2 in L. injection L as <-. eexists; reflexivity.
    + rewrite M8 in L. discriminate.
    + rewrite M3 in L. injection L as <-. eexists. apply as_uint_wrapped; assumption.
    + rewrite M4 in L. injection L as <-. eexists. apply as_uint_wrapped; assumption.
    + rewrite M5 in L. injection L as <-. eexists. apply as_uint_wrapped; assumption.
  - intros _. exists (g_procs (geometry s)), (g_fpb (geometry s)). split; [apply given_at; rewrite at_settings by (cbn; tauto); cbn; apply as_size_of; assumption|]. split; [exact (rs_procs s R)|]. split; [apply given_at; rewrite at_settings by (cbn; tauto); cbn; apply as_size_of; assumption|exact (sn_block s S)].
  - intros y L. at_it L. exists (Z.of_N (w_period (x_fw s))). apply as_u64_of. unfold size in NP. unfold uint64. lia.
Qed.

Lemma text_back x q (t : string) (old new : string) : at_path q x = Some (jtext t) -> no_nul t -> given x q as_text old new -> new = t.
Proof. intros E N G. apply given_at in G. rewrite E, as_text_of, (cstr_id _ N) in G. congruence. Qed.
Lemma size_back x q n old new : at_path q x = Some (jsize n) -> size n -> given x q as_size old new -> new = n.
Proof. intros E N G. apply given_at in G. rewrite E, as_size_of in G by exact N. congruence. Qed.
Lemma bool_back x q b old new : at_path q x = Some (JBool b) -> given x q as_bool old new -> new = b.
Proof. intros E G. apply given_at in G. rewrite E in G. cbn in G. congruence. Qed.
Lemma u64_back x q n old new : at_path q x = Some (JInt n) -> uint64 n -> given x q as_u64 old new -> new = n.
Proof. intros E N G. apply given_at in G. rewrite E, as_u64_of in G by exact N. congruence. Qed.
Lemma uint_back x q n old new : at_path q x = Some (JInt n) -> uint32 n -> given x q as_uint old new -> new = n.
Proof. intros E N G. apply given_at in G. rewrite E, as_uint_of in G by exact N. congruence. Qed.
Lemma applied_restored look s s' s1 : sane s -> restorable s -> look (p_path (next s)) = Writable -> w_defs (x_fw s') = [] -> applied look (config_json s) s' s1 -> restored s s1.
Proof.
  intros S R LK ND A. destruct (sn_geometry s S) as (G1 & G2 & G3 & G4). destruct (sn_align s S) as (A1 & A2). destruct (sn_next s S) as (N1 & N2 & N3 & N4). destruct (sn_names s S) as (M1 & M2 & M3 & M4 & M5). destruct (sn_durations s S) as (D1 & D2 & D3 & D4).
  assert (Q : forall k q, In k ["process"; "file"; "frames"; "master"; "acquisition_id"; "timeout_timer_period"] -> at_path (k :: q) (config_json s) = at_path (k :: q) (JObj (settings_json s))) by (intros; apply at_settings; assumption).
  assert (GE : geometry s1 = geometry s).
  { pose proof (size_back _ _ _ _ _ (Q "process" ["number"] ltac:(cbn; tauto)) G1 (ap_number _ _ _ _ A)) as E1. pose proof (size_back _ _ _ _ _ (Q "process" ["rank"] ltac:(cbn; tauto)) G2 (ap_rank _ _ _ _ A)) as E2. pose proof (size_back _ _ _ _ _ (Q "process" ["frames_per_block"] ltac:(cbn; tauto)) G3 (ap_block _ _ _ _ A)) as E3. pose proof (size_back _ _ _ _ _ (Q "process" ["blocks_per_file"] ltac:(cbn; tauto)) G4 (ap_blocks _ _ _ _ A)) as E4. destruct (geometry s1), (geometry s). cbn in *. congruence. }
  assert (TE : p_total (next s1) = p_total (next s)) by exact (size_back _ _ _ _ _ (Q "frames" [] ltac:(cbn; tauto)) N4 (ap_frames _ _ _ _ A)).
  split; [exact GE|..].
  - exact (bool_back _ _ _ _ _ (Q "process" ["earliest_version"] ltac:(cbn; tauto)) (ap_earliest _ _ _ _ A)).
  - split; [exact (u64_back _ _ _ _ _ (Q "process" ["alignment_threshold"] ltac:(cbn; tauto)) A1 (ap_threshold _ _ _ _ A))|exact (u64_back _ _ _ _ _ (Q "process" ["alignment_value"] ltac:(cbn; tauto)) A2 (ap_value _ _ _ _ A))].
  - split; [|split; [exact (text_back _ _ _ _ _ (Q "file" ["prefix"] ltac:(cbn; tauto)) N2 (ap_prefix _ _ _ _ A))|split; [exact (text_back _ _ _ _ _ (Q "acquisition_id" [] ltac:(cbn; tauto)) N3 (ap_id _ _ _ _ A))|exact TE]]].
    pose proof (ap_path _ _ _ _ A) as P. apply given_at in P. rewrite (Q "file" ["path"] ltac:(cbn; tauto)) in P. change (at_path ["file"; "path"] (JObj (settings_json s))) with (Some (jtext (p_path (next s)))) in P. unfold omap in P. rewrite as_text_of, (cstr_id _ N1) in P. unfold accepted in P. rewrite LK in P. congruence.
  - destruct (ap_expected _ _ _ _ A) as [(_ & E)|(N & _)]; [rewrite GE, TE in E; exact E|]. destruct (N (jsize (p_total (next s)))). apply leads_at. rewrite Q by (cbn; tauto). reflexivity.
  - split; [exact (bool_back _ _ _ _ _ (Q "file" ["use_numbers"] ltac:(cbn; tauto)) (ap_numbers _ _ _ _ A))|]. split.
    { pose proof (ap_first _ _ _ _ A) as P. apply given_at in P. rewrite (Q "file" ["first_number"] ltac:(cbn; tauto)) in P. change (at_path ["file"; "first_number"] (JObj (settings_json s))) with (Some (jsize (w_start (x_fw s)))) in P. unfold omap in P. rewrite as_int_of in P by exact (rs_start s R). rewrite u32_of in P by exact M3. congruence. }
    split; [exact (text_back _ _ _ _ _ (Q "file" ["postfix"] ltac:(cbn; tauto)) M1 (ap_postfix _ _ _ _ A))|]. split; [exact (text_back _ _ _ _ _ (Q "file" ["extension"] ltac:(cbn; tauto)) M2 (ap_extension _ _ _ _ A))|exact (text_back _ _ _ _ _ (Q "master" [] ltac:(cbn; tauto)) M4 (ap_master _ _ _ _ A))].
  - split; [exact (uint_back _ _ _ _ _ (Q "file" ["create_error_duration"] ltac:(cbn; tauto)) D1 (ap_create _ _ _ _ A))|]. split; [exact (uint_back _ _ _ _ _ (Q "file" ["write_error_duration"] ltac:(cbn; tauto)) D2 (ap_write _ _ _ _ A))|]. split; [exact (uint_back _ _ _ _ _ (Q "file" ["flush_error_duration"] ltac:(cbn; tauto)) D3 (ap_flush _ _ _ _ A))|exact (uint_back _ _ _ _ _ (Q "file" ["close_error_duration"] ltac:(cbn; tauto)) D4 (ap_close _ _ _ _ A))].
  - exact (size_back _ _ _ _ _ (Q "timeout_timer_period" [] ltac:(cbn; tauto)) M5 (ap_period _ _ _ _ A)).
  - intros n NN. assert (DN : dataset s' n = None) by (unfold dataset; rewrite ND; reflexivity). destruct (ap_datasets _ _ _ _ A n NN) as [((y & L) & _)|(_ & [(t & L & _)|[(y & d & L & G & ->)|(_ & NL & ->)]])].
    + apply leads_at in L. rewrite at_no in L by (cbn; tauto). discriminate.
    + apply leads_at in L. unfold config_json in L. cbn [at_path] in L. destruct (w_defs (x_fw s)); discriminate L.
    + apply leads_at in L. rewrite at_dataset in L. destruct (dataset s n) as [d0|] eqn:D; [|discriminate]. injection L as <-. rewrite DN in G. apply (dataset_back s n d0 _ d S R D) in G; try reflexivity. exact G.
    + rewrite DN. destruct (dataset s n) as [d0|] eqn:D; [|reflexivity]. destruct (NL (dataset_json d0)). apply leads_at. rewrite at_dataset, D. reflexivity.
Qed.
