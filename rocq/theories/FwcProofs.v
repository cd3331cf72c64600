(** Messages to configure the file writer: what they do. *)
From Coq Require Import String Ascii.
From Verif Require Import Base JsonModel JsonSpec JsonProofs FrameModel PrcModel PrcReply PrcSet CfgModel CfgSpec CfgProofs PlaceModel NameModel AcqModel FwModel FwcModel FwcSpec.
Local Open Scope string_scope.
Local Open Scope list_scope.
Local Open Scope Z_scope.

Ltac nm := split; [unfold no_slash|unfold no_nul]; cbn; intuition discriminate.

(** ** Parts of the state *)
Definition u_geom g (s : fwx) := w_fw (set_geom g (x_fw s)) s.
Definition u_next p (s : fwx) := w_fw (set_next p (x_fw s)) s.
Definition u_names a b c d (s : fwx) := w_fw (set_names a b c d (x_fw s)) s.
Definition u_sets d b (s : fwx) := w_blosc b (w_fw (set_defs d (x_fw s)) s).
Definition u_out l (s : fwx) := w_fw (say l (x_fw s)) s.
Lemma w_fw_id s : w_fw (x_fw s) s = s. Proof. destruct s; reflexivity. Qed.
Ltac dd s := destruct s as [[? [] ? ? ? ? ? ? ? [] ? ? ? ? ?] ? ? ? ? ? ? ? ? ? ? ? ?]; try reflexivity.

(** ** Elementary settings *)
Lemma base_procs t n s r s1 r1 : base t (configure_process (PCfg (Val n) Absent Absent Absent)) s r = (s1, r1, Ret tt) -> s1 = u_geom (let g := geometry s in Geom n (g_rank g) (g_fpb g) (g_bpf g)) s /\ r1 = r.
Proof.
  unfold base, configure_process. cbn. unfold change, fbind, fget, fput, fthrow. cbn. destruct (N.eqb_spec (g_procs (w_geom (x_fw s))) n) as [<-|N].
  - cbn. intros H. injection H as <- <-. split; [|reflexivity]. dd s.
  - destruct (w_writing (x_fw s)); cbn; [discriminate|]. intros H. injection H as <- <-. split; reflexivity.
Qed.
Lemma base_rank t n s r s1 r1 : base t (configure_process (PCfg Absent (Val n) Absent Absent)) s r = (s1, r1, Ret tt) -> s1 = u_geom (let g := geometry s in Geom (g_procs g) n (g_fpb g) (g_bpf g)) s /\ r1 = r.
Proof.
  unfold base, configure_process. cbn. unfold change, fbind, fget, fput, fthrow. cbn. destruct (N.eqb_spec (g_rank (w_geom (x_fw s))) n) as [<-|N].
  - cbn. intros H. injection H as <- <-. split; [|reflexivity]. dd s.
  - destruct (w_writing (x_fw s)); cbn; [discriminate|]. intros H. injection H as <- <-. split; reflexivity.
Qed.
Lemma base_block t n s r s1 r1 : base t (configure_process (PCfg Absent Absent (Val n) Absent)) s r = (s1, r1, Ret tt) -> s1 = u_geom (let g := geometry s in Geom (g_procs g) (g_rank g) n (g_bpf g)) s /\ r1 = r.
Proof.
  unfold base, configure_process. cbn. unfold change, fbind, fget, fput, fthrow. cbn. destruct (N.eqb_spec (g_fpb (w_geom (x_fw s))) n) as [<-|N].
  - cbn. intros H. injection H as <- <-. split; [|reflexivity]. dd s.
  - destruct (N.ltb n 1); cbn; [discriminate|]. destruct (w_writing (x_fw s)); cbn; [discriminate|]. intros H. injection H as <- <-. split; reflexivity.
Qed.
Lemma base_blocks t n s r s1 r1 : base t (configure_process (PCfg Absent Absent Absent (Val n))) s r = (s1, r1, Ret tt) -> s1 = u_geom (let g := geometry s in Geom (g_procs g) (g_rank g) (g_fpb g) n) s /\ r1 = r.
Proof.
  unfold base, configure_process. cbn. unfold change, fbind, fget, fput, fthrow. cbn. destruct (N.eqb_spec (g_bpf (w_geom (x_fw s))) n) as [<-|N].
  - cbn. intros H. injection H as <- <-. split; [|reflexivity]. dd s.
  - destruct (w_writing (x_fw s)); cbn; [discriminate|]. intros H. injection H as <- <-. split; reflexivity.
Qed.

(** The section "process" *)
Lemma process_ret m x s r s1 r1 : params_of m = Some x -> process_section m s r = (s1, r1, Ret tt) -> exists g e t a, s1 = w_align t a (w_earliest e (u_geom g s)) /\ r1 = r /\
  given x ["number"] as_size (g_procs (geometry s)) (g_procs g) /\ given x ["rank"] as_size (g_rank (geometry s)) (g_rank g) /\ given x ["frames_per_block"] as_size (g_fpb (geometry s)) (g_fpb g) /\ given x ["blocks_per_file"] as_size (g_bpf (geometry s)) (g_bpf g) /\
  given x ["earliest_version"] as_bool (x_earliest s) e /\ given x ["alignment_threshold"] as_u64 (x_threshold s) t /\ given x ["alignment_value"] as_u64 (x_value s) a.
Proof.
  intros E H. unfold process_section in H.
  apply cseq_ret in H as ([] & s2 & r2 & H1 & H). apply (setting_upd u64 as_u64 "number" m x _ (fun n s => u_geom (let g := geometry s in Geom (Z.to_N n) (g_rank g) (g_fpb g) (g_bpf g)) s) (fun s => Z.of_N (g_procs (geometry s)))) in H1 as (n1 & -> & -> & G1);
    [|apply reads_u64|nm|exact E|intros a s0 r0 s3 r3 X; apply base_procs in X; exact X|intros s0; cbv beta; rewrite N2Z.id; dd s0].
  apply cseq_ret in H as ([] & s2 & r2 & H1 & H). apply (setting_upd u64 as_u64 "rank" m x _ (fun n s => u_geom (let g := geometry s in Geom (g_procs g) (Z.to_N n) (g_fpb g) (g_bpf g)) s) (fun s => Z.of_N (g_rank (geometry s)))) in H1 as (n2 & -> & -> & G2);
    [|apply reads_u64|nm|exact E|intros a s0 r0 s3 r3 X; apply base_rank in X; exact X|intros s0; cbv beta; rewrite N2Z.id; dd s0].
  apply cseq_ret in H as ([] & s2 & r2 & H1 & H). apply (setting_upd u64 as_u64 "frames_per_block" m x _ (fun n s => u_geom (let g := geometry s in Geom (g_procs g) (g_rank g) (Z.to_N n) (g_bpf g)) s) (fun s => Z.of_N (g_fpb (geometry s)))) in H1 as (n3 & -> & -> & G3);
    [|apply reads_u64|nm|exact E|intros a s0 r0 s3 r3 X; apply base_block in X; exact X|intros s0; cbv beta; rewrite N2Z.id; dd s0].
  apply cseq_ret in H as ([] & s2 & r2 & H1 & H). apply (setting_upd u64 as_u64 "blocks_per_file" m x _ (fun n s => u_geom (let g := geometry s in Geom (g_procs g) (g_rank g) (g_fpb g) (Z.to_N n)) s) (fun s => Z.of_N (g_bpf (geometry s)))) in H1 as (n4 & -> & -> & G4);
    [|apply reads_u64|nm|exact E|intros a s0 r0 s3 r3 X; apply base_blocks in X; exact X|intros s0; cbv beta; rewrite N2Z.id; dd s0].
  apply cseq_ret in H as ([] & s2 & r2 & H1 & H). apply (setting_upd boolean as_bool "earliest_version" m x _ w_earliest x_earliest) in H1 as (e & -> & -> & G5);
    [|apply reads_bool|nm|exact E|intros a s0 r0 s3 r3 X; injection X as <- <-; split; reflexivity|intros s0; dd s0].
  apply cseq_ret in H as ([] & s2 & r2 & H1 & H). apply (setting_upd u64 as_u64 "alignment_threshold" m x _ (fun n s => w_align n (x_value s) s) x_threshold) in H1 as (t & -> & -> & G6);
    [|apply reads_u64|nm|exact E|intros a s0 r0 s3 r3 X; injection X as <- <-; split; reflexivity|intros s0; dd s0].
  apply (setting_upd u64 as_u64 "alignment_value" m x _ (fun n s => w_align (x_threshold s) n s) x_value) in H as (a & -> & -> & G7);
    [|apply reads_u64|nm|exact E|intros a s0 r0 s3 r3 X; injection X as <- <-; split; reflexivity|intros s0; dd s0].
  exists (Geom (Z.to_N n1) (Z.to_N n2) (Z.to_N n3) (Z.to_N n4)), e, t, a. split; [reflexivity|]. split; [reflexivity|].
  cbn [geometry g_procs g_rank g_fpb g_bpf]. rewrite <- (N2Z.id (g_procs (geometry s))), <- (N2Z.id (g_rank (geometry s))), <- (N2Z.id (g_fpb (geometry s))), <- (N2Z.id (g_bpf (geometry s))).
  split; [apply given_map, G1|]. split; [apply given_map, G2|]. split; [apply given_map, G3|]. split; [apply given_map, G4|]. split; [exact G5|]. split; [exact G6|exact G7].
Qed.

(** The section "file" *)
Definition replied (look : string -> place) (y : option json) (r r1 : msg) : Prop :=
  match y with Some (JStr t) => match refusal look (cstr t) with Some w => set_nack r w = (r1, Ret tt) | None => r1 = r end | _ => r1 = r end.
Definition u_path p (s : fwx) := u_next (Prep p (p_file (next s)) (p_id (next s)) (p_total (next s)) (p_towrite (next s))) s.
Lemma path_ret look m x s r s1 r1 : params_of m = Some x ->
  setting m "path" text (fun p => match look p with Writable => base "" (only (Val p) Absent Absent Absent Absent Absent) | ReadOnly => cnack ("User does not have write permissions for directory: " ++ p)
    | NoDirectory => cnack ("Path is not a directory: " ++ p) | NoPath => cnack ("Invalid path requested: " ++ p) end) s r = (s1, r1, Ret tt) ->
  exists p, s1 = u_path p s /\ given x ["path"] (omap (accepted look (p_path (next s))) as_text) (p_path (next s)) p /\ replied look (at_path ["path"] x) r r1.
Proof.
  intros E H. apply (setting_ret text as_text "path" m x) in H; [|apply reads_text|nm|exact E]. destruct (at_path ["path"] x) as [y|] eqn:Y.
  2:{ destruct H as (-> & ->). exists (p_path (next s)). split; [dd s|]. split; [apply given_at; rewrite Y; reflexivity|reflexivity]. }
  destruct H as (p & RY & H). exists (accepted look (p_path (next s)) p). split; [|split; [apply given_at; rewrite Y; unfold omap; rewrite RY; reflexivity|]].
  - unfold accepted. destruct (look p).
    + unfold base in H. cbn in H. injection H as <- <-. reflexivity.
    + unfold cnack in H. destruct (set_nack _ _) as (mm & []); inversion H; subst; dd s1.
    + unfold cnack in H. destruct (set_nack _ _) as (mm & []); inversion H; subst; dd s1.
    + unfold cnack in H. destruct (set_nack _ _) as (mm & []); inversion H; subst; dd s1.
  - destruct y; try discriminate. cbn in RY. injection RY as <-. unfold replied, refusal. destruct (look (cstr s0)).
    + unfold base in H. cbn in H. injection H as _ <-. reflexivity.
    + unfold cnack in H. destruct (set_nack _ _) as (mm & [[]| |]); inversion H; subst; reflexivity.
    + unfold cnack in H. destruct (set_nack _ _) as (mm & [[]| |]); inversion H; subst; reflexivity.
    + unfold cnack in H. destruct (set_nack _ _) as (mm & [[]| |]); inversion H; subst; reflexivity.
Qed.
Ltac same := intros ? ? ? ? ? X; unfold base in X; cbn in X; injection X as <- <-; split; reflexivity.
Lemma u32_of n : (n < 2 ^ 32)%N -> u32 (Z.of_N n) = n. Proof. intros L. unfold u32. rewrite Z.mod_small by lia. apply N2Z.id. Qed.
Lemma file_ret look m x s r s1 r1 : params_of m = Some x -> file_section look m s r = (s1, r1, Ret tt) -> exists p f u n o e a b c d,
  s1 = w_durations a b c d (u_names o e u n (u_next (Prep p f (p_id (next s)) (p_total (next s)) (p_towrite (next s))) s)) /\ replied look (at_path ["path"] x) r r1 /\
  given x ["path"] (omap (accepted look (p_path (next s))) as_text) (p_path (next s)) p /\ given x ["prefix"] as_text (p_file (next s)) f /\ given x ["use_numbers"] as_bool (w_numbers (x_fw s)) u /\
  given x ["first_number"] (omap u32 as_int) (w_start (x_fw s)) n /\ given x ["postfix"] as_text (w_postfix (x_fw s)) o /\ given x ["extension"] as_text (w_ext (x_fw s)) e /\
  given x ["create_error_duration"] as_uint (x_create s) a /\ given x ["write_error_duration"] as_uint (x_write s) b /\ given x ["flush_error_duration"] as_uint (x_flush s) c /\ given x ["close_error_duration"] as_uint (x_close s) d.
Proof.
  intros E H. unfold file_section in H.
  apply cseq_ret in H as ([] & s2 & r2 & H1 & H). apply (path_ret look m x) in H1 as (p & -> & G0 & RP); [|exact E].
  apply cseq_ret in H as ([] & s2 & r3 & H1 & H). apply (setting_upd text as_text "prefix" m x _ (fun n s => let p := next s in u_next (Prep (p_path p) n (p_id p) (p_total p) (p_towrite p)) s) (fun s => p_file (next s))) in H1 as (f & -> & -> & G1); [|apply reads_text|nm|exact E|same|intros s0; dd s0].
  apply cseq_ret in H as ([] & s2 & r3 & H1 & H). apply (setting_upd boolean as_bool "use_numbers" m x _ (fun b s => let w := x_fw s in u_names (w_postfix w) (w_ext w) b (w_start w) s) (fun s => w_numbers (x_fw s))) in H1 as (u & -> & -> & G2); [|apply reads_bool|nm|exact E|same|intros s0; dd s0].
  apply cseq_ret in H as ([] & s2 & r3 & H1 & H).
  assert (X : exists n, s2 = (let s := u_names (w_postfix (x_fw s)) (w_ext (x_fw s)) u (w_start (x_fw s)) (u_next (Prep p f (p_id (next s)) (p_total (next s)) (p_towrite (next s))) s) in u_names (w_postfix (x_fw s)) (w_ext (x_fw s)) (w_numbers (x_fw s)) n s) /\ r3 = r2 /\ given x ["first_number"] (omap u32 as_int) (w_start (x_fw s)) n).
  { apply (setting_ret int as_int "first_number" m x) in H1; [|apply reads_int|nm|exact E]. destruct (at_path ["first_number"] x) as [y|] eqn:Y.
    - destruct H1 as (a & RY & H1). unfold base in H1. cbn in H1. injection H1 as <- <-. exists (u32 a). split; [reflexivity|]. split; [reflexivity|]. apply given_at. rewrite Y. unfold omap. rewrite RY. reflexivity.
    - destruct H1 as (-> & ->). exists (w_start (x_fw s)). split; [dd s|]. split; [reflexivity|]. apply given_at. rewrite Y. reflexivity. }
  clear H1. destruct X as (n & -> & -> & G3).
  apply cseq_ret in H as ([] & s2 & r3 & H1 & H). apply (setting_upd text as_text "postfix" m x _ (fun b s => let w := x_fw s in u_names b (w_ext w) (w_numbers w) (w_start w) s) (fun s => w_postfix (x_fw s))) in H1 as (o & -> & -> & G4); [|apply reads_text|nm|exact E|same|intros s0; dd s0].
  apply cseq_ret in H as ([] & s2 & r3 & H1 & H). apply (setting_upd text as_text "extension" m x _ (fun b s => let w := x_fw s in u_names (w_postfix w) b (w_numbers w) (w_start w) s) (fun s => w_ext (x_fw s))) in H1 as (e & -> & -> & G5); [|apply reads_text|nm|exact E|same|intros s0; dd s0].
  apply cseq_ret in H as ([] & s2 & r3 & H1 & H). apply (setting_upd uint as_uint "create_error_duration" m x _ (fun n s => w_durations n (x_write s) (x_flush s) (x_close s) s) x_create) in H1 as (a & -> & -> & G6); [|apply reads_uint|nm|exact E|same|intros s0; dd s0].
  apply cseq_ret in H as ([] & s2 & r3 & H1 & H). apply (setting_upd uint as_uint "write_error_duration" m x _ (fun n s => w_durations (x_create s) n (x_flush s) (x_close s) s) x_write) in H1 as (b & -> & -> & G7); [|apply reads_uint|nm|exact E|same|intros s0; dd s0].
  apply cseq_ret in H as ([] & s2 & r3 & H1 & H). apply (setting_upd uint as_uint "flush_error_duration" m x _ (fun n s => w_durations (x_create s) (x_write s) n (x_close s) s) x_flush) in H1 as (c & -> & -> & G8); [|apply reads_uint|nm|exact E|same|intros s0; dd s0].
  apply (setting_upd uint as_uint "close_error_duration" m x _ (fun n s => w_durations (x_create s) (x_write s) (x_flush s) n s) x_close) in H as (d & -> & -> & G9); [|apply reads_uint|nm|exact E|same|intros s0; dd s0].
  exists p, f, u, n, o, e, a, b, c, d. split; [reflexivity|]. split; [exact RP|]. do 9 (split; [assumption|]). assumption.
Qed.

(** ** Data sets *)
Lemma find_put_def d l n : find_def (put_def d l) n = if String.eqb (d_name d) n then Some d else find_def l n.
Proof.
  unfold find_def. induction l as [|x l IH]; cbn; [destruct (String.eqb (d_name d) n); reflexivity|].
  destruct (String.eqb_spec (d_name d) (d_name x)) as [E|E]; [cbn; rewrite <- E; destruct (String.eqb (d_name d) n); reflexivity|].
  destruct (String.ltb (d_name d) (d_name x)); [reflexivity|]. cbn. rewrite IH. destruct (String.eqb_spec (d_name x) n) as [<-|N]; [|reflexivity]. apply String.eqb_neq in E. rewrite E. reflexivity.
Qed.
Opaque find_def put_def.
(** Nothing but data sets differs. *)
Definition sets_only (s s1 : fwx) : Prop := exists d b, s1 = u_sets d b s.
Lemma sets_refl s : sets_only s s. Proof. exists (w_defs (x_fw s)), (x_blosc s). dd s. Qed.
Lemma sets_trans s s1 s2 : sets_only s s1 -> sets_only s1 s2 -> sets_only s s2. Proof. intros (d & b & ->) (d' & b' & ->). exists d', b'. reflexivity. Qed.
Lemma new_ret n s r s1 r1 : new_dataset n s r = (s1, r1, Ret tt) -> r1 = r /\ sets_only s s1 /\ dataset s1 n = Some (or_new n (dataset s n)) /\ forall k, k <> n -> dataset s1 k = dataset s k.
Proof.
  unfold new_dataset, cseq, cset, base, create_new_dataset, fput. destruct (find_def (w_defs (x_fw s)) n) as [d|] eqn:F.
  - rewrite F. intros H. injection H as <- <-. rewrite w_fw_id. split; [reflexivity|]. split; [apply sets_refl|]. unfold dataset. rewrite F. split; reflexivity.
  - cbn. rewrite F. intros H. injection H as <- <-. split; [reflexivity|]. split; [eexists; eexists; reflexivity|]. unfold dataset. cbn. rewrite F. split.
    + rewrite find_put_def. cbn. rewrite String.eqb_refl. unfold update. rewrite String.eqb_refl. reflexivity.
    + intros k K. rewrite find_put_def. cbn. unfold update. apply String.eqb_neq in K. rewrite K. rewrite String.eqb_sym, K. reflexivity.
Qed.
Lemma type_named t : type_of_code (get_type_from_string t) = named_as type_names TUnknown t.
Proof.
  unfold get_type_from_string. cbn. destruct (String.eqb_spec t "unknown") as [->|_]; [reflexivity|]. repeat (match goal with |- context [String.eqb t ?k] => destruct (String.eqb t k); [reflexivity|] end). reflexivity.
Qed.
Lemma comp_named t : comp_of_code (get_compression_from_string t) = named_as comp_names CUnknown t.
Proof.
  unfold get_compression_from_string. cbn. destruct (String.eqb_spec t "unknown") as [->|_]; [reflexivity|]. repeat (match goal with |- context [String.eqb t ?k] => destruct (String.eqb t k); [reflexivity|] end). reflexivity.
Qed.
Lemma local_given {A B} (f : A -> B) rd k y o old : match at_path [k] y with Some z => exists a, rd z = Some a /\ o = Some a | None => o = None end -> given y [k] (omap f rd) old (match as_field f o with Val a => a | _ => old end).
Proof. intros H. apply given_at. destruct (at_path [k] y) as [z|]; [destruct H as (a & R & ->); unfold omap; rewrite R; reflexivity|subst; reflexivity]. Qed.
Lemma local_plain {A} (rd : json -> option A) k y o old : match at_path [k] y with Some z => exists a, rd z = Some a /\ o = Some a | None => o = None end -> given y [k] rd old (or_else o old).
Proof. intros H. apply given_at. destruct (at_path [k] y) as [z|]; [destruct H as (a & R & ->); exact R|subst; reflexivity]. Qed.
Lemma given_ext {A} x q (rd rd' : json -> option A) old new : (forall y, rd y = rd' y) -> given x q rd old new -> given x q rd' old new.
Proof. intros H. rewrite !given_at. destruct (at_path q x) as [y|]; [rewrite H; auto|auto]. Qed.
Definition field_or {A} (x : field A) (old : A) : A := match x with Val a => a | _ => old end.
Definition def_after (n : string) (c : dcfg) (d : dsdef) : dsdef :=
  DsDef n (field_or (dc_type c) (d_type d)) (field_or (dc_comp c) (d_comp d)) (field_or (dc_dims c) (d_dims d))
        (field_or (dc_chunks c) (match dc_dims c with Val l => 1%N :: l | _ => d_chunks d end)) (field_or (dc_lowhigh c) (d_lowhigh d)).
Definition no_bad {A} (x : field A) : Prop := match x with Bad => False | _ => True end.
Lemma base_dataset n c s r d : find_def (w_defs (x_fw s)) n = Some d -> no_bad (dc_type c) -> no_bad (dc_dims c) -> no_bad (dc_chunks c) -> no_bad (dc_comp c) -> no_bad (dc_lowhigh c) ->
  base "" (configure_dataset n c) s r = (w_fw (set_defs (put_def (def_after n c d) (w_defs (x_fw s))) (x_fw s)) s, r, Ret tt).
Proof. intros F A B D E G. unfold base, configure_dataset, fbind, fget, fval, fput, fret, fthrow. rewrite F. destruct c as [[] [] [] [] []]; try contradiction; reflexivity. Qed.
Lemma as_field_good {A B} (f : A -> B) o : no_bad (as_field f o). Proof. destruct o; exact Logic.I. Qed.

Lemma section_ret n m y s r s1 r1 d : params_of m = Some y -> dataset s n = Some d -> dataset_section n m s r = (s1, r1, Ret tt) -> r1 = r /\ sets_only s s1 /\ (exists d1, dataset s1 n = Some d1 /\ dataset_given y n d d1) /\ forall k, k <> n -> dataset s1 k = dataset s k.
Proof.
  intros E D H. unfold dataset in D. destruct (find_def (w_defs (x_fw s)) n) as [dd|] eqn:F; [|discriminate]. injection D as <-. unfold dataset_section in H.
  apply cseq_ret in H as (t & s2 & r2 & H1 & H). apply (local_ret text as_text "datatype" m y) in H1 as (-> & -> & L1); [|apply reads_text|nm|exact E].
  apply cseq_ret in H as (di & s2 & r2 & H1 & H). apply (local_ret u64_array (as_list as_u64) "dims" m y) in H1 as (-> & -> & L2); [|apply reads_array|nm|exact E].
  apply cseq_ret in H as (ch & s2 & r2 & H1 & H). apply (local_ret u64_array (as_list as_u64) "chunks" m y) in H1 as (-> & -> & L3); [|apply reads_array|nm|exact E].
  apply cseq_ret in H as (co & s2 & r2 & H1 & H). apply (local_ret text as_text "compression" m y) in H1 as (-> & -> & L4); [|apply reads_text|nm|exact E].
  apply cseq_ret in H as (b1 & s2 & r2 & H1 & H). apply (local_ret uint as_uint "blosc_compressor" m y) in H1 as (-> & -> & L5); [|apply reads_uint|nm|exact E].
  apply cseq_ret in H as (b2 & s2 & r2 & H1 & H). apply (local_ret uint as_uint "blosc_level" m y) in H1 as (-> & -> & L6); [|apply reads_uint|nm|exact E].
  apply cseq_ret in H as (b3 & s2 & r2 & H1 & H). apply (local_ret uint as_uint "blosc_shuffle" m y) in H1 as (-> & -> & L7); [|apply reads_uint|nm|exact E].
  apply cseq_ret in H as (lh & s2 & r2 & H1 & H). apply (local_ret boolean as_bool "indexes" m y) in H1 as (-> & -> & L8); [|apply reads_bool|nm|exact E].
  apply cseq_ret in H as ([] & s2 & r2 & H1 & H). rewrite (base_dataset _ _ _ _ _ F) in H1 by apply as_field_good. injection H1 as <- <-. unfold cset in H. cbn in H. destruct (x_blosc s n) as ((a & b) & c) eqn:XB. injection H as <- <-.
  split; [reflexivity|]. split; [eexists; eexists; reflexivity|]. unfold dataset. cbn. split.
  - rewrite find_put_def. cbn [d_name def_after]. rewrite String.eqb_refl. unfold update. rewrite String.eqb_refl. eexists. split; [reflexivity|]. unfold dataset_given. split; [reflexivity|].
    split; [apply (given_ext _ _ (omap (fun t => type_of_code (get_type_from_string t)) as_text)); [intros z; unfold as_type, omap; destruct (as_text z); [rewrite type_named|]; reflexivity|apply (local_given _ _ _ _ _ _ L1)]|].
    split; [apply (given_ext _ _ (omap (map Z.to_N) (as_list as_u64))); [intros z; symmetry; apply as_list_map|apply (local_given _ _ _ _ _ _ L2)]|].
    split.
    { unfold chunks_given. cbn. destruct (at_path ["chunks"] y) as [z|] eqn:Z.
      - destruct L3 as (l & R & ->). left. exists z. split; [apply leads_at, Z|]. unfold as_sizes, as_size. rewrite as_list_map. unfold omap. rewrite R. reflexivity.
      - right. subst ch. split; [apply no_lead, Z|]. cbn. destruct (at_path ["dims"] y) as [z|] eqn:W.
        + destruct L2 as (l & R & ->). left. exists z, (map Z.to_N l). split; [apply leads_at, W|]. split; [unfold as_sizes, as_size; rewrite as_list_map; unfold omap; rewrite R; reflexivity|reflexivity].
        + subst di. right. split; [apply no_lead, W|reflexivity]. }
    split; [apply (given_ext _ _ (omap (fun t => comp_of_code (get_compression_from_string t)) as_text)); [intros z; unfold as_comp, omap; destruct (as_text z); [rewrite comp_named|]; reflexivity|apply (local_given _ _ _ _ _ _ L4)]|].
    split; [apply (given_ext _ _ (omap (fun b => b) as_bool)); [intros z; unfold omap; destruct (as_bool z); reflexivity|apply (local_given _ _ _ _ _ _ L8)]|].
    split; [apply local_plain, L5|]. split; [apply local_plain, L6|apply local_plain, L7].
  - intros k K. rewrite find_put_def. cbn [d_name def_after]. unfold update. apply String.eqb_neq in K. rewrite K. rewrite String.eqb_sym, K. reflexivity.
Qed.

(** The same section twice *)
Lemma chunks_at y old new : chunks_given y old new <-> match at_path ["chunks"] y with Some z => as_sizes z = Some new | None => match at_path ["dims"] y with Some z => exists l, as_sizes z = Some l /\ new = 1%N :: l | None => new = old end end.
Proof.
  unfold chunks_given. split.
  - intros [(z & L & R)|(N & H)]; [apply leads_at in L; rewrite L; exact R|]. destruct (at_path ["chunks"] y) as [z|] eqn:Z; [apply leads_at in Z; destruct (N z Z)|]. destruct H as [(z & l & L & R & ->)|(M & ->)]; [apply leads_at in L; rewrite L; eauto|]. destruct (at_path ["dims"] y) as [z|] eqn:W; [apply leads_at in W; destruct (M z W)|reflexivity].
  - destruct (at_path ["chunks"] y) as [z|] eqn:Z; intros H; [left; exists z; split; [apply leads_at, Z|exact H]|]. right. split; [apply no_lead, Z|]. destruct (at_path ["dims"] y) as [z|] eqn:W; [destruct H as (l & R & ->); left; exists z, l; split; [apply leads_at, W|auto]|right; split; [apply no_lead, W|exact H]].
Qed.
Lemma given_again y n a b c : dataset_given y n a b -> dataset_given y n b c -> dataset_given y n a c.
Proof.
  unfold dataset_given. destruct a as (d & ((a1 & a2) & a3)), b as (d1 & ((b1 & b2) & b3)), c as (d2 & ((c1 & c2) & c3)). intros (A0 & A1 & A2 & A3 & A4 & A5 & A6 & A7 & A8) (B0 & B1 & B2 & B3 & B4 & B5 & B6 & B7 & B8).
  split; [exact B0|]. split; [apply (given_twice _ _ _ _ _ _ A1 B1)|]. split; [apply (given_twice _ _ _ _ _ _ A2 B2)|].
  split; [revert A3 B3; rewrite !chunks_at; destruct (at_path ["chunks"] y); [auto|]; destruct (at_path ["dims"] y); [auto|congruence]|].
  split; [apply (given_twice _ _ _ _ _ _ A4 B4)|]. split; [apply (given_twice _ _ _ _ _ _ A5 B5)|]. split; [apply (given_twice _ _ _ _ _ _ A6 B6)|]. split; [apply (given_twice _ _ _ _ _ _ A7 B7)|apply (given_twice _ _ _ _ _ _ A8 B8)].
Qed.
Lemma part_names now m x n c : params_of m = Some x -> no_nul n -> part now m n = Ret c -> exists y, at_path [n] x = Some y /\ params_of c = Some y.
Proof.
  intros E N H. unfold part, get_ref in H. destruct (get_raw m n) as [y| |] eqn:G; try discriminate. destruct (pieces n) as [|p [|]] eqn:PI; try discriminate. cbn in H. injection H as <-.
  assert (n = p) as <- by (rewrite <- (slashed_pieces n), PI; reflexivity). exists y. split; [|reflexivity]. unfold get_raw in G. rewrite E, PI in G. apply get_node_at in G. cbn [map] in G. rewrite (cstr_id _ N) in G. exact G.
Qed.
Lemma sections_ret now m x l : forall s r s1 r1, params_of m = Some x -> Forall no_nul l -> dataset_sections now m l s r = (s1, r1, Ret tt) ->
  r1 = r /\ sets_only s s1 /\ forall n, (In n l /\ exists y d, at_path [n] x = Some y /\ dataset_given y n (or_new n (dataset s n)) d /\ dataset s1 n = Some d) \/ (~ In n l /\ dataset s1 n = dataset s n).
Proof.
  induction l as [|n l IH]; intros s r s1 r1 E F H; cbn [dataset_sections] in H.
  { injection H as <- <-. split; [reflexivity|]. split; [apply sets_refl|]. intros n. right. split; [intros []|reflexivity]. }
  inversion F as [|? ? NN F']; subst. apply cseq_ret in H as ([] & s2 & r2 & H1 & H). apply new_ret in H1 as (-> & S1 & D1 & O1). apply cseq_ret in H as (c & s3 & r3 & H2 & H). unfold clift in H2. destruct (part now m n) as [c0| |] eqn:P; try discriminate. injection H2 as <- <- ->. destruct (part_names _ _ _ _ _ E NN P) as (y & Y & PC).
  apply cseq_ret in H as ([] & s4 & r4 & H3 & H). destruct (section_ret _ _ _ _ _ _ _ _ PC D1 H3) as (-> & S2 & (d1 & D2 & G) & O2). destruct (IH _ _ _ _ E F' H) as (-> & S3 & K). split; [reflexivity|]. split; [eapply sets_trans; [exact S1|eapply sets_trans; eassumption]|].
  intros k. destruct (string_dec k n) as [->|N].
  - left. split; [left; reflexivity|]. destruct (K n) as [(_ & y' & d & Y' & G' & D')|(_ & D')].
    + rewrite Y in Y'. injection Y' as <-. exists y, d. split; [exact Y|]. split; [|exact D']. rewrite D2 in G'. cbn in G'. eapply given_again; eassumption.
    + exists y, d1. split; [exact Y|]. split; [exact G|]. rewrite D'. exact D2.
  - rewrite (O1 k N) in O2 || pose proof (O2 k N) as X. pose proof (O2 k N) as X2. rewrite (O1 k N) in X2. destruct (K k) as [(I & y' & d & Y' & G' & D')|(NI & D')].
    + left. split; [right; exact I|]. exists y', d. rewrite X2 in G'. auto.
    + right. split; [intros [<-|I]; [congruence|contradiction]|]. rewrite D'. exact X2.
Qed.
