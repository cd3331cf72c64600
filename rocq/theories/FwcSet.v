(** A message to configure the file writer as a whole. *)
From Coq Require Import String Ascii.
From Verif Require Import Base JsonModel JsonSpec JsonProofs FrameModel PrcModel PrcReply PrcSet PrcAsk CfgModel CfgSpec CfgProofs PlaceModel NameModel AcqModel FwModel FwcModel FwcSpec FwcProofs.
Local Open Scope string_scope.
Local Open Scope list_scope.
Local Open Scope Z_scope.

Lemma no_nul_cstr t : no_nul (cstr t). Proof. unfold no_nul. induction t as [|c t IH]; cbn; [intros []|]. destruct (Ascii.eqb_spec c zero) as [->|N]; [intros []|]. intros [E|I]; [congruence|exact (IH I)]. Qed.
Lemma process_part now m x s r s1 r1 : params_of m = Some x -> setting m "process" (part now) process_section s r = (s1, r1, Ret tt) -> exists g e t a, s1 = w_align t a (w_earliest e (u_geom g s)) /\ r1 = r /\
  given x ["process"; "number"] as_size (g_procs (geometry s)) (g_procs g) /\ given x ["process"; "rank"] as_size (g_rank (geometry s)) (g_rank g) /\ given x ["process"; "frames_per_block"] as_size (g_fpb (geometry s)) (g_fpb g) /\ given x ["process"; "blocks_per_file"] as_size (g_bpf (geometry s)) (g_bpf g) /\
  given x ["process"; "earliest_version"] as_bool (x_earliest s) e /\ given x ["process"; "alignment_threshold"] as_u64 (x_threshold s) t /\ given x ["process"; "alignment_value"] as_u64 (x_value s) a.
Proof.
  intros E H. apply (setting_ret _ _ "process" m x _ _ _ _ _ (reads_part now)) in H; [|nm|exact E]. destruct (at_path ["process"] x) as [z|] eqn:Z.
  - destruct H as (c & X & H). injection X as <-. apply (process_ret _ z) in H as (g & e & t & a & -> & -> & G); [|reflexivity]. exists g, e, t, a. split; [reflexivity|]. split; [reflexivity|]. repeat (destruct G as (G0 & G); split; [apply (given_in _ _ _ _ _ _ _ Z G0)|clear G0]). apply (given_in _ _ _ _ _ _ _ Z G).
  - destruct H as (-> & ->). exists (geometry s), (x_earliest s), (x_threshold s), (x_value s). split; [dd s|]. split; [reflexivity|]. repeat (split; [apply given_out, Z|]). apply given_out, Z.
Qed.
Lemma file_part look now m x s r s1 r1 : params_of m = Some x -> setting m "file" (part now) (file_section look) s r = (s1, r1, Ret tt) -> exists p f u n o e a b c d,
  s1 = w_durations a b c d (u_names o e u n (u_next (Prep p f (p_id (next s)) (p_total (next s)) (p_towrite (next s))) s)) /\ replied look (at_path ["file"; "path"] x) r r1 /\
  given x ["file"; "path"] (omap (accepted look (p_path (next s))) as_text) (p_path (next s)) p /\ given x ["file"; "prefix"] as_text (p_file (next s)) f /\ given x ["file"; "use_numbers"] as_bool (w_numbers (x_fw s)) u /\
  given x ["file"; "first_number"] (omap u32 as_int) (w_start (x_fw s)) n /\ given x ["file"; "postfix"] as_text (w_postfix (x_fw s)) o /\ given x ["file"; "extension"] as_text (w_ext (x_fw s)) e /\
  given x ["file"; "create_error_duration"] as_uint (x_create s) a /\ given x ["file"; "write_error_duration"] as_uint (x_write s) b /\ given x ["file"; "flush_error_duration"] as_uint (x_flush s) c /\ given x ["file"; "close_error_duration"] as_uint (x_close s) d.
Proof.
  intros E H. apply (setting_ret _ _ "file" m x _ _ _ _ _ (reads_part now)) in H; [|nm|exact E]. destruct (at_path ["file"] x) as [z|] eqn:Z.
  - destruct H as (c & X & H). injection X as <-. apply (file_ret look _ z) in H as (p & f & u & n & o & e & a & b & c & d & -> & R & G); [|reflexivity]. exists p, f, u, n, o, e, a, b, c, d. split; [reflexivity|]. split; [rewrite (at1 _ _ _ _ Z); exact R|]. repeat (destruct G as (G0 & G); split; [apply (given_in _ _ _ _ _ _ _ Z G0)|clear G0]). apply (given_in _ _ _ _ _ _ _ Z G).
  - destruct H as (-> & ->). exists (p_path (next s)), (p_file (next s)), (w_numbers (x_fw s)), (w_start (x_fw s)), (w_postfix (x_fw s)), (w_ext (x_fw s)), (x_create s), (x_write s), (x_flush s), (x_close s). split; [dd s|].
    split; [|repeat (split; [apply given_out, Z|]); apply given_out, Z]. rewrite (at_one_none _ _ _ Z). reflexivity.
Qed.
Definition named_after (x : json) (n : string) (old new : option dset) : Prop :=
  (exists t, leads ["dataset"] x (JStr t) /\ cstr t = n /\ new = Some (or_new n old)) \/
  (exists y d, leads ["dataset"; n] x y /\ dataset_given y n (or_new n old) d /\ new = Some d) \/
  ((forall t, leads ["dataset"] x (JStr t) -> cstr t <> n) /\ (forall y, ~ leads ["dataset"; n] x y) /\ new = old).
Lemma dataset_part now m x s r s1 r1 : params_of m = Some x ->
  cseq (clift (has_param m "dataset")) (fun h : bool => if h then match text m "dataset" with Ret n => new_dataset n | Undef => fun s r => (s, r, Undef) | Throw JsonModel.ERange => cthrow (XIpc JsonModel.ERange)
     | Throw _ => cseq (clift (part now m "dataset")) (fun c => cseq (clift (get_param_names c)) (fun names => dataset_sections now c names)) end else cret tt) s r = (s1, r1, Ret tt) ->
  r1 = r /\ sets_only s s1 /\ forall n, no_nul n -> named_after x n (dataset s n) (dataset s1 n).
Proof.
  intros E H. apply (has_one "dataset" m x) in H; [|nm|exact E]. destruct (at_path ["dataset"] x) as [y|] eqn:Y.
  2:{ injection H as <- <-. split; [reflexivity|]. split; [apply sets_refl|]. intros n _. right. right. split; [intros t L; apply leads_at in L; congruence|]. split; [|reflexivity]. apply no_lead. apply (at_one_none _ _ _ Y). }
  assert (NK : name_ok "dataset") by nm. destruct (text m "dataset") as [t|e|] eqn:T; [| |discriminate].
  - apply (reads_text m x "dataset" t NK E) in T as (y' & Y' & R). rewrite Y in Y'. injection Y' as <-. destruct y; try discriminate. injection R as <-. apply new_ret in H as (-> & S & D & O). split; [reflexivity|]. split; [exact S|]. intros n _. destruct (string_dec (cstr s0) n) as [<-|N].
    + left. exists s0. split; [apply leads_at, Y|]. split; [reflexivity|exact D].
    + right. right. split; [intros t L; apply leads_at in L; rewrite Y in L; injection L as <-; exact N|]. split; [|apply O; congruence]. apply no_lead. rewrite (at1 _ _ _ _ Y). reflexivity.
  - assert (NT : forall t, y <> JStr t). { intros t ->. assert (X : text m "dataset" = Ret (cstr t)) by (apply (reads_text m x "dataset" _ NK E); exists (JStr t); split; [exact Y|reflexivity]). congruence. }
    assert (H' : cseq (clift (part now m "dataset")) (fun c => cseq (clift (get_param_names c)) (fun names => dataset_sections now c names)) s r = (s1, r1, Ret tt)) by (destruct e; [exact H..|discriminate|exact H] || (destruct e; first [exact H|discriminate])). clear H. rename H' into H.
    apply cseq_ret in H as (c & s2 & r2 & H1 & H). unfold clift in H1. destruct (part now m "dataset") as [c0| |] eqn:P; try discriminate. injection H1 as <- <- ->. destruct (part_names now m x "dataset" c E (proj2 NK) P) as (y' & Y' & PC). rewrite Y in Y'. injection Y' as <-.
    apply cseq_ret in H as (l & s3 & r3 & H2 & H). unfold clift in H2. destruct (get_param_names c) as [l0| |] eqn:GN; try discriminate. injection H2 as <- <- ->. unfold get_param_names in GN. rewrite PC in GN. destruct y as [| | | | | |ms]; try discriminate. injection GN as <-.
    assert (FN : Forall no_nul (map (fun e => cstr (fst e)) ms)) by (apply Forall_forall; intros n I; apply in_map_iff in I as (e' & <- & _); apply no_nul_cstr).
    destruct (sections_ret now c (JObj ms) _ s r s1 r1 PC FN H) as (-> & S & K). split; [reflexivity|]. split; [exact S|]. intros n NN. destruct (K n) as [(I & y & d & Y1 & G & D)|(NI & D)].
    + right. left. exists y, d. split; [apply leads_at; rewrite (at1 _ _ _ _ Y); exact Y1|]. split; assumption.
    + right. right. split; [intros t L; apply leads_at in L; congruence|]. split; [|exact D]. intros y L. apply leads_at in L. rewrite (at1 _ _ _ _ Y) in L. cbn in L. destruct (find_member n ms) as [z|] eqn:F; [|discriminate]. apply find_split in F as (l1 & l2 & -> & _). apply NI. apply in_map_iff. exists (n, z). split; [apply cstr_id, NN|]. apply in_or_app. right. left. reflexivity.
Qed.
(** Only the state is computed. *)
Ltac norm H := match type of H with ?f ?st ?rr = _ => let st' := eval cbv beta iota zeta delta [w_fw w_earliest w_align w_durations w_blosc w_woken u_geom u_next u_names u_sets u_path set_geom set_next set_names set_defs set_master set_period geometry next
    x_fw x_earliest x_threshold x_value x_create x_write x_flush x_close x_blosc x_file x_woken x_timing x_name w_writing w_geom w_postfix w_ext w_numbers w_start w_master w_defs w_cur w_next w_active w_period w_disk w_log w_out
    p_path p_file p_id p_total p_towrite] in st in change (f st' rr = ltac:(match type of H with _ = ?o => exact o end)) in H end.
Lemma applied_ret look now m x s r s1 r1 : params_of m = Some x -> fwx_configure look now m s r = (s1, r1, Ret tt) -> applied look x s s1 /\ rest_same s s1 /\ w_out (x_fw s1) = w_out (x_fw s) /\ replied look (at_path ["file"; "path"] x) r r1.
Proof.
  intros E H. assert (B : configure_body look now m s r = (s1, r1, Ret tt)). { unfold fwx_configure in H. destruct (configure_body look now m s r) as ((s0 & r0) & [u|[e|w|]|]); try discriminate; exact H. } clear H. rename B into H. unfold configure_body in H.
  destruct s as [[wr g0 po0 ex0 nu0 st0 ma0 de0 cu0 [pp0 pf0 pi0 pt0 pw0] ac0 pe0 dk0 lg0 ou0] ea0 th0 va0 cr0 wt0 fl0 cl0 bl0 fi0 wo0 ti0 na0].
  apply cseq_ret in H as ([] & s2 & r2 & H1 & H). apply (process_part now m x) in H1 as (g & e & t & a & -> & -> & G1 & G2 & G3 & G4 & G5 & G6 & G7); [|exact E]. norm H.
  apply cseq_ret in H as ([] & s2 & r3 & H1 & H). apply (file_part look now m x) in H1 as (p & f & u & n & o & ex & da & db & dc & dd & -> & RP & F1 & F2 & F3 & F4 & F5 & F6 & F7 & F8 & F9 & F10); [|exact E]. norm H.
  apply cseq_ret in H as ([] & s2 & r4 & H1 & H). apply (dataset_part now m x) in H1 as (-> & (ds & bl & ->) & D); [|exact E]. norm H.
  apply cseq_ret in H as ([] & s2 & r4 & H1 & H).
  assert (X : exists ds' bl', s2 = FWX (FW wr g o ex u n ma0 ds' cu0 (Prep p f pi0 pt0 pw0) ac0 pe0 dk0 lg0 ou0) e t a da db dc dd bl' fi0 wo0 ti0 na0 /\ r4 = r3 /\ forall k, no_nul k -> dataset_after x k (dataset (FWX (FW wr g0 po0 ex0 nu0 st0 ma0 de0 cu0 (Prep pp0 pf0 pi0 pt0 pw0) ac0 pe0 dk0 lg0 ou0) ea0 th0 va0 cr0 wt0 fl0 cl0 bl0 fi0 wo0 ti0 na0) k) (dataset s2 k)).
  { apply (has_one "delete_datasets" m x) in H1; [|nm|exact E]. destruct (at_path ["delete_datasets"] x) as [y|] eqn:Y.
    - unfold delete_datasets, cseq, base, fput, cset in H1. injection H1 as <- <-. exists [], (fun _ => (0, 0, 0)). split; [reflexivity|]. split; [reflexivity|]. intros k _. left. split; [exists y; apply leads_at, Y|reflexivity].
    - injection H1 as <- <-. exists ds, bl. split; [reflexivity|]. split; [reflexivity|]. intros k NK. right. split; [apply no_lead, Y|exact (D k NK)]. }
  destruct X as (ds' & bl' & -> & -> & D'). clear D H1.
  apply cseq_ret in H as ([] & s2 & r4 & H1 & H).
  assert (X : exists tot tow, s2 = FWX (FW wr g o ex u n ma0 ds' cu0 (Prep p f pi0 tot tow) ac0 pe0 dk0 lg0 ou0) e t a da db dc dd bl' fi0 wo0 ti0 na0 /\ r4 = r3 /\ given x ["frames"] as_size pt0 tot /\
    (((exists y, leads ["frames"] x y) /\ calc_num_frames g tot = Ret tow) \/ ((forall y, ~ leads ["frames"] x y) /\ tow = pw0))).
  { apply (setting_ret u64 as_u64 "frames" m x) in H1; [|apply reads_u64|nm|exact E]. destruct (at_path ["frames"] x) as [y|] eqn:Y.
    - destruct H1 as (z & RY & H1). unfold base, FwModel.configure_body, config_only in H1. cbn in H1. unfold fbind, fget, fput, fret, flift in H1. cbn in H1. destruct (calc_num_frames g (Z.to_N z)) as [k|[]|] eqn:CN; [|discriminate]. cbn in H1. injection H1 as <- <-. exists (Z.to_N z), k. split; [reflexivity|]. split; [reflexivity|]. split; [apply given_at; rewrite Y; unfold as_size, omap; rewrite RY; reflexivity|]. left. split; [exists y; apply leads_at, Y|exact CN].
    - destruct H1 as (-> & ->). exists pt0, pw0. split; [reflexivity|]. split; [reflexivity|]. split; [apply given_at; rewrite Y; reflexivity|]. right. split; [apply no_lead, Y|reflexivity]. }
  destruct X as (tot & tow & -> & -> & G8 & G9). clear H1.
  apply cseq_ret in H as ([] & s2 & r4 & H1 & H). apply (setting_upd text as_text "master" m x _ (fun b s => w_fw (set_master b (x_fw s)) s) (fun s => w_master (x_fw s))) in H1 as (ma & -> & -> & G10); [|apply reads_text|nm|exact E|same|intros s0; FwcProofs.dd s0]. norm H.
  apply cseq_ret in H as ([] & s2 & r4 & H1 & H). apply (setting_upd text as_text "acquisition_id" m x _ (fun b s => u_next (let p := next s in Prep (p_path p) (p_file p) b (p_total p) (p_towrite p)) s) (fun s => p_id (next s))) in H1 as (ai & -> & -> & G11); [|apply reads_text|nm|exact E|same|intros s0; FwcProofs.dd s0]. norm H.
  apply cseq_ret in H as ([] & s2 & r4 & H1 & H).
  apply (setting_upd u64 as_u64 "timeout_timer_period" m x _ (fun b s => w_fw (set_period (Z.to_N b) (x_fw s)) s) (fun s => Z.of_N (w_period (x_fw s)))) in H1 as (pe & -> & -> & G12); [|apply reads_u64|nm|exact E|same|intros s0; cbv beta; rewrite N2Z.id; FwcProofs.dd s0]. norm H.
  assert (PD : given x ["timeout_timer_period"] as_size pe0 (Z.to_N pe)) by (rewrite <- (N2Z.id pe0); apply given_map, G12).
  apply (setting_ret boolean as_bool "start_timeout_timer" m x) in H; [|apply reads_bool|nm|exact E].
  assert (X : exists k, s1 = FWX (FW wr g o ex u n ma ds' cu0 (Prep p f ai tot tow) ac0 (Z.to_N pe) dk0 lg0 ou0) e t a da db dc dd bl' fi0 k ti0 na0 /\ r1 = r3 /\ ((leads ["start_timeout_timer"] x (JBool true) /\ wr = true /\ ac0 = false /\ k = S wo0) \/
             (~ (leads ["start_timeout_timer"] x (JBool true) /\ wr = true /\ ac0 = false) /\ k = wo0)) /\ forall y, leads ["start_timeout_timer"] x y -> exists b, y = JBool b).
  { destruct (at_path ["start_timeout_timer"] x) as [y|] eqn:Y.
    - destruct H as (b & RY & H). destruct y; try discriminate. injection RY as ->. unfold cseq, cget in H.
      assert (LB : forall y, leads ["start_timeout_timer"] x y -> exists b, y = JBool b) by (intros y L; apply leads_at in L; rewrite Y in L; injection L as <-; eauto). cbn [x_fw w_writing] in H.
      destruct (b && wr) eqn:BW.
      + apply andb_prop in BW as (-> & ->). unfold start_timeout, cset in H. cbn [x_fw w_active] in H. destruct ac0; injection H as <- <-.
        * exists wo0. split; [reflexivity|]. split; [reflexivity|]. split; [right; split; [intros (_ & _ & Z); discriminate|reflexivity]|exact LB].
        * exists (S wo0). split; [reflexivity|]. split; [reflexivity|]. split; [left; split; [apply leads_at, Y|auto]|exact LB].
      + injection H as <- <-. exists wo0. split; [reflexivity|]. split; [reflexivity|]. split; [right; split; [|reflexivity]|exact LB]. intros (L & W & _). apply leads_at in L. rewrite Y in L. injection L as ->. rewrite W in BW. discriminate.
    - destruct H as (-> & ->). exists wo0. split; [reflexivity|]. split; [reflexivity|]. split; [right; split; [|reflexivity]; intros (L & _); apply leads_at in L; congruence|]. intros y L. apply leads_at in L. congruence. }
  destruct X as (k & -> & -> & WK & LB). split; [constructor; assumption|]. split; [repeat split|]. split; [reflexivity|exact RP].
Qed.
