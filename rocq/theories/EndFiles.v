(** The file writer keeps every frame of a nearly ordered sequence, and stops when it has all of them. *)
From Verif Require Import Base PlaceModel PlaceSpec PlaceProofs NameModel NameProofs AcqModel AcqSpec AcqProofs AcqInv AcqThms
  FwModel FwSpec FwProofs FwThms EndSpec.
Local Open Scope N_scope.

Lemma towrite_le g total n : calc_num_frames g total = Ret n -> n <= total.
Proof.
  unfold calc_num_frames. destruct (_ || _) eqn:E; [discriminate|]. apply orb_false_iff in E. destruct E as (E1 & E2).
  apply N.eqb_neq in E1, E2. intros [= <-].
  set (q := total / g_fpb g / g_procs g).
  assert (H : q * g_fpb g * g_procs g <= total).
  { pose proof (N.mul_div_le total (g_fpb g) E1). pose proof (N.mul_div_le (total / g_fpb g) (g_procs g) E2). fold q in H0. nia. }
  assert (q * g_fpb g <= q * g_fpb g * g_procs g) by nia.
  destruct (_ <? _); lia.
Qed.

Lemma fw_run_app : forall l w w1 rs l', fw_run w l = (w1, rs) -> ~ In Undef rs ->
  fw_run w (l ++ l') = (fst (fw_run w1 l'), rs ++ snd (fw_run w1 l')).
Proof.
  induction l as [|o l IH]; intros w w1 rs l' E N; cbn in E |- *.
  - injection E as <- <-. destruct (fw_run w l'); reflexivity.
  - destruct (fw_call o w) as [w2 [x|e|]].
    + destruct (fw_run w2 l) as [w3 rs3] eqn:E3. injection E as <- <-.
      rewrite (IH _ _ _ l' E3) by (intros H; apply N; right; exact H). reflexivity.
    + destruct (fw_run w2 l) as [w3 rs3] eqn:E3. injection E as <- <-.
      rewrite (IH _ _ _ l' E3) by (intros H; apply N; right; exact H). reflexivity.
    + injection E as <- <-. destruct N. left. reflexivity.
Qed.

Section Files.
Context (g : geom) (nm : naming) (dir master : string) (total towrite : N) (defs : list dsdef) (dk : disk).
Let K := last_row (g_fpb g) (g_bpf g) towrite.
Context (OK : setup_ok g nm defs K) (UC : forall d, In d defs -> hd_error (d_chunks d) = Some 1)
  (TOT : 0 < total <= 2 ^ 31) (CN : calc_num_frames g total = Ret towrite) (POS : 0 < towrite).
Let a0 := configured g nm dir master total towrite defs.
Let KR := N.to_nat K.
Notation locl := (local g).

Lemma locl_below off : expects g total off -> locl off < towrite.
Proof.
  intros (H1 & H2). apply (local_below g nm dir master total towrite defs K OK off CN); [|exact H1].
  apply (mine_iff g nm dir master total towrite defs). exact H2.
Qed.

Lemma row_le off : expects g total off -> row_of (g_procs g) (g_fpb g) (g_bpf g) off <= K.
Proof.
  intros H. pose proof (locl_below off H) as L.
  pose proof (local_split g nm dir master total towrite defs K OK off) as S.
  unfold K, last_row. unfold before, krow in S. change (a_geom (configured g nm dir master total towrite defs)) with g in S.
  rewrite N2Nat.id in S. set (r := row_of _ _ _ off) in *.
  destruct (N.eqb_spec (g_bpf g) 0) as [B0|B0].
  - unfold r, row_of. rewrite B0. cbn. lia.
  - pose proof (so_fpb _ _ _ _ OK) as F1. apply N.div_le_lower_bound; [nia|]. nia.
Qed.

Lemma rows_all : rows_ok g total towrite defs K.
Proof.
  right. intros d c0 k Hd Hc Hk. rewrite (UC d Hd) in Hc. injection Hc as <-. unfold expected_rows. rewrite N.mul_1_r.
  set (bf := g_bpf g * g_fpb g). pose proof (so_fpb _ _ _ _ OK) as F1.
  destruct (N.leb_spec bf 1); [lia|]. destruct (N.ltb_spec towrite ((k + 1) * bf)) as [H0|H0]; [|lia].
  assert (H1 : k * bf <= towrite - 1).
  { unfold K, last_row in Hk. destruct (N.eqb_spec (g_bpf g) 0); [unfold bf in *; nia|]. fold bf in Hk.
    pose proof (N.mul_div_le (towrite - 1) bf ltac:(lia)). nia. }
  rewrite <- (N.mod_unique towrite bf k (towrite - k * bf)); lia.
Qed.

Lemma room off : expects g total off ->
  slot_of (g_procs g) (g_fpb g) (g_bpf g) off < expected_rows (g_fpb g) (g_bpf g) towrite 1 (row_of (g_procs g) (g_fpb g) (g_bpf g) off).
Proof.
  intros H. pose proof (locl_below off H) as L.
  pose proof (local_split g nm dir master total towrite defs K OK off) as S.
  unfold before, krow, kslot in S. change (a_geom (configured g nm dir master total towrite defs)) with g in S.
  rewrite N2Nat.id in S. set (r := row_of _ _ _ off) in *. set (sl := slot_of _ _ _ off) in *.
  unfold expected_rows. rewrite N.mul_1_r. set (bf := g_bpf g * g_fpb g).
  assert (S' : locl off = r * bf + sl) by (rewrite S; unfold bf; lia).
  destruct (N.leb_spec bf 1); [lia|]. destruct (N.ltb_spec towrite ((r + 1) * bf)) as [H9|H9].
  - rewrite <- (N.mod_unique towrite bf r (towrite - r * bf)); lia.
  - assert (B0 : g_bpf g <> 0) by (unfold bf in *; nia).
    pose proof (kslot_lt g nm dir master total towrite defs K OK off B0) as Q. unfold kslot in Q.
    change (a_geom (configured g nm dir master total towrite defs)) with g in Q. fold sl in Q. unfold bf. lia.
Qed.

Lemma wanted_ok f : wanted g defs master total f -> number_ok g K f.
Proof.
  intros [S A (off & E & X) _ _ _ _]. unfold number_small in S. split; [lia|]. split; [exact A|].
  assert (off < 2 ^ 31) by (destruct X; lia). split; [lia|]. rewrite E, N2Z.id. apply row_le, X.
Qed.
Lemma wanted_params f : wanted g defs master total f -> params_ok g total towrite defs f.
Proof. intros W n v d H. rewrite (wa_params _ _ _ _ _ W) in H. destruct H. Qed.

Lemma steps_max s m gh t s' m' gh' rs R : Steps a0 dk KR s m gh t s' m' gh' rs ->
  Forall (fun c => number_ok g K (snd c)) t ->
  Forall (fun c => file_of g (snd c) <= N.of_nat R) t -> (m <= R)%nat -> (m' <= R)%nat.
Proof.
  induction 1 as [|s m gh i f s1 m1 l r t s' m' gh' rs HI HI1 Hm Hok E Ho HFu HS IH]; [auto|].
  intros Fn Ff H. inversion Fn as [|? ? N1 N2]; subst. inversion Ff as [|? ? F1 F2]; subst. apply IH; auto. cbn [snd] in *.
  assert (Hk : forall off, adjust_frame_offset (f_number f) (f_adj f) = Ret off -> (krow a0 off <= R)%nat).
  { intros off Ha. destruct (adjust_val g nm dir master total towrite defs K f off N1 Ha) as (Ea & _).
    unfold file_of in F1. rewrite Ea, N2Z.id in F1. unfold krow. change (a_geom a0) with g. lia. }
  destruct Ho as [(Href & _)|(off & c0 & d & b & fin & ps & A)].
  - destruct Href as [? ? ->|? ? ? ->|off Ha ? ? ->|off Ha ? ? ? ->|off Ha ? ? ?|off Ha ? ? ->|off d Ha ? ? -> ? ? ?]; auto;
      specialize (Hk _ Ha); lia.
  - rewrite (at_m _ _ _ _ _ _ _ _ _ _ _ _ _ _ _ _ A). specialize (Hk _ (at_off _ _ _ _ _ _ _ _ _ _ _ _ _ _ _ _ A)). lia.
Qed.

Lemma created_few i0 s0 t s rs R : creates i0 -> start_acquisition i0 (St a0 dk []) = (s0, Ret true) ->
  Forall (fun c => creates (fst c) /\ number_ok g K (snd c)) t -> run s0 t = (s, rs) ->
  Forall (fun c => file_of g (snd c) <= R) t -> N.of_nat (List.length (created (s_log s))) <= R + 1.
Proof.
  intros Hc E Ht Er Hf. destruct (ran g nm dir master total towrite defs K dk OK i0 s0 t s rs Hc E Ht Er) as (m & gh & rs' & -> & HS).
  assert (Hm : (m <= N.to_nat R)%nat).
  { eapply (steps_max _ _ _ _ _ _ _ _ (N.to_nat R) HS).
    - eapply Forall_impl; [|exact Ht]. intros c H. apply H.
    - rewrite N2Nat.id. exact Hf.
    - lia. }
  pose proof (steps_inv a0 dk KR (th_P g nm dir master total towrite defs K OK) (th_r g nm dir master total towrite defs K OK)
    (th_inj g nm dir master total towrite defs K OK) (th_rows g nm dir master total towrite defs K OK)
    (th_F g nm dir master total towrite defs K OK) _ _ _ _ _ _ _ _ HS) as (_ & HI & _).
  rewrite (inv_created _ _ _ _ _ HI), map_length, seq_length. lia.
Qed.

Definition keeps (c : io * frame) : Prop := no_failure (fst c) /\ io_write (fst c) = true /\ wanted g defs master total (snd c).
Definition complete (l : list frame) : Prop := forall off, expects g total off -> exists f, In f l /\ adjusted f = Z.of_N off.

Lemma nearly_app l1 l2 : nearly_ordered g (l1 ++ l2) -> nearly_ordered g l1.
Proof. intros H a f b f' -> Hi. apply (H a f (b ++ l2) f'); [rewrite <- app_assoc; reflexivity|exact Hi]. Qed.

Lemma keeps_creates t : Forall keeps t -> Forall (fun c => creates (fst c) /\ number_ok g K (snd c)) t.
Proof. intros F. eapply Forall_impl; [|exact F]. intros c (H1 & _ & H2). split; [apply H1|apply wanted_ok, H2]. Qed.
Lemma keeps_nf t : Forall keeps t -> Forall (fun c => no_failure (fst c) /\ number_ok g K (snd c)) t.
Proof. intros F. eapply Forall_impl; [|exact F]. intros c (H1 & _ & H2). split; [apply H1|apply wanted_ok, H2]. Qed.
Lemma keeps_good t : Forall keeps t ->
  Forall (fun c => number_ok g K (snd c) /\ no_failure (fst c) /\ params_ok g total towrite defs (snd c) /\ f_ocs (snd c) = 1) t.
Proof.
  intros F. eapply Forall_impl; [|exact F]. intros c (H1 & _ & H2). split; [apply wanted_ok, H2|]. split; [exact H1|].
  split; [apply wanted_params, H2|apply (wa_chunk _ _ _ _ _ H2)].
Qed.

(** Each frame is written. *)
Lemma one_written i0 s0 t s rs c : no_failure i0 -> start_acquisition i0 (St a0 dk []) = (s0, Ret true) ->
  Forall keeps (t ++ [c]) -> nearly_ordered g (map snd (t ++ [c])) -> run s0 t = (s, rs) ->
  exists s1 r, process_frame (fst c) (snd c) s = (s1, Some r) /\ written (Some r) = true.
Proof.
  intros H0 E F O Er. apply Forall_app in F. destruct F as (F & Fc). inversion Fc as [|? ? (C1 & C2 & C3) _]; subst.
  destruct (wa_number _ _ _ _ _ C3) as (off & Ea & X).
  assert (W : written (snd (process_frame (fst c) (snd c) s)) = true).
  { apply (written_iff g nm dir master total towrite defs K dk OK i0 s0 t s rs (fst c) (snd c) H0 rows_all); auto.
    - right. pose proof (towrite_le _ _ _ CN). lia.
    - apply keeps_nf, F.
    - apply wanted_ok, C3.
    - apply (wa_small _ _ _ _ _ C3).
    - apply wanted_params, C3.
    - split; [apply (wa_matches _ _ _ _ _ C3)|]. exists off. split; [exact Ea|]. split; [apply X|]. split.
      + assert (Fo : Forall (fun c' => file_of g (snd c') <= file_of g (snd c) + 1) t).
        { apply Forall_forall. intros c' Hc'. apply (O (map snd t) (snd c) [] (snd c')); [rewrite map_app; reflexivity|].
          apply in_map, Hc'. }
        pose proof (created_few i0 s0 t s rs _ (proj1 H0) E (keeps_creates t F) Er Fo) as L.
        unfold file_of in L. rewrite Ea, N2Z.id in L. lia.
      + right. intros d c0 Hd _ Hc. rewrite (UC d Hd) in Hc. injection Hc as <-. rewrite N.mul_1_r. apply room, X. }
  destruct (process_frame (fst c) (snd c) s) as [s1 [r|]] eqn:Ep; [|discriminate W]. exists s1, r. split; [reflexivity|exact W].
Qed.

Lemma counted_all t rs : Forall keeps t -> List.length rs = List.length t -> Forall (fun r => written r = true) rs ->
  counted_frames master (combine (map snd t) (map written rs)) = map snd t.
Proof.
  revert rs. induction t as [|c t IH]; intros [|r rs] F L W; cbn in *; try congruence; try discriminate.
  inversion F as [|? ? (_ & _ & F1) F2]; subst. inversion W as [|? ? W1 W2]; subst.
  unfold counted_frames in *. cbn. rewrite (wa_counted _ _ _ _ _ F1), W1. cbn. f_equal. apply IH; auto.
Qed.

Lemma filter_counted t : Forall keeps t -> filter (is_counted master) (map snd t) = map snd t.
Proof.
  induction 1 as [|c t (_ & _ & F1) F2 IH]; [reflexivity|]. cbn. rewrite (wa_counted _ _ _ _ _ F1), IH. reflexivity.
Qed.

(** The last one is reported as completing the acquisition if all expected frames are there. *)
Lemma one_complete i0 s0 t s rs c s1 r : no_failure i0 -> start_acquisition i0 (St a0 dk []) = (s0, Ret true) ->
  Forall keeps (t ++ [c]) -> NoDup (map adjusted (map snd (t ++ [c]))) ->
  run s0 t = (s, rs) -> List.length rs = List.length t -> Forall (fun r => written r = true) rs ->
  process_frame (fst c) (snd c) s = (s1, Some r) -> written (Some r) = true ->
  (r = SComplete <-> complete (map snd (t ++ [c]))).
Proof.
  intros H0 E F ND Er L W Ep Wr. destruct c as [i f]. cbn [fst snd] in *.
  pose proof (completion g nm dir master total towrite defs K dk OK i0 s0 t s rs i f s1 r UC H0 rows_all E (keeps_good _ F) CN POS)
    as Co.
  assert (Fa : Forall (fun c => (adjusted (snd c) < Z.of_N total)%Z) (t ++ [(i, f)])).
  { eapply Forall_impl; [|exact F]. intros c (_ & _ & H). destruct (wa_number _ _ _ _ _ H) as (off & -> & (H1 & _)). lia. }
  specialize (Co Fa). rewrite (filter_counted _ F) in Co. specialize (Co ND Er Ep). cbn zeta in Co. specialize (Co Wr).
  destruct Co as (Co & _). rewrite Co. unfold complete, expects.
  apply Forall_app in F. destruct F as (F & Fc). inversion Fc as [|? ? (_ & _ & C3) _]; subst.
  assert (Ec : counted_frames master (combine (map snd t) (map written rs) ++ [(f, written (Some r))]) = map snd (t ++ [(i, f)])).
  { unfold counted_frames. rewrite filter_app, map_app. fold (counted_frames master (combine (map snd t) (map written rs))).
    rewrite (counted_all t rs F L W), map_app. f_equal. cbn [filter fst snd map]. cbn [snd] in C3.
    rewrite (wa_counted _ _ _ _ _ C3), Wr. reflexivity. }
  rewrite Ec. unfold belongs. tauto.
Qed.

Lemma some_expected : exists off, expects g total off.
Proof.
  exists (g_rank g * g_fpb g). pose proof (so_procs _ _ _ _ OK). pose proof (so_rank _ _ _ _ OK). pose proof (so_fpb _ _ _ _ OK).
  assert (M : block_of (g_fpb g) (g_rank g * g_fpb g) mod g_procs g = g_rank g).
  { unfold block_of. rewrite N.div_mul by lia. apply N.mod_small. lia. }
  split; [|exact M]. apply (local_below g nm dir master total towrite defs K OK _ CN).
  - apply (mine_iff g nm dir master total towrite defs), M.
  - unfold local, local_of. rewrite N.div_mul, N.div_small, N.mod_mul by lia. lia.
Qed.

(** ** The plugin *)
Definition here (f : frame) : Prop := f_acq f = ""%string \/ f_acq f = n_acqid nm.
Definition frames (u : list ((io * io) * (io * frame))) : list frame := map snd (map snd u).

Lemma no_errors_meta i l : no_errors (map (Meta i) l).
Proof. apply Forall_forall. intros x H. apply in_map_iff in H. destruct H as (e & <- & _). exact Logic.I. Qed.
Lemma no_errors_app a b : no_errors a -> no_errors b -> no_errors (a ++ b).
Proof. intros H1 H2. apply Forall_app. split; assumption. Qed.

Record writing (w : fw) (s : st) : Prop := {
  wr_on : w_writing w = true; wr_cur : w_cur w = s_acq s; wr_disk : w_disk w = s_disk s; wr_log : w_log w = s_log s;
  wr_next : w_next w = no_prep; wr_set : settings (w_cur w) = settings a0 }.

Lemma stop_none i w : w_writing w = true -> w_next w = no_prep -> exists w' o, stop_acq i w = (w', Ret tt) /\
  w_out w' = w_out w ++ o /\ pushes o = [] /\ no_errors o /\ w_disk w' = w_disk w /\ w_writing w' = false.
Proof.
  intros W N. destruct (stop_thm i w W) as (w' & r & o & l & E & O & F & H).
  destruct H as [(R & _)|(R & -> & -> & D & W')].
  - destruct R as (P & _). rewrite N in P. destruct P as [P|P]; destruct P; reflexivity.
  - exists w', (map (Meta (n_acqid (a_naming (w_cur w)))) (l ++ [EvStop])). split; [exact E|]. split; [exact O|].
    split; [apply pushes_meta|]. split; [apply no_errors_meta|]. split; assumption.
Qed.

Lemma one_frame i0 i i1 f w s s1 r : writing w s -> here f -> process_frame i f s = (s1, Some r) -> written (Some r) = true ->
  exists w' o, fw_process_frame i0 i i1 f w = (w', Ret tt) /\ w_out w' = w_out w ++ o /\ pushes o = [f] /\ no_errors o /\
    w_disk w' = s_disk s1 /\ (r = SComplete -> w_writing w' = false) /\ (r <> SComplete -> writing w' s1).
Proof.
  intros [W1 W2 W3 W4 W5 W6] H E Wr.
  assert (Hc : for_current w f).
  { split; [exact W1|]. destruct H as [H|H]; [left; exact H|right]. rewrite H.
    apply settings_id in W6. unfold id_of in W6. rewrite W6. reflexivity. }
  rewrite (frame_current i0 i i1 w f Hc). unfold frame_stage.
  destruct (cur_process_run i f w) as (a & dk' & l & r' & E' & F & S & C).
  assert (Es : St (w_cur w) (w_disk w) (w_log w) = s) by (destruct s; cbn in *; congruence).
  rewrite Es, E in E'. injection E' as -> <-. unfold fbind at 1. rewrite C.
  set (w1 := say (map (Meta (id_of (w_cur w))) l) (set_acq a dk' (w_log w ++ l) w)).
  assert (Hw1 : writing w1 (St a dk' (w_log w ++ l))).
  { constructor; try reflexivity; [exact W1|exact W5|]. change (w_cur w1) with a. congruence. }
  assert (Ho1 : w_out w1 = w_out w ++ map (Meta (id_of (w_cur w))) l) by reflexivity.
  destruct r; try discriminate Wr.
  - exists (say [Push f] w1), (map (Meta (id_of (w_cur w))) l ++ [Push f]). split; [reflexivity|].
    split; [cbn [w_out say]; rewrite Ho1, app_assoc; reflexivity|].
    split; [rewrite pushes_app, pushes_meta; reflexivity|].
    split; [apply no_errors_app; [apply no_errors_meta|repeat constructor]|].
    split; [reflexivity|]. split; [congruence|]. intros _. destruct Hw1. constructor; assumption.
  - destruct (stop_none i1 w1 (wr_on _ _ Hw1) (wr_next _ _ Hw1)) as (w2 & o2 & E2 & O2 & P2 & N2 & D2 & S2).
    exists (say [Push f] w2), (map (Meta (id_of (w_cur w))) l ++ o2 ++ [Push f]).
    split; [unfold fbind; rewrite E2; reflexivity|].
    split; [cbn [w_out say]; rewrite O2, Ho1, <- !app_assoc; reflexivity|].
    split; [rewrite !pushes_app, pushes_meta, P2; reflexivity|].
    split; [apply no_errors_app; [apply no_errors_meta|apply no_errors_app; [exact N2|repeat constructor]]|].
    split; [exact D2|]. split; [intros _; exact S2|congruence].
  - exists (say [Push f] w1), (map (Meta (id_of (w_cur w))) l ++ [Push f]). split; [reflexivity|].
    split; [cbn [w_out say]; rewrite Ho1, app_assoc; reflexivity|].
    split; [rewrite pushes_app, pushes_meta; reflexivity|].
    split; [apply no_errors_app; [apply no_errors_meta|repeat constructor]|].
    split; [reflexivity|]. split; [congruence|]. intros _. destruct Hw1. constructor; assumption.
Qed.

Lemma NoDup_app_l {A} (l1 l2 : list A) : NoDup (l1 ++ l2) -> NoDup l1.
Proof. induction l1 as [|x l1 IH]; intros H; [constructor|]. inversion H; subst. constructor; [intros X; apply H2, in_or_app; left; exact X|auto]. Qed.

Lemma offered i0 s0 w : no_failure i0 -> start_acquisition i0 (St a0 dk []) = (s0, Ret true) -> writing w s0 ->
  forall u, Forall keeps (map snd u) -> Forall here (frames u) -> nearly_ordered g (frames u) -> NoDup (map adjusted (frames u)) ->
  exists w' rs s rs' o, fw_run w (offers u) = (w', rs) /\ Forall (eq (Ret tt)) rs /\
    run s0 (map snd u) = (s, rs') /\ List.length rs' = List.length (map snd u) /\ Forall (fun r => written r = true) rs' /\
    w_disk w' = s_disk s /\ w_out w' = w_out w ++ o /\ pushes o = frames u /\ no_errors o /\
    ((complete (frames u) /\ w_writing w' = false) \/ (~ complete (frames u) /\ writing w' s)).
Proof.
  intros H0 E Hw. induction u as [|c u IH] using rev_ind; intros F Hh O ND.
  - exists w, [], s0, [], []. cbn. rewrite app_nil_r. split; [reflexivity|]. split; [constructor|]. split; [reflexivity|].
    split; [reflexivity|]. split; [constructor|]. split; [apply (wr_disk _ _ Hw)|]. split; [reflexivity|]. split; [reflexivity|].
    split; [constructor|]. right. split; [|exact Hw]. intros C. destruct some_expected as (off & X). destruct (C off X) as (? & [] & _).
  - unfold frames in *. rewrite !map_app in *. cbn [map] in *.
    pose proof F as F'. apply Forall_app in F'. destruct F' as (F1 & F2).
    pose proof Hh as Hh'. apply Forall_app in Hh'. destruct Hh' as (Hh1 & Hh2). inversion Hh2 as [|? ? Hf _]; subst.
    destruct IH as (w1 & rs & s & rs' & o & E1 & Fr & Er & L & W & D & Oo & Po & No & C); auto.
    { apply nearly_app in O. exact O. } { apply NoDup_app_l in ND. exact ND. }
    assert (NU : ~ In Undef rs).
    { intros X. rewrite Forall_forall in Fr. specialize (Fr _ X). discriminate. }
    destruct c as ((j0 & j1) & c). cbn [snd fst] in *.
    inversion F2 as [|? ? Kc _]; subst.
    assert (NC : ~ complete (map snd (map snd u))).
    { intros X. destruct Kc as (_ & _ & Kc). destruct (wa_number _ _ _ _ _ Kc) as (off & Ea & Ex).
      destruct (X off Ex) as (f' & I' & Ef). apply NoDup_remove_2 in ND. apply ND. rewrite app_nil_r.
      apply in_map_iff. exists f'. split; [congruence|exact I']. }
    destruct C as [(C & _)|(_ & C)]; [contradiction|].
    assert (O' : nearly_ordered g (map snd (map snd u ++ [c]))) by (rewrite map_app; exact O).
    destruct (one_written i0 s0 (map snd u) s rs' c H0 E F O' Er) as (s1 & r & Ep & Wr).
    destruct (one_frame j0 (fst c) j1 (snd c) w1 s s1 r C Hf Ep Wr) as (w2 & o2 & E2 & Oo2 & Po2 & No2 & D2 & C2 & C2').
    pose proof (one_complete i0 s0 (map snd u) s rs' c s1 r H0 E F) as Hco. rewrite !map_app in Hco. cbn [map] in Hco.
    specialize (Hco ND Er L W Ep Wr).
    unfold offers. rewrite map_app. cbn [map fst snd].
    exists w2, (rs ++ [Ret tt]), s1, (rs' ++ [Some r]), (o ++ o2).
    split. { unfold offers in E1. rewrite (fw_run_app _ _ _ _ _ E1 NU). cbn [fw_run fw_call]. rewrite E2. reflexivity. }
    split; [apply Forall_app; split; [exact Fr|repeat constructor]|].
    split. { rewrite run_app, Er. cbn [fst snd]. destruct c as [ci cf]. cbn [run fst snd] in *. rewrite Ep. reflexivity. }
    split; [rewrite !app_length, L; reflexivity|].
    split; [apply Forall_app; split; [exact W|repeat constructor; exact Wr]|].
    split; [exact D2|]. split; [rewrite Oo2, Oo, app_assoc; reflexivity|].
    split; [rewrite pushes_app, Po, Po2; reflexivity|]. split; [apply no_errors_app; assumption|].
    destruct r; try discriminate Wr.
    + right. split; [intros X; apply Hco in X; discriminate|apply C2'; discriminate].
    + left. split; [apply Hco; reflexivity|apply C2; reflexivity].
    + right. split; [intros X; apply Hco in X; discriminate|apply C2'; discriminate].
Qed.

(** ** Reading back *)
Lemma last_stored_app h1 h2 ds off : last_stored (h1 ++ h2) ds off =
  match last_stored h2 ds off with Some x => Some x | None => last_stored h1 ds off end.
Proof.
  unfold last_stored. rewrite fold_left_app. generalize (fold_left (fun acc fb => if is_for ds off (fst fb) && snd fb then Some (f_data (fst fb)) else acc) h1 None).
  intros a. enough (G : forall b, fold_left (fun acc fb => if is_for ds off (fst fb) && snd fb then Some (f_data (fst fb)) else acc) h2
    (match b with Some x => Some x | None => a end) =
    match fold_left (fun acc fb => if is_for ds off (fst fb) && snd fb then Some (f_data (fst fb)) else acc) h2 b with Some x => Some x | None => a end)
    by exact (G None).
  induction h2 as [|(x & y) h2 IH]; intros b; [reflexivity|]. cbn [fold_left fst snd].
  destruct (is_for ds off x && y); [apply (IH (Some (f_data x)))|apply IH].
Qed.

Lemma last_stored_only : forall l (bs : list bool) f, List.length bs = List.length l -> Forall (eq true) bs ->
  NoDup (map adjusted l) -> In f l -> (0 <= adjusted f)%Z ->
  last_stored (combine l bs) (f_dataset f) (Z.to_N (adjusted f)) = Some (f_data f).
Proof.
  induction l as [|x l IH]; intros [|b bs] f L B ND I P; try discriminate L; [destruct I|]. destruct I as [I0|I]; [subst f|].
  - inversion B as [|? ? B1 B2]; subst. cbn [map] in ND. inversion ND as [|? ? N1 N2]; subst. cbn [combine].
    change ((x, true) :: combine l bs) with ([(x, true)] ++ combine l bs). rewrite last_stored_app.
    assert (H : last_stored (combine l bs) (f_dataset x) (Z.to_N (adjusted x)) = None).
    { clear IH ND N2 B B2 L. revert bs. induction l as [|y l IH]; intros [|b bs]; try reflexivity.
      cbn [combine]. change ((y, b) :: combine l bs) with ([(y, b)] ++ combine l bs). rewrite last_stored_app, IH.
      - unfold last_stored. cbn [fold_left fst snd]. unfold is_for.
        destruct (Z.eqb_spec (adjusted y) (Z.of_N (Z.to_N (adjusted x)))) as [E|_]; [|rewrite andb_false_r; reflexivity].
        destruct N1. left. lia.
      - intros X. apply N1. right. exact X. }
    rewrite H. unfold last_stored, is_for. cbn [fold_left fst snd]. rewrite String.eqb_refl, Z2N.id, Z.eqb_refl by lia. reflexivity.
  - inversion B as [|? ? B1 B2]; subst. cbn [map] in ND. inversion ND as [|? ? N1 N2]; subst. cbn [combine].
    change ((x, true) :: combine l bs) with ([(x, true)] ++ combine l bs). rewrite last_stored_app.
    rewrite (IH bs f) by (auto; cbn in L; lia). reflexivity.
Qed.

Lemma read_all i0 s0 t s rs : no_failure i0 -> start_acquisition i0 (St a0 dk []) = (s0, Ret true) ->
  Forall keeps t -> NoDup (map adjusted (map snd t)) -> run s0 t = (s, rs) -> List.length rs = List.length t ->
  Forall (fun r => written r = true) rs -> forall f, In f (map snd t) ->
  read (s_disk s) (path_of dir nm (file_of g f * g_procs g + g_rank g)) (f_dataset f) (place_of g f) = Some (f_data f).
Proof.
  intros H0 E F ND Er L W f I.
  destruct (readback g nm dir master total towrite defs K dk OK i0 s0 t s rs (proj1 H0) E (keeps_creates t F) Er)
    as (stored & _ & Hst & _ & Hr).
  assert (Es : stored = map written rs).
  { apply Hst; [exact H0|exact rows_all|]. eapply Forall_impl; [|exact F]. intros c (K1 & _ & K2). split; [exact K1|apply wanted_params, K2]. }
  assert (Kf : wanted g defs master total f).
  { apply in_map_iff in I. destruct I as (c & <- & I). rewrite Forall_forall in F. apply (F c I). }
  destruct (wa_number _ _ _ _ _ Kf) as (off & Ea & X). destruct (wa_matches _ _ _ _ _ Kf) as (d & Hd & Hn & _).
  assert (M : mine a0 off = true) by (apply (mine_iff g nm dir master total towrite defs), X).
  assert (Ek : file_of g f = N.of_nat (krow a0 off)) by (unfold file_of, krow; rewrite Ea, N2Z.id; change (a_geom a0) with g; lia).
  assert (Ep : place_of g f = kslot a0 off) by (unfold place_of, kslot; rewrite Ea, N2Z.id; reflexivity).
  specialize (Hr (file_of g f) d 1 (place_of g f)). cbn zeta in Hr.
  destruct Hr as (R1 & R2); [|exact Hd|apply UC, Hd| | |].
  - unfold file_of. rewrite Ea, N2Z.id. apply row_le, X.
  - rewrite Ek, Ep. apply (slot_of_exists g nm dir master total towrite defs K OK off M).
  - eapply Forall_impl; [|exact F]. intros c (_ & _ & K2). unfold not_param. rewrite (wa_params _ _ _ _ _ K2). intros [].
  - assert (Ef : frame_in (g_procs g) (g_fpb g) (g_bpf g) (g_rank g) (file_of g f) (place_of g f) = Z.to_N (adjusted f)).
    { rewrite Ek, Ep, Ea, N2Z.id. symmetry.
      apply (place_iff g nm dir master total towrite defs K OK off (krow a0 off) (kslot a0 off) M); [|split; reflexivity].
      apply (slot_of_exists g nm dir master total towrite defs K OK off M). }
    rewrite Ef, Hn in R1, R2. rewrite Es in R1, R2.
    assert (LS : last_stored (combine (map snd t) (map written rs)) (f_dataset f) (Z.to_N (adjusted f)) = Some (f_data f)).
    { apply last_stored_only; auto; [rewrite !map_length; exact L| |lia].
      apply Forall_forall. intros b Hb. apply in_map_iff in Hb. destruct Hb as (r & <- & Hr). rewrite Forall_forall in W. symmetry. apply W, Hr. }
    rewrite LS in R1, R2. rewrite N.mul_1_r in R1.
    destruct (in_dec string_dec (path_of dir nm (file_of g f * g_procs g + g_rank g)) (created (s_log s))) as [Y|Y]; [apply R1, Y|].
    specialize (R2 Y). discriminate R2.
Qed.
End Files.

(** The whole life of an acquisition: start, frames. *)
Theorem kept : forall w i0 u,
  let g := w_geom w in let p := w_next w in
  w_writing w = false -> prepared p ->
  setup_ok g (next_naming w) (w_defs w) (last_row (g_fpb g) (g_bpf g) (p_towrite p)) ->
  (forall d, In d (w_defs w) -> hd_error (d_chunks d) = Some 1) ->
  0 < p_total p <= 2 ^ 31 -> calc_num_frames g (p_total p) = Ret (p_towrite p) -> 0 < p_towrite p ->
  no_failure i0 -> Forall (fun c => no_failure (fst (snd c)) /\ io_write (fst (snd c)) = true) u ->
  let fs := map snd (map snd u) in
  Forall (wanted g (w_defs w) (w_master w) (p_total p)) fs ->
  Forall (fun f => f_acq f = ""%string \/ f_acq f = p_id p) fs ->
  nearly_ordered g fs -> NoDup (map adjusted fs) ->
  exists w' rs o, fw_run w (OExecute i0 CmdStart :: offers u) = (w', rs) /\ Forall (eq (Ret tt)) rs /\
    w_out w' = w_out w ++ o /\ pushes o = fs /\ no_errors o /\
    (w_writing w' = false <-> forall off, expects g (p_total p) off -> exists f, In f fs /\ adjusted f = Z.of_N off) /\
    forall f, In f fs ->
      read (w_disk w') (path_of (p_path p) (next_naming w) (file_of g f * g_procs g + g_rank g)) (f_dataset f) (place_of g f)
      = Some (f_data f).
Proof.
  intros w i0 u g p Wr Pr OK UC TOT CN POS H0 Fi fs Fw Fa O ND.
  assert (Fk : Forall (keeps g (w_master w) (p_total p) (w_defs w)) (map snd u)).
  { apply Forall_forall. intros c Hc. rewrite Forall_forall in Fi, Fw. pose proof Hc as Hc'. apply in_map_iff in Hc'.
    destruct Hc' as (c' & <- & Hc'). destruct (Fi _ Hc') as (A & B). split; [exact A|]. split; [exact B|]. apply Fw. unfold fs.
    apply in_map. exact Hc. }
  destruct (start_ok g (next_naming w) (p_path p) (w_master w) (p_total p) (p_towrite p) (w_defs w) _ (w_disk w) OK i0 H0
    (rows_all g (next_naming w) (p_total p) (p_towrite p) (w_defs w) OK UC TOT POS)) as (s0 & Es0).
  destruct (start_writing_run i0 w Wr) as [(U & _)|(n & Hn & [(NP & _)|(_ & a & dk & l & r & Es & Fl & St & _ & Ew)])].
  - exfalso. fold g p in U. rewrite CN in U. discriminate U.
  - contradiction.
  - fold g p in Hn. rewrite CN in Hn. injection Hn as <-. unfold next_acq in Es, St. fold g p in Es, St. rewrite Es0 in Es.
    injection Es as -> <-. cbn [fst] in Ew.
    set (w1 := set_writing true (say (map (Meta (p_id (w_next w))) (EvStart :: l)) (set_acq a dk (EvStart :: l) (set_next no_prep w)))) in Ew.
    assert (Hw : writing g (next_naming w) (p_path p) (w_master w) (p_total p) (p_towrite p) (w_defs w) w1 (AcqModel.St a dk (EvStart :: l))).
    { constructor; try reflexivity. exact St. }
    destruct (offered g (next_naming w) (p_path p) (w_master w) (p_total p) (p_towrite p) (w_defs w) (w_disk w) OK UC TOT CN POS
      i0 (AcqModel.St a dk (EvStart :: l)) w1 H0 Es0 Hw u Fk Fa O ND) as (w' & rs & s & rs' & o & E & Fr & Er & L & Wn & D & Oo & Po & No & C).
    assert (Ex : fw_call (OExecute i0 CmdStart) w = (w1, Ret tt)).
    { unfold fw_call, fw_execute. rewrite fbind_get. fold p.
      assert (T : (p_towrite p =? 0) = false) by (apply N.eqb_neq; lia). rewrite T, andb_false_r. exact Ew. }
    exists w', (Ret tt :: rs), (map (Meta (p_id p)) (EvStart :: l) ++ o).
    split. { cbn [fw_run]. rewrite Ex, E. reflexivity. }
    split; [constructor; [reflexivity|exact Fr]|].
    split. { rewrite Oo, app_assoc. reflexivity. }
    split; [rewrite pushes_app, pushes_meta; exact Po|].
    split; [apply no_errors_app; [apply no_errors_meta|exact No]|].
    split.
    { destruct C as [(C & C')|(C & C')].
      - split; [intros _; exact C|intros _; exact C'].
      - split; [intros X; rewrite (wr_on _ _ _ _ _ _ _ _ _ C') in X; discriminate|intros X; contradiction]. }
    intros f I. rewrite D.
    apply (read_all g (next_naming w) (p_path p) (w_master w) (p_total p) (p_towrite p) (w_defs w) (w_disk w) OK UC TOT CN POS
      i0 (AcqModel.St a dk (EvStart :: l)) (map snd u) s rs' H0 Es0 Fk ND Er L Wn f I).
Qed.
