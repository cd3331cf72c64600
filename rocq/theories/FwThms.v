(** Theorems about the file writer plugin. *)
From Verif Require Import Base StrOrder PlaceModel NameModel NameProofs AcqModel AcqSpec AcqProofs FwModel FwSpec FwProofs.
Local Open Scope N_scope.

Lemma settings_id a b : settings a = settings b -> id_of a = id_of b.
Proof. unfold settings, id_of. congruence. Qed.

Lemma stop_writing_run w : w_writing w = true -> exists a l,
  stop_writing w = (say (map (Meta (id_of (w_cur w))) (l ++ [EvStop]))
                        (set_acq a (w_disk w) (w_log w ++ l ++ [EvStop]) (set_writing false w)), Ret tt) /\
  Forall (fun e => exists p, e = EvClose p) l /\ settings a = settings (w_cur w).
Proof.
  intros W. unfold stop_writing. rewrite fbind_get, W, fbind_put. unfold on_cur. cbn [w_cur w_disk w_log set_writing].
  destruct (stop_run (St (w_cur w) (w_disk w) (w_log w))) as (a & l & -> & F & C). cbn [s_acq s_disk s_log] in *.
  exists a, l. rewrite skipn_app_len. split; [reflexivity|auto].
Qed.
Lemma stop_writing_idle w : w_writing w = false -> stop_writing w = (w, Ret tt).
Proof. intros W. unfold stop_writing. rewrite fbind_get, W. reflexivity. Qed.

(** The acquisition that start_writing makes out of the prepared one. *)
Definition next_naming (w : fw) : naming :=
  Naming (p_file (w_next w)) (p_id (w_next w)) (w_postfix w) (sanitise_ext (w_ext w)) (w_numbers w) (w_start w).
Definition next_acq (w : fw) (n : N) : acq :=
  configured (w_geom w) (next_naming w) (p_path (w_next w)) (w_master w) (p_total (w_next w)) n (w_defs w).

Lemma start_writing_run i w : w_writing w = false ->
  (calc_num_frames (w_geom w) (p_total (w_next w)) = Undef /\ start_writing i w = (w, Undef)) \/
  exists n, calc_num_frames (w_geom w) (p_total (w_next w)) = Ret n /\
  ((~ prepared (w_next w) /\ start_writing i w = (set_writing false (set_next no_prep (set_acq (next_acq w n) (w_disk w) [] w)), Ret tt)) \/
   (prepared (w_next w) /\ exists a dk l r,
      start_acquisition i (St (next_acq w n) (w_disk w) []) = (St a dk (EvStart :: l), r) /\
      Forall file_ev l /\ settings a = settings (next_acq w n) /\ r <> Ret false /\
      start_writing i w =
        (set_writing (match r with Ret _ => true | _ => false end)
           (say (map (Meta (p_id (w_next w))) (EvStart :: l)) (set_acq a dk (EvStart :: l) (set_next no_prep w))),
         match r with Ret _ => Ret tt | Throw e => Throw (FHdf5 e) | Undef => Undef end))).
Proof.
  intros W.
  assert (E : start_writing i w = match calc_num_frames (w_geom w) (p_total (w_next w)) with
    | Ret n => match on_cur (start_acquisition i) (set_next no_prep (set_acq (next_acq w n) (w_disk w) [] w)) with
               | (w2, Ret b) => (set_writing b w2, Ret tt)
               | (w2, Throw e) => (w2, Throw e)
               | (w2, Undef) => (w2, Undef)
               end
    | _ => (w, Undef) end).
  { unfold start_writing. rewrite fbind_get, W. unfold flift. destruct (calc_num_frames _ _) as [n|[]|]; reflexivity. }
  rewrite E. destruct (calc_num_frames _ _) as [n|[]|]; [right|left; auto]. exists n. split; [reflexivity|]. clear E.
  unfold on_cur. cbn [w_cur w_disk w_log set_next set_acq].
  assert (P : prepared (w_next w) <-> generate_filename (a_naming (next_acq w n)) (g_rank (a_geom (next_acq w n))) <> ""%string).
  { rewrite filename_nonempty. unfold prepared. cbn.
    destruct (String.eqb_spec (p_file (w_next w)) ""), (String.eqb_spec (p_id (w_next w)) ""); tauto. }
  destruct (start_run i (St (next_acq w n) (w_disk w) [])) as [(G & ->)|(G & a & dk & l & r & -> & F & C & R)]; cbn [s_acq s_disk s_log] in *.
  - left. split; [tauto|]. unfold say. cbn. rewrite app_nil_r. unfold set_writing, set_next, set_acq. cbn. reflexivity.
  - right. split; [tauto|]. exists a, dk, l, r. split; [reflexivity|]. split; [exact F|]. split; [exact C|]. split; [exact R|].
    cbn [List.length skipn app].
    assert (I : id_of (next_acq w n) = p_id (w_next w)) by reflexivity. rewrite I.
    destruct r as [[]|e|]; [reflexivity|congruence| |]; unfold set_writing, set_next, set_acq, say; cbn; rewrite W; reflexivity.
Qed.

Lemma same_output_iff c p : same_output c p = true <-> names_same c p.
Proof.
  unfold same_output, names_same, id_of. rewrite !andb_true_iff, orb_true_iff, !andb_true_iff, !negb_true_iff, !String.eqb_eq, !String.eqb_neq.
  tauto.
Qed.

(** C16 *)
Definition restarts (w : fw) : Prop :=
  prepared (w_next w) /\ ~ expects_none (w_next w) /\ ~ (w_writing w = true /\ names_same (w_cur w) (w_next w)).

Lemma prepared_bool p : negb (String.eqb (p_file p) "") || negb (String.eqb (p_id p) "") = true <-> prepared p.
Proof. unfold prepared. rewrite orb_true_iff, !negb_true_iff, !String.eqb_neq. tauto. Qed.
Lemma expects_bool p : (0 <? p_total p) && (p_towrite p =? 0) = true <-> expects_none p.
Proof. unfold expects_none. rewrite andb_true_iff. lia. Qed.

Lemma set_active_eq w : set_active (w_active w) w = w.
Proof. destruct w; reflexivity. Qed.

(** stop_acq, given what stop_writing did. *)
Lemma stop_acq_run i w w1 : stop_writing w = (w1, Ret tt) ->
  (restarts w /\ stop_acq i w = (let '(w2, r) := start_writing i w1 in
                                 match r with Ret _ => (set_active false w2, Ret tt) | Throw e => (w2, Throw e) | Undef => (w2, Undef) end)) \/
  (~ restarts w /\ exists p, (p = w_next w1 \/ p = no_prep) /\ stop_acq i w = (set_active false (set_next p w1), Ret tt)).
Proof.
  intros H.
  assert (E : stop_acq i w = fbind
    (if negb (w_writing w && same_output (w_cur w) (w_next w)) &&
        (negb (String.eqb (p_file (w_next w)) "") || negb (String.eqb (p_id (w_next w)) "")) then
       if (0 <? p_total (w_next w)) && (p_towrite (w_next w) =? 0) then fput (set_next no_prep) else start_writing i
     else fret tt) (fun _ => fput (set_active false)) w1).
  { unfold stop_acq. rewrite fbind_get. cbv zeta. unfold fbind at 1. rewrite H. reflexivity. }
  rewrite E. clear E.
  assert (S : w_writing w && same_output (w_cur w) (w_next w) = true <-> (w_writing w = true /\ names_same (w_cur w) (w_next w))).
  { rewrite andb_true_iff, same_output_iff. tauto. }
  pose proof (prepared_bool (w_next w)) as P. pose proof (expects_bool (w_next w)) as X. unfold restarts.
  destruct (w_writing w && same_output (w_cur w) (w_next w)); cbn [negb andb].
  { right. split; [tauto|]. exists (w_next w1). split; [auto|]. unfold fbind, fret, fput. destruct w1; reflexivity. }
  destruct (negb (String.eqb (p_file (w_next w)) "") || negb (String.eqb (p_id (w_next w)) "")).
  2: { right. split; [intros (A & _); apply P in A; discriminate|]. exists (w_next w1). split; [auto|]. unfold fbind, fret, fput. destruct w1; reflexivity. }
  destruct ((0 <? p_total (w_next w)) && (p_towrite (w_next w) =? 0)).
  - right. split; [tauto|]. exists no_prep. split; [auto|reflexivity].
  - left. split; [split; [tauto|split; [intros A; apply X in A; discriminate|intros A; apply S in A; discriminate]]|].
    unfold fbind. destruct (start_writing i w1) as [w2 [[]|e|]]; reflexivity.
Qed.

(** The log of calls: what is added. *)
Definition adds (w w' : fw) (o : list out) : Prop := w_out w' = w_out w ++ o.

Lemma stop_writing_full w : exists w1 o, stop_writing w = (w1, Ret tt) /\ adds w w1 o /\ w_writing w1 = false /\
  w_disk w1 = w_disk w /\ w_next w1 = w_next w /\ w_geom w1 = w_geom w /\ w_defs w1 = w_defs w /\ w_active w1 = w_active w /\
  settings (w_cur w1) = settings (w_cur w) /\ next_naming w1 = next_naming w /\ w_master w1 = w_master w /\
  (w_writing w = false -> w1 = w) /\
  (if w_writing w then exists l, o = map (Meta (id_of (w_cur w))) (l ++ [EvStop]) /\ Forall (fun e => exists p, e = EvClose p) l
   else o = []).
Proof.
  destruct (w_writing w) eqn:W.
  - destruct (stop_writing_run w W) as (a & l & E & F & C). eexists _, _. split; [exact E|].
    split; [reflexivity|]. split; [reflexivity|]. cbn. repeat (split; [solve [auto|discriminate]|]). exists l. auto.
  - exists w, []. split; [apply stop_writing_idle, W|]. split; [unfold adds; rewrite app_nil_r; auto|].
    repeat (split; [solve [auto]|]). reflexivity.
Qed.

Lemma stop_thm i w : w_writing w = true -> exists w' r o l, stop_acq i w = (w', r) /\ w_out w' = w_out w ++ o /\
  Forall (fun e => exists p, e = EvClose p) l /\
  ((restarts w /\ (r = Undef \/ exists l', o = map (Meta (n_acqid (a_naming (w_cur w)))) (l ++ [EvStop]) ++
                              map (Meta (p_id (w_next w))) (EvStart :: l') /\ (w_writing w' = true <-> r = Ret tt))) \/
   (~ restarts w /\ r = Ret tt /\ o = map (Meta (n_acqid (a_naming (w_cur w)))) (l ++ [EvStop]) /\ w_disk w' = w_disk w /\ w_writing w' = false)).
Proof.
  intros W. destruct (stop_writing_full w) as (w1 & o1 & E1 & A1 & W1 & D1 & N1 & G1 & Df1 & Ac1 & S1 & Nm1 & M1 & _ & O1).
  rewrite W in O1. destruct O1 as (l & -> & F).
  destruct (stop_acq_run i w w1 E1) as [(R & E)|(R & p & Hp & E)].
  - destruct (start_writing_run i w1 W1) as [(U & E2)|(n & Hn & [(NP & E2)|(P & a & dk & l2 & r & Es & F2 & C2 & Rf & E2)])].
    + rewrite E2 in E. eexists _, _, _, l. split; [exact E|]. split; [exact A1|]. split; [exact F|]. left. auto.
    + destruct NP. rewrite N1. apply R.
    + rewrite E2 in E. rewrite N1 in E.
      assert (O2 : w_out (fst (stop_acq i w)) = w_out w ++ map (Meta (id_of (w_cur w))) (l ++ [EvStop]) ++ map (Meta (p_id (w_next w))) (EvStart :: l2)).
      { rewrite E. destruct r as [[]|e|]; cbn [fst set_active w_out set_writing say set_acq set_next]; rewrite A1, app_assoc; reflexivity. }
      destruct (stop_acq i w) as [w' r'] eqn:Ew. exists w', r', (map (Meta (id_of (w_cur w))) (l ++ [EvStop]) ++ map (Meta (p_id (w_next w))) (EvStart :: l2)), l.
      split; [reflexivity|]. split; [exact O2|]. split; [exact F|]. left. split; [exact R|]. right. exists l2. split; [reflexivity|].
      destruct r as [[]|e|]; injection E as -> ->; cbn; split; congruence.
  - rewrite E. eexists _, _, _, l. split; [reflexivity|]. split; [exact A1|]. split; [exact F|]. right.
    split; [exact R|]. split; [reflexivity|]. split; [reflexivity|]. split; [exact D1|exact W1].
Qed.

(** ** Frames *)
Definition frame_stage (i i1 : io) (f : frame) : FM unit :=
  fbind (cur_process i f) (fun r =>
    fbind (match r with
           | SComplete => stop_acq i1
           | SInvalid => fput (say [Err ErrInvalid])
           | SOk | SMissing => fret tt
           end) (fun _ => fput (say [Push f]))).

Lemma frame_in_cases w f : for_current w f \/ (w_writing w = false /\ f_acq f = ""%string) \/ for_next w f \/
  (f_acq f <> ""%string /\ ~ for_current w f /\ f_acq f <> p_id (w_next w)).
Proof.
  unfold for_next, for_current.
  destruct (String.eqb_spec (f_acq f) ""), (String.eqb_spec (f_acq f) (n_acqid (a_naming (w_cur w)))), (w_writing w),
    (String.eqb_spec (f_acq f) (p_id (w_next w))); intuition congruence.
Qed.

Lemma frame_current i0 i i1 w f : for_current w f -> fw_process_frame i0 i i1 f w = frame_stage i i1 f w.
Proof.
  intros (W & H). unfold fw_process_frame, frame_in_acq.
  assert (E : fbind fget (fun w0 =>
     if String.eqb (f_acq f) "" then fret true
     else if w_writing w0 && String.eqb (f_acq f) (id_of (w_cur w0)) then fret true
     else if String.eqb (f_acq f) (p_id (w_next w0)) then fbind stop_writing (fun _ => fbind (start_writing i0) (fun _ => fret true))
     else fbind (if w_writing w0 then fput (say [Err ErrUnexpectedId]) else fret tt) (fun _ => fret false)) w = (w, Ret true)).
  { rewrite fbind_get. destruct (String.eqb_spec (f_acq f) ""); [reflexivity|]. destruct H as [H|H]; [congruence|].
    rewrite W. unfold id_of. rewrite H, String.eqb_refl. reflexivity. }
  unfold fbind at 1. rewrite E. cbn [negb]. rewrite fbind_get, W. reflexivity.
Qed.

Lemma frame_idle i0 i i1 w f : w_writing w = false -> f_acq f = ""%string -> fw_process_frame i0 i i1 f w = (w, Ret tt).
Proof.
  intros W H. unfold fw_process_frame, frame_in_acq, fbind at 1. rewrite fbind_get, H. cbn. rewrite W. reflexivity.
Qed.

Lemma frame_unknown i0 i i1 w f : f_acq f <> ""%string -> ~ for_current w f -> f_acq f <> p_id (w_next w) ->
  fw_process_frame i0 i i1 f w = (say (if w_writing w then [Err ErrUnexpectedId] else []) w, Ret tt).
Proof.
  intros H1 H2 H3. unfold fw_process_frame, frame_in_acq, fbind at 1. rewrite fbind_get.
  destruct (String.eqb_spec (f_acq f) ""); [congruence|].
  destruct (String.eqb_spec (f_acq f) (p_id (w_next w))); [congruence|].
  destruct (String.eqb_spec (f_acq f) (id_of (w_cur w))) as [E|E]; destruct (w_writing w) eqn:W; cbn;
    try (unfold say; rewrite app_nil_r; destruct w; reflexivity); try reflexivity.
  destruct H2. split; [exact W|right; exact E].
Qed.

(** The named next acquisition is started: the current one is closed first. *)
Lemma frame_next i0 i i1 w f : for_next w f ->
  exists w1, stop_writing w = (w1, Ret tt) /\
  ((exists w2, start_writing i0 w1 = (w2, Ret tt) /\ w_writing w2 = true /\ fw_process_frame i0 i i1 f w = frame_stage i i1 f w2) \/
   (exists w2 r, start_writing i0 w1 = (w2, r) /\ r <> Ret tt /\ fw_process_frame i0 i i1 f w = (w2, r))).
Proof.
  intros (H1 & H2 & H3). destruct (stop_writing_full w) as (w1 & o1 & E1 & A1 & W1 & D1 & N1 & _).
  exists w1. split; [exact E1|].
  assert (E : fw_process_frame i0 i i1 f w = match start_writing i0 w1 with
     | (w2, Ret _) => fbind fget (fun w => if negb (w_writing w) then fret tt else frame_stage i i1 f) w2
     | (w2, Throw e) => (w2, Throw e) | (w2, Undef) => (w2, Undef) end).
  { unfold fw_process_frame, frame_in_acq, fbind at 1. rewrite fbind_get.
    destruct (String.eqb_spec (f_acq f) ""); [congruence|].
    destruct (String.eqb_spec (f_acq f) (p_id (w_next w))); [|congruence].
    assert (C : w_writing w && String.eqb (f_acq f) (id_of (w_cur w)) = false).
    { apply andb_false_iff. destruct (w_writing w) eqn:W; [right|left; reflexivity]. apply String.eqb_neq. intros E. apply H3.
      split; [exact W|right; exact E]. }
    rewrite C. unfold fbind at 1. rewrite E1. unfold fbind at 1.
    destruct (start_writing i0 w1) as [w2 [[]|x|]]; reflexivity. }
  assert (P : prepared (w_next w1)) by (right; rewrite N1; congruence).
  destruct (start_writing_run i0 w1 W1) as [(U & E2)|(n & Hn & [(NP & E2)|(_ & a & dk & l2 & r & Es & F2 & C2 & Rf & E2)])]; [|tauto|].
  - right. exists w1, Undef. rewrite E, E2. repeat split; auto. discriminate.
  - rewrite E, E2. destruct r as [b|e|].
    + left. eexists. split; [reflexivity|]. split; reflexivity.
    + right. eexists _, _. split; [reflexivity|]. split; [discriminate|reflexivity].
    + right. eexists _, _. split; [reflexivity|]. split; [discriminate|reflexivity].
Qed.

Lemma cur_process_run i f w : exists a dk l r,
  process_frame i f (St (w_cur w) (w_disk w) (w_log w)) = (St a dk (w_log w ++ l), r) /\ Forall work_ev l /\
  settings a = settings (w_cur w) /\
  cur_process i f w = (say (map (Meta (id_of (w_cur w))) l) (set_acq a dk (w_log w ++ l) w),
                       match r with Some r => Ret r | None => Undef end).
Proof.
  destruct (stable_process i f (St (w_cur w) (w_disk w) (w_log w))) as (C & l & L & F). cbn [s_acq s_log] in *.
  unfold cur_process, on_cur.
  destruct (process_frame i f (St (w_cur w) (w_disk w) (w_log w))) as [[a dk lg] r] eqn:E. cbn in C, L. subst lg.
  exists a, dk, l, r. split; [reflexivity|]. split; [exact F|]. split; [exact C|].
  destruct r; cbn; rewrite skipn_app_len; reflexivity.
Qed.

Definition writes_only (id : string) (o : list out) : Prop := forall i e, In (Meta i e) o -> is_write e = true -> i = id.
Lemma writes_app id o1 o2 : writes_only id o1 -> writes_only id o2 -> writes_only id (o1 ++ o2).
Proof. intros H1 H2 i e H. apply in_app_iff in H. destruct H; eauto. Qed.
Lemma writes_none id i l : Forall (fun e => is_write e = false) l -> writes_only id (map (Meta i) l).
Proof.
  intros F i' e H. apply in_map_iff in H. destruct H as (x & [= <- <-] & H). rewrite Forall_forall in F. rewrite (F _ H). discriminate.
Qed.
Lemma writes_own id l : writes_only id (map (Meta id) l).
Proof. intros i' e H _. apply in_map_iff in H. destruct H as (x & [= <- <-] & H). reflexivity. Qed.
Lemma pushes_meta i l : pushes (map (Meta i) l) = [].
Proof. induction l; cbn; auto. Qed.
Lemma pushes_app a b : pushes (a ++ b) = pushes a ++ pushes b.
Proof. unfold pushes. apply flat_map_app. Qed.
Lemma closes_quiet l : Forall (fun e => exists p, e = EvClose p) l -> Forall (fun e => is_write e = false) (l ++ [EvStop]).
Proof. intros F. apply Forall_app. split; [|repeat constructor]. eapply Forall_impl; [|exact F]. intros e (p & ->). reflexivity. Qed.
Lemma file_quiet l : Forall file_ev l -> Forall (fun e => is_write e = false) l.
Proof. apply Forall_impl. intros []; cbn; tauto. Qed.

(** Outputs of the parts: pushes nothing, announces no write. *)
Definition quiet (o : list out) : Prop := pushes o = [] /\ (forall id, writes_only id o) /\ eoas o = 0%nat.
Lemma eoas_app a b : eoas (a ++ b) = (eoas a + eoas b)%nat.
Proof. unfold eoas. rewrite filter_app, app_length. reflexivity. Qed.
Lemma eoas_meta i l : eoas (map (Meta i) l) = 0%nat.
Proof. induction l; cbn; auto. Qed.
Lemma quiet_app a b : quiet a -> quiet b -> quiet (a ++ b).
Proof.
  intros (A & B & C) (D & E & F). split; [rewrite pushes_app, A, D; reflexivity|]. split; [intros; apply writes_app; auto|].
  rewrite eoas_app, C, F. reflexivity.
Qed.
Lemma quiet_meta i l : Forall (fun e => is_write e = false) l -> quiet (map (Meta i) l).
Proof. intros H. split; [apply pushes_meta|]. split; [intros; apply writes_none, H|apply eoas_meta]. Qed.
Lemma quiet_nil : quiet [].
Proof. repeat split. intros id i e []. Qed.
Lemma quiet_err k : quiet [Err k].
Proof. repeat split. intros id i e [H|[]]. discriminate. Qed.
Lemma quiet_errors o : only_errors o -> quiet o.
Proof. induction 1 as [|x o (k & ->) F IH]; [apply quiet_nil|]. apply (quiet_app [Err k] o); [apply quiet_err|exact IH]. Qed.

Definition calm {A} (m : FM A) : Prop := forall w, exists o, w_out (fst (m w)) = w_out w ++ o /\ quiet o.
Lemma calm_stop_writing : calm stop_writing.
Proof.
  intros w. destruct (stop_writing_full w) as (w1 & o & E & A & _ & _ & _ & _ & _ & _ & _ & _ & _ & _ & O). rewrite E.
  exists o. split; [exact A|]. destruct (w_writing w); [|subst o; apply quiet_nil]. destruct O as (l & -> & F).
  apply quiet_meta, closes_quiet, F.
Qed.
Lemma calm_start_writing i : calm (start_writing i).
Proof.
  intros w. destruct (w_writing w) eqn:W.
  { unfold start_writing. rewrite fbind_get, W. exists []. rewrite app_nil_r. split; [reflexivity|apply quiet_nil]. }
  destruct (start_writing_run i w W) as [(U & E2)|(n & Hn & [(NP & E2)|(_ & a & dk & l2 & r & Es & F2 & C2 & Rf & E2)])]; rewrite E2.
  - exists []. rewrite app_nil_r. split; [reflexivity|apply quiet_nil].
  - exists []. rewrite app_nil_r. split; [reflexivity|apply quiet_nil].
  - exists (map (Meta (p_id (w_next w))) (EvStart :: l2)). split; [reflexivity|]. apply quiet_meta. constructor; [reflexivity|apply file_quiet, F2].
Qed.
Lemma calm_stop_acq i : calm (stop_acq i).
Proof.
  intros w. destruct (stop_writing_full w) as (w1 & o1 & E1 & A1 & _).
  destruct (calm_stop_writing w) as (o1' & A1' & Q1). rewrite E1 in A1'. cbn in A1'.
  destruct (stop_acq_run i w w1 E1) as [(R & E)|(R & p & Hp & E)]; rewrite E.
  - destruct (calm_start_writing i w1) as (o2 & A2 & Q2). destruct (start_writing i w1) as [w2 r]. cbn in A2.
    exists (o1' ++ o2). split; [destruct r; cbn; rewrite A2, A1', app_assoc; reflexivity|apply quiet_app; auto].
  - exists o1'. split; [exact A1'|exact Q1].
Qed.

Lemma stage_out i i1 f w : exists o, w_out (fst (frame_stage i i1 f w)) = w_out w ++ o /\
  writes_only (id_of (w_cur w)) o /\ eoas o = 0%nat /\ (snd (frame_stage i i1 f w) = Ret tt /\ pushes o = [f] \/ snd (frame_stage i i1 f w) <> Ret tt /\ pushes o = []).
Proof.
  destruct (cur_process_run i f w) as (a & dk & l & r & Ep & Fl & C & E). unfold frame_stage.
  set (w1 := say (map (Meta (id_of (w_cur w))) l) (set_acq a dk (w_log w ++ l) w)) in *.
  unfold fbind at 1 3 5. rewrite E.
  assert (A : w_out w1 = w_out w ++ map (Meta (id_of (w_cur w))) l) by reflexivity.
  assert (Hc : forall m : FM unit, calm m -> exists o, w_out (fst (fbind m (fun _ => fput (say [Push f])) w1)) = w_out w ++ o /\
     writes_only (id_of (w_cur w)) o /\ eoas o = 0%nat /\
     (snd (fbind m (fun _ => fput (say [Push f])) w1) = Ret tt /\ pushes o = [f] \/
      snd (fbind m (fun _ => fput (say [Push f])) w1) <> Ret tt /\ pushes o = [])).
  { intros m Hm. destruct (Hm w1) as (o & O & (Q1 & Q2 & Q3)). unfold fbind. destruct (m w1) as [w2 [[]|e|]]; cbn [fst snd fput] in *.
    - exists (map (Meta (id_of (w_cur w))) l ++ o ++ [Push f]). split; [cbn; rewrite O, A, <- !app_assoc; reflexivity|].
      split; [|split; [rewrite !eoas_app, eoas_meta, Q3; reflexivity|left; split; [reflexivity|rewrite !pushes_app, pushes_meta, Q1; reflexivity]]].
      apply writes_app; [apply writes_own|apply writes_app; [apply Q2|]]. intros i' e [H|[]]. discriminate.
    - exists (map (Meta (id_of (w_cur w))) l ++ o). split; [rewrite O, A, app_assoc; reflexivity|].
      split; [|split; [rewrite !eoas_app, eoas_meta, Q3; reflexivity|right; split; [discriminate|rewrite !pushes_app, pushes_meta, Q1; reflexivity]]].
      apply writes_app; [apply writes_own|apply Q2].
    - exists (map (Meta (id_of (w_cur w))) l ++ o). split; [rewrite O, A, app_assoc; reflexivity|].
      split; [|split; [rewrite !eoas_app, eoas_meta, Q3; reflexivity|right; split; [discriminate|rewrite !pushes_app, pushes_meta, Q1; reflexivity]]].
      apply writes_app; [apply writes_own|apply Q2]. }
  destruct r as [r|].
  - apply (Hc (match r with SComplete => stop_acq i1 | SInvalid => fput (say [Err ErrInvalid]) | SOk | SMissing => fret tt end)).
    destruct r.
    + intros w0. exists []. rewrite app_nil_r. split; [reflexivity|apply quiet_nil].
    + apply calm_stop_acq.
    + intros w0. exists []. rewrite app_nil_r. split; [reflexivity|apply quiet_nil].
    + intros w0. exists [Err ErrInvalid]. split; [reflexivity|apply quiet_err].
  - exists (map (Meta (id_of (w_cur w))) l). split; [exact A|]. split; [apply writes_own|]. split; [apply eoas_meta|right; split; [discriminate|apply pushes_meta]].
Qed.

(** C15/C17: what a frame makes the plugin send out. *)
Lemma frame_out i0 i i1 f w w' r : fw_process_frame i0 i i1 f w = (w', r) -> exists o, w_out w' = w_out w ++ o /\
  (f_acq f <> ""%string -> writes_only (f_acq f) o) /\ (f_acq f = ""%string -> writes_only (n_acqid (a_naming (w_cur w))) o) /\
  eoas o = 0%nat /\
  ((r = Ret tt /\ (for_current w f \/ for_next w f) /\ pushes o = [f]) \/
   (~ (r = Ret tt /\ (for_current w f \/ for_next w f)) /\ pushes o = [])).
Proof.
  intros E. destruct (frame_in_cases w f) as [H|[(H1 & H2)|[H|(H1 & H2 & H3)]]].
  - rewrite (frame_current i0 i i1 w f H) in E. destruct (stage_out i i1 f w) as (o & O & Wo & Q & P). rewrite E in O, P.
    cbn in O, P. exists o. split; [exact O|]. destruct H as (W & Hid).
    split; [intros N; destruct Hid as [Hid|Hid]; [congruence|rewrite Hid; exact Wo]|]. split; [intros _; exact Wo|]. split; [exact Q|].
    destruct P as [(P1 & P2)|(P1 & P2)]; [left|right]; split; try tauto. split; [left; split; auto|exact P2].
  - rewrite (frame_idle i0 i i1 w f H1 H2) in E. injection E as <- <-. exists []. rewrite app_nil_r. split; [reflexivity|].
    split; [intros _ ? ? []|]. split; [intros _ ? ? []|]. split; [reflexivity|]. right. split; [|reflexivity].
    unfold for_current, for_next. intros (_ & [(A & _)|(A & _)]); congruence.
  - pose proof H as (N1 & N2 & N3).
    destruct (frame_next i0 i i1 w f H) as (w1 & E1 & [(w2 & E2 & W2 & E3)|(w2 & r' & E2 & R2 & E3)]); rewrite E3 in E.
    + destruct (calm_stop_writing w) as (o1 & O1 & Q1). rewrite E1 in O1. cbn in O1.
      destruct (calm_start_writing i0 w1) as (o2 & O2 & Q2). rewrite E2 in O2. cbn in O2.
      destruct (stage_out i i1 f w2) as (o & O & Wo & Q & P). rewrite E in O, P. cbn in O, P.
      assert (I2 : id_of (w_cur w2) = f_acq f).
      { destruct (stop_writing_full w) as (w1' & ? & E1' & _ & W1 & _ & Nx & _). rewrite E1 in E1'. injection E1' as <-.
        destruct (start_writing_run i0 w1 W1) as [(U & E2')|(n & Hn & [(NP & E2')|(_ & a & dk & l2 & r3 & Es & F2 & C2 & Rf & E2')])];
          rewrite E2' in E2.
        - discriminate.
        - injection E2 as <-. cbn in W2. discriminate.
        - injection E2 as <- _. cbn. rewrite (settings_id _ _ C2). unfold next_acq, id_of. cbn. rewrite Nx. congruence. }
      exists (o1 ++ o2 ++ o). split; [rewrite O, O2, O1, <- !app_assoc; reflexivity|].
      destruct Q1 as (Q11 & Q12 & Q13), Q2 as (Q21 & Q22 & Q23).
      split; [intros _; apply writes_app; [auto|apply writes_app; [auto|rewrite <- I2; exact Wo]]|].
      split; [intros; congruence|]. split; [rewrite !eoas_app, Q13, Q23, Q; reflexivity|].
      rewrite !pushes_app, Q11, Q21. cbn.
      destruct P as [(P1 & P2)|(P1 & P2)]; [left|right]; split; try tauto.
    + injection E as <- <-.
      destruct (calm_stop_writing w) as (o1 & O1 & Q1). rewrite E1 in O1. cbn in O1.
      destruct (calm_start_writing i0 w1) as (o2 & O2 & Q2). rewrite E2 in O2. cbn in O2.
      destruct (quiet_app _ _ Q1 Q2) as (QA & QB & QC).
      exists (o1 ++ o2). split; [rewrite O2, O1, <- app_assoc; reflexivity|]. split; [auto|]. split; [auto|]. split; [auto|].
      right. split; [tauto|exact QA].
  - rewrite (frame_unknown i0 i i1 w f H1 H2 H3) in E. injection E as <- <-. eexists. split; [reflexivity|].
    assert (Q : quiet (if w_writing w then [Err ErrUnexpectedId] else [])) by (destruct (w_writing w); [apply quiet_err|apply quiet_nil]).
    destruct Q as (QA & QB & QC). split; [auto|]. split; [auto|]. split; [auto|]. right. split; [|exact QA].
    unfold for_next. intros (_ & [A|(_ & A & _)]); congruence.
Qed.

(** The switch to the named next acquisition: the current one is closed and its stop announced before the start. *)
Lemma frame_switch i0 i i1 f w w' r : for_next w f -> w_writing w = true -> fw_process_frame i0 i i1 f w = (w', r) ->
  exists l o, Forall (fun e => exists p, e = EvClose p) l /\
    w_out w' = w_out w ++ map (Meta (n_acqid (a_naming (w_cur w)))) (l ++ [EvStop]) ++ o /\
    (o = [] /\ r = Undef \/ exists o', o = Meta (f_acq f) EvStart :: o').
Proof.
  intros H W E. pose proof H as (N1 & N2 & N3).
  destruct (stop_writing_full w) as (w1 & o1 & E1 & A1 & W1 & D1 & Nx & _ & _ & _ & _ & _ & _ & _ & O1). rewrite W in O1.
  destruct O1 as (l & -> & Fl). exists l. unfold adds in A1. fold (id_of (w_cur w)).
  destruct (start_writing_run i0 w1 W1) as [(U & E2)|(n & Hn & [(NP & E2)|(_ & a & dk & l2 & r3 & Es & F2 & C2 & Rf & E2)])].
  - destruct (frame_next i0 i i1 w f H) as (w1' & E1' & [(w2 & E2' & W2 & E3)|(w2 & r' & E2' & R2 & E3)]);
      rewrite E1 in E1'; injection E1' as <-; rewrite E2 in E2'; [discriminate|]. injection E2' as <- <-. rewrite E in E3. injection E3 as -> ->.
    exists []. split; [exact Fl|]. rewrite app_nil_r. split; [exact A1|]. left. auto.
  - destruct NP. right. rewrite Nx. congruence.
  - assert (A2 : w_out (fst (start_writing i0 w1)) = w_out w ++ map (Meta (id_of (w_cur w))) (l ++ [EvStop]) ++ Meta (f_acq f) EvStart :: map (Meta (f_acq f)) l2).
    { rewrite E2. cbn. rewrite A1, Nx, N2, <- app_assoc. reflexivity. }
    destruct (frame_next i0 i i1 w f H) as (w1' & E1' & [(w2 & E2' & W2 & E3)|(w2 & r' & E2' & R2 & E3)]);
      rewrite E1 in E1'; injection E1' as <-; rewrite E2' in A2; cbn in A2; rewrite E3 in E.
    + destruct (stage_out i i1 f w2) as (o & O & _). rewrite E in O. cbn in O.
      eexists. split; [exact Fl|]. split; [rewrite O, A2, <- !app_assoc; cbn; reflexivity|]. right. eauto.
    + injection E as <- <-. eexists. split; [exact Fl|]. split; [exact A2|]. right. eauto.
Qed.

(** ** Invariant of all calls *)
Section Inv.
Context (P : io -> Prop) (Q : io * frame -> Prop).

(** [pend]: a frame given to the acquisition but not yet pushed. *)
Definition run_inv (pend : list frame) (w : fw) : Prop := exists i0 dk t pre,
  P i0 /\ running w i0 dk t /\ Forall Q t /\
  Forall (fun c => f_acq (snd c) = ""%string \/ f_acq (snd c) = n_acqid (a_naming (w_cur w))) t /\
  NoDup (map d_name (a_defs (w_cur w))) /\ pushes (w_out w) ++ pend = pre ++ map snd t.
Definition inv (w : fw) : Prop :=
  (w_writing w = true -> run_inv [] w) /\ 1 <= g_fpb (w_geom w) /\ defs_ok (w_defs w).

Lemma run_inv_ext pend w w' : w_geom w' = w_geom w -> w_cur w' = w_cur w -> w_disk w' = w_disk w -> w_log w' = w_log w ->
  pushes (w_out w') = pushes (w_out w) -> run_inv pend w -> run_inv pend w'.
Proof.
  intros H1 H2 H3 H4 H5 (i0 & dk & t & pre & A & (s0 & rs & B) & C). exists i0, dk, t, pre. rewrite H2, H5.
  split; [exact A|]. split; [|exact C]. exists s0, rs. rewrite H1, H2, H3, H4. exact B.
Qed.

Lemma run_snoc s0 t s rs i f : run s0 t = (s, rs) ->
  run s0 (t ++ [(i, f)]) = (fst (process_frame i f s), rs ++ [snd (process_frame i f s)]).
Proof.
  revert s0 s rs. induction t as [|[i' f'] t IH]; intros s0 s rs; cbn.
  - intros [= <- <-]. destruct (process_frame i f s0). reflexivity.
  - destruct (process_frame i' f' s0) as [s1 r1]. destruct (run s1 t) as [s2 r2] eqn:E. intros [= <- <-].
    rewrite (IH _ _ _ E). reflexivity.
Qed.

Lemma inv_configure ok c w w' r : inv w -> fw_configure ok c w = (w', r) -> inv w'.
Proof.
  intros (A & B & C) E. pose proof (cfgs_configure ok c w) as H. rewrite E in H. cbn in H.
  destruct H as (A1 & A2 & A3 & A4 & A5 & A6 & A7 & A8 & o & O & F). split; [|auto].
  intros W. rewrite A1 in W. eapply run_inv_ext; [auto|exact A2|exact A3|exact A4| |auto].
  rewrite O, pushes_app. destruct (quiet_errors o F) as (-> & _). apply app_nil_r.
Qed.

Lemma inv_stop_writing w w' r : inv w -> stop_writing w = (w', r) -> inv w' /\ w_writing w' = false.
Proof.
  intros (A & B & C) E. destruct (stop_writing_full w) as (w1 & o & E1 & A1 & W1 & D1 & N1 & G1 & Df1 & _).
  rewrite E in E1. injection E1 as -> ->. split; [|exact W1]. split; [congruence|]. rewrite G1, Df1. auto.
Qed.

Lemma inv_start_writing i w w' r : P i -> inv w -> w_writing w = false -> start_writing i w = (w', r) -> r <> Undef ->
  inv w' /\ pushes (w_out w') = pushes (w_out w) /\ forall pend, w_writing w' = true -> run_inv pend w'.
Proof.
  intros Hi (A & B & C) W E R.
  assert (G : forall pend, w_writing w' = true -> run_inv pend w').
  { intros pend W'.
    destruct (start_writing_run i w W) as [(U & E2)|(n & Hn & [(NP & E2)|(_ & a & dk & l2 & r3 & Es & F2 & C2 & Rf & E2)])]; rewrite E2 in E; injection E as <- <-.
    - congruence.
    - discriminate.
    - destruct r3 as [[]|e|]; try discriminate; [|congruence]. unfold settings in C2. cbn in C2. injection C2 as S1 S2 S3 S4 S5 S6 S7.
      eexists i, (w_disk w), [], _. split; [exact Hi|]. split; [|split; [constructor|split; [constructor|split]]].
      + eexists _, []. cbn. rewrite S2, S3, S4, S5, S6, S7. split; [exact Es|]. split; [reflexivity|]. split; [exact Hn|constructor].
      + cbn. rewrite S7. apply defs_nodup, C.
      + cbn [map]. rewrite app_nil_r. reflexivity. }
  split; [split; [apply G|]|split; [|exact G]].
  - destruct (start_writing_run i w W) as [(U & E2)|(n & Hn & [(NP & E2)|(_ & a & dk & l2 & r3 & Es & F2 & C2 & Rf & E2)])]; rewrite E2 in E; injection E as <- <-; cbn; auto.
  - destruct (calm_start_writing i w) as (o & O & Qo & _). rewrite E in O. cbn in O. rewrite O, pushes_app, Qo. apply app_nil_r.
Qed.

Lemma inv_next w p : inv w -> inv (set_next p w).
Proof. intros (A & B & C). split; [|auto]. intros W. eapply run_inv_ext; [..|apply A, W]; reflexivity. Qed.
Lemma inv_active w b : inv w -> inv (set_active b w).
Proof. intros (A & B & C). split; [|auto]. intros W. eapply run_inv_ext; [..|apply A, W]; reflexivity. Qed.
Lemma inv_say w o : pushes o = [] -> inv w -> inv (say o w).
Proof.
  intros Ho (A & B & C). split; [|auto]. intros W. eapply run_inv_ext; [..|apply A, W]; try reflexivity.
  cbn. rewrite pushes_app, Ho. apply app_nil_r.
Qed.

(** stop_acq: from any state whose settings are in order. *)
Lemma inv_stop_acq i w w' r : P i -> 1 <= g_fpb (w_geom w) -> defs_ok (w_defs w) -> stop_acq i w = (w', r) -> r <> Undef ->
  inv w' /\ pushes (w_out w') = pushes (w_out w) /\ forall pend, w_writing w' = true -> run_inv pend w'.
Proof.
  intros Hi B C E R. destruct (stop_writing_full w) as (w1 & o & E1 & A1 & W1 & D1 & N1 & G1 & Df1 & _).
  assert (I1 : inv w1). { split; [congruence|]. rewrite G1, Df1. auto. }
  assert (P1 : pushes (w_out w1) = pushes (w_out w)).
  { destruct (calm_stop_writing w) as (o1 & O1 & Q1 & _). rewrite E1 in O1. cbn in O1. rewrite O1, pushes_app, Q1. apply app_nil_r. }
  destruct (stop_acq_run i w w1 E1) as [(_ & E2)|(_ & p & _ & E2)]; rewrite E2 in E.
  - destruct (start_writing i w1) as [w2 r2] eqn:E3.
    assert (R2 : r2 <> Undef) by (destruct r2; congruence).
    destruct (inv_start_writing i w1 w2 r2 Hi I1 W1 E3 R2) as (I2 & P2 & G2).
    destruct r2 as [[]|e|]; [| |congruence]; injection E as <- <-.
    + split; [apply inv_active, I2|]. split; [exact (eq_trans P2 P1)|]. intros pend W. eapply run_inv_ext; [..|apply G2, W]; reflexivity.
    + split; [exact I2|]. split; [exact (eq_trans P2 P1)|exact G2].
  - injection E as <- <-. split; [apply inv_active, inv_next, I1|]. split; [exact P1|]. cbn. congruence.
Qed.

Lemma inv_stage i i1 f w w' r : Q (i, f) -> P i1 -> inv w -> for_current w f -> frame_stage i i1 f w = (w', r) -> r <> Undef -> inv w'.
Proof.
  intros Hq Hi (A & B & C) (W & Hid) E R. destruct (A W) as (i0 & dk & t & pre & H1 & (s0 & rs & Hs & Hr & Hc & Hn) & H2 & H3 & H4 & H5).
  destruct (cur_process_run i f w) as (a & dk' & l & r0 & Ep & Fl & S & Ec). unfold frame_stage in E.
  set (w1 := say (map (Meta (id_of (w_cur w))) l) (set_acq a dk' (w_log w ++ l) w)) in *.
  unfold fbind at 1 in E. rewrite Ec in E.
  destruct r0 as [r0|]; [|injection E as <- <-; congruence].
  assert (I1 : run_inv [f] w1).
  { unfold settings in S. injection S as S1 S2 S3 S4 S5 S6 S7.
    exists i0, dk, (t ++ [(i, f)]), pre. split; [exact H1|]. split; [|split; [|split; [|split]]].
    - exists s0, (rs ++ [Some r0]). cbn. rewrite S2, S3, S4, S5, S6, S7. split; [exact Hs|].
      rewrite (run_snoc _ _ _ _ i f Hr), Ep. split; [reflexivity|]. split; [exact Hc|].
      apply Forall_app. split; [exact Hn|]. repeat constructor. discriminate.
    - apply Forall_app. auto.
    - apply Forall_app. cbn. rewrite S2. auto.
    - cbn. rewrite S7. exact H4.
    - cbn. rewrite pushes_app, pushes_meta, app_nil_r, map_app, app_assoc. cbn. rewrite <- H5, app_nil_r. reflexivity. }
  assert (Push1 : forall w2, run_inv [f] w2 -> run_inv [] (say [Push f] w2)).
  { intros w2 (j0 & dkk & tt' & pre' & K1 & K2 & K3 & K4 & K5 & K6). exists j0, dkk, tt', pre'.
    split; [exact K1|]. split; [exact K2|]. repeat (split; [assumption|]). cbn. rewrite pushes_app, app_nil_r. exact K6. }
  destruct r0.
  - injection E as <- <-. split; [intros _; apply Push1, I1|]. auto.
  - unfold fbind in E. destruct (stop_acq i1 w1) as [w2 r2] eqn:E2.
    assert (R2 : r2 <> Undef) by (destruct r2; congruence).
    destruct (inv_stop_acq i1 w1 w2 r2 Hi B C E2 R2) as (I2 & P2 & G2).
    destruct r2 as [[]|e|]; [| |congruence]; injection E as <- <-; [|exact I2].
    destruct I2 as (_ & B2 & C2). split; [intros W2; apply Push1, G2, W2|auto].
  - injection E as <- <-. split; [intros _; apply Push1, I1|]. auto.
  - injection E as <- <-. split; [|auto]. intros _. apply Push1. eapply run_inv_ext; [..|exact I1]; try reflexivity.
    cbn. rewrite !pushes_app. cbn. apply app_nil_r.
Qed.

Lemma inv_frame i0 i i1 f w w' r : P i0 -> Q (i, f) -> P i1 -> inv w -> fw_process_frame i0 i i1 f w = (w', r) -> r <> Undef -> inv w'.
Proof.
  intros H0 Hq H1 Iw E R. destruct (frame_in_cases w f) as [H|[(G1 & G2)|[H|(G1 & G2 & G3)]]].
  - rewrite (frame_current i0 i i1 w f H) in E. eapply inv_stage; eauto.
  - rewrite (frame_idle i0 i i1 w f G1 G2) in E. injection E as <- <-. exact Iw.
  - destruct (frame_next i0 i i1 w f H) as (w1 & E1 & [(w2 & E2 & W2 & E3)|(w2 & r' & E2 & R2 & E3)]); rewrite E3 in E;
      destruct (inv_stop_writing w w1 _ Iw E1) as (I1 & W1).
    + destruct (inv_start_writing i0 w1 w2 _ H0 I1 W1 E2 ltac:(discriminate)) as (I2 & _).
      eapply inv_stage; [exact Hq|exact H1|exact I2| |exact E|exact R]. split; [exact W2|]. right.
      destruct (stop_writing_full w) as (w1' & ? & E1' & _ & _ & _ & Nx & _). rewrite E1 in E1'. injection E1' as <-.
      destruct (start_writing_run i0 w1 W1) as [(U & E2')|(n & Hn & [(NP & E2')|(_ & a & dk & l2 & r3 & Es & F2 & C2 & Rf & E2')])];
          rewrite E2' in E2.
      * discriminate.
      * injection E2 as <-. cbn in W2. discriminate.
      * injection E2 as <- _. cbn. apply settings_id in C2. unfold id_of in C2. rewrite C2. cbn. rewrite Nx. apply H.
    + injection E as <- <-. destruct (inv_start_writing i0 w1 w2 _ H0 I1 W1 E2 R) as (I2 & _). exact I2.
  - rewrite (frame_unknown i0 i i1 w f G1 G2 G3) in E. injection E as <- <-. apply inv_say; [|exact Iw]. destruct (w_writing w); reflexivity.
Qed.

Lemma inv_call o w w' r : op_ok P Q o -> inv w -> fw_call o w = (w', r) -> r <> Undef -> inv w'.
Proof.
  intros Ho Iw E R. destruct o as [ok c|i0 i i1 f|i|i c| |i]; cbn in Ho; cbn [fw_call] in E.
  - eapply inv_configure; eauto.
  - destruct Ho as (X1 & X2 & X3). exact (inv_frame i0 i i1 f w w' r X1 X2 X3 Iw E R).
  - unfold fw_eoa in E. rewrite fbind_get in E. pose proof Iw as (A & B & C). destruct (w_writing w) eqn:W.
    + unfold fbind in E. destruct (stop_acq i w) as [w2 r2] eqn:E2. assert (R2 : r2 <> Undef) by (destruct r2; congruence).
      destruct (inv_stop_acq i w w2 r2 Ho B C E2 R2) as (I2 & _).
      destruct r2 as [[]|e|]; [| |congruence]; injection E as <- <-; [apply inv_say; [reflexivity|exact I2]|exact I2].
    + injection E as <- <-. apply inv_say; [reflexivity|exact Iw].
  - unfold fw_execute in E. rewrite fbind_get in E. destruct c.
    + destruct (_ && _).
      * rewrite fbind_put in E. destruct (w_writing w) eqn:W; injection E as <- <-; [apply inv_next, Iw|].
        destruct Iw as (A & B & C). split; [cbn; congruence|auto].
      * destruct (w_writing w) eqn:W.
        { unfold start_writing in E. rewrite fbind_get, W in E. injection E as <- <-. exact Iw. }
        eapply inv_start_writing in E; eauto. apply E.
    + eapply inv_stop_writing in E; eauto. apply E.
    + injection E as <- <-. exact Iw.
  - injection E as <- <-. apply inv_active, Iw.
  - unfold fw_timeout in E. rewrite fbind_get in E. pose proof Iw as (A & B & C). destruct (w_writing w && w_active w).
    + unfold fbind in E. cbn [fput] in E. destruct (stop_acq i (say [Err ErrTimeout] w)) as [w2 r2] eqn:E2. assert (R2 : r2 <> Undef) by (destruct r2; congruence).
      destruct (inv_stop_acq i (say [Err ErrTimeout] w) w2 r2 Ho B C E2 R2) as (I2 & _).
      destruct r2 as [[]|e|]; [| |congruence]; injection E as <- <-; [apply inv_active, I2|exact I2].
    + injection E as <- <-. apply inv_active, Iw.
Qed.

Lemma inv_run l w w' rs : Forall (op_ok P Q) l -> inv w -> fw_run w l = (w', rs) -> ~ In Undef rs -> inv w'.
Proof.
  revert w rs. induction l as [|o t IH]; cbn; intros w rs F Iw; [intros [= <- <-] _; exact Iw|].
  inversion F as [|? ? Fo Ft]; subst. destruct (fw_call o w) as [w1 r] eqn:E.
  destruct r as [a|e|].
  - destruct (fw_run w1 t) as [w2 r2] eqn:E2. intros [= <- <-] N. cbn in N. eapply IH; [exact Ft| |exact E2|tauto].
    eapply inv_call; eauto.
  - destruct (fw_run w1 t) as [w2 r2] eqn:E2. intros [= <- <-] N. cbn in N. eapply IH; [exact Ft| |exact E2|tauto].
    eapply inv_call; eauto.
  - intros [= <- <-] N. cbn in N. tauto.
Qed.
Lemma inv_init act dk : inv (fw_init act dk).
Proof. split; [discriminate|]. split; [cbn; lia|exact I]. Qed.
End Inv.
