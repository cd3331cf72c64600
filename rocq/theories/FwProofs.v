(** Proofs about the file writer plugin. *)
From Verif Require Import Base StrOrder PlaceModel NameModel AcqModel AcqSpec AcqProofs FwModel FwSpec.
Local Open Scope N_scope.

(** ** What any method of an acquisition keeps: its settings; the log only grows, by events in [E]. *)
Definition stable {A} (E : ev -> Prop) (m : M A) : Prop := forall s,
  settings (s_acq (fst (m s))) = settings (s_acq s) /\
  exists l, s_log (fst (m s)) = s_log s ++ l /\ Forall E l.

Lemma stable_same {A} E (m : M A) :
  (forall s, settings (s_acq (fst (m s))) = settings (s_acq s) /\ s_log (fst (m s)) = s_log s) -> stable E m.
Proof. intros H s. destruct (H s) as (H1 & ->). split; [exact H1|]. exists []. rewrite app_nil_r. auto. Qed.

Lemma stable_bind {A B} E (m : M A) (k : A -> M B) :
  stable E m -> (forall a, stable E (k a)) -> stable E (bind m k).
Proof.
  intros Hm Hk s. unfold bind. specialize (Hm s). destruct (m s) as [s1 [a|e|]]; cbn [fst] in *; [|exact Hm|exact Hm].
  destruct (Hk a s1) as (C2 & l2 & L2 & E2). destruct Hm as (C1 & l1 & L1 & E1).
  split; [congruence|]. exists (l1 ++ l2). rewrite L2, L1, app_assoc. split; [reflexivity|]. apply Forall_app; auto.
Qed.
Lemma stable_bind_get {B} E (k : st -> M B) : (forall s, stable E (k s)) -> stable E (bind get k).
Proof. intros H. apply stable_bind; [apply stable_same; auto|exact H]. Qed.
Lemma stable_emit (E : ev -> Prop) e : E e -> stable E (emit e).
Proof. intros H s. split; [reflexivity|]. exists [e]. split; [reflexivity|auto]. Qed.
Lemma stable_weaken {A} (E E' : ev -> Prop) (m : M A) : (forall e, E e -> E' e) -> stable E m -> stable E' m.
Proof.
  intros H Hm s. destruct (Hm s) as (C & l & L & F). split; [exact C|]. exists l. split; [exact L|].
  eapply Forall_impl; eauto.
Qed.

Ltac st_base := apply stable_same; intros; split; reflexivity.
Lemma stable_lift {A} E (o : outcome Empty_set A) : stable E (lift o).
Proof. destruct o as [a|[]|]; st_base. Qed.
Lemma stable_olift {A} E (o : outcome exn A) : stable E (olift o).
Proof. destruct o; st_base. Qed.
Lemma stable_put_file E w f : stable E (put_file w f).
Proof. destruct w; st_base. Qed.

Ltac stb := repeat (match goal with
  | |- stable _ (bind get _) => apply stable_bind_get; intro
  | |- stable _ (bind _ _) => apply stable_bind; [|intro]
  | |- stable _ (ret _) => st_base
  | |- stable _ (throw _) => st_base
  | |- stable _ undef => st_base
  | |- stable _ (emit _) => apply stable_emit
  | |- stable _ (set_disk _) => st_base
  | |- stable _ (put_cur _) => st_base
  | |- stable _ (put_prev _) => st_base
  | |- stable _ (put_counts _ _) => st_base
  | |- stable _ (put_file _ _) => apply stable_put_file
  | |- stable _ (lift _) => apply stable_lift
  | |- stable _ (olift _) => apply stable_olift
  | |- stable _ (if ?b then _ else _) => destruct b
  | |- stable _ (match ?x with _ => _ end) => destruct x
  | |- stable _ (let _ := _ in _) => cbv zeta
  end).

(** Events other than starts, stops and writes. *)
Definition file_ev (e : ev) : Prop := match e with EvCreate _ | EvClose _ => True | _ => False end.
Definition work_ev (e : ev) : Prop := match e with EvCreate _ | EvClose _ | EvWrite _ _ => True | _ => False end.

Lemma stable_close (E : ev -> Prop) f : (forall p, E (EvClose p)) -> stable E (close_file f).
Proof. intros H. unfold close_file. destruct f; stb. apply H. Qed.
Lemma stable_create_datasets E i n ds : stable E (create_datasets i n ds).
Proof.
  induction ds as [|d t IH]; cbn [create_datasets]; stb; try exact IH.
  - unfold validate_definition. stb.
  - unfold create_dataset. stb.
Qed.
Lemma stable_create_file i n : stable file_ev (create_file i n).
Proof. unfold create_file. stb; first [apply stable_create_datasets|apply stable_close; exact (fun _ => I)|exact I]. Qed.
Lemma stable_create_missing i fuel n : stable file_ev (create_missing i fuel n).
Proof. induction fuel as [|k IH]; cbn [create_missing]; stb; [apply stable_create_file|exact IH]. Qed.
Lemma stable_get_file i off : stable file_ev (get_file i off).
Proof. unfold get_file. stb; [apply stable_create_missing|apply stable_create_file]. Qed.
Lemma stable_write_rows E ok w name rows start data : stable E (write_rows ok w name rows start data).
Proof. unfold write_rows. stb. Qed.
Lemma stable_write_params E i w ps off : stable E (write_params i w ps off).
Proof. induction ps as [|[n v] t IH]; cbn [write_params]; stb; try exact IH. apply stable_write_rows. Qed.

Lemma stable_process_body i f : stable work_ev (process_body i f).
Proof.
  unfold process_body. stb; try exact I.
  all: try (eapply stable_weaken; [|apply stable_get_file]; intros []; cbn; auto; fail).
  all: try (unfold write_frame; stb; [apply stable_write_rows|]; unfold note_actual; stb; fail).
  all: try apply stable_write_params.
  all: unfold count_frame; stb.
Qed.
Lemma stable_start i : stable (fun e => e = EvStart \/ file_ev e) (start_acquisition i).
Proof.
  unfold start_acquisition. stb; [left; reflexivity|].
  eapply stable_weaken; [|apply stable_create_file]. auto.
Qed.
Lemma stable_stop : stable (fun e => e = EvStop \/ file_ev e) stop_acquisition.
Proof. unfold stop_acquisition. stb; first [apply stable_close; intros; right; exact I|left; reflexivity]. Qed.

Lemma stable_process i f s : settings (s_acq (fst (process_frame i f s))) = settings (s_acq s) /\
  exists l, s_log (fst (process_frame i f s)) = s_log s ++ l /\ Forall work_ev l.
Proof.
  unfold process_frame. pose proof (stable_process_body i f s) as H.
  destruct (process_body i f s) as [s' [r|e|]]; exact H.
Qed.

(** stop_acquisition always succeeds, leaves the disk alone and its last message is the stop. *)
Lemma stop_run s : exists a l,
  stop_acquisition s = (St a (s_disk s) (s_log s ++ l ++ [EvStop]), Ret tt) /\ Forall (fun e => exists p, e = EvClose p) l /\
  settings a = settings (s_acq s).
Proof.
  destruct s as [a dk lg]. unfold stop_acquisition. cbn.
  destruct (a_prev a) as [p|] eqn:Ep; destruct (a_cur a) as [c|] eqn:Ec; cbn; rewrite ?Ep, ?Ec; cbn; unfold emit, bind; cbn; rewrite ?Ep, ?Ec; cbn.
  - eexists _, [EvClose _; EvClose _]. rewrite <- !app_assoc. split; [reflexivity|]. split; [repeat constructor; eauto|reflexivity].
  - eexists _, [EvClose _]. rewrite <- !app_assoc. split; [reflexivity|]. split; [repeat constructor; eauto|reflexivity].
  - eexists _, [EvClose _]. rewrite <- !app_assoc. split; [reflexivity|]. split; [repeat constructor; eauto|reflexivity].
  - eexists _, []. split; [reflexivity|]. split; [constructor|reflexivity].
Qed.

(** Start: either no name and nothing happens, or the start is announced first; with a name it returns true or throws. *)
Lemma start_run i s :
  (generate_filename (a_naming (s_acq s)) (g_rank (a_geom (s_acq s))) = ""%string /\ start_acquisition i s = (s, Ret false)) \/
  (generate_filename (a_naming (s_acq s)) (g_rank (a_geom (s_acq s))) <> ""%string /\
   exists a dk l r, start_acquisition i s = (St a dk (s_log s ++ EvStart :: l), r) /\ Forall file_ev l /\
     settings a = settings (s_acq s) /\ r <> Ret false).
Proof.
  unfold start_acquisition. rewrite bind_get.
  destruct (String.eqb (generate_filename (a_naming (s_acq s)) (g_rank (a_geom (s_acq s)))) "") eqn:E.
  { left. split; [apply String.eqb_eq, E|reflexivity]. }
  right. split; [apply String.eqb_neq, E|]. unfold bind at 1, emit.
  set (s1 := St (s_acq s) (s_disk s) (s_log s ++ [EvStart])).
  pose proof (stable_create_file i (g_rank (a_geom (s_acq s))) s1) as (C & l & L & F).
  unfold bind. destruct (create_file i (g_rank (a_geom (s_acq s))) s1) as [[a dk lg] [[]|e|]]; cbn in C, L |- *;
    exists a, dk, l; [exists (Ret true)|exists (Throw e)|exists Undef]; rewrite L, <- app_assoc;
    (split; [reflexivity|split; [exact F|split; [exact C|discriminate]]]).
Qed.

(** ** Monad of the plugin *)
Lemma fbind_get {B} (k : fw -> FM B) w : fbind fget k w = k w w.
Proof. reflexivity. Qed.
Lemma fbind_put {B} g (k : unit -> FM B) w : fbind (fput g) k w = k tt (g w).
Proof. reflexivity. Qed.
Lemma fbind_ret {A B} (a : A) (k : A -> FM B) w : fbind (fret a) k w = k a w.
Proof. reflexivity. Qed.

Lemma skipn_app_len {A} (l m : list A) : skipn (List.length l) (l ++ m) = m.
Proof. rewrite skipn_app, skipn_all, Nat.sub_diag. reflexivity. Qed.

(** ** Configuration *)
(** Definitions in increasing order of names, as in a std::map. *)
Fixpoint defs_ok (l : list dsdef) : Prop :=
  match l with
  | [] => True
  | x :: t => Forall (fun y => String.ltb (d_name x) (d_name y) = true) t /\ defs_ok t
  end.

Definition cfgs {A} (m : FM A) : Prop := forall w, let w' := fst (m w) in
  w_writing w' = w_writing w /\ w_cur w' = w_cur w /\ w_disk w' = w_disk w /\ w_log w' = w_log w /\
  w_active w' = w_active w /\
  (w_writing w = true -> w_geom w' = w_geom w) /\
  (1 <= g_fpb (w_geom w) -> 1 <= g_fpb (w_geom w')) /\
  (defs_ok (w_defs w) -> defs_ok (w_defs w')) /\
  exists o, w_out w' = w_out w ++ o /\ only_errors o.

Lemma cfgs_bind {A B} (m : FM A) (k : A -> FM B) : cfgs m -> (forall a, cfgs (k a)) -> cfgs (fbind m k).
Proof.
  intros Hm Hk w. unfold fbind. specialize (Hm w). destruct (m w) as [w1 [a|e|]]; cbn [fst] in *; [|exact Hm|exact Hm].
  specialize (Hk a w1). cbv zeta in *.
  destruct Hm as (A1 & A2 & A3 & A4 & A5 & A6 & A7 & A8 & o1 & O1 & F1).
  destruct Hk as (B1 & B2 & B3 & B4 & B5 & B6 & B7 & B8 & o2 & O2 & F2).
  repeat (split; [congruence|]). split.
  { intros H. rewrite B6 by congruence. auto. }
  split; [auto|]. split; [auto|]. exists (o1 ++ o2). rewrite O2, O1, app_assoc. split; [reflexivity|]. apply Forall_app; auto.
Qed.
Lemma cfgs_bind_get {B} (k : fw -> FM B) : (forall w, cfgs (k w)) -> cfgs (fbind fget k).
Proof.
  intros H. apply cfgs_bind; [|exact H]. intros w. cbn. repeat split; auto. exists []. rewrite app_nil_r. split; [auto|constructor].
Qed.

Ltac cf_base := let w := fresh in intro w; cbn; repeat (split; [solve [auto]|]); exists []; rewrite app_nil_r; split; [reflexivity|constructor].
Lemma cfgs_ret {A} (a : A) : cfgs (fret a). Proof. cf_base. Qed.
Lemma cfgs_throw {A} e : cfgs (@fthrow A e). Proof. cf_base. Qed.
Lemma cfgs_undef {A} : cfgs (@fundef A). Proof. cf_base. Qed.
Lemma cfgs_flift {A} (o : outcome Empty_set A) : cfgs (flift o).
Proof. destruct o as [a|[]|]; [apply cfgs_ret|apply cfgs_undef]. Qed.
Lemma cfgs_err k : cfgs (fput (say [Err k])).
Proof. intros w. cbn. repeat (split; [solve [auto]|]). exists [Err k]. split; [reflexivity|]. repeat constructor. eauto. Qed.
Lemma cfgs_field {A} (x : field A) k : (forall a, cfgs (k a)) -> cfgs (on_field x k).
Proof. intros H. destruct x; cbn; [apply cfgs_ret|apply cfgs_throw|apply H]. Qed.
Lemma cfgs_fval {A} (x : field A) old : cfgs (fval x old).
Proof. destruct x; cbn; [apply cfgs_ret|apply cfgs_throw|apply cfgs_ret]. Qed.

Lemma put_def_in d l n : In n (map d_name (put_def d l)) <-> n = d_name d \/ In n (map d_name l).
Proof.
  induction l as [|x t IH]; cbn; [intuition|].
  destruct (String.eqb_spec (d_name d) (d_name x)) as [E|E]; [cbn; rewrite E; intuition|].
  destruct (String.ltb _ _); cbn; [intuition|]. rewrite IH. intuition.
Qed.
Lemma put_def_In d l e : In e (put_def d l) -> e = d \/ In e l.
Proof.
  induction l as [|x t IH]; cbn; [intuition|].
  destruct (String.eqb (d_name d) (d_name x)); cbn; [intuition|]. destruct (String.ltb _ _); cbn; intuition.
Qed.
Lemma put_def_ok d l : defs_ok l -> defs_ok (put_def d l).
Proof.
  induction l as [|x t IH]; cbn [defs_ok put_def]; [cbn; auto|]. intros (F & O).
  destruct (String.eqb_spec (d_name d) (d_name x)) as [E|E].
  { cbn. split; [|exact O]. eapply Forall_impl; [|exact F]. cbn. intros y Hy. rewrite E. exact Hy. }
  destruct (String.ltb (d_name d) (d_name x)) eqn:L; cbn [defs_ok].
  - split; [|auto]. constructor; [exact L|]. eapply Forall_impl; [|exact F]. intros y Hy. eapply ltb_trans; eauto.
  - split; [|auto]. apply Forall_forall. intros y Hy. apply put_def_In in Hy. destruct Hy as [->|Hy].
    + apply ltb_other; auto.
    + rewrite Forall_forall in F. auto.
Qed.
Lemma defs_nodup l : defs_ok l -> NoDup (map d_name l).
Proof.
  induction l as [|x t IH]; cbn; [constructor|]. intros (F & O). constructor; [|auto].
  intros H. apply in_map_iff in H. destruct H as (y & E & H). rewrite Forall_forall in F. specialize (F _ H).
  rewrite E, ltb_irrefl in F. discriminate.
Qed.

Lemma cfgs_defs g : (forall l, defs_ok l -> defs_ok (g l)) -> cfgs (fput (fun w => set_defs (g (w_defs w)) w)).
Proof. intros H w. cbn. repeat (split; [solve [auto]|]). exists []. rewrite app_nil_r. split; [reflexivity|constructor]. Qed.
Lemma cfgs_new n : cfgs (create_new_dataset n).
Proof.
  intros w. cbn. destruct (find_def (w_defs w) n); cbn; repeat (split; [solve [auto using put_def_ok]|]);
    exists []; rewrite app_nil_r; split; [reflexivity|constructor|reflexivity|constructor].
Qed.
Lemma cfgs_dataset n c : cfgs (configure_dataset n c).
Proof.
  unfold configure_dataset. apply cfgs_bind_get. intros w. cbv zeta.
  repeat (apply cfgs_bind; [apply cfgs_fval|intro]).
  apply (cfgs_defs (put_def _)). intros l. apply put_def_ok.
Qed.
Lemma cfgs_change (old : geom -> N) new bad (mk : geom -> geom) :
  (forall g, bad = false -> 1 <= g_fpb g -> 1 <= g_fpb (mk g)) ->
  cfgs (fbind fget (fun w => change (old (w_geom w)) new bad (mk (w_geom w)))).
Proof.
  intros Hg w. rewrite fbind_get. unfold change. destruct (old (w_geom w) =? new); [apply cfgs_ret|].
  assert (Herr : let m := fbind (fput (say [Err ErrConfig])) (fun _ => @fthrow unit FRuntime) in cfgs m).
  { cbv zeta. apply cfgs_bind; [apply cfgs_err|intro; apply cfgs_throw]. }
  destruct bad; [apply Herr|].
  rewrite fbind_get. destruct (w_writing w) eqn:E; [rewrite <- E at 1 2; apply Herr|].
  cbn. rewrite E. repeat (split; [solve [auto|discriminate]|]). exists []. rewrite app_nil_r. split; [reflexivity|constructor].
Qed.
Lemma cfgs_process c : cfgs (configure_process c).
Proof.
  unfold configure_process.
  apply cfgs_bind; [|intros _; apply cfgs_bind; [|intros _; apply cfgs_bind; [|intros _]]]; apply cfgs_field; intros n.
  - apply (cfgs_change g_procs n false (fun g => Geom n (g_rank g) (g_fpb g) (g_bpf g))). cbn. auto.
  - apply (cfgs_change g_rank n false (fun g => Geom (g_procs g) n (g_fpb g) (g_bpf g))). cbn. auto.
  - apply (cfgs_change g_fpb n (n <? 1) (fun g => Geom (g_procs g) (g_rank g) n (g_bpf g))). cbn. intros; lia.
  - apply (cfgs_change g_bpf n false (fun g => Geom (g_procs g) (g_rank g) (g_fpb g) n)). cbn. auto.
Qed.
Ltac cfg_put := apply cfgs_field; intros; intro; cbn; repeat (split; [solve [auto]|]); exists []; rewrite app_nil_r; split; [reflexivity|constructor].
Lemma cfgs_file ok c : cfgs (configure_file ok c).
Proof.
  unfold configure_file.
  apply cfgs_bind; [|intros _; apply cfgs_bind; [|intros _; apply cfgs_bind; [|intros _; apply cfgs_bind; [|intros _; apply cfgs_bind; [|intros _]]]]]; [|cfg_put..].
  apply cfgs_field. intros x. destruct (ok x); [|apply cfgs_ret]. cf_base.
Qed.
Lemma cfgs_datasets l : cfgs (configure_datasets l).
Proof.
  induction l as [|[n c] t IH]; cbn [configure_datasets]; [apply cfgs_ret|].
  apply cfgs_bind; [apply cfgs_new|intros _]. apply cfgs_bind; [apply cfgs_dataset|intros _; exact IH].
Qed.
Lemma cfgs_body ok c : cfgs (configure_body ok c).
Proof.
  unfold configure_body.
  apply cfgs_bind; [destruct (k_process c); [apply cfgs_process|apply cfgs_ret]|intros _].
  apply cfgs_bind; [destruct (k_file c); [apply cfgs_file|apply cfgs_ret]|intros _].
  apply cfgs_bind; [destruct (k_dataset c); [apply cfgs_ret|apply cfgs_new|apply cfgs_datasets]|intros _].
  apply cfgs_bind; [destruct (k_delete c); [apply (cfgs_defs (fun _ => [])); cbn; auto|apply cfgs_ret]|intros _].
  apply cfgs_bind; [|intros _].
  { apply cfgs_field. intros n. apply cfgs_bind; [cf_base|intros _]. apply cfgs_bind_get. intros w.
    apply cfgs_bind; [apply cfgs_flift|intro]. cf_base. }
  apply cfgs_bind; [cfg_put|intros _]. apply cfgs_bind; [cfg_put|intros _]. cfg_put.
Qed.
Lemma cfgs_configure ok c : cfgs (fw_configure ok c).
Proof.
  intros w. unfold fw_configure. pose proof (cfgs_body ok c w) as H.
  destruct (configure_body ok c w) as [w1 [[]|[]|]]; cbn in H |- *; try exact H.
  destruct H as (A1 & A2 & A3 & A4 & A5 & A6 & A7 & A8 & o & O & F). repeat (split; [assumption|]).
  exists (o ++ [Err ErrConfig]). rewrite O, app_assoc. split; [reflexivity|]. apply Forall_app. split; [exact F|]. repeat constructor. eauto.
Qed.

(** C14: a request to change process settings while writing is refused, and only error messages result. *)
Lemma change_writing old n bad g w : w_writing w = true -> (n = old /\ change old n bad g w = (w, Ret tt)) \/
  (n <> old /\ change old n bad g w = (say [Err ErrConfig] w, Throw FRuntime)).
Proof.
  intros W. unfold change. destruct (N.eqb_spec old n) as [E|E]; [left; auto|]. right. split; [auto|].
  destruct bad; [reflexivity|]. rewrite fbind_get, W. reflexivity.
Qed.

(** [m] refuses in state [w] if [Q], and changes nothing. *)
Definition refuses (w : fw) (m : FM unit) (Q : Prop) : Prop :=
  (~ Q /\ (m w = (w, Ret tt) \/ m w = (w, Throw FMsg))) \/
  (Q /\ (m w = (say [Err ErrConfig] w, Throw FRuntime) \/ m w = (w, Throw FMsg))).
Lemma refuses_bind w m1 m2 Q1 Q2 : refuses w m1 Q1 -> refuses w m2 Q2 -> refuses w (fbind m1 (fun _ => m2)) (Q1 \/ Q2).
Proof.
  unfold refuses, fbind. intros [(N1 & [->| ->])|(N1 & [->| ->])] [(N2 & H)|(N2 & H)];
    solve [tauto|left; split; [tauto|right; reflexivity]|right; split; [tauto|left; reflexivity]|right; split; [tauto|right; reflexivity]].
Qed.
Lemma refuses_field w (x : field N) (old : geom -> N) bad mk : w_writing w = true ->
  refuses w (on_field x (fun n => fbind fget (fun w => let g := w_geom w in change (old g) n (bad n) (mk n g))))
    (asks x (old (w_geom w))).
Proof.
  intros W. unfold refuses, asks. destruct x as [| |n]; cbn [on_field].
  - left. split; [intros (n & H & _); discriminate|]. left. reflexivity.
  - left. split; [intros (n & H & _); discriminate|]. right. reflexivity.
  - rewrite fbind_get. cbv zeta.
    destruct (change_writing (old (w_geom w)) n (bad n) (mk n (w_geom w)) w W) as [(E & ->)|(E & ->)].
    + left. split; [intros (n' & [= <-] & H); auto|auto].
    + right. split; [eauto|auto].
Qed.
Lemma process_writing p w : w_writing w = true -> refuses w (configure_process p) (asks_change p (w_geom w)).
Proof.
  intros W. unfold configure_process, asks_change.
  apply refuses_bind; [apply (refuses_field w _ g_procs (fun _ => false) (fun n g => Geom n (g_rank g) (g_fpb g) (g_bpf g)) W)|].
  apply refuses_bind; [apply (refuses_field w _ g_rank (fun _ => false) (fun n g => Geom (g_procs g) n (g_fpb g) (g_bpf g)) W)|].
  apply refuses_bind; [apply (refuses_field w _ g_fpb (fun n => n <? 1) (fun n g => Geom (g_procs g) (g_rank g) n (g_bpf g)) W)|].
  apply (refuses_field w _ g_bpf (fun _ => false) (fun n g => Geom (g_procs g) (g_rank g) (g_fpb g) n) W).
Qed.

Lemma configure_writing ok c p w : w_writing w = true -> k_process c = Some p -> asks_change p (w_geom w) ->
  exists o e, fw_configure ok c w = (say o w, Throw e) /\ only_errors o.
Proof.
  intros W Hp Ha. unfold fw_configure, configure_body. rewrite Hp.
  destruct (process_writing p w W) as [(N & _)|(_ & [H|H])]; [tauto| |]; unfold fbind at 1; rewrite H.
  - exists ([Err ErrConfig] ++ [Err ErrConfig]), FRuntime. split; [cbn; unfold say; cbn; rewrite <- app_assoc; reflexivity|].
    repeat constructor; eauto.
  - exists [], FMsg. split; [|constructor]. unfold say. rewrite app_nil_r. destruct w; reflexivity.
Qed.
