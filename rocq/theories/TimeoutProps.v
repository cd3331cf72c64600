(** Property C18: the close timeout. *)
From Verif Require Import Base TimeoutModel.
Local Open Scope N_scope.

Definition is_frame (e : label * N) : bool := match fst e with LFrame => true | _ => false end.
Definition asked (e : label * N) : bool := match fst e with LStart | LSpurious => true | _ => false end.

(** The events of a wait of the timeout thread that ran for its whole period: it began at [b] for [per] ms, timed out
    at [e], and no frame was processed in between. *)
Definition full_wait (tr : list (label * N)) (b per e : N) (after : list (label * N)) : Prop :=
  exists pre mid, tr = pre ++ (LWait per, b) :: mid ++ (LExpire, e) :: after /\
    b + per <= e /\ existsb is_frame mid = false /\ existsb asked pre = true.

(** ** Invariant *)
Definition awake (p : tpc) : bool := match p with TSleep => false | _ => true end.
Definition tinv (tr : list (label * N)) (s : sys) : Prop :=
  (awake (pt s) = true -> existsb asked tr = true) /\
  match pt s with
  | TTimed b per => exists pre mid, tr = pre ++ (LWait per, b) :: mid /\ existsb is_frame mid = false /\ existsb asked pre = true
  | TExpired | TFire | TStop => exists b per e after, full_wait tr b per e after
  | _ => True
  end.

Lemma tinv_snoc tr s s' x : tinv tr s -> pt s' = pt s -> is_frame x = false -> tinv (tr ++ [x]) s'.
Proof.
  intros (A & B) E Hx. unfold tinv. rewrite E. split.
  - intros H. rewrite existsb_app, (A H). reflexivity.
  - destruct (pt s); auto.
    + destruct B as (pre & mid & -> & M & P). exists pre, (mid ++ [x]). rewrite <- app_assoc. cbn. split; [reflexivity|].
      rewrite existsb_app, M. cbn. rewrite Hx. auto.
    + destruct B as (b & per & e & after & pre & mid & -> & H). exists b, per, e, (after ++ [x]), pre, mid.
      rewrite <- app_assoc. cbn [app]. rewrite <- app_assoc. auto.
    + destruct B as (b & per & e & after & pre & mid & -> & H). exists b, per, e, (after ++ [x]), pre, mid.
      rewrite <- app_assoc. cbn [app]. rewrite <- app_assoc. auto.
    + destruct B as (b & per & e & after & pre & mid & -> & H). exists b, per, e, (after ++ [x]), pre, mid.
      rewrite <- app_assoc. cbn [app]. rewrite <- app_assoc. auto.
Qed.

Lemma asked_last tr x : asked x = true -> existsb asked (tr ++ [x]) = true.
Proof. intros H. rewrite existsb_app. cbn. rewrite H. apply orb_true_iff. right. reflexivity. Qed.
Lemma asked_snoc tr x : existsb asked tr = true -> existsb asked (tr ++ [x]) = true.
Proof. intros H. rewrite existsb_app, H. reflexivity. Qed.
Lemma full_snoc tr b per e after x : full_wait tr b per e after -> full_wait (tr ++ [x]) b per e (after ++ [x]).
Proof. intros (pre & mid & -> & H). exists pre, mid. rewrite <- app_assoc. cbn [app]. rewrite <- app_assoc. auto. Qed.

Lemma exec_inv a tr s : exec a tr s -> tinv tr s.
Proof.
  induction 1 as [|tr s l s' He IH Hs]; [split; [discriminate|exact I]|].
  destruct Hs; try solve [eapply tinv_snoc; [exact IH|reflexivity|reflexivity]];
    pose proof IH as (A & B); try rewrite H in A, B.
  - split; [intros _; apply asked_last; reflexivity|exact I].
  - split; [intros _; apply asked_snoc, A; reflexivity|exact I].
  - split; [intros _; apply asked_snoc, A; reflexivity|exact I].
  - split; [intros _; apply asked_snoc, A; reflexivity|]. cbn. exists tr, []. auto.
  - split; [discriminate|exact I].
  - split; [intros _; apply asked_snoc, A; reflexivity|exact I].
  - split; [intros _; apply asked_snoc, A; reflexivity|]. cbn. destruct B as (pre & mid & -> & M & P).
    exists b, per, (now s), [], pre, mid. rewrite <- app_assoc. auto.
  - split; [intros _; apply asked_snoc, A; reflexivity|exact I].
  - split; [intros _; apply asked_snoc, A; reflexivity|]. cbn. destruct B as (b & per & e & after & B). eexists b, per, e, _. apply full_snoc, B.
  - split; [intros _; apply asked_snoc, A; reflexivity|]. cbn. destruct B as (b & per & e & after & B). eexists b, per, e, _. apply full_snoc, B.
  - split; [intros _; apply asked_snoc, A; reflexivity|exact I].
  - split; [intros _; apply asked_snoc, A; reflexivity|exact I].
  - unfold notify_start. cbn [pt set_f]. destruct (pt s) eqn:P;
      try solve [eapply tinv_snoc; [exact IH|exact P|reflexivity]|eapply tinv_snoc; [exact IH|cbn; congruence|reflexivity]].
    split; [intros _; apply asked_last; reflexivity|exact I].
  - unfold notify_timer. cbn [pt set_f own_main own_close]. destruct (pt s) eqn:P;
      try (split; [cbn; rewrite P; intros; apply asked_snoc, A; reflexivity|cbn; rewrite P; try exact I]).
    + split; [cbn; rewrite P; discriminate|cbn; rewrite P; exact I].
    + split; [intros _; apply asked_snoc, A; reflexivity|exact I].
    + destruct B as (b & per & e & after & B). eexists b, per, e, _. apply full_snoc, B.
    + destruct B as (b & per & e & after & B). eexists b, per, e, _. apply full_snoc, B.
    + destruct B as (b & per & e & after & B). eexists b, per, e, _. apply full_snoc, B.
  - unfold notify_start. cbn [pt set_c]. destruct (pt s) eqn:P;
      try solve [eapply tinv_snoc; [exact IH|exact P|reflexivity]|eapply tinv_snoc; [exact IH|cbn; congruence|reflexivity]].
    split; [intros _; apply asked_last; reflexivity|exact I].
Qed.

(** C18.  In every execution: whenever the timeout stops an acquisition, the plugin is writing and the timer is active;
    the timer had been asked for (or the condition variable woke up by itself), and a wait of the whole period ran out
    before, in which no frame was processed.  Partial: frames may have been processed between the end of the wait and
    the stop ([after]), see c18_stop_after_frame_refuted. *)
Theorem c18_only_after_inactivity_partial : forall a tr s s', exec a tr s -> step s LStop s' ->
  writing s = true /\ active s = true /\ exists b per e after, full_wait tr b per e after.
Proof.
  intros a tr s s' E S. apply exec_inv in E. destruct E as (_ & E). inversion S; subst.
  rewrite H in E. auto.
Qed.
Print Assumptions c18_only_after_inactivity_partial.

(** C18.  A frame processed while the timer runs starts a new wait: the timeout thread is woken up and has to wait a
    whole period again before it can stop anything. *)
Theorem c18_frame_rearms : forall s s' b per, pt s = TTimed b per -> step s LFrame s' -> pt s' = TNotified.
Proof. intros s s' b per P S. inversion S; subst. unfold notify_timer. cbn. rewrite P. reflexivity. Qed.
Print Assumptions c18_frame_rearms.

(** Mutexes are held by one thread at a time, where the code holds them. *)
Definition t_start (p : tpc) : bool := match p with TSleep | TStarting => false | _ => true end.
Definition t_close (p : tpc) : bool := match p with TTest | TFire | TStop => true | _ => false end.
Definition t_main (p : tpc) : bool := match p with TStop => true | _ => false end.
Definition f_close (p : fpc) : bool := match p with FIdle | FClose => false | _ => true end.
Definition f_main (p : fpc) : bool := match p with FIdle | FClose | FMain => false | _ => true end.
Definition c_main (p : cpc) : bool := match p with CWork | CStart => true | _ => false end.

Theorem c18_mutex : forall a tr s, exec a tr s ->
  (m_start s = if t_start (pt s) then Some TT else None) /\
  (m_close s = if t_close (pt s) then Some TT else if f_close (pf s) then Some TF else None) /\
  (m_main s = if t_main (pt s) then Some TT else if f_main (pf s) then Some TF else if c_main (pc s) then Some TC else None) /\
  ~ (t_close (pt s) = true /\ f_close (pf s) = true) /\
  ~ (t_main (pt s) = true /\ f_main (pf s) = true) /\ ~ (t_main (pt s) = true /\ c_main (pc s) = true) /\
  ~ (f_main (pf s) = true /\ c_main (pc s) = true).
Proof.
  induction 1 as [|tr s l s' He IH Hs]; [cbn; intuition discriminate|].
  assert (N : forall s, m_start (notify_start s) = m_start s /\ m_close (notify_start s) = m_close s /\ m_main (notify_start s) = m_main s /\
    pf (notify_start s) = pf s /\ pc (notify_start s) = pc s /\ t_start (pt (notify_start s)) = t_start (pt s) /\
    t_close (pt (notify_start s)) = t_close (pt s) /\ t_main (pt (notify_start s)) = t_main (pt s)).
  { intros x. unfold notify_start. destruct (pt x) eqn:P; cbn; rewrite ?P; auto 10. }
  assert (N' : forall s, m_start (notify_timer s) = m_start s /\ m_close (notify_timer s) = m_close s /\ m_main (notify_timer s) = m_main s /\
    pf (notify_timer s) = pf s /\ pc (notify_timer s) = pc s /\ t_start (pt (notify_timer s)) = t_start (pt s) /\
    t_close (pt (notify_timer s)) = t_close (pt s) /\ t_main (pt (notify_timer s)) = t_main (pt s)).
  { intros x. unfold notify_timer. destruct (pt x) eqn:P; cbn; rewrite ?P; auto 10. }
  destruct IH as (A & B & C & D & E & F & G).
  destruct Hs;
    repeat match goal with
    | |- context [notify_start ?x] => destruct (N x) as (-> & -> & -> & -> & -> & -> & -> & ->)
    | |- context [notify_timer ?x] => destruct (N' x) as (-> & -> & -> & -> & -> & -> & -> & ->)
    end; clear N N'; cbn;
    repeat match goal with H : pt s = _ |- _ => rewrite H in *; clear H | H : pf s = _ |- _ => rewrite H in *; clear H | H : pc s = _ |- _ => rewrite H in *; clear H end;
    cbn in *;
    repeat match goal with
    | |- context [t_start ?x] => destruct (t_start x)
    | |- context [t_close ?x] => destruct (t_close x)
    | |- context [t_main ?x] => destruct (t_main x)
    | |- context [f_close ?x] => destruct (f_close x)
    | |- context [f_main ?x] => destruct (f_main x)
    | |- context [c_main ?x] => destruct (c_main x)
    end; try congruence; repeat split; try congruence; try (intros (X & Y); congruence); tauto.
Qed.
Print Assumptions c18_mutex.

(** ** Executions *)
(** Each step is recorded with its end state in normal form. *)
Lemma e_to a tr s l s' s'' n : exec a tr s -> step s l s' -> s' = s'' -> now s = n -> exec a (tr ++ [(l, n)]) s''.
Proof. intros H1 H2 <- <-. econstructor; eassumption. Qed.
Ltac take st := match goal with
  | E : exec ?a ?tr ?s |- _ =>
    let H := fresh in
    eassert (H : step s _ _) by st;
    match type of H with step _ ?l ?s' =>
      let s'' := eval vm_compute in s' in let n := eval vm_compute in (now s) in let l' := eval vm_compute in l in
      let H' := fresh in assert (H' : exec a (tr ++ [(l', n)]) s'') by (exact (e_to a tr s l' s' s'' n E H eq_refl eq_refl));
      clear E H; rename H' into E
    end
  end.
Ltac side := solve [reflexivity|vm_compute; discriminate|left; reflexivity|right; reflexivity].
Ltac go r := match goal with E : exec _ _ ?s |- _ => take ltac:(eapply (r s); side) end.
Ltac go_w r w := match goal with E : exec _ _ ?s |- _ => take ltac:(eapply (r s w); side) end.

(** An ordinary stop by the timeout: period 1 ms, the last frame is processed with frames missing, nothing follows. *)
Definition waiting : sys := Sys 0 true true 1 (Some TT) None None (TTimed 0 1) FIdle CIdle.
Lemma to_waiting : exists tr, exec false tr waiting.
Proof.
  pose proof (e_init false) as E. unfold init in E.
  go s_conf. go s_conf_main.
  go_w s_conf_period 1.
  go s_conf_end. go_w s_execute true. go s_frame. go s_frame_close. go s_frame_main. go s_frame_missing_start.
  go s_frame_start. go s_frame_push. go s_started. go s_lock. go s_wait.
  eexists. exact E.
Qed.
Example x_stop : exists tr s s', exec false tr s /\ step s LStop s' /\ writing s' = false.
Proof.
  destruct to_waiting as (tr & E). unfold waiting in E. go s_tick. go s_expire. go s_expired. go s_fire.
  match type of E with exec _ _ ?s => exact (ex_intro _ _ (ex_intro _ s (ex_intro _ _ (conj E (conj (s_stop s false eq_refl eq_refl eq_refl) eq_refl))))) end.
Qed.

(** ** What fails *)

(** The acquisition is stopped although a frame was processed after the wait ran out: the timeout thread had to wait for
    the frame, and does not notice it. *)
Theorem c18_stop_after_frame_refuted : exists tr s s', exec false (tr ++ [(LExpire, 1); (LTau, 1); (LFrame, 1); (LTau, 1); (LTau, 1)]) s /\
  step s LStop s'.
Proof.
  destruct to_waiting as (tr & E). unfold waiting in E. go s_frame. go s_frame_close. go s_frame_main. go s_tick. go s_expire.
  go s_frame_ok. go s_frame_push. go s_expired. go s_fire.
  exists (tr ++ [(LTau, 0); (LTau, 0); (LTau, 0); (LTick, 0)]).
  rewrite <- !app_assoc in E. cbn [app] in E. rewrite <- app_assoc. cbn [app].
  match type of E with exec _ _ ?s => exact (ex_intro _ s (ex_intro _ _ (conj E (s_stop s false eq_refl eq_refl eq_refl)))) end.
Qed.
Print Assumptions c18_stop_after_frame_refuted.

Inductive steps : sys -> sys -> Prop :=
| ss_refl s : steps s s
| ss_step s l s' s'' : step s l s' -> steps s' s'' -> steps s s''.

(** Frame thread and timeout thread wait for each other for ever: the acquisition completed while the timer ran (which
    clears timeout_active_ and starts the next acquisition), and the next frame reports missing frames before the
    timeout thread has noticed. *)
Definition stuck_tf (s : sys) : Prop :=
  pt s = TNotified /\ pf s = FStart /\ m_start s = Some TT /\ m_close s = Some TF /\ m_main s = Some TF /\ pc s <> CWork /\ pc s <> CStart.
Lemma stuck_tf_step s l s' : stuck_tf s -> step s l s' -> stuck_tf s'.
Proof.
  intros (A & B & C & D & E & F & G) S. unfold stuck_tf.
  destruct S; cbn; try congruence; try (repeat split; auto; discriminate).
Qed.
Theorem c18_frame_deadlock_refuted : exists tr s, exec false tr s /\ forall s', steps s s' -> pt s' = TNotified /\ pf s' = FStart.
Proof.
  destruct to_waiting as (tr & E). unfold waiting in E.
  go s_frame. go s_frame_close. go s_frame_main. go_w s_frame_complete true. go s_frame_push.
  go s_frame. go s_frame_close. go s_frame_main. go s_frame_missing_start.
  eexists _, _. split; [exact E|]. intros s' R.
  match type of E with exec _ _ ?s => assert (Hs : stuck_tf s) by (repeat split; discriminate) end.
  clear E. induction R as [s|s l s1 s2 S R IH]; [destruct Hs as (? & ? & _); auto|]. apply IH. eapply stuck_tf_step; eassumption.
Qed.
Print Assumptions c18_frame_deadlock_refuted.

(** The same between the control thread (start_timeout_timer in a configuration message) and the timeout thread. *)
Definition stuck_tc (s : sys) : Prop :=
  pt s = TFire /\ pc s = CStart /\ m_start s = Some TT /\ m_close s = Some TT /\ m_main s = Some TC /\ (pf s = FIdle \/ pf s = FClose).
Lemma stuck_tc_step s l s' : stuck_tc s -> step s l s' -> stuck_tc s'.
Proof.
  intros (A & B & C & D & E & F) S. unfold stuck_tc.
  destruct S; cbn; try congruence; try (destruct F; congruence); try (repeat split; auto; discriminate).
Qed.
Theorem c18_control_deadlock_refuted : exists tr s, exec false tr s /\
  forall s', steps s s' -> pt s' = TFire /\ pc s' = CStart /\ (pf s' = FIdle \/ pf s' = FClose).
Proof.
  destruct to_waiting as (tr & E). unfold waiting in E.
  go_w s_eoa true. go s_tick. go s_expire. go s_expired. go s_conf. go s_conf_main. go s_conf_start.
  eexists _, _. split; [exact E|]. intros s' R.
  match type of E with exec _ _ ?s => assert (Hs : stuck_tc s) by (repeat split; auto) end.
  clear E. induction R as [s|s l s1 s2 S R IH]; [destruct Hs as (? & ? & _ & _ & _ & ?); auto|]. apply IH. eapply stuck_tc_step; eassumption.
Qed.
Print Assumptions c18_control_deadlock_refuted.

(** A timeout expires once: the thread waits again only after it was started again (or woke up without a reason). *)
Definition no_start (tr : list (label * N)) : Prop := Forall (fun e => fst e <> LStart /\ fst e <> LSpurious) tr.
Definition spent (s : sys) : Prop := match pt s with TExpired | TFire | TStop => True | TTest | TSleep => active s = false | _ => False end.
Lemma spent_step s l s' : spent s -> step s l s' -> l <> LStart -> l <> LSpurious -> spent s'.
Proof.
  unfold spent. intros P S N1 N2. inversion S; subst; cbn in *; try congruence; try (rewrite H in *; congruence); try exact P; try (destruct (pt s); tauto || reflexivity || congruence); try (rewrite H in P; tauto).
  unfold notify_timer. cbn. destruct (pt s) eqn:E; cbn; rewrite ?E; tauto.
Qed.
Lemma spent_inv a tr s : exec a tr s -> forall t1 n t2, tr = t1 ++ (LExpire, n) :: t2 -> no_start t2 -> spent s.
Proof.
  induction 1 as [|tr s l s' E IH S]; intros t1 n t2 EQ NS; [destruct t1; discriminate|]. destruct t2 as [|e t2 _] using rev_ind.
  - apply app_inj_tail in EQ. destruct EQ as (_ & EQ). injection EQ as -> _. inversion S; subst. exact Logic.I.
  - change (t1 ++ (LExpire, n) :: t2 ++ [e]) with (t1 ++ ((LExpire, n) :: t2) ++ [e]) in EQ. rewrite app_assoc in EQ. apply app_inj_tail in EQ. destruct EQ as (-> & <-). apply Forall_app in NS. destruct NS as (NS & NE). inversion NE as [|? ? (N1 & N2) _]; subst. cbn in N1, N2. exact (spent_step s l s' (IH t1 n t2 eq_refl NS) S N1 N2).
Qed.
Theorem c18_once : forall a t1 n t2 s per s', exec a (t1 ++ (LExpire, n) :: t2) s -> no_start t2 -> ~ step s (LWait per) s'.
Proof.
  intros a t1 n t2 s per s' E NS S. pose proof (spent_inv a _ s E t1 n t2 eq_refl NS) as P. inversion S; subst. unfold spent in P. match goal with H : pt s = TTest |- _ => rewrite H in P end. congruence.
Qed.
Example c18_once_case : exists tr s, exec false (tr ++ [(LExpire, 1)]) s.
Proof. destruct to_waiting as (tr & E). unfold waiting in E. go s_tick. go s_expire. eexists; eexists. exact E. Qed.
Print Assumptions c18_once.
