(** The channels stay bound where the settings say, as long as no bind fails. *)
From Coq Require Import String Ascii.
From Verif Require Import Base StrOrder FrameModel JsonModel JsonSpec JsonProofs LiveModel PortModel EqualModel RcvModel RcvSpec RcvProofs RcvReply.
Local Open Scope string_scope.
Local Open Scope list_scope.
Local Open Scope Z_scope.

Definition pending (s : rc) : list (chan * string) := flat_map (fun t => match t with TUnbind c e => [(c, e)] | _ => [] end) (c_timers s).
Record chan_ok (s : rc) : Prop := ChanOk {
  co_once : forall c, In c (c_once s) -> listening c s;
  co_pending : forall c e, In (c, e) (pending s) -> c = CCtrl /\ e <> s_end (c_cfg s) CCtrl /\ In (c, e) (c_bound s);
  co_nodup : NoDup (pending s) }.
Definition chan_inv (s : rc) : Prop := (exists c e, In (FBindFailed c e) (c_out s)) \/ chan_ok s.
Lemma chan_eqb_spec a b : reflect (a = b) (chan_eqb a b). Proof. destruct a, b; constructor; congruence. Qed.
Lemma is_bound_In c e s : is_bound c e s = true <-> In (c, e) (c_bound s).
Proof.
  unfold is_bound. rewrite existsb_exists. split.
  - intros ((c', e') & I & E). apply andb_prop in E. destruct E as (E1 & E2). cbn in *. destruct (chan_eqb_spec c' c) as [->|]; [|discriminate]. apply String.eqb_eq in E2. subst. exact I.
  - intros I. exists (c, e). split; [exact I|]. cbn. destruct (chan_eqb_spec c c); [|congruence]. apply String.eqb_refl.
Qed.
Lemma In_without c e c' e' l : In (c', e') (without c e l) <-> In (c', e') l /\ (c', e') <> (c, e).
Proof.
  unfold without. rewrite filter_In. cbn. destruct (chan_eqb_spec c' c) as [->|N]; cbn; [|split; intros (A & B); split; auto; congruence]. destruct (String.eqb_spec e' e) as [->|N]; cbn; split; intros (A & B); split; auto; try congruence; try discriminate.
Qed.
(** Statements that leave the channels alone *)
Lemma chan_ok_same s s' : s_end (c_cfg s') = s_end (c_cfg s) -> c_once s' = c_once s -> c_bound s' = c_bound s -> pending s' = pending s -> chan_ok s -> chan_ok s'.
Proof. intros A B C D [X Y Z]. split; unfold listening in *; rewrite ?A, ?B, ?C, ?D; assumption. Qed.
Lemma pending_later s t : (forall c e, t <> TUnbind c e) -> pending (w_c_timers (c_timers s ++ [t]) s) = pending s.
Proof. intros N. unfold pending. fields. rewrite flat_map_app. destruct t as [c e| |]; [destruct (N c e eq_refl)|cbn; apply app_nil_r..]. Qed.
Ltac chan :=
  cbv beta in *; match goal with H : chan_inv _ |- _ =>
    let c := fresh "c" in let e := fresh "e" in let I := fresh "I" in let O := fresh "O" in
    destruct H as [(c & e & I)|O]; [left; exists c, e; fields; try (apply in_or_app; left); exact I|right; revert O; apply chan_ok_same; fields; try reflexivity; try (apply pending_later; discriminate)] end.
Lemma chan_same_decoder v m : keeps chan_inv (configure_frame_decoder v m).
Proof. unfold configure_frame_decoder, load_decoder, stop_rx_thread, load_class, new_decoder_class. cbv zeta. keep3 ltac:(idtac; chan). Qed.
Lemma chan_same_buffers v m : keeps chan_inv (configure_buffer_manager v m). Proof. unfold configure_buffer_manager, stop_rx_thread. keep3 ltac:(idtac; chan). Qed.
Lemma chan_same_rx v m : keeps chan_inv (configure_rx_thread v m). Proof. unfold configure_rx_thread, stop_rx_thread. cbv zeta. keep3 ltac:(idtac; chan). Qed.
(** One channel *)
Lemma chan_channel v m c : exclusive v -> keeps chan_inv (configure_channel v m c).
Proof.
  intros EX s INV. unfold configure_channel.
  rewrite post_seq, post_lift. destruct (has_param _ _) as [h|e|]; [|exact INV|exact Logic.I]. rewrite post_when. destruct h; [|exact INV].
  rewrite post_seq, post_lift. destruct (str_param _ _) as [e|x|]; [|exact INV|exact Logic.I]. rewrite post_seq, post_setting, post_when. destruct (negb (String.eqb e (s_end (c_cfg s) c))) eqn:NE; [|exact INV]. apply Bool.negb_true_iff, String.eqb_neq in NE.
  destruct INV as [(c0 & e0 & I)|O].
  { eapply post_weaken with (Q := fun _ s => In (FBindFailed c0 e0) (c_out s)) (X := fun _ s => In (FBindFailed c0 e0) (c_out s)); [|intros; left; eauto|intros; left; eauto].
    unfold unbind_channel, setup_channel, set_end. vc; fields; repeat (apply in_or_app; left); exact I. }
  set (cur := s_end (c_cfg s) c) in *. destruct O as [O1 O2 O3]. rewrite post_seq.
  (* after unbinding *)
  eapply post_weaken with (X := fun _ s1 => chan_inv s1)
    (Q := fun _ s1 => c_cfg s1 = c_cfg s /\ c_once s1 = c_once s /\ (forall c' e', (c', e') <> (c, cur) -> (In (c', e') (c_bound s1) <-> In (c', e') (c_bound s))) /\ (c = CCtrl -> c_bound s1 = c_bound s) /\
       (forall c' e', In (c', e') (pending s1) -> c' = CCtrl /\ (e' <> s_end (c_cfg s) CCtrl \/ c = CCtrl) /\ In (c', e') (c_bound s)) /\ NoDup (pending s1)).
  { unfold unbind_channel. rewrite post_seq, post_get. destruct (is_bound c cur s) eqn:B.
    - apply is_bound_In in B. destruct (chan_eqb_spec c CCtrl) as [->|N].
      + rewrite post_later. unfold pending in *. fields. rewrite flat_map_app. cbn. repeat split; auto.
        * apply in_app_or in H. destruct H as [H|[H|[]]]; [destruct (O2 _ _ H) as (A & _); exact A|congruence].
        * apply in_app_or in H. destruct H as [H|[H|[]]]; [destruct (O2 _ _ H) as (_ & _ & A); exact A|injection H as <- <-; exact B].
        * rewrite <- (rev_involutive (_ ++ _)). apply NoDup_rev. rewrite rev_app_distr. cbn. constructor; [|apply NoDup_rev, O3]. rewrite <- in_rev. intros H. destruct (O2 _ _ H) as (_ & A & _). apply A. reflexivity.
      + destruct (v_unbind v c cur).
        * rewrite post_seq, post_change, post_emit. fields. split; [reflexivity|]. split; [reflexivity|]. split; [intros c' e' NE'; rewrite In_without; tauto|]. split; [congruence|]. split; [|exact O3]. intros c' e' H. destruct (O2 _ _ H) as (A1 & A2 & A3). auto.
        * rewrite post_raise. right. split; assumption.
    - rewrite post_ret. repeat split; auto; try tauto; destruct (O2 _ _ H) as (A1 & A2 & A3); auto. }
  2:{ auto. }
  intros _ s1 (C1 & N1 & B1 & BC & P1 & D1). rewrite post_seq. unfold setup_channel. rewrite post_seq, post_get. destruct (v_bind v (c_bound s1) c e) eqn:VB.
  { rewrite post_seq, post_emit, post_raise. left. exists c, e. fields. apply in_or_app. right. left. reflexivity. }
  assert (FR : ~ In (c, e) (c_bound s1)) by (intros H; exact (EX _ _ _ H VB)).
  rewrite post_seq, post_change, post_emit, post_seq. unfold set_end. rewrite post_set, post_seq, post_change.
  eapply post_weaken with (Q := fun _ s => chan_ok s) (X := fun _ s => chan_ok s); [|intros; right; assumption|intros; right; assumption].
  rewrite post_when. match goal with |- if _ then post _ ?z _ _ else _ => assert (K : chan_ok z) end.
  2:{ destruct (chan_eqb c CRx); [rewrite post_change; revert K; apply chan_ok_same; reflexivity|exact K]. }
  assert (BW : forall c' e', In (c', e') (without c e (c_bound s1) ++ [(c, e)]) <-> In (c', e') (c_bound s1) \/ (c', e') = (c, e)).
  { intros c' e'. rewrite in_app_iff, In_without. cbn. split; [intros [(A & _)|[A|[]]]; auto|]. intros [A|A]; [left; split; [exact A|congruence]|right; left; congruence]. }
  split; unfold listening, pending in *; fields.
  - intros c' I. apply BW. destruct (chan_eqb_spec c c') as [<-|N]; [right; reflexivity|]. left. rewrite C1. destruct I as [I|I]; [congruence|]. apply B1; [congruence|]. apply O1. rewrite <- N1. exact I.
  - intros c' e' H. destruct (P1 _ _ H) as (-> & A & B). split; [reflexivity|]. rewrite BW, C1. destruct (chan_eqb_spec c CCtrl) as [->|N].
    + rewrite (BC eq_refl) in *. split; [|left; exact B]. intros ->. exact (FR B).
    + split; [destruct A; [assumption|congruence]|]. left. apply B1; [congruence|exact B].
  - exact D1.
Qed.
Lemma chan_ipc v m : exclusive v -> keeps chan_inv (configure_ipc_channels v m).
Proof. intros EX. unfold configure_ipc_channels. keep3 ltac:(idtac; chan). all: apply chan_channel, EX. Qed.
Lemma chan_configure v m : exclusive v -> keeps chan_inv (configure v m).
Proof.
  intros EX. apply keeps_configure; [intros; chan|]. unfold configure_parts, reply_type. keep3 ltac:(idtac; chan). all: first [apply chan_ipc, EX|apply chan_same_decoder|apply chan_same_buffers|apply chan_same_rx].
Qed.
Lemma chan_timer v : keeps chan_inv (run_timer v).
Proof.
  intros s INV. unfold run_timer. rewrite post_seq, post_get. destruct (c_timers s) as [|t r] eqn:T; [exact INV|]. rewrite post_seq, post_change. destruct INV as [(c0 & e0 & I)|O].
  { assert (K : keeps (fun s => In (FBindFailed c0 e0) (c_out s)) (match t with TUnbind c e => unbind_channel v c e false | TNotifyConfig => notify_buffer_config v | TStop => emit FStop end)).
    { unfold unbind_channel, notify_buffer_config. keep ltac:(idtac; cbv beta in *; fields; first [assumption|apply in_or_app; left; assumption]). }
    apply (post_weaken _ _ _ _ _ _ (K (w_c_timers r s) I)); intros; left; exists c0, e0; assumption. }
  destruct t as [c e| |].
  - destruct O as [O1 O2 O3]. unfold pending in *. rewrite T in *. cbn in O2, O3. destruct (O2 c e (or_introl eq_refl)) as (-> & A & B). unfold unbind_channel. rewrite post_seq, post_get. change (is_bound CCtrl e (w_c_timers r s)) with (is_bound CCtrl e s). rewrite (proj2 (is_bound_In _ _ _) B). inversion O3 as [|? ? X1 X2]; subst.
    destruct (v_unbind v CCtrl e).
    + rewrite post_seq, post_change, post_emit. right. split; unfold listening, pending in *; fields.
      * intros c I. apply In_without. split; [apply O1, I|]. intros E. injection E as -> <-. apply A. reflexivity.
      * intros c' e' H. destruct (O2 c' e' (or_intror H)) as (-> & A' & B'). split; [reflexivity|]. split; [exact A'|]. apply In_without. split; [exact B'|]. intros E. injection E as ->. exact (X1 H).
      * exact X2.
    + rewrite post_raise. right. split; unfold listening, pending in *; fields; [exact O1|intros c' e' H; apply O2; right; exact H|exact X2].
  - assert (K : keeps chan_inv (notify_buffer_config v)) by (unfold notify_buffer_config; keep3 ltac:(idtac; chan)). apply K. right. revert O. apply chan_ok_same; try reflexivity. unfold pending. rewrite T. reflexivity.
  - rewrite post_emit. right. revert O. apply chan_ok_same; try reflexivity. unfold pending. rewrite T. reflexivity.
Qed.
Lemma chan_step v e : exclusive v -> keeps chan_inv (step v e).
Proof.
  intros EX. destruct e as [m|client x|i x|x|]; cbn [step].
  - keep3 ltac:(idtac; chan). apply chan_configure, EX.
  - apply keeps_ctrl; intros; try chan. apply chan_configure, EX.
  - unfold handle_rx, parse, precharge_buffers. keep3 ltac:(idtac; chan).
  - unfold handle_release, parse, notify_buffer_config. keep3 ltac:(idtac; chan).
  - apply chan_timer.
Qed.
Lemma chan_run l b st fr tot now s : (forall v e, In (v, e) l -> exclusive v) -> run l (rc_init b st fr tot now) = (s, Ret tt) -> chan_inv s.
Proof.
  intros EX R. refine (keeps_run chan_inv l _ _ _ R _); [intros v e I; apply chan_step, (EX v e I)|]. right. split; [intros c []|intros c e []|constructor].
Qed.
