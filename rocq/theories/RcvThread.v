(** At most one receiver thread at a time. *)
From Coq Require Import String.
From Verif Require Import Base FrameModel JsonModel JsonSpec PortModel PortSpec RcvModel RcvSpec RcvProofs RcvReply RcvInv RcvChan.
Local Open Scope string_scope.
Local Open Scope list_scope.
Local Open Scope Z_scope.

Definition has_thread (s : rc) : bool := match c_thread s with Some _ => true | None => false end.
Definition one (s : rc) : Prop := thread_log (c_out s) = Some (has_thread s).
Definition quiet (f : effect) : Prop := match f with FThread | FThreadStop => False | _ => True end.
Lemma log_quiet l f : quiet f -> thread_log (l ++ [f]) = thread_log l.
Proof. intros Q. unfold thread_log. rewrite fold_left_app. destruct f; try destruct Q; reflexivity. Qed.
Lemma log_start l : thread_log l = Some false -> thread_log (l ++ [FThread]) = Some true.
Proof. unfold thread_log. intros E. rewrite fold_left_app, E. reflexivity. Qed.
Lemma log_stop l : thread_log l = Some true -> thread_log (l ++ [FThreadStop]) = Some false.
Proof. unfold thread_log. intros E. rewrite fold_left_app, E. reflexivity. Qed.
Ltac one := cbv beta in *; unfold one, has_thread in *; fields; first [assumption | rewrite log_quiet by exact Logic.I; assumption].
Lemma stop_gives s : one s -> post stop_rx_thread s (fun _ s' => one s' /\ c_thread s' = None) (fun _ => one).
Proof.
  intros H. unfold stop_rx_thread. rewrite post_seq, post_get. destruct (c_thread s) as [t|] eqn:T; [|rewrite post_ret; auto]. rewrite post_seq, post_change, post_emit. unfold one, has_thread in *. rewrite T in H. fields. split; [apply log_stop, H|reflexivity].
Qed.
Lemma one_stop : keeps one stop_rx_thread.
Proof. intros s H. apply (post_weaken _ _ _ _ _ _ (stop_gives s H)); intros; tauto. Qed.
Lemma one_renew v type d b : keeps one (stop_rx_thread ;; match type with
  | RxIllegal => raise (EReceiver "Cannot create RX thread - RX type not recognised")
  | _ => g <- get c_cfg ;; change (w_c_thread (Some (Thread (d_no d) (b_no b) type (s_ports g) (s_addr g) (s_size g) (s_end g CRx) (v_start v)))) ;; emit FThread ;; change (w_c_rx (v_start v)) end).
Proof.
  intros s H. rewrite post_seq. apply (post_weaken _ _ _ _ _ _ (stop_gives s H)); [|intros; assumption]. intros _ s1 (A & N).
  destruct type; [rewrite post_raise; exact A|..]; (rewrite post_seq, post_get, post_seq, post_change, post_seq, post_emit, post_change; unfold one, has_thread in *; rewrite N in A; fields; apply log_start, A).
Qed.
Lemma one_rx v m : keeps one (configure_rx_thread v m).
Proof.
  unfold configure_rx_thread. cbv zeta.
  repeat first [apply one_renew | match goal with |- keeps _ (seq (get _) (fun n => when n _)) => apply keeps_need2 end | keep1 ltac:(idtac; one)].
Qed.
Lemma one_step v e : keeps one (step v e).
Proof.
  assert (C : forall m, keeps one (configure v m)).
  { intros m. apply keeps_configure; [intros; one|]. unfold configure_parts, configure_ipc_channels, configure_channel, setup_channel, set_end, unbind_channel, configure_frame_decoder, load_decoder, load_class, new_decoder_class, configure_buffer_manager, reply_type. cbv zeta. keep3 ltac:(idtac; one). all: first [apply one_stop|apply one_rx]. }
  destruct e as [m|client x|i x|x|]; cbn [step].
  - keep3 ltac:(idtac; one). apply C.
  - apply keeps_ctrl; intros; try one. apply C.
  - unfold handle_rx, parse, precharge_buffers. keep3 ltac:(idtac; one).
  - unfold handle_release, parse, notify_buffer_config. keep3 ltac:(idtac; one).
  - unfold run_timer, notify_buffer_config, unbind_channel. keep3 ltac:(idtac; one).
Qed.
Lemma one_run l b st fr tot now s : run l (rc_init b st fr tot now) = (s, Ret tt) -> one s.
Proof. intros R. refine (keeps_run _ _ _ _ _ R eq_refl). intros; apply one_step. Qed.
