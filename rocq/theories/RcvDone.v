(** What an acknowledged configuration leaves behind, once a decoder is named. *)
From Coq Require Import String.
From Verif Require Import Base FrameModel JsonModel JsonSpec PortModel PortSpec EqualModel RcvModel RcvSpec RcvProofs RcvReply RcvInv RcvChan RcvCtrl.
Local Open Scope string_scope.
Local Open Scope list_scope.
Local Open Scope Z_scope.

(** A named decoder is to be loaded. *)
Definition to_load (s : rc) : Prop := s_type (c_cfg s) <> "unknown" -> c_ndec s = true.
Ltac typ := cbv beta in *; unfold to_load in *; fields; auto.
Lemma typed_block t : keeps to_load (set (w_s_type t) ;; change (w_c_ndec true)).
Proof. intros s H. rewrite post_seq, post_set, post_change. unfold to_load. fields. auto. Qed.
Lemma typed_step v e : keeps to_load (step v e).
Proof.
  assert (C : forall m, keeps to_load (configure v m)).
  { intros m. apply keeps_configure; [intros; typ|]. unfold configure_parts, configure_ipc_channels, configure_channel, setup_channel, set_end, unbind_channel, configure_frame_decoder, load_decoder, load_class, new_decoder_class, configure_buffer_manager, configure_rx_thread, stop_rx_thread, reply_type. cbv zeta.
    repeat match goal with
    | |- keeps _ (seq (set (w_s_type _)) _) => apply typed_block
    | |- keeps _ reset_decoder => apply keeps_reset_decoder; intros; typ
    | |- keeps _ reset_buffers => apply keeps_reset_buffers; intros; typ
    | |- keeps _ register_buffers => apply keeps_register; intros; typ
    | |- keeps _ (seq (get _) (fun n => when n _)) => apply keeps_need2
    | _ => keep1 ltac:(idtac; typ) end. }
  destruct e as [m|client x|i x|x|]; cbn [step].
  - keep3 ltac:(idtac; typ). apply C.
  - apply keeps_ctrl; intros; try typ. all: apply C.
  - unfold handle_rx, parse, precharge_buffers. keep3 ltac:(idtac; typ).
  - unfold handle_release, parse, notify_buffer_config. keep3 ltac:(idtac; typ).
  - unfold run_timer, notify_buffer_config, unbind_channel. keep3 ltac:(idtac; typ).
Qed.
Lemma typed_run l b st fr tot now s : run l (rc_init b st fr tot now) = (s, Ret tt) -> to_load s.
Proof. intros R. refine (keeps_run _ _ _ _ _ R _); [intros; apply typed_step|]. intros N. destruct N. reflexivity. Qed.

(** The parts one after the other.  [named]: a decoder is named. *)
Definition named (s : rc) : Prop := s_type (c_cfg s) <> "unknown".
Lemma post_any {A} (a : M A) s : post a s (fun _ _ => True) (fun _ _ => True). Proof. unfold post. destruct (a s) as [? []]; exact Logic.I. Qed.
Lemma ipc_typed v m : keeps to_load (configure_ipc_channels v m).
Proof. unfold configure_ipc_channels, configure_channel, setup_channel, set_end, unbind_channel. keep3 ltac:(idtac; typ). Qed.
Lemma load_done v dir type s : post (load_decoder v dir type) s (fun _ s1 => c_dec s1 = true) (fun _ _ => True).
Proof.
  unfold load_decoder. cbv zeta. do 3 (rewrite post_seq; eapply post_weaken; [apply post_any| |auto]; cbv beta; intros ? ? _). rewrite post_seq, post_change. destruct x1 as [d|]; [|exact Logic.I]. vc; auto.
Qed.
Lemma decoder_done v m s : to_load s -> post (configure_frame_decoder v m) s (fun _ s1 => named s1 -> c_dec s1 = true) (fun _ _ => True).
Proof.
  intros F. unfold configure_frame_decoder. cbv zeta.
  rewrite post_seq, post_setting, post_seq, post_lift. destruct (str_param_or _ _ _) as [path|e|]; [|exact Logic.I|exact Logic.I].
  rewrite post_seq. eapply post_weaken with (Q := fun _ => to_load) (X := fun _ _ => True); [vc; typ| |auto]. clear s F. intros _ s F. destruct (last_char path); [|exact Logic.I].
  rewrite post_seq, post_setting, post_seq, post_lift. destruct (str_param_or _ _ _) as [type|e|]; [|exact Logic.I|exact Logic.I].
  rewrite post_seq. eapply post_weaken with (Q := fun _ s1 => to_load s1 /\ s_type (c_cfg s1) = type) (X := fun _ _ => True); [| |auto].
  { vc; fields. - split; [typ|reflexivity]. - split; [exact F|]. match goal with H : negb _ = false |- _ => apply Bool.negb_false_iff, String.eqb_eq in H; congruence end. }
  clear s F. intros _ s (F & T). rewrite post_seq, post_lift. destruct (has_param m "decoder_config") as [h|e|]; [|exact Logic.I|exact Logic.I].
  rewrite post_seq. eapply post_weaken with (Q := fun _ s1 => to_load s1 /\ s_type (c_cfg s1) = type) (X := fun _ _ => True); [| |auto].
  { eapply post_weaken with (X := fun _ s1 => to_load s1 /\ s_type (c_cfg s1) = type); [|intros x s1 H; exact H|auto].
    assert (K : keeps (fun s1 => to_load s1 /\ s_type (c_cfg s1) = type) (when h (x <- lift (get_ref m "decoder_config");; cur <- setting s_dcfg;; when (negb (msg_eqb (v_deq v) (msg_of_value x TIllegal VIllegal true (v_now v)) cur)) (n <- new_decoder_class m;; (if n : bool then set (w_s_dcfg (msg_of_value x TIllegal VIllegal true (v_now v))) else update_decoder_config (msg_of_value x TIllegal VIllegal true (v_now v)));; change (w_c_ndec true))))).
    { unfold new_decoder_class. keep ltac:(idtac; cbv beta in *; unfold to_load in *; fields; tauto). }
    apply K. auto. }
  clear s F T. intros _ s (F & T). rewrite post_seq, post_get, post_when. destruct (c_ndec s) eqn:N.
  - rewrite post_seq, post_change, post_when. unfold is_unknown. destruct (String.eqb_spec type "unknown") as [U|U]; cbn [negb].
    + intros X. destruct X. fields. congruence.
    + eapply post_weaken; [apply load_done|auto|auto].
  - intros X. rewrite (F X) in N. discriminate.
Qed.
Lemma buffers_done v m s : dec_post s -> c_dec s = true -> post (configure_buffer_manager v m) s (fun _ s1 => c_dec s1 = true /\ c_buf s1 = true /\ s_type (c_cfg s1) = s_type (c_cfg s)) (fun _ _ => True).
Proof.
  intros (_ & F) D. destruct (F D) as (N & _ & d & (DC & _) & _). clear F. set (P := fun s1 => c_dec s1 = true /\ c_nbuf s1 = true /\ c_decoder s1 = Some d /\ s_type (c_cfg s1) = s_type (c_cfg s)). assert (I : P s) by (unfold P; auto). change (post (configure_buffer_manager v m) s (fun _ s1 => c_dec s1 = true /\ c_buf s1 = true /\ s_type (c_cfg s1) = s_type (c_cfg s)) (fun _ _ => True)).
  revert I. generalize s at 1 2. intros s0 I. clear D N DC. unfold configure_buffer_manager.
  rewrite post_seq, post_setting, post_seq, post_lift. destruct (str_param_or _ _ _) as [name|e|]; [|exact Logic.I|exact Logic.I].
  rewrite post_seq. eapply post_weaken with (Q := fun _ => P) (X := fun _ _ => True); [vc; unfold P in *; fields; tauto| |auto]. clear s0 I. intros _ s0 I.
  rewrite post_seq, post_setting, post_seq, post_lift. destruct (int_param_or _ _ _ _) as [mem|e|]; [|exact Logic.I|exact Logic.I].
  rewrite post_seq. eapply post_weaken with (Q := fun _ => P) (X := fun _ _ => True); [vc; unfold P in *; fields; tauto| |auto]. clear s0 I. intros _ s0 I.
  destruct I as (I1 & I2 & I3 & I4). rewrite post_seq, post_get, post_when, I2, post_seq, post_change, post_seq, post_get. fields. rewrite I3. set (Q := fun s1 => c_dec s1 = true /\ s_type (c_cfg s1) = s_type (c_cfg s)).
  rewrite post_seq. eapply post_weaken with (Q := fun _ => Q) (X := fun _ _ => True); [unfold stop_rx_thread; vc; unfold Q; fields; auto| |auto]. clear s0 I1 I2 I3 I4. intros _ s0 I.
  rewrite post_seq. eapply post_weaken with (Q := fun _ => Q) (X := fun _ _ => True); [|clear s0 I; intros _ s0 I|auto].
  { eapply post_weaken; [apply (keeps_reset_buffers Q); [|exact I]|auto|auto]. unfold Q. intros s1 l H. fields. exact H. }
  destruct (v_shm _ _ _ _) as [count|]; [|exact Logic.I]. rewrite post_seq, post_fresh, post_seq, post_change, post_seq, post_emit, post_seq, post_change, post_seq.
  eapply post_weaken with (Q := fun _ => Q) (X := fun _ _ => True); [| |auto].
  { eapply post_weaken; [apply (keeps_register Q); [|unfold Q in *; fields; exact I]|auto|auto]. unfold Q. intros s1 l dd H. fields. exact H. }
  clear s0 I. intros _ s0 (I1 & I2). rewrite post_seq, post_later, post_seq, post_change, post_change. fields. auto.
Qed.
Lemma rx_done v m s : buf_post s -> c_dec s = true -> c_buf s = true ->
  post (configure_rx_thread v m) s (fun _ s1 => c_dec s1 = true /\ c_buf s1 = true /\ c_rx s1 = v_start v /\ s_type (c_cfg s1) = s_type (c_cfg s) /\ exists t, c_thread s1 = Some t /\ t_type t = s_rx (c_cfg s1) /\ t_ok t = v_start v) (fun _ _ => True).
Proof.
  intros (_ & F) D B. destruct (F D B) as (N & d & b & (DC & _) & (BC & _) & _). clear F. set (P := fun s1 => c_dec s1 = true /\ c_buf s1 = true /\ c_nrx s1 = true /\ c_decoder s1 = Some d /\ c_buffers s1 = Some b /\ s_type (c_cfg s1) = s_type (c_cfg s)). assert (I : P s) by (unfold P; auto 10).
  revert I. generalize s at 1 2. intros s0 I. clear D N B DC BC. unfold configure_rx_thread. cbv zeta.
  rewrite post_seq, post_setting, post_seq, post_lift. destruct (str_param_or _ _ _) as [name|e|]; [|exact Logic.I|exact Logic.I].
  rewrite post_seq. eapply post_weaken with (Q := fun _ s1 => P s1 /\ s_rx (c_cfg s1) = rx_type_of_name name) (X := fun _ _ => True); [| |auto].
  { vc; fields; (split; [unfold P in *; fields; tauto|]); [reflexivity|]. match goal with H : negb _ = false |- _ => apply Bool.negb_false_iff in H; revert H; generalize (rx_type_of_name name); generalize (s_rx (c_cfg s0)); intros [] []; cbn; congruence end. }
  clear s0 I. intros _ s0 (I & T).
  rewrite post_seq, post_setting, post_seq, post_lift. destruct (str_param_or _ _ _) as [addr|e|]; [|exact Logic.I|exact Logic.I].
  rewrite post_seq. eapply post_weaken with (Q := fun _ s1 => P s1 /\ s_rx (c_cfg s1) = rx_type_of_name name) (X := fun _ _ => True); [vc; unfold P in *; fields; tauto| |auto]. clear s0 I T. intros _ s0 (I & T).
  rewrite post_seq, post_setting, post_seq, post_lift. destruct (int_param_or _ _ _ _) as [size|e|]; [|exact Logic.I|exact Logic.I].
  rewrite post_seq. eapply post_weaken with (Q := fun _ s1 => P s1 /\ s_rx (c_cfg s1) = rx_type_of_name name) (X := fun _ _ => True); [vc; unfold P in *; fields; tauto| |auto]. clear s0 I T. intros _ s0 (I & T).
  rewrite post_seq, post_setting. destruct (rx_port_list _) as [current|]; [|exact Logic.I]. rewrite post_seq, post_lift. destruct (str_param_or _ _ _) as [ports|e|]; [|exact Logic.I|exact Logic.I].
  rewrite post_seq. eapply post_weaken with (Q := fun _ s1 => P s1 /\ s_rx (c_cfg s1) = rx_type_of_name name) (X := fun _ _ => True); [vc; unfold P in *; fields; tauto| |auto]. clear s0 I T. intros _ s0 (I & T).
  destruct I as (I1 & I2 & I3 & I4 & I5 & I6). rewrite post_seq, post_get, post_when, I3, post_seq, post_change, post_seq, post_get, post_seq, post_get. fields. rewrite I4, I5. rewrite post_seq.
  eapply post_weaken with (Q := fun _ s1 => c_dec s1 = true /\ c_buf s1 = true /\ s_type (c_cfg s1) = s_type (c_cfg s) /\ s_rx (c_cfg s1) = rx_type_of_name name) (X := fun _ _ => True); [unfold stop_rx_thread; vc; fields; auto| |auto].
  clear s0 I1 I2 I3 I4 I5 I6 T. intros _ s0 (I1 & I2 & I3 & T).
  destruct (rx_type_of_name name) eqn:R; [exact Logic.I| | |]; (rewrite post_seq, post_get, post_seq, post_change, post_seq, post_emit, post_change; fields; repeat split; auto; eexists; repeat split; fields; first [reflexivity|symmetry; exact T]).
Qed.
(** Decoder, buffers and thread after an acknowledged configure *)
Record parts_done (v : env) (s : rc) : Prop := PartsDone {
  pd_flags : c_dec s = true /\ c_buf s = true /\ c_rx s = v_start v;
  pd_thread : exists t, c_thread s = Some t /\ t_ok t = v_start v }.
Lemma parts_done_ok v m s : flags s -> to_load s -> post (configure_parts v m) s (fun _ s1 => named s1 -> parts_done v s1) (fun _ _ => True).
Proof.
  intros F T. unfold configure_parts. rewrite post_seq, post_lift. destruct (has_param m "debug_level") as [h|e|]; [|exact Logic.I|exact Logic.I].
  rewrite post_seq. eapply post_weaken with (Q := fun _ s1 => flags s1 /\ to_load s1) (X := fun _ _ => True); [vc; auto; split; solve [flag|typ]| |auto]. clear s F T. intros _ s (F & T).
  rewrite post_seq, post_lift. destruct (has_param m "frames") as [h2|e|]; [|exact Logic.I|exact Logic.I].
  rewrite post_seq. eapply post_weaken with (Q := fun _ s1 => flags s1 /\ to_load s1) (X := fun _ _ => True); [vc; auto; split; solve [flag|typ]| |auto]. clear s F T. intros _ s (F & T).
  rewrite post_seq. eapply post_weaken with (Q := fun _ s1 => flags s1 /\ to_load s1) (X := fun _ _ => True); [|clear s F T; intros _ s (F & T)|auto].
  { eapply post_weaken; [apply (post_both _ _ _ _ _ _ (flags_ipc v m s F) (ipc_typed v m s T))|auto|auto]. }
  rewrite post_seq. eapply post_weaken; [apply (post_both _ _ _ _ _ _ (decoder_post v m s F) (decoder_done v m s T))| |auto]. cbv beta. clear s F T. intros _ s (P & DN).
  rewrite post_seq. eapply post_weaken with (Q := fun _ s1 => buf_post s1 /\ (named s1 -> c_dec s1 = true /\ c_buf s1 = true)) (X := fun _ _ => True); [|clear s P DN; intros _ s (P & BN)|auto].
  { destruct (String.eqb_spec (s_type (c_cfg s)) "unknown") as [U|U].
    - assert (K : keeps (fun s1 => s_type (c_cfg s1) = "unknown") (configure_buffer_manager v m)) by (unfold configure_buffer_manager, stop_rx_thread; keep3 ltac:(idtac; cbv beta in *; fields; auto)).
      eapply post_weaken; [apply (post_both _ _ _ _ _ _ (buffers_post v m s P) (K s U))| |auto]. cbv beta. intros _ s1 (A & B). split; [exact A|]. intros N. destruct (N B).
    - eapply post_weaken; [apply (post_both _ _ _ _ _ _ (buffers_post v m s P) (buffers_done v m s P (DN U)))| |auto]. cbv beta. intros _ s1 (A & B1 & B2 & _). auto. }
  rewrite post_seq. eapply post_weaken with (Q := fun _ s1 => named s1 -> parts_done v s1) (X := fun _ _ => True); [|clear s P BN; intros _ s P|auto].
  { destruct (String.eqb_spec (s_type (c_cfg s)) "unknown") as [U|U].
    - assert (K : keeps (fun s1 => s_type (c_cfg s1) = "unknown") (configure_rx_thread v m)) by (unfold configure_rx_thread, stop_rx_thread; cbv zeta; keep3 ltac:(idtac; cbv beta in *; fields; auto)).
      eapply post_weaken; [apply (K s U)| |auto]. cbv beta. intros ? s1 B N. destruct (N B).
    - destruct (BN U) as (B1 & B2). eapply post_weaken; [apply (rx_done v m s P B1 B2)| |auto]. cbv beta. intros _ s1 (A1 & A2 & A3 & _ & t & A4 & _ & A5) _. split; eauto. }
  assert (K : keeps (fun s1 => named s1 -> parts_done v s1) (change (fun s => w_c_all (c_ipc s && c_dec s && c_buf s && c_rx s) s) ;; reply_type TAck ;; i <- get c_ipc ;; d <- get c_dec ;; b <- get c_buf ;; r <- get c_rx ;;
    puts [("configured/ipc", XBool i); ("configured/decoder", XBool d); ("configured/buffer_manager", XBool b); ("configured/rx_thread", XBool r)])).
  { unfold reply_type. keep3 ltac:(idtac; match goal with H : named ?s -> parts_done _ ?s, N : named _ |- _ => destruct (H N); constructor; fields; assumption end). }
  eapply post_weaken; [apply (K s P)|auto|auto].
Qed.
