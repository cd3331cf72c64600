(** Rules for the statements of the model. *)
From Coq Require Import String Ascii.
From Verif Require Import Base StrOrder FrameModel JsonModel JsonSpec JsonProofs LiveModel PortModel EqualModel RcvModel RcvSpec.
Local Open Scope string_scope.
Local Open Scope list_scope.
Local Open Scope Z_scope.

Definition post {A} (a : M A) (s : rc) (Q : A -> rc -> Prop) (X : rexc -> rc -> Prop) : Prop := match a s with (s1, Ret x) => Q x s1 | (s1, Throw e) => X e s1 | (s1, Undef) => True end.
Lemma post_seq {A B} (a : M A) (f : A -> M B) s Q X : post (seq a f) s Q X = post a s (fun x s1 => post (f x) s1 Q X) X.
Proof. unfold post, seq. destruct (a s) as [s1 [x|e|]]; reflexivity. Qed.
Lemma post_ret {A} (a : A) s Q X : post (ret a) s Q X = Q a s. Proof. reflexivity. Qed.
Lemma post_raise {A} e s Q X : post (raise (A := A) e) s Q X = X e s. Proof. reflexivity. Qed.
Lemma post_undefined {A} s Q X : post (undefined (A := A)) s Q X = True. Proof. reflexivity. Qed.
Lemma post_get {A} (f : rc -> A) s Q X : post (get f) s Q X = Q (f s) s. Proof. reflexivity. Qed.
Lemma post_setting {A} (f : settings -> A) s Q X : post (setting f) s Q X = Q (f (c_cfg s)) s. Proof. reflexivity. Qed.
Lemma post_change f s Q X : post (change f) s Q X = Q tt (f s). Proof. reflexivity. Qed.
Lemma post_set f s Q X : post (set f) s Q X = Q tt (w_c_cfg (f (c_cfg s)) s). Proof. reflexivity. Qed.
Lemma post_emit e s Q X : post (emit e) s Q X = Q tt (w_c_out (c_out s ++ [e]) s). Proof. reflexivity. Qed.
Lemma post_later t s Q X : post (later t) s Q X = Q tt (w_c_timers (c_timers s ++ [t]) s). Proof. reflexivity. Qed.
Lemma post_fresh s Q X : post fresh s Q X = Q (c_next s) (w_c_next (S (c_next s)) s). Proof. reflexivity. Qed.
Lemma post_when b a s Q X : post (when b a) s Q X = if b then post a s Q X else Q tt s. Proof. destruct b; reflexivity. Qed.
Lemma post_lift {A} (o : outcome ipcexc A) s Q X : post (lift o) s Q X = match o with Ret a => Q a s | Throw e => X (EIpc e) s | Undef => True end. Proof. destruct o; reflexivity. Qed.
Lemma post_weaken {A} (a : M A) s (Q Q' : A -> rc -> Prop) (X X' : rexc -> rc -> Prop) : post a s Q X -> (forall x s1, Q x s1 -> Q' x s1) -> (forall e s1, X e s1 -> X' e s1) -> post a s Q' X'.
Proof. unfold post. destruct (a s) as [s1 [x|e|]]; auto. Qed.
Lemma post_both {A} (a : M A) s (Q Q' : A -> rc -> Prop) (X X' : rexc -> rc -> Prop) : post a s Q X -> post a s Q' X' -> post a s (fun x s1 => Q x s1 /\ Q' x s1) (fun e s1 => X e s1 /\ X' e s1).
Proof. unfold post. destruct (a s) as [s1 [x|e|]]; auto. Qed.
Ltac vc1 :=
  match goal with
  | |- post (seq _ _) _ _ _ => rewrite post_seq
  | |- post (ret _) _ _ _ => rewrite post_ret
  | |- post (raise _) _ _ _ => rewrite post_raise
  | |- post undefined _ _ _ => rewrite post_undefined; exact Logic.I
  | |- post (get _) _ _ _ => rewrite post_get
  | |- post (setting _) _ _ _ => rewrite post_setting
  | |- post (change _) _ _ _ => rewrite post_change
  | |- post (set _) _ _ _ => rewrite post_set
  | |- post (emit _) _ _ _ => rewrite post_emit
  | |- post (later _) _ _ _ => rewrite post_later
  | |- post fresh _ _ _ => rewrite post_fresh
  | |- post (when ?b _) _ _ _ => rewrite post_when; destruct b eqn:?
  | |- post (lift ?o) _ _ _ => rewrite post_lift; destruct o eqn:?; [| |exact Logic.I]
  | |- post (if ?b then _ else _) _ _ _ => destruct b eqn:?
  | |- post (match ?o with _ => _ end) _ _ _ => destruct o eqn:?
  end.
Ltac vc := repeat vc1.

(** A property of states that statements keep, also when they throw *)
Definition keeps {A} (P : rc -> Prop) (a : M A) : Prop := forall s, P s -> post a s (fun _ => P) (fun _ => P).
Lemma keeps_seq {A B} P (a : M A) (f : A -> M B) : keeps P a -> (forall x, keeps P (f x)) -> keeps P (seq a f).
Proof. intros HA HF s H. rewrite post_seq. eapply post_weaken; [apply HA, H|intros x s1 H1; apply HF, H1|auto]. Qed.
Lemma keeps_ret {A} P (a : A) : keeps P (ret a). Proof. intros s H. exact H. Qed.
Lemma keeps_raise {A} P e : keeps P (raise (A := A) e). Proof. intros s H. exact H. Qed.
Lemma keeps_undefined {A} P : keeps P (undefined (A := A)). Proof. intros s H. exact Logic.I. Qed.
Lemma keeps_get {A} P (f : rc -> A) : keeps P (get f). Proof. intros s H. exact H. Qed.
Lemma keeps_setting {A} P (f : settings -> A) : keeps P (setting f). Proof. intros s H. exact H. Qed.
Lemma keeps_lift {A} P (o : outcome ipcexc A) : keeps P (lift o). Proof. intros s H. rewrite post_lift. destruct o; auto. Qed.
Lemma keeps_when P b a : keeps P a -> keeps P (when b a). Proof. intros K s H. rewrite post_when. destruct b; [apply K, H|exact H]. Qed.
Lemma keeps_change (P : rc -> Prop) f : (forall s, P s -> P (f s)) -> keeps P (change f). Proof. intros K s H. apply K, H. Qed.
Lemma keeps_set (P : rc -> Prop) f : (forall s, P s -> P (w_c_cfg (f (c_cfg s)) s)) -> keeps P (set f). Proof. intros K s H. apply K, H. Qed.
Lemma keeps_emit (P : rc -> Prop) e : (forall s, P s -> P (w_c_out (c_out s ++ [e]) s)) -> keeps P (emit e). Proof. intros K s H. apply K, H. Qed.
Lemma keeps_later (P : rc -> Prop) t : (forall s, P s -> P (w_c_timers (c_timers s ++ [t]) s)) -> keeps P (later t). Proof. intros K s H. apply K, H. Qed.
Lemma keeps_fresh (P : rc -> Prop) : (forall s, P s -> P (w_c_next (S (c_next s)) s)) -> keeps P fresh. Proof. intros K s H. apply K, H. Qed.
Lemma keeps_put (P : rc -> Prop) n v : (forall s m, P s -> P (w_c_reply m s)) -> keeps P (put n v).
Proof. intros K s H. unfold post, put. destruct (set_param (c_reply s) n v) as [m [a|e|]]; auto. Qed.
Lemma keeps_puts (P : rc -> Prop) l : (forall s m, P s -> P (w_c_reply m s)) -> keeps P (puts l).
Proof. intros K. induction l as [|[n v] l IH]; [apply keeps_ret|]. apply keeps_seq; [apply keeps_put, K|intros _; exact IH]. Qed.
Lemma keeps_attempt {A} (P : rc -> Prop) v (a : M A) f : keeps P a -> keeps P (attempt v a f).
Proof. intros K s H. specialize (K s H). unfold post, attempt in *. destruct (a s) as [s1 [x|[w|[| | |]| | |]|]]; auto. Qed.
Lemma keeps_update (P : rc -> Prop) other : (forall s m, P s -> P (w_c_cfg (w_s_dcfg m (c_cfg s)) s)) -> keeps P (update_decoder_config other).
Proof. intros K s H. unfold post, update_decoder_config. destruct (update_msg _ other) as [m [a|e|]]; auto. Qed.
Lemma keeps_make (P : rc -> Prop) v t w l : keeps P (make v t w l).
Proof.
  unfold make. generalize (new_msg t w true (v_now v)). induction l as [|[n y] l IH]; intros m; [apply keeps_seq; [apply keeps_lift|intros d; apply keeps_ret]|]. cbn. destruct (set_param m n y) as [m1 o]. apply keeps_seq; [apply keeps_lift|intros _; apply IH].
Qed.
Lemma keeps_need (P : rc -> Prop) f a : keeps (fun s => P s /\ f s = true) a -> keeps P (need <- get f ;; when need a).
Proof. intros K s H. rewrite post_seq, post_get, post_when. destruct (f s) eqn:E; [|exact H]. eapply post_weaken; [apply K; auto|intros x s1 (A & _); exact A|intros x s1 (A & _); exact A]. Qed.
Ltac keep1 side :=
  match goal with
  | |- keeps _ (ret _) => apply keeps_ret
  | |- keeps _ (raise _) => apply keeps_raise
  | |- keeps _ undefined => apply keeps_undefined
  | |- keeps _ (get _) => apply keeps_get
  | |- keeps _ (setting _) => apply keeps_setting
  | |- keeps _ (lift _) => apply keeps_lift
  | |- keeps _ (make _ _ _ _) => apply keeps_make
  | |- keeps _ (when _ _) => apply keeps_when
  | |- keeps _ (seq (get _) (fun n => when n _)) => apply keeps_need
  | |- keeps _ (seq _ _) => apply keeps_seq; [|intros ?]
  | |- keeps _ (change _) => apply keeps_change; intros; side
  | |- keeps _ (set _) => apply keeps_set; intros; side
  | |- keeps _ (emit _) => apply keeps_emit; intros; side
  | |- keeps _ (later _) => apply keeps_later; intros; side
  | |- keeps _ fresh => apply keeps_fresh; intros; side
  | |- keeps _ (put _ _) => apply keeps_put; intros; side
  | |- keeps _ (puts _) => apply keeps_puts; intros; side
  | |- keeps _ (update_decoder_config _) => apply keeps_update; intros; side
  | |- keeps _ (attempt _ _ _) => apply keeps_attempt
  | |- keeps _ (if ?b then _ else _) => destruct b
  | |- keeps _ (match ?o with _ => _ end) => destruct o
  end.
Ltac keep side := repeat keep1 side.

(** Reading fields of changed states *)
Ltac fields := cbn [c_cfg c_ndec c_nbuf c_nrx c_ipc c_dec c_buf c_rx c_all c_once c_bound c_timers c_classes c_names c_decoder c_buffers c_thread c_received c_released c_total c_ident c_status c_debug c_next c_reply c_out
  w_c_cfg w_c_ndec w_c_nbuf w_c_nrx w_c_ipc w_c_dec w_c_buf w_c_rx w_c_all w_c_once w_c_bound w_c_timers w_c_classes w_c_names w_c_decoder w_c_buffers w_c_thread w_c_received w_c_released w_c_total w_c_ident w_c_status w_c_debug w_c_next w_c_reply w_c_out
  s_mem s_path s_type s_dcfg s_rx s_ports s_addr s_size s_end s_shm s_frames w_s_mem w_s_path w_s_type w_s_dcfg w_s_rx w_s_ports w_s_addr w_s_size w_s_end w_s_shm w_s_frames fst snd].
Tactic Notation "fields" "in" hyp_list(H) := cbn [c_cfg c_ndec c_nbuf c_nrx c_ipc c_dec c_buf c_rx c_all c_once c_bound c_timers c_classes c_names c_decoder c_buffers c_thread c_received c_released c_total c_ident c_status c_debug c_next c_reply c_out
  w_c_cfg w_c_ndec w_c_nbuf w_c_nrx w_c_ipc w_c_dec w_c_buf w_c_rx w_c_all w_c_once w_c_bound w_c_timers w_c_classes w_c_names w_c_decoder w_c_buffers w_c_thread w_c_received w_c_released w_c_total w_c_ident w_c_status w_c_debug w_c_next w_c_reply w_c_out
  s_mem s_path s_type s_dcfg s_rx s_ports s_addr s_size s_end s_shm s_frames w_s_mem w_s_path w_s_type w_s_dcfg w_s_rx w_s_ports w_s_addr w_s_size w_s_end w_s_shm w_s_frames fst snd] in H.

(** The helpers on shared memory touch only the names. *)
Lemma released_eq s : exists l, released_by_decoder s = w_c_names l s.
Proof. unfold released_by_decoder, remove_name. assert (E : exists l, s = w_c_names l s) by (exists (c_names s); destruct s; reflexivity). destruct (c_decoder s) as [d|]; [|exact E]. destruct (d_buf d); [|exact E]. destruct (same_buffers _ _); [exact E|eauto]. Qed.
Lemma keeps_reset_decoder (P : rc -> Prop) : (forall s l, P s -> P (w_c_decoder None (w_c_names l s))) -> keeps P reset_decoder.
Proof. intros K. apply keeps_change. intros s H. destruct (released_eq s) as (l & ->). apply K, H. Qed.
Lemma keeps_reset_buffers (P : rc -> Prop) : (forall s l, P s -> P (w_c_buffers None (w_c_names l s))) -> keeps P reset_buffers.
Proof.
  intros K. apply keeps_change. intros s H. destruct (c_buffers s) as [b|]; [|exact H]. cbv zeta. match goal with |- P (w_c_buffers None (if ?k then _ else _)) => destruct k end; [|apply K, H]. replace s with (w_c_names (c_names s) s) by (destruct s; reflexivity). apply K, H.
Qed.
Lemma keeps_register (P : rc -> Prop) : (forall s l d, P s -> P (w_c_decoder d (w_c_names l s))) -> keeps P register_buffers.
Proof. intros K. apply keeps_change. intros s H. destruct (c_decoder s) as [d|]; [|exact H]. cbv zeta. destruct (released_eq s) as (l & ->). apply K, H. Qed.
Ltac keep2 side :=
  repeat first [ keep1 side | match goal with
    | |- keeps _ reset_decoder => apply keeps_reset_decoder; intros; side
    | |- keeps _ reset_buffers => apply keeps_reset_buffers; intros; side
    | |- keeps _ register_buffers => apply keeps_register; intros; side end ].

(** *** The flags *)
Definition flags (s : rc) : Prop := (c_dec s = true -> c_ndec s = true) /\ (c_buf s = true -> c_nbuf s = true) /\ (c_rx s = true -> c_nrx s = true).
Ltac flag := cbv beta in *; unfold flags in *; fields; first [tauto | repeat split; intros; try discriminate; tauto].
Lemma flags_stop : keeps flags stop_rx_thread. Proof. unfold stop_rx_thread. keep flag. Qed.
Lemma flags_unbind v c e b : keeps flags (unbind_channel v c e b). Proof. unfold unbind_channel. keep flag. Qed.
Lemma flags_channel v m c : keeps flags (configure_channel v m c). Proof. unfold configure_channel, setup_channel, set_end. keep flag. all: apply flags_unbind. Qed.
Lemma flags_ipc v m : keeps flags (configure_ipc_channels v m). Proof. unfold configure_ipc_channels. keep flag. all: apply flags_channel. Qed.
Lemma flags_load v c l : keeps flags (load_class v c l). Proof. unfold load_class. keep flag. Qed.
Lemma flags_class m : keeps flags (new_decoder_class m). Proof. unfold new_decoder_class. keep flag. Qed.
Lemma flags_load_decoder v a b : keeps (fun s => flags s /\ c_ndec s = true) (load_decoder v a b).
Proof. unfold load_decoder, stop_rx_thread, load_class. cbv zeta. keep2 flag. Qed.
Lemma flags_decoder v m : keeps flags (configure_frame_decoder v m).
Proof.
  unfold configure_frame_decoder. cbv zeta. keep2 flag. all: first [apply flags_class|apply flags_load_decoder].
Qed.
Lemma flags_buffers v m : keeps flags (configure_buffer_manager v m).
Proof. unfold configure_buffer_manager, stop_rx_thread. keep2 flag. Qed.
Lemma flags_rx v m : keeps flags (configure_rx_thread v m).
Proof. unfold configure_rx_thread, stop_rx_thread. cbv zeta. keep flag. Qed.
Lemma flags_parts v m : keeps flags (configure_parts v m).
Proof.
  unfold configure_parts, reply_type. keep flag. all: first [apply flags_ipc|apply flags_decoder|apply flags_buffers|apply flags_rx].
Qed.
Lemma keeps_configure (P : rc -> Prop) v m : (forall s r, P s -> P (w_c_reply r s)) -> keeps P (configure_parts v m) -> keeps P (configure v m).
Proof.
  intros R K. apply keeps_seq; [apply keeps_change; intros s H; apply R, H|]. intros _ s H. specialize (K s H). unfold post in *. destruct (configure_parts v m s) as [s1 [x|e|]]; auto. destruct e; auto.
  change (post (reply_type TNack ;; put "error" (XStr what)) s1 (fun _ => P) (fun _ => P)). apply keeps_seq; [apply keeps_change; intros; apply R; assumption|intros _; apply keeps_put; auto|exact K].
Qed.
Ltac beta_auto := cbv beta zeta; auto.
(** A property that does not look at the reply, and is kept by configuring and the handlers, holds after each step. *)
Lemma keeps_ctrl (P : rc -> Prop) v client x : (forall s r, P s -> P (w_c_reply r s)) -> (forall m, keeps P (configure v m)) -> (forall s, P s -> P (w_c_received 0 s)) -> (forall s, P s -> P (w_c_released 0 s)) ->
  (forall s, P s -> P (w_c_timers (c_timers s ++ [TStop]) s)) -> (forall s d, P s -> P (w_c_out (c_out s ++ [FReply client d]) s)) -> keeps P (handle_ctrl v client x).
Proof.
  intros R C A B T O. unfold handle_ctrl, request, parse, send_reply, request_configuration, get_status, get_version, reset_statistics, reply_type, reply_val, reply_id.
  keep beta_auto. all: apply C.
Qed.
Lemma flags_step v e : keeps flags (step v e).
Proof.
  assert (C : forall m, keeps flags (configure v m)) by (intros m; apply keeps_configure; [intros; flag|apply flags_parts]). destruct e as [m|client x|i x|x|]; cbn [step].
  - keep flag. apply C.
  - apply keeps_ctrl; intros; try flag. apply C.
  - unfold handle_rx, parse, precharge_buffers. keep flag.
  - unfold handle_release, parse, notify_buffer_config. keep flag.
  - unfold run_timer, notify_buffer_config, unbind_channel. keep flag.
Qed.
Lemma keeps_run (P : rc -> Prop) l s s' : (forall v e, In (v, e) l -> keeps P (step v e)) -> run l s = (s', Ret tt) -> P s -> P s'.
Proof.
  revert s. induction l as [|[v e] l IH]; intros s K R H; [injection R as <-; exact H|]. cbn in R. pose proof (K v e (or_introl eq_refl) s H) as S. unfold post in S. destruct (step v e s) as [s1 [x|z|]]; try discriminate. apply (IH s1); auto. intros v' e' I. apply K. right. exact I.
Qed.
