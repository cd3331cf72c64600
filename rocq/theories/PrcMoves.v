(** The single changes that configuring is made of. *)
From Coq Require Import String Ascii.
From Verif Require Import Base StrOrder PluginModel CtrlModel JsonModel JsonSpec JsonProofs MessageProps JsonReadModel JsonDoubleModel PrcModel PrcSpec.
Local Open Scope string_scope.
Local Open Scope list_scope.

Section Moves.
  Context {P : Type}.
  Variable v : env P.
  Notation M := (M P).
  Notation st := (prc P).
  (** [w]: also changes to the stored configurations *)
  Inductive move (w : bool) : st -> st -> Prop :=
  | mv_master x s : move w s (w_master x s)
  | mv_limit x s : move w s (w_limit x s)
  | mv_debug x s : move w s (w_debug x s)
  | mv_ctrl e s : v_bind v (p_bound s) e = None -> move w s (w_ctrl e (w_bound (p_bound s ++ [e]) s))
  | mv_meta e s : v_bind_meta v (p_metabound s) e = None -> move w s (w_meta e (w_metabound (p_metabound s ++ [e]) s))
  | mv_graph g s : (exists c, do_cmd c (p_graph s) = Ret g) \/ g = set_shm None (p_graph s) -> move w s (w_graph g s)
  | mv_load i o s : move w s (w_objs (sm_put (p_objs s) i o) s)
  | mv_touch i o f s : sm_get (p_objs s) i = Some o -> move w s (w_reply (p_reply s) (w_objs (sm_put (p_objs s) i (f o)) s))
  | mv_configure i o m s : sm_get (p_objs s) i = Some o -> move w s (w_reply (snd (fst (v_configure v o m (p_reply s)))) (w_objs (sm_put (p_objs s) i (fst (fst (v_configure v o m (p_reply s))))) s))
  | mv_classes l s : move w s (w_classes l s)
  | mv_tell e s : is_reply e = false -> move w s (w_out (p_out s ++ [e]) s)
  | mv_stored i t s : w = true -> move w s (w_stored (sm_put (p_stored s) i t) s).
  Inductive moves (w : bool) : st -> st -> Prop :=
  | ms_none s : moves w s s
  | ms_step s s1 s2 : move w s s1 -> moves w s1 s2 -> moves w s s2.
  Lemma moves_one w s s1 : move w s s1 -> moves w s s1. Proof. intros H. econstructor; [exact H|constructor]. Qed.
  Lemma moves_trans w s s1 s2 : moves w s s1 -> moves w s1 s2 -> moves w s s2. Proof. induction 1; intros H2; [exact H2|]. econstructor; [eassumption|auto]. Qed.
  Lemma move_store s s1 : move false s s1 -> move true s s1. Proof. intros H. inversion H; subst; try (constructor; assumption); discriminate. Qed.
  Lemma moves_store s s1 : moves false s s1 -> moves true s s1. Proof. induction 1; econstructor; [apply move_store|]; eassumption. Qed.

  Definition does {A} (w : bool) (a : M A) : Prop := forall s, moves w s (fst (a s)).
  Lemma does_store {A} (a : M A) : does false a -> does true a. Proof. intros H s. apply moves_store, H. Qed.
  Lemma does_ret {A} w (x : A) : does w (ret x). Proof. intros s. constructor. Qed.
  Lemma does_raise {A} w e : does w (@raise P A e). Proof. intros s. constructor. Qed.
  Lemma does_overflow {A} w : does w (@overflow P A). Proof. intros s. constructor. Qed.
  Lemma does_seq {A B} w (a : M A) (f : A -> M B) : does w a -> (forall x, does w (f x)) -> does w (seq a f).
  Proof. intros Ha Hf s. unfold seq. specialize (Ha s). destruct (a s) as (s1, o). cbn in Ha. destruct o; [|exact Ha..]. eapply moves_trans; [exact Ha|apply Hf]. Qed.
  Lemma does_lift {A} w (o : outcome ipcexc A) : does w (lift o). Proof. intros s. constructor. Qed.
  Lemma does_get {A} w (f : st -> A) : does w (get f). Proof. intros s. constructor. Qed.
  Lemma does_when w b a : does w a -> does w (when b a). Proof. intros H. destruct b; [exact H|apply does_ret]. Qed.
  Lemma does_each {A} w (l : list A) f : (forall x, does w (f x)) -> does w (each l f).
  Proof. intros H. induction l as [|x l IH]; [apply does_ret|]. cbn. apply does_seq; [apply H|intros _; exact IH]. Qed.
  Lemma does_each_plugin w f : (forall x, does w (f x)) -> does w (@each_plugin P f). Proof. intros H. apply does_seq; [apply does_get|intros l; apply does_each, H]. Qed.
  Lemma does_change w f : (forall s, move w s (f s)) -> does w (change f). Proof. intros H s. apply moves_one, H. Qed.
  Lemma does_tell w e : is_reply e = false -> does w (@tell P e). Proof. intros H. apply does_change. intros s. apply mv_tell, H. Qed.
  Lemma does_touch w i f : does w (@touch P i f).
  Proof. intros s. unfold touch, call. destruct (sm_get (p_objs s) i) eqn:G; [|constructor]. cbn. apply moves_one, mv_touch, G. Qed.
  Lemma does_wire w c : does w (@wire P c).
  Proof. intros s. unfold wire. destruct (do_cmd c (p_graph s)) eqn:D; [|constructor..]. apply moves_one, mv_graph. left. exists c. exact D. Qed.
  Lemma does_all w m l : does w (@has_all P m l).
  Proof. induction l as [|n l IH]; [apply does_ret|]. cbn. apply does_seq; [apply does_lift|]. intros []; [exact IH|apply does_ret]. Qed.
  Lemma does_section w m n : does w (section v m n). Proof. apply does_seq; [apply does_lift|intros x; apply does_ret]. Qed.
  Ltac dstep := first [ apply does_ret | apply does_raise | apply does_overflow | apply does_tell; reflexivity | apply does_touch | apply does_wire | apply does_all | apply does_lift | apply does_section | apply does_get
    | apply does_change; intros ?; constructor; fail | apply does_when | apply does_each_plugin; intros ? | apply does_seq; [|intros ?] | match goal with |- does _ (match ?x with _ => _ end) => destruct x end ].
  Lemma does_load w i n l : does w (load_plugin v i n l). Proof. unfold load_plugin, load_class. repeat dstep; apply does_change; intros s; constructor. Qed.
  Lemma does_plugin w m : does w (configure_plugin v m).
  Proof.
    unfold configure_plugin. apply does_seq; [|intros _; apply does_seq; [|intros _]].
    - unfold plugin_load. repeat (apply does_load || dstep).
    - unfold plugin_connect. repeat dstep.
    - unfold plugin_disconnect. dstep; [dstep|]. dstep. intros s.
      match goal with |- moves _ s (fst (match ?a s with _ => _ end)) => assert (R : does w a) by repeat dstep; specialize (R s); destruct (a s) as (s1, o) end. cbn in R.
      destruct o as [?|[[[| | |]|?|]|]|]; try exact R; (eapply moves_trans; [exact R|]); match goal with |- moves _ s1 (fst (?a s1)) => assert (R2 : does w a) by repeat dstep; apply R2 end.
  Qed.
  Lemma does_control w e : does w (setup_control v e).
  Proof.
    intros s. unfold setup_control, seq, get. destruct (v_bind v (p_bound s) e) eqn:E; [constructor|]. cbn. eapply ms_step; [apply mv_ctrl, E|]. apply moves_one.
    apply (mv_tell w (FBind e) (w_ctrl e (w_bound (p_bound s ++ [e]) s))). reflexivity.
  Qed.
  Lemma does_setup_meta w e : does w (setup_meta v e).
  Proof.
    intros s. unfold setup_meta, seq, get. destruct (v_bind_meta v (p_metabound s) e) eqn:E; [constructor|]. cbn. eapply ms_step; [apply mv_meta, E|]. apply moves_one.
    apply (mv_tell w (FBindMeta e) (w_meta e (w_metabound (p_metabound s ++ [e]) s))). reflexivity.
  Qed.
  Lemma does_receiver w p q : does w (setup_receiver v p q).
  Proof.
    intros s. unfold setup_receiver, seq, get. match goal with |- moves _ _ (fst ((if ?b then _ else _) s)) => destruct b end; [constructor|]. destruct (v_shm v p q); [|apply does_wire]. cbn. apply moves_one, mv_graph. right. reflexivity.
  Qed.
  Lemma does_pass w m : does w (pass_on v m).
  Proof.
    unfold pass_on. dstep. dstep; [dstep|]. dstep. dstep; [dstep|]. intros s. unfold call. destruct (sm_get (p_objs s) x) as [o|] eqn:G; [|constructor].
    match goal with |- context [v_configure v o ?m (p_reply s)] => pose proof (mv_configure w x o m s G) as H; destruct (v_configure v o m (p_reply s)) as ((o', r), y) end. cbn in H |- *. apply moves_one, H.
  Qed.
  Lemma does_settings w m : does w (set_master m ;; clear_errors v m ;; set_frames m ;; inject m ;; set_debug m ;; set_ctrl v m ;; set_meta v m ;; set_plugin v m ;; set_receiver v m).
  Proof.
    repeat (apply does_seq; [|intros _]).
    - unfold set_master. repeat dstep.
    - unfold clear_errors. repeat dstep.
    - unfold set_frames. repeat dstep.
    - unfold inject. repeat dstep.
    - unfold set_debug. repeat dstep.
    - unfold set_ctrl. repeat (apply does_control || dstep).
    - unfold set_meta. repeat (apply does_setup_meta || dstep).
    - unfold set_plugin. repeat (apply does_plugin || dstep).
    - unfold set_receiver. repeat (apply does_receiver || dstep).
  Qed.
  Lemma does_stored m : does true (store v m).
  Proof. unfold store. repeat dstep. apply does_change. intros s. constructor. reflexivity. Qed.
  Lemma does_configure n : forall m, does true (configure v n m).
  Proof.
    induction n as [|n IH]; intros m; [apply does_overflow|]. cbn [configure]. unfold configure_once.
    assert (S : forall (b : M unit), does true b -> does true (set_master m ;; clear_errors v m ;; set_frames m ;; inject m ;; set_debug m ;; set_ctrl v m ;; set_meta v m ;; set_plugin v m ;; set_receiver v m ;; b)).
    { intros b Hb s. pose proof (does_settings true m s) as D. revert D. generalize dependent s. intros s. 
      assert (E : (set_master m ;; clear_errors v m ;; set_frames m ;; inject m ;; set_debug m ;; set_ctrl v m ;; set_meta v m ;; set_plugin v m ;; set_receiver v m ;; b) s = ((set_master m ;; clear_errors v m ;; set_frames m ;; inject m ;; set_debug m ;; set_ctrl v m ;; set_meta v m ;; set_plugin v m ;; set_receiver v m) ;; b) s).
      { unfold seq. repeat match goal with |- context [let '(_, _) := ?a in _] => destruct a as (?, [?|?|]); [|reflexivity..] end. reflexivity. }
      rewrite E. intros D. unfold seq at 1. destruct ((set_master m ;; clear_errors v m ;; set_frames m ;; inject m ;; set_debug m ;; set_ctrl v m ;; set_meta v m ;; set_plugin v m ;; set_receiver v m) s) as (s1, o). cbn in D. destruct o; [|exact D..]. eapply moves_trans; [exact D|apply Hb]. }
    apply S. apply does_seq; [apply does_stored|intros _]. apply does_seq; [|intros _; apply does_pass].
    unfold run_stored. dstep; [dstep|]. dstep. dstep; [dstep|]. dstep; [dstep|]. dstep. dstep; [dstep|]. dstep; [dstep|]. match goal with |- does _ (match ?y with _ => _ end) => destruct y end; [|dstep]. apply does_each. intros y. apply IH.
  Qed.
End Moves.
