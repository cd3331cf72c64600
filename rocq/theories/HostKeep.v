(** What holds of each plugin however it is called. *)
From Coq Require Import String Ascii.
From Verif Require Import Base StrOrder PluginModel CtrlModel CtrlProofs JsonModel JsonSpec JsonReadModel JsonDoubleModel PrcModel PrcSpec PrcExec PrcKeep.
Local Open Scope string_scope.
Local Open Scope list_scope.

Section Hold.
  Context {P : Type}.
  Variable v : env P.
  Variable I : string -> P -> Prop.
  Notation M := (M P).
  Notation st := (prc P).
  Record kept : Prop := Kept {
    ke_make : forall k j o, v_make v k j = Some o -> I j o;
    ke_configure : forall j o m r o1 r1 e, I j o -> v_configure v o m r = (o1, r1, e) -> e <> Undef -> I j o1;
    ke_request : forall j o r o1 r1 e, I j o -> v_request v o r = (o1, r1, e) -> e <> Undef -> I j o1;
    ke_execute : forall j o c r o1 r1 e, I j o -> v_execute v o c r = (o1, r1, e) -> e <> Undef -> I j o1;
    ke_status : forall j o r o1 r1 e, I j o -> v_status v o r = (o1, r1, e) -> e <> Undef -> I j o1;
    ke_reset : forall j o, I j o -> I j (fst (v_reset v o));
    ke_perf : forall j o, I j o -> I j (v_reset_perf v o);
    ke_clear : forall j o, I j o -> I j (v_clear v o) }.
  Hypothesis KE : kept.
  Definition holds_all (s : st) : Prop := forall j o, sm_get (p_objs s) j = Some o -> I j o.
  Definition good {A} (a : M A) : Prop := forall s, holds_all s -> snd (a s) <> Undef -> holds_all (fst (a s)).
  Lemma gd_same {A} (a : M A) : (forall s, p_objs (fst (a s)) = p_objs s) -> good a.
  Proof. intros H s J _. unfold holds_all. rewrite H. exact J. Qed.
  Lemma gd_ret {A} (x : A) : good (ret x). Proof. apply gd_same. auto. Qed.
  Lemma gd_raise {A} e : good (@raise P A e). Proof. apply gd_same. auto. Qed.
  Lemma gd_seq {A B} (a : M A) (f : A -> M B) : good a -> (forall x, good (f x)) -> good (seq a f).
  Proof. intros Ha Hf s J. unfold seq. specialize (Ha s J). destruct (a s) as (s1, o). cbn in Ha. destruct o; [intros N; apply Hf; [apply Ha; discriminate|exact N]|intros _; apply Ha; discriminate|cbn; congruence]. Qed.
  Lemma gd_lift {A} (o : outcome ipcexc A) : good (lift o). Proof. apply gd_same. auto. Qed.
  Lemma gd_get {A} (f : st -> A) : good (get f). Proof. apply gd_same. auto. Qed.
  Lemma gd_tell e : good (@tell P e). Proof. apply gd_same. auto. Qed.
  Lemma gd_change (f : st -> st) : (forall s, p_objs (f s) = p_objs s) -> good (change f). Proof. intros H. apply gd_same. exact H. Qed.
  Lemma gd_when b a : good a -> good (when b a). Proof. intros H. destruct b; [exact H|apply gd_ret]. Qed.
  Lemma gd_each {A} (l : list A) f : (forall x, good (f x)) -> good (each l f). Proof. intros H. induction l as [|x l IH]; [apply gd_ret|]. cbn. apply gd_seq; [apply H|intros _; exact IH]. Qed.
  Lemma gd_plugins f : (forall x, good (f x)) -> good (@each_plugin P f). Proof. intros H. apply gd_seq; [apply gd_get|intros l; apply gd_each, H]. Qed.
  Lemma gd_call i f : (forall o r o1 r1 e, I i o -> f o r = (o1, r1, e) -> e <> Undef -> I i o1) -> good (@call P i f).
  Proof.
    intros F s J. unfold call. destruct (sm_get (p_objs s) i) as [o|] eqn:G; [|intros _; exact J]. specialize (F o (p_reply s)). destruct (f o (p_reply s)) as ((o', r), x) eqn:E. cbn. intros N j q. cbn. rewrite sm_get_put. destruct (String.eqb_spec j i) as [->|_]; [|apply J]. intros H. injection H as <-. apply (F o' r x (J i o G) eq_refl). intros ->. congruence.
  Qed.
  Lemma gd_touch i f : (forall o, I i o -> I i (f o)) -> good (@touch P i f).
  Proof. intros F. apply gd_call. intros o r o1 r1 e H E _. injection E as <- <- <-. apply F, H. Qed.
  Lemma gd_wire c : good (@wire P c). Proof. apply gd_same. intros s. unfold wire. destruct (do_cmd c (p_graph s)); reflexivity. Qed.
  Lemma gd_all m l : good (@has_all P m l). Proof. induction l as [|n l IH]; [apply gd_ret|]. cbn. apply gd_seq; [apply gd_lift|]. intros []; [exact IH|apply gd_ret]. Qed.
  Lemma gd_put k x : good (@put P k x). Proof. apply gd_same. intros s. unfold put. destruct (set_param (p_reply s) k x) as (?, ?). auto. Qed.
  Lemma gd_puts l : good (@puts P l). Proof. induction l as [|(k, x) l IH]; [apply gd_ret|]. cbn. apply gd_seq; [apply gd_put|intros _; exact IH]. Qed.
  Lemma gd_nack w : good (@nack P w). Proof. apply gd_same. intros s. unfold nack. destruct (set_nack (p_reply s) w) as (?, ?). auto. Qed.
  Ltac gdstep := first [ apply gd_ret | apply gd_raise | apply gd_lift | apply gd_get | apply gd_change; intros ?; reflexivity | apply gd_tell | apply gd_touch | apply gd_call | apply gd_wire | apply gd_all | apply gd_put | apply gd_puts | apply gd_nack | apply gd_when | apply gd_plugins; intros ? | apply gd_seq; [|intros ?]
    | match goal with |- good (match ?x with _ => _ end) => destruct x end ].
  Lemma gd_load i n l : good (load_plugin v i n l).
  Proof.
    intros s J. destruct (load_plugin v i n l s) as (sx, rx) eqn:EX. cbn. unfold load_plugin in EX. unfold seq at 1, get in EX. destruct (sm_get (k_plugins (p_graph s)) i) eqn:G; [injection EX as <- <-; intros _; exact J|]. unfold seq at 1 in EX. destruct (load_class v n l i s) as (s1, r) eqn:LC. pose proof LC as LC'. apply class_graph in LC as (EG & EO). assert (J1 : holds_all s1) by (unfold holds_all; rewrite EO; exact J).
    destruct r as [[o|]| |]; [|injection EX as <- <-; intros _; exact J1..]. destruct (v_meta v i); [injection EX as <- <-; intros _; exact J1|]. assert (IO : I i o).
    { unfold load_class in LC'. unfold seq at 1, get in LC'. assert (V : v_make v n i = Some o). { unfold seq in LC'. destruct (existsb (String.eqb n) (p_classes s)) eqn:X; [cbn in LC'; rewrite X in LC'; injection LC' as _ <-; reflexivity|]. destruct (v_dlopen v l) as [e|cl]; [discriminate|]. cbn in LC'. destruct (existsb (String.eqb n) (cl ++ p_classes s)); injection LC' as _ LC'; congruence. } exact (ke_make KE n i o V). }
    revert EX. unfold seq, change, wire, tell. cbn. unfold load. rewrite EG, G. cbn. intros EX. injection EX as <- <-. intros _ j q. cbn. rewrite sm_get_put. destruct (String.eqb_spec j i) as [->|_]; [|apply J1]. intros H. injection H as <-. exact IO.
  Qed.
  Lemma gd_disconnect m : good (plugin_disconnect v m).
  Proof.
    unfold plugin_disconnect. gdstep; [gdstep|]. gdstep. intros s J. match goal with |- context [match ?a s with _ => _ end] => assert (R : good a) by (unfold section, str_param; repeat gdstep); specialize (R s J); destruct (a s) as (s1, o) end.
    cbn in R. destruct o as [?|[[[| | |]|?|]|]|]; try exact R; specialize (R ltac:(discriminate)); match goal with |- snd (?a s1) <> _ -> _ => assert (R2 : good a) by (unfold str_param; repeat gdstep); apply R2, R end.
  Qed.
  Lemma gd_receiver p q : good (setup_receiver v p q).
  Proof.
    intros s J. destruct (setup_receiver v p q s) as (sx, rx) eqn:EX. cbn. unfold setup_receiver in EX. unfold seq at 1, get in EX. destruct (match k_shm (p_graph s) with Some _ => _ | None => _ end); [injection EX as <- <-; intros _; exact J|]. destruct (v_shm v p q); [injection EX as <- <-; intros _; exact J|]. pose proof (gd_wire (Setup p q) s J) as W. rewrite EX in W. exact W.
  Qed.
  Lemma gd_configure n : forall m, good (configure v n m).
  Proof.
    induction n as [|n IH]; intros m; [apply gd_same; auto|]. cbn [configure]. unfold configure_once. apply gd_seq; [unfold set_master, str_param; repeat gdstep|intros _].
    apply gd_seq; [unfold clear_errors; repeat gdstep; apply (ke_clear KE)|intros _]. apply gd_seq; [unfold set_frames, uint_param; repeat gdstep|intros _]. apply gd_seq; [unfold inject; repeat gdstep|intros _]. apply gd_seq; [unfold set_debug, uint_param; repeat gdstep|intros _].
    apply gd_seq; [unfold set_ctrl, setup_control, str_param; repeat gdstep|intros _]. apply gd_seq; [unfold set_meta, setup_meta, str_param; repeat gdstep|intros _]. apply gd_seq; [unfold set_plugin, configure_plugin, plugin_load, plugin_connect, section, str_param; repeat (apply gd_load || apply gd_disconnect || gdstep)|intros _].
    apply gd_seq; [unfold set_receiver, section, str_param; repeat (apply gd_receiver || gdstep)|intros _]. apply gd_seq; [unfold store, section, str_param; repeat gdstep|intros _]. apply gd_seq; [unfold run_stored, section, str_param|intros _; unfold pass_on; repeat gdstep; intros o r o1 r1 e; apply (ke_configure KE)].
    repeat ((apply gd_each; intros ?; apply IH) || gdstep).
  Qed.
  Lemma gd_statuses l : forall es ws, good (statuses v l es ws). Proof. induction l as [|i l IH]; intros es ws; cbn [statuses]; [apply gd_ret|]. unfold ask. repeat (apply IH || gdstep). intros o r o1 r1 e. apply (ke_status KE). Qed.
  Lemma gd_commands m l : forall p, good (commands v m l p). Proof. induction l as [|i l IH]; intros p; cbn [commands]; [apply gd_ret|]. apply gd_seq; [apply gd_lift|intros h]. apply gd_seq; [|intros q; apply IH]. unfold str_param. repeat gdstep. intros o r o1 r1 e. apply (ke_execute KE). Qed.
  Lemma gd_request n t m : good (request v n t m).
  Proof.
    unfold request, reply_type, request_configuration, execute, request_commands, provide_status, provide_version, reset_statistics, ask, reply_type. repeat (apply gd_configure || apply gd_statuses || apply gd_commands || gdstep).
    - intros o r o1 r1 e. apply (ke_request KE).
    - apply (ke_perf KE).
    - apply (ke_reset KE).
  Qed.
  Lemma gd_handle n c t : good (handle_ctrl v n c t).
  Proof.
    intros s J. unfold handle_ctrl. destruct (msg_of_text (v_clock v) t true) as [m|[]|]; try (intros _; exact J). cbv zeta.
    match goal with |- context [match ?a s with _ => _ end] => assert (R : good a) by (repeat (apply gd_request || gdstep)); specialize (R s J); destruct (a s) as (s1, o) end.
    cbn in R. destruct o as [?|[[[| | |]|?|]|]|]; try exact R; try (intros _; apply R; discriminate). specialize (R ltac:(discriminate)). match goal with |- snd (?a s1) <> _ -> _ => assert (R2 : good a) by (repeat gdstep); apply R2, R end.
  Qed.
End Hold.
