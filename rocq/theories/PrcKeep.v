(** The plugins that are there are those that can be connected. *)
From Coq Require Import String Ascii.
From Verif Require Import Base StrOrder PluginModel CtrlModel CtrlProofs JsonModel JsonSpec JsonReadModel JsonDoubleModel PrcModel PrcSpec PrcExec PrcSetSpec.
Local Open Scope string_scope.
Local Open Scope list_scope.

Section Keep.
  Context {P : Type}.
  Variable v : env P.
  Notation M := (M P).
  Notation st := (prc P).
  Definition safe {A} (a : M A) : Prop := forall s, matched s -> matched (fst (a s)).
  Lemma sf_same {A} (a : M A) : (forall s, p_objs (fst (a s)) = p_objs s /\ k_plugins (p_graph (fst (a s))) = k_plugins (p_graph s)) -> safe a.
  Proof. intros H s I. destruct (H s) as (E1 & E2). unfold matched. rewrite E1, E2. exact I. Qed.
  Lemma sf_ret {A} (x : A) : safe (ret x). Proof. apply sf_same. auto. Qed.
  Lemma sf_raise {A} e : safe (@raise P A e). Proof. apply sf_same. auto. Qed.
  Lemma sf_seq {A B} (a : M A) (f : A -> M B) : safe a -> (forall x, safe (f x)) -> safe (seq a f).
  Proof. intros Ha Hf s I. unfold seq. specialize (Ha s I). destruct (a s) as (s1, o). cbn in Ha. destruct o; [apply Hf, Ha|exact Ha|exact Ha]. Qed.
  Lemma sf_lift {A} (o : outcome ipcexc A) : safe (lift o). Proof. apply sf_same. auto. Qed.
  Lemma sf_get {A} (f : st -> A) : safe (get f). Proof. apply sf_same. auto. Qed.
  Lemma sf_tell e : safe (@tell P e). Proof. apply sf_same. auto. Qed.
  Lemma sf_change (f : st -> st) : (forall s, p_objs (f s) = p_objs s /\ k_plugins (p_graph (f s)) = k_plugins (p_graph s)) -> safe (change f). Proof. intros H. apply sf_same. exact H. Qed.
  Lemma sf_when b a : safe a -> safe (when b a). Proof. intros H. destruct b; [exact H|apply sf_ret]. Qed.
  Lemma sf_each {A} (l : list A) f : (forall x, safe (f x)) -> safe (each l f). Proof. intros H. induction l as [|x l IH]; [apply sf_ret|]. cbn. apply sf_seq; [apply H|intros _; exact IH]. Qed.
  Lemma sf_plugins f : (forall x, safe (f x)) -> safe (@each_plugin P f). Proof. intros H. apply sf_seq; [apply sf_get|intros l; apply sf_each, H]. Qed.
  Lemma sf_call i f : safe (@call P i f).
  Proof.
    intros s (OK & I). unfold call. destruct (sm_get (p_objs s) i) as [o|] eqn:G; [|split; assumption]. destruct (f o (p_reply s)) as ((o', r), x). cbn. split; [apply sm_put_ok, OK|]. intros j. cbn. rewrite sm_get_put. destruct (String.eqb_spec j i) as [->|_]; [|apply I]. rewrite <- I, G. split; discriminate.
  Qed.
  Lemma sf_wire c : (forall i n f, c <> Load i n f) -> safe (@wire P c).
  Proof.
    intros NL s (OK & I). unfold wire. destruct (do_cmd c (p_graph s)) as [g| |] eqn:D; [|split; assumption..]. split; [exact OK|]. cbn. intros j. rewrite I. symmetry. clear I OK. destruct c as [i n f|i t|i t| |p q]; cbn in D.
    - destruct (NL i n f eq_refl).
    - unfold connect in D. destruct (sm_get (k_plugins (p_graph s)) i); [|discriminate]. destruct (String.eqb t "frame_receiver"); [destruct (k_shm (p_graph s)); [injection D as <-; reflexivity|discriminate]|]. destruct (sm_get (k_plugins (p_graph s)) t) eqn:G; injection D as <-; [|reflexivity]. cbn. rewrite sm_get_put. destruct (String.eqb_spec j t) as [->|_]; [|reflexivity]. rewrite G. split; discriminate.
    - unfold disconnect in D. destruct (sm_get (k_plugins (p_graph s)) i); [|discriminate]. destruct (String.eqb t "frame_receiver"); [destruct (k_shm (p_graph s)); [injection D as <-; reflexivity|discriminate]|]. destruct (sm_get (k_plugins (p_graph s)) t) eqn:G; injection D as <-; [|reflexivity]. cbn. rewrite sm_get_put. destruct (String.eqb_spec j t) as [->|_]; [|reflexivity]. rewrite G. split; discriminate.
    - injection D as <-. cbn. rewrite sm_map_get. destruct (sm_get (k_plugins (p_graph s)) j); cbn; split; congruence.
    - injection D as <-. unfold setup. destruct (k_shm (p_graph s)); [destruct (_ && _)|]; reflexivity.
  Qed.
  Lemma sf_all m l : safe (@has_all P m l). Proof. induction l as [|n l IH]; [apply sf_ret|]. cbn. apply sf_seq; [apply sf_lift|]. intros []; [exact IH|apply sf_ret]. Qed.
  Lemma sf_put k x : safe (@put P k x). Proof. apply sf_same. intros s. unfold put. destruct (set_param (p_reply s) k x) as (?, ?). auto. Qed.
  Lemma sf_puts l : safe (@puts P l). Proof. induction l as [|(k, x) l IH]; [apply sf_ret|]. cbn. apply sf_seq; [apply sf_put|intros _; exact IH]. Qed.
  Lemma sf_nack w : safe (@nack P w). Proof. apply sf_same. intros s. unfold nack. destruct (set_nack (p_reply s) w) as (?, ?). auto. Qed.
  Ltac sfstep := first [ apply sf_ret | apply sf_raise | apply sf_lift | apply sf_get | apply sf_change; intros ?; split; reflexivity | apply sf_tell | apply sf_call | apply sf_wire; discriminate | apply sf_all | apply sf_put | apply sf_puts | apply sf_nack | apply sf_when | apply sf_plugins; intros ? | apply sf_seq; [|intros ?]
    | match goal with |- safe (match ?x with _ => _ end) => destruct x end ].
  Lemma sf_class c l i : safe (load_class v c l i). Proof. unfold load_class. repeat sfstep. Qed.
  Lemma class_graph c l i s s1 r : load_class v c l i s = (s1, r) -> p_graph s1 = p_graph s /\ p_objs s1 = p_objs s.
  Proof.
    unfold load_class, seq, get. destruct (existsb (String.eqb c) (p_classes s)); [cbn; intros H; injection H as <- _; auto|]. destruct (v_dlopen v l); cbn; intros H; injection H as <- _; auto.
  Qed.
  Lemma sf_load i n l : safe (load_plugin v i n l).
  Proof.
    intros s (OK & I). unfold load_plugin. unfold seq at 1, get. destruct (sm_get (k_plugins (p_graph s)) i) eqn:G; [split; assumption|]. unfold seq at 1. destruct (load_class v n l i s) as (s1, r) eqn:LC. apply class_graph in LC as (EG & EO). assert (I1 : matched s1) by (unfold matched; rewrite EG, EO; split; assumption).
    destruct r as [[o|]| |]; try exact I1. destruct (v_meta v i); [exact I1|]. unfold seq, change, wire, tell. cbn. unfold load. rewrite EG, G. cbn. split; cbn; rewrite EO; [apply sm_put_ok, OK|]. intros j. rewrite !sm_get_put. destruct (String.eqb j i); [split; discriminate|apply I].
  Qed.
  Lemma sf_disconnect m : safe (plugin_disconnect v m).
  Proof.
    unfold plugin_disconnect. sfstep; [sfstep|]. sfstep. intros s I. match goal with |- matched (fst (match ?a s with _ => _ end)) => assert (R : safe a) by (unfold section, str_param; repeat sfstep); specialize (R s I); destruct (a s) as (s1, o) end.
    cbn in R. destruct o as [?|[[[| | |]|?|]|]|]; try exact R; match goal with |- matched (fst (?a s1)) => assert (R2 : safe a) by (unfold str_param; repeat sfstep); apply R2, R end.
  Qed.
  Lemma sf_receiver p q : safe (setup_receiver v p q).
  Proof.
    unfold setup_receiver. intros s I. unfold seq at 1, get. destruct (match k_shm (p_graph s) with Some _ => _ | None => _ end); [exact I|]. destruct (v_shm v p q); [|apply (sf_wire (Setup p q)); [discriminate|exact I]]. exact I.
  Qed.
  Lemma sf_configure n : forall m, safe (configure v n m).
  Proof.
    induction n as [|n IH]; intros m; [apply sf_same; auto|]. cbn [configure]. unfold configure_once. apply sf_seq; [unfold set_master, str_param; repeat sfstep|intros _].
    apply sf_seq; [unfold clear_errors, touch; repeat sfstep|intros _]. apply sf_seq; [unfold set_frames, uint_param; repeat sfstep|intros _]. apply sf_seq; [unfold inject; repeat sfstep|intros _]. apply sf_seq; [unfold set_debug, uint_param; repeat sfstep|intros _].
    apply sf_seq; [unfold set_ctrl, setup_control, str_param; repeat sfstep|intros _]. apply sf_seq; [unfold set_meta, setup_meta, str_param; repeat sfstep|intros _]. apply sf_seq; [unfold set_plugin, configure_plugin, plugin_load, plugin_connect, section, str_param; repeat (apply sf_load || apply sf_disconnect || sfstep)|intros _].
    apply sf_seq; [unfold set_receiver, section, str_param; repeat (apply sf_receiver || sfstep)|intros _]. apply sf_seq; [unfold store, section, str_param; repeat sfstep|intros _]. apply sf_seq; [unfold run_stored, section, str_param|intros _; unfold pass_on; repeat sfstep].
    repeat ((apply sf_each; intros ?; apply IH) || sfstep).
  Qed.
  Lemma sf_statuses l : forall es ws, safe (statuses v l es ws). Proof. induction l as [|i l IH]; intros es ws; cbn [statuses]; [apply sf_ret|]. unfold ask. repeat (apply IH || sfstep). Qed.
  Lemma sf_commands m l : forall p, safe (commands v m l p). Proof. induction l as [|i l IH]; intros p; cbn [commands]; [apply sf_ret|]. apply sf_seq; [apply sf_lift|intros h]. apply sf_seq; [|intros q; apply IH]. unfold str_param. repeat sfstep. Qed.
  Lemma sf_request n t m : safe (request v n t m).
  Proof.
    unfold request, reply_type, request_configuration, execute, request_commands, provide_status, provide_version, reset_statistics, ask, touch, reply_type. repeat (apply sf_configure || apply sf_statuses || apply sf_commands || sfstep).
  Qed.
  Lemma sf_handle n c t : safe (handle_ctrl v n c t).
  Proof.
    intros s I. unfold handle_ctrl. destruct (msg_of_text (v_clock v) t true) as [m|[]|]; try exact I. cbv zeta.
    match goal with |- matched (fst (match ?a s with _ => _ end)) => assert (R : safe a) by (repeat (apply sf_request || sfstep)); specialize (R s I); destruct (a s) as (s1, o) end.
    cbn in R. destruct o as [?|[[[| | |]|?|]|]|]; try exact R. match goal with |- matched (fst (?a s1)) => assert (R2 : safe a) by (repeat sfstep); apply R2, R end.
  Qed.
End Keep.
