(** Lemmas about the controller of the frame processor: what its steps keep, and that they do not depend on the reply. *)
From Coq Require Import String Ascii.
From Verif Require Import Base StrOrder PluginModel CtrlModel JsonModel JsonSpec JsonProofs MessageProps JsonReadModel JsonDoubleModel PrcModel PrcSpec.
Local Open Scope string_scope.
Local Open Scope list_scope.

Section Proofs.
  Context {P : Type}.
  Variable v : env P.
  Notation M := (M P).
  Notation st := (prc P).

  (** ** Steps that do not depend on the reply *)
  Definition resp {A} (a b : M A) : Prop := forall s s', alike s s' -> alike (fst (a s)) (fst (b s')) /\ snd (a s) = snd (b s').
  Lemma resp_ret {A} (x : A) : resp (ret x) (ret x). Proof. intros s s' H. split; [exact H|reflexivity]. Qed.
  Lemma resp_raise {A} e : resp (@raise P A e) (raise e). Proof. intros s s' H. split; [exact H|reflexivity]. Qed.
  Lemma resp_overflow {A} : resp (@overflow P A) overflow. Proof. intros s s' H. split; [exact H|reflexivity]. Qed.
  Lemma resp_seq {A B} (a a' : M A) (f f' : A -> M B) : resp a a' -> (forall x, resp (f x) (f' x)) -> resp (seq a f) (seq a' f').
  Proof. intros Ra Rf s s' H. unfold seq. destruct (Ra s s' H) as (V & O). destruct (a s) as (s1, o), (a' s') as (s1', o'). cbn in V, O. subst o'. destruct o; [apply Rf, V|split; [exact V|reflexivity]..]. Qed.
  Lemma resp_lift {A} (o o' : outcome ipcexc A) : o = o' -> resp (lift o) (lift o'). Proof. intros <- s s' H. split; [exact H|reflexivity]. Qed.
  Lemma resp_get {A} (f : st -> A) : (forall s, f s = f (visible s)) -> resp (get f) (get f).
  Proof. intros E s s' H. split; [exact H|]. cbn. rewrite (E s), (E s'), H. reflexivity. Qed.
  Lemma resp_change f : (forall s, visible (f s) = visible (f (visible s))) -> resp (change f) (change f).
  Proof. intros E s s' H. split; [|reflexivity]. cbn. unfold alike. rewrite (E s), (E s'), H. reflexivity. Qed.
  Lemma resp_when b a a' : resp a a' -> resp (when b a) (when b a'). Proof. intros H. destruct b; [exact H|apply resp_ret]. Qed.
  Lemma resp_each {A} (l : list A) f f' : (forall x, resp (f x) (f' x)) -> resp (each l f) (each l f').
  Proof. intros H. induction l as [|x l IH]; [apply resp_ret|]. cbn. apply resp_seq; [apply H|intros _; exact IH]. Qed.
  Lemma filter_idem (l : list effect) : filter (fun e => negb (is_reply e)) (filter (fun e => negb (is_reply e)) l) = filter (fun e => negb (is_reply e)) l.
  Proof. induction l as [|e l IH]; [reflexivity|]. cbn. destruct (negb (is_reply e)) eqn:E; cbn; rewrite ?E, IH; reflexivity. Qed.
  Lemma visible_idem (s : st) : visible (visible s) = visible s. Proof. destruct s. unfold visible. cbn. rewrite filter_idem. reflexivity. Qed.
  Lemma resp_tell e : resp (@tell P e) (tell e).
  Proof. apply resp_change. intros [? ? ? ? ? ? ? ? ? ? ? ? ? ?]. unfold visible. cbn. rewrite !filter_app, filter_idem. reflexivity. Qed.
  (** Fields are set, the rest is as before. *)
  Ltac field := intros [? ? ? ? ? ? ? ? ? ? ? ? ? ?]; unfold visible; cbn; rewrite ?filter_idem; reflexivity.
  Lemma resp_call i f : (forall o r r', fst (fst (f o r)) = fst (fst (f o r')) /\ snd (f o r) = snd (f o r')) -> resp (@call P i f) (call i f).
  Proof.
    intros B s s' H. unfold call. assert (E : p_objs s = p_objs s') by exact (f_equal (@p_objs P) H). rewrite <- E. destruct (sm_get (p_objs s) i) as [o|]; [|split; [exact H|reflexivity]].
    destruct (B o (p_reply s) (p_reply s')) as (B1 & B2). destruct (f o (p_reply s)) as ((o1, r1), x1), (f o (p_reply s')) as ((o2, r2), x2). cbn in B1, B2. subst. cbn. split; [|reflexivity].
    unfold alike in *. destruct s, s'. unfold visible in *. cbn in *. injection H. intros. subst. unfold w_out, w_reply. cbn. congruence.
  Qed.
  Lemma resp_touch i f : resp (@touch P i f) (touch i f). Proof. apply resp_call. intros. split; reflexivity. Qed.
  Lemma resp_wire c : resp (@wire P c) (wire c).
  Proof.
    intros s s' H. unfold wire. assert (E : p_graph s = p_graph s') by exact (f_equal (@p_graph P) H). rewrite <- E. destruct (do_cmd c (p_graph s)); cbn; (split; [|reflexivity]); [|exact H..].
    unfold alike in *. destruct s, s'. unfold visible in *. cbn in *. injection H. intros. subst. unfold w_out, w_reply. cbn. congruence.
  Qed.
  Lemma resp_each_plugin f f' : (forall x, resp (f x) (f' x)) -> resp (@each_plugin P f) (each_plugin f').
  Proof. intros H. apply resp_seq; [apply resp_get; reflexivity|intros l; apply resp_each, H]. Qed.
  (** The same parameters, type and value *)
  Definition same_request (m m' : msg) : Prop := params_of m = params_of m' /\ g_type m = g_type m' /\ g_val m = g_val m'.
  Lemma same_has m m' n : same_request m m' -> has_param m n = has_param m' n. Proof. intros (E & _). unfold has_param. rewrite E. reflexivity. Qed.
  Lemma same_raw m m' n : same_request m m' -> get_raw m n = get_raw m' n. Proof. intros (E & _). unfold get_raw. rewrite E. reflexivity. Qed.
  Lemma same_ref m m' n : same_request m m' -> get_ref m n = get_ref m' n. Proof. intros E. unfold get_ref. rewrite (same_raw _ _ _ E). reflexivity. Qed.
  Lemma same_get g m m' n : same_request m m' -> get_param g m n = get_param g m' n. Proof. intros E. unfold get_param. rewrite (same_raw _ _ _ E). reflexivity. Qed.
  Lemma same_refl m : same_request m m. Proof. repeat split. Qed.
  Lemma resp_has m m' n : same_request m m' -> resp (@lift P _ (has_param m n)) (lift (has_param m' n)). Proof. intros E. apply resp_lift, same_has, E. Qed.
  Lemma resp_ref m m' n : same_request m m' -> resp (@lift P _ (get_ref m n)) (lift (get_ref m' n)). Proof. intros E. apply resp_lift, same_ref, E. Qed.
  Lemma resp_str m m' n : same_request m m' -> resp (@str_param P m n) (str_param m' n). Proof. intros E. apply resp_lift. rewrite (same_get _ _ _ _ E). reflexivity. Qed.
  Lemma resp_uint m m' n : same_request m m' -> resp (@uint_param P m n) (uint_param m' n). Proof. intros E. apply resp_lift. rewrite (same_get _ _ _ _ E). reflexivity. Qed.
  Lemma resp_all m l : resp (@has_all P m l) (has_all m l).
  Proof. induction l as [|n l IH]; [apply resp_ret|]. cbn. apply resp_seq; [apply resp_lift; reflexivity|]. intros []; [exact IH|apply resp_ret]. Qed.
  Lemma resp_section m m' n : same_request m m' -> resp (section v m n) (section v m' n). Proof. intros E. apply resp_seq; [apply resp_ref, E|intros x; apply resp_ret]. Qed.
  Ltac rstep := first [ apply resp_ret | apply resp_raise | apply resp_overflow | apply resp_tell | apply resp_touch | apply resp_wire | apply resp_all | apply resp_has; assumption | apply resp_ref; assumption | apply resp_str; (assumption || apply same_refl) | apply resp_uint; assumption
    | apply resp_section; (assumption || apply same_refl) | apply resp_lift; reflexivity | apply resp_get; intros [? ? ? ? ? ? ? ? ? ? ? ? ? ?]; reflexivity | apply resp_change; field | apply resp_when | apply resp_each_plugin; intros ? | apply resp_seq; [|intros ?] ].
  Lemma resp_load i n l : resp (load_plugin v i n l) (load_plugin v i n l).
  Proof.
    unfold load_plugin, load_class. repeat (rstep || match goal with |- resp (match ?x with _ => _ end) _ => destruct x end).
  Qed.
  Lemma resp_configure_plugin m m' : same_request m m' -> resp (configure_plugin v m) (configure_plugin v m').
  Proof.
    intros E. unfold configure_plugin. rstep; [|rstep].
    - unfold plugin_load. rstep; [rstep|]. rstep. rstep; [rstep|]. rstep; [rstep|]. rstep. rstep; [rstep|]. rstep; [rstep|]. rstep; [rstep|]. apply resp_load.
    - unfold plugin_connect. repeat rstep.
    - unfold plugin_disconnect. rstep; [rstep|]. rstep. intros s s' H.
      match goal with |- alike (fst (match ?a s with _ => _ end)) (fst (match ?a' s' with _ => _ end)) /\ _ => assert (R : resp a a') by repeat rstep; destruct (R s s' H) as (V & O); destruct (a s) as (s1, o), (a' s') as (s1', o') end.
      cbn in V, O. subst o'. destruct o as [?|[[[| | |]|?|]|]|]; try (split; [exact V|reflexivity]); match goal with |- alike (fst (?a s1)) (fst (?a' s1')) /\ _ => assert (R2 : resp a a') by repeat rstep; apply R2, V end.
  Qed.
  Lemma resp_control e : resp (setup_control v e) (setup_control v e). Proof. unfold setup_control. rstep; [rstep|]. destruct (v_bind v x e); repeat rstep. Qed.
  Lemma resp_setup_meta e : resp (setup_meta v e) (setup_meta v e). Proof. unfold setup_meta. rstep; [rstep|]. destruct (v_bind_meta v x e); repeat rstep. Qed.
  Lemma resp_receiver p q : resp (setup_receiver v p q) (setup_receiver v p q).
  Proof. unfold setup_receiver. rstep; [rstep|]. match goal with |- resp (if ?b then _ else _) _ => destruct b end; [rstep|]. destruct (v_shm v p q); [|rstep]. rstep; [|rstep]. apply resp_change. intros [? ? ? ? ? ? ? ? ? ? ? ? ? ?]. unfold visible. cbn. rewrite filter_idem. reflexivity. Qed.
  Lemma resp_inject m m' : same_request m m' -> resp (@inject P m) (inject m').
  Proof. intros E. unfold inject. rstep; [rstep|]. rstep. rstep; [rstep|]. destruct (k_shm x0); rstep. Qed.
  Hypothesis B : behaved v.
  Lemma resp_pass m m' : same_request m m' -> resp (pass_on v m) (pass_on v m').
  Proof.
    intros E. unfold pass_on. rstep. rstep; [rstep|]. rstep. rstep; [rstep|]. destruct E as (_ & <- & <-). apply resp_call. intros o r r'. match goal with y : json |- _ => rename y into j end. apply B.
  Qed.
  Lemma resp_run (self : msg -> M unit) m m' : (forall a, resp (self a) (self a)) -> same_request m m' -> resp (run_stored v self m) (run_stored v self m').
  Proof.
    intros S E. unfold run_stored. rstep; [rstep|]. rstep. rstep; [rstep|]. rstep; [rstep|]. rstep. rstep; [rstep|]. rstep; [rstep|]. match goal with |- resp (match ?y with _ => _ end) _ => destruct y end; [|rstep]. apply resp_each. intros y. apply S.
  Qed.
  Lemma resp_configure n : forall m m', same_request m m' -> resp (configure v n m) (configure v n m').
  Proof.
    induction n as [|n IH]; intros m m' E; [apply resp_overflow|]. cbn [configure]. unfold configure_once. repeat (apply resp_seq; [|intros _]).
    - unfold set_master. repeat rstep.
    - unfold clear_errors. repeat rstep.
    - unfold set_frames. repeat rstep.
    - apply resp_inject, E.
    - unfold set_debug. repeat rstep.
    - unfold set_ctrl. repeat (apply resp_control || rstep).
    - unfold set_meta. repeat (apply resp_setup_meta || rstep).
    - unfold set_plugin. rstep; [rstep|]. rstep. rstep; [rstep|]. apply resp_configure_plugin, same_refl.
    - unfold set_receiver. repeat (apply resp_receiver || rstep).
    - unfold store. rstep; [rstep|]. rstep. rstep; [rstep|]. rstep; [rstep|]. rstep. rstep; [rstep|]. rstep; [rstep|]. rstep.
    - apply resp_run; [intros a; apply IH, same_refl|exact E].
    - apply resp_pass, E.
  Qed.
End Proofs.
