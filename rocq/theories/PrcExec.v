(** Handling of messages to configure; executing what is stored. *)
From Coq Require Import String Ascii.
From Verif Require Import Base StrOrder PluginModel CtrlModel JsonModel JsonSpec JsonProofs MessageProps JsonReadModel JsonDoubleModel PrcModel PrcSpec PrcProofs PrcMoves.
Local Open Scope string_scope.
Local Open Scope list_scope.

Lemma sm_put_keeps {A} (m : smap A) k x i : In i (map fst m) -> In i (map fst (sm_put m k x)).
Proof. induction m as [|(j, y) m IH]; cbn; [tauto|]. destruct (String.eqb k j) eqn:E; [apply String.eqb_eq in E; subst; cbn; tauto|]. destruct (String.ltb k j); cbn; [tauto|]. intuition. Qed.

Section Exec.
  Context {P : Type}.
  Variable v : env P.
  Notation M := (M P).
  Notation st := (prc P).

  Lemma moves_out w (s s1 : st) : moves v w s s1 -> exists l, p_out s1 = p_out s ++ l /\ Forall (fun e => is_reply e = false) l.
  Proof.
    induction 1 as [s|s s1 s2 H _ (l & E & F)]; [exists []; rewrite app_nil_r; auto|]. inversion H; subst; cbn in E; try (exists l; auto; fail). exists (e :: l). rewrite E, <- app_assoc. auto.
  Qed.
  Lemma head_refl r : keeps_head r r. Proof. unfold keeps_head. auto. Qed.
  Lemma head_trans a b c : keeps_head a b -> keeps_head b c -> keeps_head a c. Proof. unfold keeps_head. intuition congruence. Qed.
  Lemma moves_head w (s s1 : st) : polite v -> moves v w s s1 -> keeps_head (p_reply s) (p_reply s1).
  Proof. intros B. induction 1 as [s|s s1 s2 H _ IH]; [apply head_refl|]. eapply head_trans; [|exact IH]. inversion H; subst; try apply head_refl. apply (B o (p_reply s)). Qed.
  Lemma moves_names w (s s1 : st) i : moves v w s s1 -> In i (map fst (p_objs s)) -> In i (map fst (p_objs s1)).
  Proof. induction 1 as [s|s s1 s2 H _ IH]; [auto|]. intros I. apply IH. inversion H; subst; cbn; try exact I; apply sm_put_keeps, I. Qed.
  Lemma moves_stored (s s1 : st) : moves v false s s1 -> p_stored s1 = p_stored s.
  Proof. induction 1 as [s|s s1 s2 H _ IH]; [reflexivity|]. rewrite IH. inversion H; subst; try reflexivity. discriminate. Qed.

  (** Requests that do not configure *)
  Definition still (s s1 : st) : Prop := s1 = w_reply (p_reply s1) (w_objs (p_objs s1) s) /\ (sm_ok (p_objs s) -> sm_ok (p_objs s1) /\ map fst (p_objs s1) = map fst (p_objs s)).
  Definition calm {A} (a : M A) : Prop := forall s, still s (fst (a s)) /\ keeps_head (p_reply s) (p_reply (fst (a s))).
  Lemma still_refl s : still s s. Proof. split; [destruct s; reflexivity|auto]. Qed.
  Lemma still_trans a b c : still a b -> still b c -> still a c.
  Proof. intros (E1 & N1) (E2 & N2). split; [rewrite E2, E1; destruct a, b, c; reflexivity|]. intros O. destruct (N1 O) as (O1 & M1). destruct (N2 O1) as (O2 & M2). split; congruence. Qed.
  Lemma calm_same {A} (a : M A) : (forall s, fst (a s) = s) -> calm a. Proof. intros H s. rewrite H. split; [apply still_refl|apply head_refl]. Qed.
  Lemma calm_seq {A B} (a : M A) (f : A -> M B) : calm a -> (forall x, calm (f x)) -> calm (seq a f).
  Proof. intros Ha Hf s. unfold seq. destruct (Ha s) as (S & H). destruct (a s) as (s1, o). cbn in S, H. destruct o as [x| |]; [|auto..]. destruct (Hf x s1) as (S2 & H2). split; [eapply still_trans; eassumption|eapply head_trans; eassumption]. Qed.
  Lemma calm_reply {A} (a : M A) : (forall s, exists r, fst (a s) = w_reply r s /\ keeps_head (p_reply s) r) -> calm a.
  Proof. intros H s. destruct (H s) as (r & -> & K). split; [split; [destruct s; reflexivity|destruct s; auto]|exact K]. Qed.
  Lemma set_param_keeps m n x : keeps_head m (fst (set_param m n x)).
  Proof. unfold set_param. destruct (lines n) as [|tl r]; [apply head_refl|]. destruct (ends_array tl); [|apply head_refl..]. destruct (match params_of m with Some p => p | None => JObj [] end); try apply head_refl. destruct (set_rest _ _ _ _ _) as [x' o]. split; [reflexivity|]. split; [reflexivity|]. left. reflexivity. Qed.
  Lemma calm_put n x : calm (@put P n x).
  Proof. apply calm_reply. intros s. unfold put. pose proof (set_param_keeps (p_reply s) n x) as K. destruct (set_param (p_reply s) n x) as (m, o). exists m. auto. Qed.
  Lemma calm_puts l : calm (@puts P l). Proof. induction l as [|(n, x) l IH]; [apply calm_same; reflexivity|]. cbn. apply calm_seq; [apply calm_put|intros _; exact IH]. Qed.
  Lemma calm_nack w : calm (@nack P w).
  Proof. apply calm_reply. intros s. unfold nack, set_nack. match goal with |- context [set_param ?a ?n ?x] => pose proof (set_param_keeps a n x) as K; destruct (set_param a n x) as (m, o) end. exists m. split; [reflexivity|]. destruct K as (K1 & K2 & K3). cbn in K1, K2, K3. split; [exact K1|]. split; [exact K2|]. right. tauto. Qed.
  Lemma calm_type : calm (@reply_type P TNack). Proof. apply calm_reply. intros s. eexists. split; [reflexivity|]. unfold keeps_head. cbn. auto. Qed.
  Lemma sm_put_names {A} (m : smap A) k x : sm_ok m -> sm_get m k <> None -> map fst (sm_put m k x) = map fst m.
  Proof.
    induction m as [|(j, y) m IH]; cbn; [congruence|]. intros (F & O) G. destruct (String.eqb_spec k j) as [->|N]; [reflexivity|]. destruct (String.ltb k j) eqn:L; [|cbn; rewrite IH by assumption; reflexivity]. exfalso. apply G, sm_get_fresh. eapply Forall_impl; [|exact F]. intros e. apply ltb_trans, L.
  Qed.
  Lemma calm_call i f : (forall o r, keeps_head r (snd (fst (f o r)))) -> calm (@call P i f).
  Proof.
    intros K s. unfold call. destruct (sm_get (p_objs s) i) as [o|] eqn:G; [|split; [apply still_refl|apply head_refl]]. specialize (K o (p_reply s)). destruct (f o (p_reply s)) as ((o', r), x). cbn in K |- *. split; [|exact K].
    split; [destruct s; reflexivity|]. cbn. intros O. split; [apply sm_put_ok, O|]. apply sm_put_names; [exact O|congruence].
  Qed.
  Lemma calm_touch i f : calm (@touch P i f). Proof. apply calm_call. intros o r. apply head_refl. Qed.
  Lemma calm_each {A} (l : list A) f : (forall x, calm (f x)) -> calm (each l f). Proof. intros H. induction l as [|x l IH]; [apply calm_same; reflexivity|]. cbn. apply calm_seq; [apply H|intros _; exact IH]. Qed.
  Lemma calm_plugins f : (forall x, calm (f x)) -> calm (@each_plugin P f). Proof. intros H. apply calm_seq; [apply calm_same; reflexivity|intros l; apply calm_each, H]. Qed.
  Hypothesis PO : polite v.
  Ltac cstep := first [ apply calm_put | apply calm_puts | apply calm_nack | apply calm_type | apply calm_touch | apply calm_call; intros ? ?; apply (PO _ _) | apply calm_plugins; intros ? | apply calm_seq; [|intros ?] | apply calm_same; reflexivity | match goal with |- calm (match ?x with _ => _ end) => destruct x end ].
  Lemma calm_configuration : calm (request_configuration v). Proof. unfold request_configuration. repeat cstep. Qed.
  Lemma calm_commands m l : forall p, calm (commands v m l p).
  Proof. induction l as [|i l IH]; intros p; cbn [commands]; [cstep|]. cstep; [cstep|]. cstep; [|apply IH]. destruct x; [|cstep]. cstep; [cstep|]. cbv zeta. cstep; [cstep|]. match goal with |- calm (if ?b then _ else _) => destruct b end; [|cstep]. cstep; [cstep|]. cstep; cstep. Qed.
  Lemma calm_execute m : calm (execute v m). Proof. unfold execute. cstep; [cstep|]. cstep; [apply calm_commands|]. destruct (negb _); cbn [when]; cstep. Qed.
  Lemma calm_request_commands : calm (request_commands v). Proof. unfold request_commands. repeat cstep. Qed.
  Lemma calm_statuses l : forall es ws, calm (statuses v l es ws).
  Proof. induction l as [|i l IH]; intros es ws; cbn [statuses]; [cstep|]. cstep; [cstep|]. cstep; [cstep|]. cstep; [cstep|]. destruct x1 as ((a, b), c). cstep; [cstep|]. cstep; [cstep|]. cstep; [cstep|]. apply IH. Qed.
  Lemma calm_status : calm (provide_status v). Proof. unfold provide_status. cstep; [cstep|]. cstep; [destruct (k_shm x); cstep|]. cstep; [cstep|]. cstep; [apply calm_statuses|]. cstep; cstep. Qed.
  Lemma calm_version : calm (provide_version v). Proof. unfold provide_version. cstep; [cstep|]. cstep. cstep; [cstep|]. destruct x1 as ((((a, b), c), d), e). cstep. Qed.
  Lemma calm_reset : calm (reset_statistics v). Proof. unfold reset_statistics. cstep. cstep; [cstep|]. cstep; [cstep|]. cstep; [cstep|]. destruct (negb _); cbn [when]; [|cstep]. cstep; cstep. Qed.
  (** A request that does not configure *)
  Lemma calm_request n t m : (g_type m, g_val m) <> (TCmd, VConfigure) -> forall s, let '(s1, o) := request v n t m s in
    exists l, (l = [] \/ l = [FExit] /\ g_val m = VShutdown) /\ still s (w_out (p_out s) s1) /\ p_out s1 = p_out s ++ l /\ g_id (p_reply s1) = g_id (p_reply s) /\ g_val (p_reply s1) = g_val (p_reply s) /\ (o = Ret tt -> g_type (p_reply s1) = TAck \/ g_type (p_reply s1) = TNack).
  Proof.
    intros N s. assert (CS : forall a : M unit, calm a -> let '(s1, o) := (reply_type TAck ;; a) s in exists l, (l = [] \/ l = [FExit] /\ g_val m = VShutdown) /\ still s (w_out (p_out s) s1) /\ p_out s1 = p_out s ++ l /\ g_id (p_reply s1) = g_id (p_reply s) /\ g_val (p_reply s1) = g_val (p_reply s) /\ (o = Ret tt -> g_type (p_reply s1) = TAck \/ g_type (p_reply s1) = TNack)).
    { intros a C. unfold seq, reply_type at 1, change. set (s0 := w_reply _ s). destruct (C s0) as ((E & O) & (K1 & K2 & K3)). destruct (a s0) as (s1, o). cbn [fst] in *. exists []. split; [auto|]. rewrite app_nil_r.
      assert (EO : p_out s1 = p_out s) by (rewrite E; reflexivity). split; [split; [rewrite E; destruct s; reflexivity|exact O]|]. split; [exact EO|]. split; [exact K1|]. split; [exact K2|]. intros _. exact K3. }
    assert (UN : let '(s1, o) := (put "error" (XStr (append "Invalid control message: " (string_of_list_ascii t))) ;; reply_type TNack) s in exists l, (l = [] \/ l = [FExit] /\ g_val m = VShutdown) /\ still s (w_out (p_out s) s1) /\ p_out s1 = p_out s ++ l /\ g_id (p_reply s1) = g_id (p_reply s) /\ g_val (p_reply s1) = g_val (p_reply s) /\ (o = Ret tt -> g_type (p_reply s1) = TAck \/ g_type (p_reply s1) = TNack)).
    { unfold seq, reply_type, change, put. pose proof (set_param_keeps (p_reply s) "error" (XStr (append "Invalid control message: " (string_of_list_ascii t)))) as (K1 & K2 & _). destruct (set_param _ _ _) as (r, o). cbn [fst] in K1, K2. destruct o as [[]|e|]; exists []; (rewrite app_nil_r; split; [auto|]; split; [split; [destruct s; reflexivity|destruct s; auto]|]; split; [reflexivity|]; split; [exact K1|]; split; [exact K2|]; cbn; auto; discriminate). }
    unfold request. destruct (g_type m) eqn:T; [exact UN| |exact UN..]. destruct (g_val m) eqn:V;
      lazymatch goal with
      | |- context [configure] => destruct (N eq_refl)
      | |- context [request_configuration] => apply CS, calm_configuration
      | |- context [execute] => apply CS, (calm_execute m)
      | |- context [request_commands] => apply CS, calm_request_commands
      | |- context [provide_status] => apply CS, calm_status
      | |- context [provide_version] => apply CS, calm_version
      | |- context [reset_statistics] => apply CS, calm_reset
      | |- context [tell FExit] => idtac
      | |- _ => exact UN
      end.
    exists [FExit]. split; [auto|]. split; [split; [destruct s; reflexivity|destruct s; auto]|]. repeat (split; [reflexivity|]). auto.
  Qed.
  Lemma request_fair n t m s : let '(s1, o) := request v n t m s in (exists l, p_out s1 = p_out s ++ l /\ Forall (fun e => is_reply e = false) l) /\ g_id (p_reply s1) = g_id (p_reply s) /\ g_val (p_reply s1) = g_val (p_reply s) /\ (o = Ret tt -> g_type (p_reply s1) = TAck \/ g_type (p_reply s1) = TNack).
  Proof.
    assert (D : (g_type m, g_val m) = (TCmd, VConfigure) \/ (g_type m, g_val m) <> (TCmd, VConfigure)) by (destruct (g_type m), (g_val m); (left; reflexivity) || (right; discriminate)). destruct D as [D|D].
    - injection D as T V. unfold request. rewrite T, V. unfold seq, reply_type, change. set (s0 := w_reply _ s). pose proof (does_configure v n m s0) as MV. destruct (moves_out _ _ _ MV) as (l & OUT & F). destruct (moves_head _ _ _ PO MV) as (K1 & K2 & K3). destruct (configure v n m s0) as (s1, o). cbn [fst] in *. split; [exists l; auto|]. auto.
    - pose proof (calm_request n t m D s) as C. destruct (request v n t m s) as (s1, o). destruct C as (l & L & _ & O & A & B & C). split; [|auto]. exists l. split; [exact O|]. destruct L as [-> | (-> & _)]; repeat constructor.
  Qed.

  (** The reply at the start; what follows the request *)
  Definition begun (m : msg) (s : st) : st := let r := new_msg TIllegal VIllegal true (v_now v) in w_reply (Msg (g_strict r) (g_doc r) TIllegal (g_val m) (g_id m) (g_time r)) s.
  Definition started (m : msg) (s : st) : st := let r := new_msg TIllegal VIllegal true (v_now v) in w_reply (Msg (g_strict r) (g_doc r) TAck (g_val m) (g_id m) (g_time r)) (begun m s).
  Lemma started_alike m s : alike s (started m s). Proof. destruct s. reflexivity. Qed.
  Lemma strict_id t m : msg_of_text (v_clock v) t true = Ret m -> exists i, g_id m = Some i.
  Proof.
    unfold msg_of_text. destruct (parse t) as [x|]; [|discriminate]. unfold msg_of_doc. destruct x; try discriminate. unfold bind.
    destruct (get_attr str_value l "msg_type" "none"); try discriminate. destruct (true && _); [discriminate|]. destruct (get_attr str_value l "msg_val" "none"); try discriminate. destruct (true && _); [discriminate|].
    destruct (get_attr str_value l "timestamp" "none"); try discriminate. destruct (true && _); [discriminate|]. destruct (get_attr uint_value l "id" 0%Z); try discriminate. destruct (true && _); [discriminate|]. intros H. injection H as <-. cbn. eauto.
  Qed.
  Lemma not_answered c (s s1 : st) l : p_out s1 = p_out s ++ l -> Forall (fun e => forall d, e <> FReply c d) l -> ~ answered c s s1.
  Proof.
    intros E F (l' & d & E'). rewrite E in E'. apply app_inv_head in E'. subst l. rewrite Forall_forall in F. apply (F (FReply c d)) with (d := d); [|reflexivity]. apply in_or_app. right. left. reflexivity.
  Qed.
  Lemma no_reply_other c l : Forall (fun e => is_reply e = false) l -> Forall (fun e => forall d, e <> FReply c d) l.
  Proof. apply Forall_impl. intros e H d ->. discriminate. Qed.
  Lemma told_alike e (s : st) : is_reply e = true -> alike (w_out (p_out s ++ [e]) s) s.
  Proof. intros H. destruct s. unfold alike, visible. cbn. rewrite filter_app. cbn. rewrite H. cbn. rewrite app_nil_r. reflexivity. Qed.
  Lemma reply_alike r (s : st) : alike (w_reply r s) s. Proof. destruct s. reflexivity. Qed.
  Lemma alike_sym (a b : st) : alike a b -> alike b a. Proof. unfold alike. congruence. Qed.
  Lemma alike_trans (a b c : st) : alike a b -> alike b c -> alike a c. Proof. unfold alike. congruence. Qed.

  (** The ways to end *)
  Definition refusal (m : msg) (w : string) (d : list (string * json)) : Prop := exists r, set_param (let r := new_msg TNack VConfigure true (v_now v) in Msg (g_strict r) (g_doc r) (g_type r) (g_val r) (g_id m) (g_time r)) "error" (XStr w) = (r, Ret tt) /\ encode (v_clock v) r = Ret d.
  Lemma handle_request n c t m s s1 o : msg_of_text (v_clock v) t true = Ret m -> request v n t m (begun m s) = (s1, o) ->
    match o with
    | Ret _ => exists d, encode (v_clock v) (p_reply s1) = Ret d /\ handle_ctrl v n c t s = (w_out (p_out s1 ++ [FReply c d]) s1, Ret tt)
    | Throw (PFault (XRun w)) => exists d r, refusal m w d /\ handle_ctrl v n c t s = (w_out (p_out s1 ++ [FNobody d]) (w_reply r s1), Ret tt)
    | Throw (PFault (XIpc ERange)) => handle_ctrl v n c t s = (s1, o)
    | Throw (PFault (XIpc _)) => handle_ctrl v n c t s = (s1, Ret tt)
    | _ => handle_ctrl v n c t s = (s1, o)
    end.
  Proof.
    intros MT C. destruct (strict_id t m MT) as (id & ID). pose proof (request_fair n t m (begun m s)) as F. rewrite C in F. destruct F as (_ & RID & _). change (g_id (p_reply (begun m s))) with (g_id m) in RID. rewrite ID in RID.
    assert (E : exists d, encode (v_clock v) (p_reply s1) = Ret d) by (unfold encode; rewrite RID; eauto). destruct E as (d & EN).
    assert (REQ : (change (w_reply (let r := new_msg TIllegal VIllegal true (v_now v) in Msg (g_strict r) (g_doc r) TIllegal (g_val m) (g_id m) (g_time r))) ;; request v n t m ;; r <- get p_reply ;; d <- lift (encode (v_clock v) r) ;; tell (FReply c d)) s
      = match o with Ret _ => (w_out (p_out s1 ++ [FReply c d]) s1, Ret tt) | Throw e => (s1, Throw e) | Undef => (s1, Undef) end).
    { transitivity ((request v n t m ;; r <- get p_reply ;; d <- lift (encode (v_clock v) r) ;; tell (FReply c d)) (begun m s)); [reflexivity|]. unfold seq at 1. rewrite C. destruct o as [[]|e|]; [|reflexivity..]. unfold seq, get, lift. rewrite EN. reflexivity. }
    unfold handle_ctrl. rewrite MT. cbv zeta. cbv zeta in REQ. rewrite REQ. clear REQ. destruct o as [[]|e|]; [eauto| |reflexivity]. destruct e as [[[]|w|]|]; try reflexivity.
    unfold seq, change, put, get, lift. cbn [p_reply w_reply].
    match goal with |- context [set_param ?a ?b ?x] => assert (SP : exists m', set_param a b x = (m', Ret tt) /\ g_id m' = Some id) end.
    { eexists. split; [vm_compute; reflexivity|]. cbn. rewrite <- ID. reflexivity. }
    destruct SP as (m' & SP & ID'). rewrite SP. cbn [p_reply w_reply]. assert (EN2 : exists d2, encode (v_clock v) m' = Ret d2) by (unfold encode; rewrite ID'; eauto). destruct EN2 as (d2 & EN2). rewrite EN2. exists d2, m'. split; [exists m'; auto|]. reflexivity.
  Qed.
  Lemma handle_configure n c t m s s1 o : msg_of_text (v_clock v) t true = Ret m -> g_type m = TCmd -> g_val m = VConfigure ->
    configure v n m (started m s) = (s1, o) ->
    (o = Ret tt /\ exists s2 d, handle_ctrl v n c t s = (s2, Ret tt) /\ encode (v_clock v) (p_reply s1) = Ret d /\ s2 = w_out (p_out s1 ++ [FReply c d]) s1 /\ alike s2 s1 /\ answered c s s2) \/
    (o <> Ret tt /\ exists s2, fst (handle_ctrl v n c t s) = s2 /\ alike s2 s1 /\ ~ answered c s s2 /\ p_objs s2 = p_objs s1).
  Proof.
    intros MT T V C. pose proof (does_configure v n m (started m s)) as MV. rewrite C in MV. cbn [fst] in MV. destruct (moves_out _ _ _ MV) as (l & OUT & F). change (p_out (started m s)) with (p_out s) in OUT.
    assert (R : request v n t m (begun m s) = (s1, o)) by (rewrite <- C; unfold request, started, begun; cbv zeta; rewrite T, V; reflexivity). pose proof (handle_request n c t m s s1 o MT R) as H.
    assert (N : ~ answered c s s1) by (eapply not_answered; [exact OUT|apply no_reply_other, F]).
    destruct o as [[]|e|].
    - left. split; [reflexivity|]. destruct H as (d & EN & H). eexists. exists d. split; [exact H|]. split; [exact EN|]. split; [reflexivity|]. split; [apply told_alike; reflexivity|]. exists l, d. cbn. rewrite OUT, app_assoc. reflexivity.
    - right. split; [discriminate|]. destruct e as [[[]|w|]|]; try (rewrite H; eexists; split; [reflexivity|]; split; [reflexivity|]; split; [exact N|reflexivity]). destruct H as (d & r & _ & H). rewrite H. eexists. split; [reflexivity|]. cbn [fst].
      split; [|split; [|reflexivity]].
      + apply (alike_trans _ (w_reply r s1)); [apply (told_alike (FNobody d) (w_reply r s1)); reflexivity|apply reply_alike].
      + eapply not_answered; [cbn; rewrite OUT, <- app_assoc; reflexivity|]. apply Forall_app. split; [apply no_reply_other, F|]. constructor; [discriminate|constructor].
    - right. split; [discriminate|]. rewrite H. eexists. split; [reflexivity|]. split; [reflexivity|]. split; [exact N|reflexivity].
  Qed.

  Lemma skip_seq {A B} (a : M A) (f : A -> M B) s x : a s = (s, Ret x) -> seq a f s = f x s. Proof. intros H. unfold seq. rewrite H. reflexivity. Qed.
  Lemma only_execute n m q i t s : params_of m = Some (JObj [("execute", JObj q)]) -> find_member "index" q = Some (JStr i) -> sm_get (p_stored s) (cstr i) = Some t ->
    configure v (S n) m s = (each (stored_messages t) (fun x => configure v n (msg_of_value x TCmd VConfigure true (v_now v))) ;; pass_on v m) s.
  Proof.
    intros E I T. assert (H : forall k, In k ["hdf/master"; "clear_errors"; "frames"; "inject_eoa"; "debug_level"; "ctrl_endpoint"; "meta_endpoint"; "plugin"; "fr_setup"; "store"] -> has_param m k = Ret false).
    { intros k K. unfold has_param. rewrite E. cbn in K. repeat (destruct K as [<-|K]; [reflexivity|]). destruct K. }
    assert (SK : forall k (a : M unit), In k ["hdf/master"; "clear_errors"; "frames"; "inject_eoa"; "debug_level"; "ctrl_endpoint"; "meta_endpoint"; "plugin"; "fr_setup"; "store"] -> (h <- lift (has_param m k) ;; when h a) s = (s, Ret tt)).
    { intros k a K. unfold seq, lift. rewrite (H k K). reflexivity. }
    cbn [configure]. unfold configure_once.
    repeat (erewrite skip_seq; [|first [ apply (SK "hdf/master") | apply (SK "clear_errors") | apply (SK "frames") | apply (SK "inject_eoa") | apply (SK "debug_level") | apply (SK "ctrl_endpoint") | apply (SK "meta_endpoint") | apply (SK "plugin") | apply (SK "fr_setup") | apply (SK "store") ]; cbn; tauto]).
    unfold seq at 1. unfold seq at 1. enough (R : run_stored v (configure v n) m s = each (stored_messages t) (fun x => configure v n (msg_of_value x TCmd VConfigure true (v_now v))) s) by (rewrite R; reflexivity).
    unfold run_stored. assert (HE : has_param m "execute" = Ret true) by (unfold has_param; rewrite E; reflexivity).
    assert (GE : get_ref m "execute" = Ret (JObj q)) by (unfold get_ref, get_raw; rewrite E; reflexivity).
    erewrite skip_seq; [|unfold lift; rewrite HE; reflexivity]. cbn [when]. erewrite skip_seq; [|unfold section, seq, lift; rewrite GE; reflexivity].
    assert (PS : params_of (msg_of_value (JObj q) TIllegal VIllegal true (v_now v)) = Some (JObj q)) by reflexivity.
    erewrite skip_seq; [|unfold lift, has_param; rewrite PS; cbn; rewrite I; reflexivity]. cbn [when]. erewrite skip_seq; [|unfold str_param, lift, bind, get_param, get_raw; rewrite PS; cbn; rewrite I; reflexivity].
    unfold seq, get. rewrite T. reflexivity.
  Qed.
  Lemma pass_none m q s : params_of m = Some (JObj [("execute", JObj q)]) -> (forall i, In i (map fst (p_objs s)) -> elsewhere "execute" i) -> pass_on v m s = (s, Ret tt).
  Proof.
    intros E. unfold pass_on, each_plugin. unfold seq at 1, get. generalize (map fst (p_objs s)). induction l as [|i l IH]; intros N; [reflexivity|]. cbn [each].
    erewrite skip_seq; [apply IH; intros j J; apply N; right; exact J|]. destruct (N i (or_introl eq_refl)) as (k & r & A & -> & NE).
    assert (HP : has_param m (slashed (k :: r)) = Ret false).
    { unfold has_param. rewrite E, (any_pieces _ A). destruct A as (_ & _ & A). inversion A; subst. cbn [has_node find_member]. rewrite cstr_id by assumption. destruct (String.eqb_spec "execute" k); [congruence|reflexivity]. }
    unfold seq, lift. rewrite HP. reflexivity.
  Qed.
  Lemma carried t x : carries v t x -> exists m, msg_of_text (v_clock v) t true = Ret m /\ g_type m = TCmd /\ g_val m = VConfigure /\ params_of m = Some x.
  Proof. intros (m & A & B & C & D). exists m. split; [exact A|]. split; [exact B|]. split; [exact C|]. apply holds_at in D. cbn in D. unfold params_of. destruct (find_member "params" (g_doc m)); congruence. Qed.
  Lemma sends_each (B : behaved v) n c l : forall texts s s', alike s s' -> Forall2 (sent_as v) texts l ->
    let '(s1, o) := each l (fun x => configure v n (msg_of_value x TCmd VConfigure true (v_now v))) s in
    exists s2 b, sends v n c texts s' s2 b /\ alike s1 s2 /\ (b = true <-> o = Ret tt).
  Proof.
    induction l as [|x l IH]; intros texts s s' A F; inversion F as [|t ? texts' ? C F']; subst; cbn [each].
    - exists s', true. split; [constructor|]. split; [exact A|tauto].
    - destruct C as [C|(NO & e & MT)].
      2:{ assert (HC : configure v n (msg_of_value x TCmd VConfigure true (v_now v)) s = (s, Throw PDeep) \/ configure v n (msg_of_value x TCmd VConfigure true (v_now v)) s = (s, Throw (PFault (XIpc EAssert)))).
          { destruct n as [|n]; [left; reflexivity|right]. cbn [configure]. unfold configure_once. unfold seq at 1, set_master. unfold seq at 1, lift. assert (HP : has_param (msg_of_value x TCmd VConfigure true (v_now v)) "hdf/master" = Throw EAssert) by (destruct x; try reflexivity; destruct NO; eexists; reflexivity). rewrite HP. reflexivity. }
          assert (HH : exists o, handle_ctrl v n c t s' = (s', o)) by (unfold handle_ctrl; rewrite MT; destruct e; eauto). destruct HH as (o & HH).
          assert (NA : ~ answered c s' s') by (apply (not_answered c s' s' []); [rewrite app_nil_r; reflexivity|constructor]).
          unfold seq. destruct HC as [-> | ->]; exists s', false; (split; [eapply sd_stop; eassumption|]; split; [exact A|split; discriminate]). }
      destruct (carried t x C) as (m & MT & T & V & PX).
      assert (SR : same_request (msg_of_value x TCmd VConfigure true (v_now v)) m) by (repeat split; [rewrite PX; reflexivity|rewrite T; reflexivity|rewrite V; reflexivity]).
      assert (A' : alike s (started m s')) by (eapply alike_trans; [exact A|apply started_alike]).
      destruct (resp_configure v B n _ _ SR s (started m s') A') as (AV & AO). destruct (configure v n m (started m s')) as (s1', o') eqn:CF. unfold seq. destruct (configure v n (msg_of_value x TCmd VConfigure true (v_now v)) s) as (s1, o). cbn in AV, AO. subst o'.
      destruct (handle_configure n c t m s' s1' o MT T V CF) as [(-> & s2 & d & HC & _ & _ & AS & AN)|(NO & s2 & HC & AS & AN & _)].
      + specialize (IH texts' s1 s2 ltac:(eapply alike_trans; [exact AV|apply alike_sym, AS]) F'). destruct (each l _ s1) as (s3, o3). destruct IH as (s4 & b & SD & AL & BO). exists s4, b. split; [eapply sd_next; eassumption|]. auto.
      + assert (R : exists s2 b, sends v n c (t :: texts') s' s2 b /\ alike s1 s2 /\ b = false).
        { exists s2, false. split; [eapply sd_stop; [|exact AN]|split; [eapply alike_trans; [exact AV|apply alike_sym, AS]|reflexivity]]. rewrite <- HC. apply surjective_pairing. }
        destruct R as (s3 & b & R1 & R2 & ->). destruct o as [[]|e|]; [congruence| |]; exists s3, false; (split; [exact R1|]; split; [exact R2|]; split; discriminate).
  Qed.
End Exec.
