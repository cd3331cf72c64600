(** Lemmas about the start of the frame receiver. *)
From Coq Require Import String Ascii Lia.
From Verif Require Import Base StrOrder FrameModel JsonModel JsonSpec JsonProofs LiveModel PortModel EqualModel RcvModel RcvSpec RcvProofs RcvReply RcvCount RcvSafe RcvProps AppModel RappModel RappSpec.
Local Open Scope string_scope.
Local Open Scope list_scope.
Local Open Scope Z_scope.

(** The reply: parameters where the report of the parts can be put *)
Definition good (r : msg) : Prop := exists l i, g_doc r = [("params", JObj l)] /\ g_id r = Some i /\ (find_member "configured" l = None \/ exists q, find_member "configured" l = Some (JObj q)).
Lemma good_new t w st n : good (new_msg t w st n). Proof. exists [], 0. split; [reflexivity|]. split; [reflexivity|]. left. reflexivity. Qed.
Lemma good_head r t w : good r -> good (Msg (g_strict r) (g_doc r) t w (g_id r) (g_time r)). Proof. intros H. exact H. Qed.
Lemma good_error r w : good r -> exists r', set_param r "error" (XStr w) = (r', Ret tt) /\ good r' /\ g_type r' = g_type r.
Proof. intros (l & i & D & I & C). rewrite (put_error _ _ _ D). eexists. split; [reflexivity|]. split; [|reflexivity]. eexists. exists i. split; [reflexivity|]. split; [exact I|]. rewrite find_put. exact C. Qed.
Lemma good_part r k b : In k ["ipc"; "decoder"; "buffer_manager"; "rx_thread"] -> good r -> exists r', set_param r (append "configured/" k) (XBool b) = (r', Ret tt) /\ good r'.
Proof.
  intros K (l & i & D & I & C).
  assert (E : forall q, match find_member "configured" l with Some x => x | None => JObj [] end = JObj q -> set_param r (append "configured/" k) (XBool b) = (with_doc [("params", JObj (put_member "configured" (JObj (put_member k (JBool b) q)) l))] r, Ret tt)).
  { intros q Q. unfold set_param, params_of. rewrite D. cbn in K. destruct K as [<-|[<-|[<-|[<-|[]]]]]; cbn -[find_member put_member]; cbn [find_member String.eqb Ascii.eqb Bool.eqb]; rewrite ?Q; cbn -[find_member put_member]; reflexivity. }
  destruct C as [C|(q & C)]; rewrite C in E; (eexists; split; [apply E; reflexivity|]; eexists; exists i; split; [reflexivity|]; split; [exact I|]; right; rewrite find_put, String.eqb_refl; eauto).
Qed.

(** Two runs that differ in replies *)
Definition rel (s s' : rc) : Prop := alike s s' /\ good (c_reply s) /\ good (c_reply s').
Definition resp {A} (a a' : M A) : Prop := forall s s', rel s s' -> rel (fst (a s)) (fst (a' s')) /\ snd (a s) = snd (a' s').
Lemma resp_seq {A B} (a a' : M A) (f f' : A -> M B) : resp a a' -> (forall x, resp (f x) (f' x)) -> resp (seq a f) (seq a' f').
Proof. intros H K s s' E. unfold seq. destruct (H s s' E) as (E1 & O). destruct (a s) as (s1, o), (a' s') as (s1', o'). cbn in E1, O. subst o'. destruct o as [x|e|]; [apply K, E1|split; auto..]. Qed.
Lemma resp_ret {A} (x : A) : resp (ret x) (ret x). Proof. intros s s' E. split; [exact E|reflexivity]. Qed.
Lemma resp_raise {A} e : resp (raise (A := A) e) (raise e). Proof. intros s s' E. split; [exact E|reflexivity]. Qed.
Lemma resp_undefined {A} : resp (undefined (A := A)) undefined. Proof. intros s s' E. split; [exact E|reflexivity]. Qed.
Lemma resp_lift {A} (o o' : outcome ipcexc A) : o = o' -> resp (lift o) (lift o'). Proof. intros <- s s' E. split; [exact E|reflexivity]. Qed.
Lemma resp_get {A} (f : rc -> A) : (forall s r o, f (w_c_out o (w_c_reply r s)) = f s) -> resp (get f) (get f).
Proof. intros H s s' E. split; [exact E|]. destruct E as ((r & o & -> & _) & _). cbn. rewrite H. reflexivity. Qed.
Lemma resp_change f : (forall s r o, f (w_c_out o (w_c_reply r s)) = w_c_out o (w_c_reply r (f s)) /\ c_out (f s) = c_out s /\ c_reply (f s) = c_reply s) -> resp (change f) (change f).
Proof.
  intros H s s' ((r & o & -> & Q) & G & G'). split; [|reflexivity]. destruct (H s r o) as (H1 & H2 & H3). cbn [change fst]. rewrite H1. split; [|rewrite H3; split; [exact G|exact G']]. exists r, o. split; [reflexivity|]. rewrite H2. exact Q.
Qed.
Lemma resp_emit e : resp (emit e) (emit e).
Proof.
  intros s s' ((r & o & -> & Q) & G & G'). split; [|reflexivity]. split; [|split; [exact G|exact G']]. exists r, (o ++ [e]). split; [reflexivity|]. unfold seen in *. cbn. rewrite !filter_app, Q. reflexivity.
Qed.
Lemma resp_when b a a' : resp a a' -> resp (when b a) (when b a'). Proof. destruct b; [auto|intros _; apply resp_ret]. Qed.
Lemma resp_fresh : resp fresh fresh.
Proof. intros s s' ((r & o & -> & Q) & G & G'). split; [|reflexivity]. split; [|split; [exact G|exact G']]. exists r, o. split; [reflexivity|exact Q]. Qed.
Lemma resp_reply (f f' : msg -> msg) : (forall r, good r -> good (f r)) -> (forall r, good r -> good (f' r)) -> resp (change (fun s => w_c_reply (f (c_reply s)) s)) (change (fun s => w_c_reply (f' (c_reply s)) s)).
Proof. intros H H' s s' ((r & o & -> & Q) & G & G'). split; [|reflexivity]. split; [|split; [apply H, G|apply H', G']]. eexists _, o. split; [reflexivity|exact Q]. Qed.
Lemma resp_type t : resp (reply_type t) (reply_type t).
Proof. apply (resp_reply (fun r => Msg (g_strict r) (g_doc r) t (g_val r) (g_id r) (g_time r)) (fun r => Msg (g_strict r) (g_doc r) t (g_val r) (g_id r) (g_time r))); intros r G; exact G. Qed.
Lemma resp_val w w' : resp (reply_val w) (reply_val w').
Proof. apply (resp_reply (fun r => Msg (g_strict r) (g_doc r) (g_type r) w (g_id r) (g_time r)) (fun r => Msg (g_strict r) (g_doc r) (g_type r) w' (g_id r) (g_time r))); intros r G; exact G. Qed.
Lemma resp_part k b : In k ["ipc"; "decoder"; "buffer_manager"; "rx_thread"] -> resp (put (append "configured/" k) (XBool b)) (put (append "configured/" k) (XBool b)).
Proof.
  intros K s s' ((r & o & -> & Q) & G & G'). unfold put. destruct (good_part _ k b K G) as (r1 & E1 & G1). destruct (good_part _ k b K G') as (r2 & E2 & G2). rewrite E1, E2. split; [|reflexivity]. split; [|split; [exact G1|exact G2]]. exists r2, o. split; [reflexivity|exact Q].
Qed.
Lemma resp_error w : resp (put "error" (XStr w)) (put "error" (XStr w)).
Proof.
  intros s s' ((r & o & -> & Q) & G & G'). unfold put. destruct (good_error _ w G) as (r1 & E1 & G1 & _). destruct (good_error _ w G') as (r2 & E2 & G2 & _). rewrite E1, E2. split; [|reflexivity]. split; [|split; [exact G1|exact G2]]. exists r2, o. split; [reflexivity|exact Q].
Qed.
Lemma resp_update x : resp (update_decoder_config x) (update_decoder_config x).
Proof.
  intros s s' ((r & o & -> & Q) & G & G'). unfold update_decoder_config. change (c_cfg (w_c_out o (w_c_reply r s))) with (c_cfg s). destruct (update_msg (s_dcfg (c_cfg s)) x) as (m, q). split; [|reflexivity]. split; [|split; [exact G|exact G']]. exists r, o. split; [reflexivity|exact Q].
Qed.
Ltac field := intros [] ? ?; repeat split; reflexivity.
Lemma resp_reset_decoder : resp reset_decoder reset_decoder.
Proof. apply resp_change. intros s r o. unfold released_by_decoder. change (c_decoder (w_c_out o (w_c_reply r s))) with (c_decoder s). change (c_buffers (w_c_out o (w_c_reply r s))) with (c_buffers s). destruct (c_decoder s) as [d|]; [destruct (d_buf d) as [b|]; [destruct (same_buffers (Some b) (c_buffers s))|]|]; repeat split; reflexivity. Qed.
Lemma resp_reset_buffers : resp reset_buffers reset_buffers.
Proof. apply resp_change. intros s r o. change (c_decoder (w_c_out o (w_c_reply r s))) with (c_decoder s). change (c_buffers (w_c_out o (w_c_reply r s))) with (c_buffers s). destruct (c_buffers s) as [b|]; [|repeat split; reflexivity]. cbv zeta. destruct (match c_decoder s with Some d => same_buffers (d_buf d) (Some b) | None => false end); repeat split; reflexivity. Qed.
Lemma resp_register : resp register_buffers register_buffers.
Proof. apply resp_change. intros s r o. unfold released_by_decoder. change (c_decoder (w_c_out o (w_c_reply r s))) with (c_decoder s). change (c_buffers (w_c_out o (w_c_reply r s))) with (c_buffers s). destruct (c_decoder s) as [d|]; [destruct (d_buf d) as [b|]; [destruct (same_buffers (Some b) (c_buffers s))|]|]; repeat split; reflexivity. Qed.

Section Config.
  Variable v : env.
  Variables m m' : msg.
  Hypothesis E : params_of m = params_of m'.
  Lemma same_has n : has_param m n = has_param m' n. Proof. unfold has_param. rewrite E. reflexivity. Qed.
  Lemma same_raw n : get_raw m n = get_raw m' n. Proof. unfold get_raw. rewrite E. reflexivity. Qed.
  Lemma same_ref n : get_ref m n = get_ref m' n. Proof. unfold get_ref. rewrite same_raw. reflexivity. Qed.
  Lemma same_get g n : get_param g m n = get_param g m' n. Proof. unfold get_param. rewrite same_raw. reflexivity. Qed.
  Lemma same_str n : str_param m n = str_param m' n. Proof. unfold str_param. rewrite same_get. reflexivity. Qed.
  Lemma same_int g n : int_param g m n = int_param g m' n. Proof. unfold int_param. rewrite same_get. reflexivity. Qed.
  Lemma same_get_or g n d : get_param_or g m n d = get_param_or g m' n d. Proof. unfold get_param_or. rewrite ?E. reflexivity. Qed.
  Lemma same_str_or n d : str_param_or m n d = str_param_or m' n d. Proof. unfold str_param_or. rewrite same_get_or. reflexivity. Qed.
  Lemma same_int_or g n d : int_param_or g m n d = int_param_or g m' n d. Proof. unfold int_param_or. rewrite same_get_or. reflexivity. Qed.
  Ltac rstep := idtac; match goal with
    | |- resp (ret _) _ => apply resp_ret | |- resp (raise _) _ => apply resp_raise | |- resp undefined _ => apply resp_undefined | |- resp (emit _) _ => apply resp_emit | |- resp fresh _ => apply resp_fresh
    | |- resp (lift _) _ => apply resp_lift; first [reflexivity|apply same_has|apply same_ref|apply same_str|apply same_int|apply same_str_or|apply same_int_or]
    | |- resp reset_decoder _ => apply resp_reset_decoder | |- resp reset_buffers _ => apply resp_reset_buffers | |- resp register_buffers _ => apply resp_register | |- resp (update_decoder_config _) _ => apply resp_update
    | |- resp (setting _) _ => apply resp_get; intros [] ? ?; reflexivity | |- resp (get _) _ => apply resp_get; intros [] ? ?; reflexivity
    | |- resp (set _) _ => apply resp_change; field | |- resp (later _) _ => apply resp_change; field | |- resp (change _) _ => apply resp_change; field
    | |- resp (when _ _) _ => apply resp_when | |- resp (seq _ _) _ => apply resp_seq; [|intros ?]
    | |- resp (let '(_, _) := ?x in _) _ => destruct x | |- resp (match ?x with _ => _ end) _ => destruct x end.
  Lemma resp_channel c : resp (configure_channel v m c) (configure_channel v m' c).
  Proof. unfold configure_channel, setup_channel, set_end, unbind_channel. repeat rstep. Qed.
  Lemma resp_ipc : resp (configure_ipc_channels v m) (configure_ipc_channels v m').
  Proof. unfold configure_ipc_channels. repeat (apply resp_seq; [|intros _]). 1,6: repeat rstep. all: apply resp_channel. Qed.
  Lemma resp_stop : resp stop_rx_thread stop_rx_thread. Proof. unfold stop_rx_thread. repeat rstep. Qed.
  Lemma resp_load_class a b : resp (load_class v a b) (load_class v a b). Proof. unfold load_class. repeat rstep. Qed.
  Lemma resp_load_decoder a b : resp (load_decoder v a b) (load_decoder v a b).
  Proof. unfold load_decoder. cbv zeta. repeat (first [apply resp_stop|apply resp_load_class|rstep]). Qed.
  Lemma resp_new_class : resp (new_decoder_class m) (new_decoder_class m'). Proof. unfold new_decoder_class. repeat rstep. Qed.
  Lemma resp_decoder : resp (configure_frame_decoder v m) (configure_frame_decoder v m').
  Proof. unfold configure_frame_decoder. cbv zeta. repeat (first [apply resp_load_decoder|apply resp_new_class|rstep]). Qed.
  Lemma resp_buffers : resp (configure_buffer_manager v m) (configure_buffer_manager v m').
  Proof. unfold configure_buffer_manager. repeat (first [apply resp_stop|rstep]). Qed.
  Lemma resp_rx : resp (configure_rx_thread v m) (configure_rx_thread v m').
  Proof. unfold configure_rx_thread. cbv zeta. repeat (first [apply resp_stop|rstep]). Qed.
  Lemma resp_parts : resp (configure_parts v m) (configure_parts v m').
  Proof.
    unfold configure_parts. repeat (apply resp_seq; [first [apply resp_ipc|apply resp_decoder|apply resp_buffers|apply resp_rx|apply resp_type|solve [repeat rstep]]|intros ?]).
    cbn [puts]. repeat (apply resp_seq; [|intros _]); [apply (resp_part "ipc")|apply (resp_part "decoder")|apply (resp_part "buffer_manager")|apply (resp_part "rx_thread")|apply resp_ret]; cbn; tauto.
  Qed.
  Lemma resp_configure : resp (configure v m) (configure v m').
  Proof.
    unfold configure. apply resp_seq; [apply resp_val|]. intros _ s s' R. destruct (resp_parts s s' R) as (R1 & O1). destruct (configure_parts v m s) as (s1, o1), (configure_parts v m' s') as (s1', o1'). cbn in R1, O1. subst o1'.
    destruct o1 as [[]|e|]; try (split; [exact R1|reflexivity]). destruct e; try (split; [exact R1|reflexivity]).
    apply (resp_seq (reply_type TNack) (reply_type TNack) (fun _ => put "error" (XStr what)) (fun _ => put "error" (XStr what))); [apply resp_type|intros _; apply resp_error|exact R1].
  Qed.
End Config.

Lemma alike_refl s : alike s s. Proof. exists (c_reply s), (c_out s). split; [destruct s; reflexivity|reflexivity]. Qed.
Lemma alike_trans a b c : alike a b -> alike b c -> alike a c. Proof. intros (r & o & -> & E) (r' & o' & -> & E'). exists r', o'. split; [reflexivity|]. rewrite E'. exact E. Qed.
Lemma alike_reply s r : alike s (w_c_reply r s). Proof. exists r, (c_out s). split; [destruct s; reflexivity|reflexivity]. Qed.
Lemma alike_told s c d : alike s (w_c_out (c_out s ++ [FReply c d]) s). Proof. exists (c_reply s), (c_out s ++ [FReply c d]). split; [destruct s; reflexivity|]. unfold seen. rewrite filter_app. cbn. apply app_nil_r. Qed.

(** The reply the handler starts with *)
Definition begun (v : env) (m : msg) (s : rc) : rc := w_c_reply (Msg true [("params", JObj [])] TIllegal VConfigure (g_id m) (Some (v_now v))) s.
Lemma handler v c d x s : asks_for d x -> exists m, params_of m = Some x /\ (exists i, g_id m = Some i) /\
  let '(s1, o) := configure v m (begun v m s) in
  match o with
  | Ret _ => good (c_reply s1) -> exists y, step v (Ctrl c (Some d)) s = (w_c_out (c_out s1 ++ [FReply c y]) s1, Ret tt)
  | Throw (EIpc e) => good (c_reply s1) -> step v (Ctrl c (Some d)) s = (s1, Throw (EIpc e)) \/ exists r y, step v (Ctrl c (Some d)) s = (w_c_out (c_out s1 ++ [FReply c y]) (w_c_reply r s1), Ret tt) /\ refused y
  | Throw e => step v (Ctrl c (Some d)) s = (s1, Throw e)
  | Undef => step v (Ctrl c (Some d)) s = (s1, Undef)
  end.
Proof.
  intros (doc & -> & CM & CL & ID & PX). apply (request_parsed v (Some (JObj doc)) "configure" CL) in CM; [|cbn; tauto]. destruct CM as (m & PM & T & V). change (g_val m = VConfigure) in V. destruct (parsed_doc v doc m PM) as (D & GI). destruct (GI ID) as (i & I). exists m.
  split; [unfold params_of; rewrite D; unfold says in PX; apply leads_at in PX; cbn in PX; destruct (find_member "params" doc); [exact PX|discriminate]|]. split; [eauto|].
  assert (H : step v (Ctrl c (Some (JObj doc))) s = match configure v m (begun v m s) with
    | (s1, Ret _) => send_reply v c s1
    | (s1, Throw (EIpc ERange)) => (s1, Throw (EIpc ERange))
    | (s1, Throw (EIpc e)) => (reply_type TNack ;; put "error" (XStr (v_what v e)) ;; send_reply v c) s1
    | (s1, Throw e) => (s1, Throw e)
    | (s1, Undef) => (s1, Undef) end).
  { cbn [step]. unfold handle_ctrl. unfold seq at 1, change. unfold seq at 1, attempt, request. unfold seq at 1. rewrite parse_eq, PM. unfold seq at 1, reply_id, change. rewrite T. unfold seq at 1, reply_val, change. rewrite V. fields. cbv zeta. fields. cbn [g_strict g_doc g_type g_val g_id g_time new_msg]. unfold seq at 1.
    match goal with |- context [configure v m ?a] => change a with (begun v m s) end. destruct (configure v m (begun v m s)) as (s1, [[]|[w|[| | |]| | |]|]); try reflexivity.
    all: unfold seq at 1, seq at 1, seq at 3, seq at 3; destruct (reply_type TNack s1) as (s2, [[]|?|]); reflexivity. }
  destruct (configure v m (begun v m s)) as (s1, o). destruct o as [[]|e|]; [| |exact H].
  - intros (l & j & DC & IJ & _). unfold send_reply, seq, get, lift in H. rewrite (encode_form v _ j) in H; [|exists l; exact DC|exact IJ]. eexists. exact H.
  - destruct e as [w|e| | |]; try exact H. intros G. destruct e; try (left; exact H). all: right.
    all: unfold seq at 1, reply_type, change in H; unfold seq at 1, put in H; fields in H; cbv zeta in H.
    all: match type of H with context [set_param ?r _ (XStr ?w)] => destruct (good_error r w G) as (r1 & E1 & (l & j & DC & IJ & _) & TY); pose proof (put_error r w) as PE; rewrite E1 in H end.
    all: fields in H; unfold send_reply, seq, get, lift in H; fields in H; rewrite (encode_form v _ j) in H; [|exists l; exact DC|exact IJ].
    all: exists r1, (reply_doc v r1 j); split; [rewrite H; destruct s1; reflexivity|].
    all: destruct (doc_says v r1 j (ex_intro _ l DC)) as (D1 & _ & _ & D4); split; [rewrite TY in D1; exact D1|]; eexists; apply D4.
    all: destruct G as (l0 & i0 & G1 & _); specialize (PE l0 G1); rewrite E1 in PE; injection PE as ->; cbn; rewrite find_put, String.eqb_refl; reflexivity.
Qed.

Lemma rel_begun v m s s' : alike s s' -> good (c_reply s) -> (exists i, g_id m = Some i) -> rel s (begun v m s').
Proof.
  intros A G (i & I). split; [apply (alike_trans s s'); [exact A|apply alike_reply]|]. split; [exact G|]. exists [], i. split; [reflexivity|]. split; [exact I|]. left. reflexivity.
Qed.
Lemma answered_told v m s s1 c r y o : configure v m (begun v m s) = (s1, o) -> o <> Undef -> answered s (w_c_out (c_out s1 ++ [FReply c y]) (w_c_reply r s1)) c y.
Proof.
  intros C U. pose proof (silent_configure (c_out s) v m (begun v m s)) as S. specialize (S ltac:(exists []; split; [symmetry; apply app_nil_r|intros f []])). unfold post in S. rewrite C in S. destruct o as [[]|e|]; try congruence; destruct S as (l & E & N); exists l; fields; rewrite E, app_assoc; auto.
Qed.
Lemma submit_hands v c l : forall docs i s s', alike s s' -> good (c_reply s) -> Forall2 asks_for docs l ->
  let '(s1, o) := submit v i l s in exists s2 b, hands v c i docs s' s2 b /\ alike s1 s2 /\ (b = true <-> o = Ret tt).
Proof.
  induction l as [|x l IH]; intros docs i s s' A G F; inversion F as [|d ? docs' ? AF F']; subst; cbn [submit].
  - exists s', true. split; [constructor|]. split; [exact A|tauto].
  - destruct (handler (v i) c d x s' AF) as (m & PX & GI & H). pose proof (resp_configure (v i) (msg_of_value x TCmd VConfigure true (v_now (v i))) m) as RC. rewrite PX in RC. specialize (RC eq_refl s (begun (v i) m s') (rel_begun (v i) m s s' A G GI)).
    destruct (configure (v i) m (begun (v i) m s')) as (s1', o') eqn:CF. destruct (configure (v i) _ s) as (s1, o). cbn in RC. destruct RC as ((A1 & G1 & G1') & <-). unfold result. cbn [fst snd].
    destruct o as [[]|e|].
    + destruct (H G1') as (y & ST). set (s2 := w_c_out (c_out s1' ++ [FReply c y]) s1') in *.
      specialize (IH docs' (S i) s1 s2 ltac:(apply (alike_trans _ s1'); [exact A1|apply alike_told]) G1 F'). destruct (submit v (S i) l s1) as (s3, o3). destruct IH as (s4 & b & HA & AL & BO). exists s4, b. split; [|auto].
      eapply ha_next; [exact ST| |exact HA]. pose proof (answered_told (v i) m s' s1' c (c_reply s1') y _ CF ltac:(discriminate)) as AN. destruct s1'; exact AN.
    + assert (ENDS : forall o1, step (v i) (Ctrl c (Some d)) s' = (s1', o1) -> o1 <> Ret tt -> exists s2 b, hands v c i (d :: docs') s' s2 b /\ alike s1 s2 /\ (b = true <-> Throw (A := unit) (AController e) = Ret tt)).
      { intros o1 ST NR. exists s1', false. split; [eapply ha_ended; eassumption|]. split; [exact A1|]. split; discriminate. }
      destruct e as [w|e| | |]; try (apply (ENDS _ H); discriminate). destruct (H G1') as [ST|(r & y & ST & RF)]; [apply (ENDS _ ST); discriminate|].
      eexists. exists false. split; [eapply ha_refused; [exact ST| |exact RF]|]. 1: exact (answered_told (v i) m s' s1' c r y _ CF ltac:(discriminate)).
      split; [|split; discriminate]. apply (alike_trans _ s1'); [exact A1|]. apply (alike_trans _ (w_c_reply r s1')); [apply alike_reply|]. exact (alike_told (w_c_reply r s1') c y).
    + exists s1', false. split; [eapply ha_ended; [exact H|discriminate]|]. split; [exact A1|]. split; discriminate.
Qed.
