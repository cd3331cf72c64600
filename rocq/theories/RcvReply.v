(** The reply to a control message. *)
From Coq Require Import String Ascii.
From Verif Require Import Base StrOrder FrameModel JsonModel JsonSpec JsonProofs LiveModel PortModel EqualModel RcvModel RcvSpec RcvProofs.
Local Open Scope string_scope.
Local Open Scope list_scope.
Local Open Scope Z_scope.

(** *** The message: one member "params", an object *)
Definition form (m : msg) : Prop := exists l, g_doc m = [("params", JObj l)].
Lemma set_param_form m n v : form m -> form (fst (set_param m n v)).
Proof.
  intros (l & E). unfold set_param. destruct (lines n) as [|tl r]; [exists l; exact E|]. destruct (ends_array tl); [|exists l; exact E|exists l; exact E]. unfold params_of. rewrite E. cbn. destruct (set_rest _ _ _ _ _) as [x' o]. cbn. eexists. reflexivity.
Qed.
Lemma set_param_head m n v : same_head (fst (set_param m n v)) m.
Proof.
  unfold set_param, same_head. destruct (lines n) as [|tl r]; [auto|]. destruct (ends_array tl); auto. destruct (match params_of m with Some p => p | None => JObj [] end); auto. destruct (set_rest _ _ _ _ _) as [x' o]. cbn. auto.
Qed.
Lemma put_post n v s (Q : unit -> rc -> Prop) (X : rexc -> rc -> Prop) : (forall m, (form (c_reply s) -> form m) -> same_head m (c_reply s) -> Q tt (w_c_reply m s) /\ forall e, X (EIpc e) (w_c_reply m s)) -> post (put n v) s Q X.
Proof.
  intros H. unfold post, put. destruct (set_param (c_reply s) n v) as [m o] eqn:E. pose proof (set_param_form (c_reply s) n v) as F. pose proof (set_param_head (c_reply s) n v) as G. rewrite E in F, G. destruct (H m F G) as (A & B). destruct o as [[]|e|]; auto.
Qed.
(** Putting the text of an error *)
Lemma put_error m w l : g_doc m = [("params", JObj l)] -> set_param m "error" (XStr w) = (with_doc [("params", JObj (put_member "error" (JStr (cstr w)) l))] m, Ret tt).
Proof. intros E. unfold set_param. cbn [lines pieces Ascii.eqb]. change (lines "error") with ["error"]. change (ends_array "error") with (Ret (E := ipcexc) false). unfold params_of. rewrite E. cbn. reflexivity. Qed.

(** *** The head of the reply *)
Definition head_is (i : option Z) (w : msg_val) (s : rc) : Prop := form (c_reply s) /\ g_id (c_reply s) = i /\ g_val (c_reply s) = w.
Definition quiet {A} (a : M A) : Prop := forall R, keeps (fun s => c_reply s = R) a.
Ltac same := cbv beta in *; fields; first [assumption | congruence].
Lemma quiet_ipc v m : quiet (configure_ipc_channels v m). Proof. intros R. unfold configure_ipc_channels, configure_channel, setup_channel, set_end, unbind_channel. keep same. Qed.
Lemma quiet_decoder v m : quiet (configure_frame_decoder v m). Proof. intros R. unfold configure_frame_decoder, load_decoder, stop_rx_thread, load_class, new_decoder_class. cbv zeta. keep2 same. all: cbv beta; fields; intuition. Qed.
Lemma quiet_buffers v m : quiet (configure_buffer_manager v m). Proof. intros R. unfold configure_buffer_manager, stop_rx_thread. keep2 same. all: cbv beta; fields; intuition. Qed.
Lemma quiet_rx v m : quiet (configure_rx_thread v m). Proof. intros R. unfold configure_rx_thread, stop_rx_thread. cbv zeta. keep2 same. all: cbv beta; fields; intuition. Qed.
(** *** Configure *)
Definition with_head (R : msg) (t : msg_type) (w : msg_val) (d : list (string * json)) : msg := Msg (g_strict R) d t w (g_id R) (g_time R).
Definition configured_doc (s : rc) : list (string * json) :=
  [("params", JObj [("configured", JObj [("ipc", JBool (c_ipc s)); ("decoder", JBool (c_dec s)); ("buffer_manager", JBool (c_buf s)); ("rx_thread", JBool (c_rx s))])])].
Lemma report_reply i d b r R : g_doc R = [("params", JObj [])] -> forall s, c_reply s = R ->
  puts [("configured/ipc", XBool i); ("configured/decoder", XBool d); ("configured/buffer_manager", XBool b); ("configured/rx_thread", XBool r)] s
  = (w_c_reply (with_doc [("params", JObj [("configured", JObj [("ipc", JBool i); ("decoder", JBool d); ("buffer_manager", JBool b); ("rx_thread", JBool r)])])] R) s, Ret tt).
Proof. intros E s H. destruct R as [st doc t w id tm]. cbn in E. subst doc. unfold puts, seq, put. rewrite H. cbv -[c_reply w_c_reply]. destruct s; reflexivity. Qed.
Lemma parts_reply v m s R : c_reply s = R -> g_doc R = [("params", JObj [])] ->
  post (configure_parts v m) s (fun _ s1 => c_reply s1 = with_head R TAck (g_val R) (configured_doc s1)) (fun _ s1 => c_reply s1 = R).
Proof.
  intros E D. unfold configure_parts.
  assert (Q : forall {A} (a : M A) Z (f : A -> M unit) s, quiet a -> c_reply s = R -> (forall x s1, c_reply s1 = R -> post (f x) s1 Z (fun _ s1 => c_reply s1 = R)) -> post (seq a f) s Z (fun _ s1 => c_reply s1 = R)).
  { intros A a Z f s0 K H F. rewrite post_seq. eapply post_weaken; [exact (K R s0 H)|intros x s1 H1; apply F, H1|auto]. }
  assert (L : forall {A} (o : outcome ipcexc A), quiet (lift o)) by (intros A o R0; apply keeps_lift).
  apply Q; [apply L|exact E|]. clear s E. intros h s E. apply Q; [intros R0; keep same|exact E|]. clear s E. intros _ s E. apply Q; [apply L|exact E|]. clear s E. intros h2 s E. apply Q; [intros R0; keep same|exact E|]. clear s E.
  intros _ s E. apply Q; [apply quiet_ipc|exact E|]. clear s E. intros _ s E. apply Q; [apply quiet_decoder|exact E|]. clear s E. intros _ s E. apply Q; [apply quiet_buffers|exact E|]. clear s E. intros _ s E. apply Q; [apply quiet_rx|exact E|]. clear s E.
  intros _ s E. apply Q; [intros R0; keep same|exact E|]. clear s E. intros _ s E. unfold reply_type. do 5 (rewrite post_seq, ?post_change, ?post_get). rewrite ?post_get.
  unfold post. rewrite (report_reply _ _ _ _ (with_head R TAck (g_val R) (g_doc R))); [|exact D|fields; rewrite E; reflexivity]. fields. reflexivity.
Qed.
Definition with_val (w : msg_val) (s : rc) : rc := w_c_reply (with_head (c_reply s) (g_type (c_reply s)) w (g_doc (c_reply s))) s.
Lemma configure_cases v m s : g_doc (c_reply s) = [("params", JObj [])] ->
  match configure v m s with
  | (s1, Ret _) => (configure_parts v m (with_val (g_val m) s) = (s1, Ret tt) /\ c_reply s1 = with_head (c_reply s) TAck (g_val m) (configured_doc s1))
      \/ exists w s2, configure_parts v m (with_val (g_val m) s) = (s2, Throw (EReceiver w)) /\ s1 = w_c_reply (with_head (c_reply s) TNack (g_val m) [("params", JObj [("error", JStr (cstr w))])]) s2
  | (s1, Throw e) => configure_parts v m (with_val (g_val m) s) = (s1, Throw e) /\ c_reply s1 = with_head (c_reply s) (g_type (c_reply s)) (g_val m) (g_doc (c_reply s)) /\ forall w, e <> EReceiver w
  | (s1, Undef) => configure_parts v m (with_val (g_val m) s) = (s1, Undef)
  end.
Proof.
  intros D. unfold configure, reply_val, seq, change. cbv zeta. fold (with_head (c_reply s) (g_type (c_reply s)) (g_val m) (g_doc (c_reply s))). fold (with_val (g_val m) s).
  set (s0 := with_val (g_val m) s). pose proof (parts_reply v m s0 (c_reply s0) eq_refl D) as P. unfold post in P. change (c_reply s0) with (with_head (c_reply s) (g_type (c_reply s)) (g_val m) (g_doc (c_reply s))) in P. unfold with_head in P. cbn [g_strict g_doc g_type g_val g_id g_time] in P. fold (with_head (c_reply s) TAck) in P.
  destruct (configure_parts v m s0) as [s1 [[]|e|]] eqn:E; [left; split; [reflexivity|exact P]| |reflexivity].
  destruct e as [w| | | |]; try (split; [reflexivity|]; split; [exact P|discriminate]). unfold reply_type, change, put. rewrite P. fields. cbv zeta. cbn [g_strict g_doc g_type g_val g_id g_time]. erewrite put_error; [|cbn; exact D]. right. exists w, s1. split; [reflexivity|]. destruct s1; reflexivity.
Qed.

(** *** Any request *)
Definition error_in (m : msg) : Prop := exists w, at_path ["params"; "error"] (JObj (g_doc m)) = Some (JStr w).
Definition answer (m : msg) : Prop := g_type m = TAck \/ g_type m = TNack /\ error_in m.
Definition fresh_reply (R : msg) : Prop := g_doc R = [("params", JObj [])].
Definition reply_ok (i : option Z) (w : msg_val) (s : rc) : Prop := form (c_reply s) /\ g_id (c_reply s) = i /\ g_val (c_reply s) = w.
Definition acking (i : option Z) (w : msg_val) (s : rc) : Prop := reply_ok i w s /\ g_type (c_reply s) = TAck.
Lemma put_acking i w n v : keeps (acking i w) (put n v).
Proof. intros s ((F & I & W) & T). apply put_post. intros m G (A1 & A2 & A3 & A4 & A5). split; [|intros _]; (split; [split; [exact (G F)|split; fields; congruence]|fields; congruence]). Qed.
Lemma puts_acking i w l : keeps (acking i w) (puts l).
Proof. induction l as [|[n v] l IH]; [apply keeps_ret|]. apply keeps_seq; [apply put_acking|intros _; exact IH]. Qed.
Ltac ack := cbv beta in *; unfold acking, reply_ok in *; fields; assumption.
Ltac keep_ack := repeat match goal with |- keeps _ (put _ _) => apply put_acking | |- keeps _ (puts _) => apply puts_acking | _ => keep1 ack end.
Lemma ack_post {A} (a : M A) i w s : reply_ok i w s -> keeps (acking i w) a -> post (reply_type TAck ;; a) s (fun _ => acking i w) (fun _ => reply_ok i w).
Proof.
  intros (F & I & W) K. unfold reply_type. rewrite post_seq, post_change. eapply post_weaken; [apply K|intros x s1 H; exact H|intros e s1 (H & _); exact H]. split; [split; [destruct F as (l & F); exists l; exact F|split; fields; assumption]|reflexivity].
Qed.
Definition parsed (v : env) (x : option json) : outcome ipcexc msg := match x with None => Throw EIllegal | Some j => msg_of_doc (v_clock v) j false end.
Lemma parse_eq v x s : parse v x false s = (s, match parsed v x with Ret m => Ret m | Throw e => Throw (EIpc e) | Undef => Undef end).
Proof. unfold parse, parsed. destruct x as [j|]; [|reflexivity]. unfold lift. destruct (msg_of_doc (v_clock v) j false); reflexivity. Qed.
Lemma parse_post v x s Q X : post (parse v x false) s Q X = match parsed v x with Ret m => Q m s | Throw e => X (EIpc e) s | Undef => True end.
Proof. unfold post. rewrite parse_eq. destruct (parsed v x); reflexivity. Qed.
Definition is_command (w : msg_val) : bool := match w with VConfigure | VRequestConfiguration | VStatus | VRequestVersion | VResetStatistics | VShutdown => true | _ => false end.
(** The value of the reply *)
Definition reply_val_of (m : msg) (R : msg) : msg_val := match g_type m with TCmd => g_val m | _ => g_val R end.
Lemma request_post v x s : fresh_reply (c_reply s) ->
  match parsed v x with
  | Ret m => post (request v x) s (fun r s1 => reply_ok (g_id m) (reply_val_of m (c_reply s)) s1 /\ (r = None -> answer (c_reply s1))) (fun _ => reply_ok (g_id m) (reply_val_of m (c_reply s)))
  | Throw e => request v x s = (s, Throw (EIpc e))
  | Undef => True
  end.
Proof.
  intros D. unfold request. destruct (parsed v x) as [m|e|] eqn:P; [|unfold seq; rewrite parse_eq, P; reflexivity|exact Logic.I].
  rewrite post_seq, parse_post, P.
  unfold reply_id. rewrite post_seq, post_change. cbv zeta. unfold reply_val_of.
  assert (O : g_type m <> TCmd -> forall w : string, post (ret (Some w)) (w_c_reply {| g_strict := g_strict (c_reply s); g_doc := g_doc (c_reply s); g_type := g_type (c_reply s); g_val := g_val (c_reply s); g_id := g_id m; g_time := g_time (c_reply s) |} s)
    (fun r s1 => reply_ok (g_id m) (g_val (c_reply s)) s1 /\ (r = None -> answer (c_reply s1))) (fun _ => reply_ok (g_id m) (g_val (c_reply s)))).
  { intros _ w. rewrite post_ret. split; [|discriminate]. split; [exists []; exact D|split; reflexivity]. }
  destruct (g_type m) eqn:T; try (apply O; discriminate). clear O. unfold reply_val. rewrite post_seq, post_change. cbv zeta. fields. cbn [g_strict g_doc g_type g_val g_id g_time].
  set (s0 := w_c_reply _ _). assert (R0 : reply_ok (g_id m) (g_val m) s0) by (split; [exists []; exact D|split; reflexivity]).
  assert (K : forall (a : M unit), keeps (acking (g_id m) (g_val m)) a -> post (seq (reply_type TAck ;; a) (fun _ => ret (@None string))) s0 (fun r s1 => reply_ok (g_id m) (g_val m) s1 /\ (r = None -> answer (c_reply s1))) (fun _ => reply_ok (g_id m) (g_val m))).
  { intros a H. rewrite post_seq. eapply post_weaken; [apply (ack_post a _ _ _ R0 H)| |auto]. intros _ s1 (A & B). rewrite post_ret. split; [exact A|]. intros _. left. exact B. }
  destruct (g_val m) eqn:V; try (rewrite post_ret; split; [exact R0|discriminate]).
  - apply K. keep_ack.
  - rewrite post_seq. pose proof (configure_cases v m s0 D) as C. unfold post. destruct (configure v m s0) as [s1 [[]|e|]]; [| |exact Logic.I].
    + rewrite V in C. destruct C as [(_ & C)|(w & s2 & _ & ->)].
      * cbn. unfold reply_ok, answer. rewrite C. cbn. split; [|auto]. split; [eexists; reflexivity|auto].
      * cbn. unfold reply_ok, answer, error_in. fields. cbn. split; [|right; split; [reflexivity|eexists; reflexivity]]. split; [eexists; reflexivity|auto].
    + rewrite V in C. destruct C as (_ & C & _). unfold reply_ok. rewrite C. cbn. split; [exists []; exact D|auto].
  - unfold request_configuration. apply K. keep_ack.
  - unfold get_version. apply K. keep_ack.
  - unfold reset_statistics. apply K. keep_ack.
  - rewrite post_seq, post_later, post_seq. unfold reply_type. rewrite post_change, post_ret. split; [|intros _; left; reflexivity]. split; [exists []; exact D|split; reflexivity].
Qed.

(** *** Effects before the reply *)
Definition silent (o : list effect) (s : rc) : Prop := exists l, c_out s = o ++ l /\ forall f, In f l -> ~ is_reply f.
Lemma silent_emit o f s : ~ is_reply f -> silent o s -> silent o (w_c_out (c_out s ++ [f]) s).
Proof. intros N (l & E & H). exists (l ++ [f]). fields. rewrite E, app_assoc. split; [reflexivity|]. intros g I. apply in_app_or in I. destruct I as [I|[<-|[]]]; auto. Qed.
Ltac sil := cbv beta in *; first [ apply silent_emit; [intros (? & ? & ?); discriminate|assumption] | unfold silent in *; fields; assumption ].
Lemma silent_ipc o v m : keeps (silent o) (configure_ipc_channels v m). Proof. unfold configure_ipc_channels, configure_channel, setup_channel, set_end, unbind_channel. keep sil. Qed.
Lemma keeps_weaken {A} (P Q : rc -> Prop) (a : M A) : keeps P a -> (forall s, P s <-> Q s) -> keeps Q a.
Proof. intros K E s H. eapply post_weaken; [apply K, E, H|intros x s1 H1; apply E, H1|intros x s1 H1; apply E, H1]. Qed.
Lemma keeps_need2 (P : rc -> Prop) f a : keeps P a -> keeps P (need <- get f ;; when need a).
Proof. intros K. apply keeps_seq; [apply keeps_get|intros x; apply keeps_when, K]. Qed.
Ltac keep3 side :=
  repeat match goal with
    | |- keeps _ reset_decoder => apply keeps_reset_decoder; intros; side
    | |- keeps _ reset_buffers => apply keeps_reset_buffers; intros; side
    | |- keeps _ register_buffers => apply keeps_register; intros; side
    | |- keeps _ (seq (get _) (fun n => when n _)) => apply keeps_need2
    | _ => keep1 side end.
Lemma silent_decoder o v m : keeps (silent o) (configure_frame_decoder v m). Proof. unfold configure_frame_decoder, load_decoder, stop_rx_thread, load_class, new_decoder_class. cbv zeta. keep3 sil. Qed.
Lemma silent_buffers o v m : keeps (silent o) (configure_buffer_manager v m). Proof. unfold configure_buffer_manager, stop_rx_thread. keep3 sil. Qed.
Lemma silent_rx o v m : keeps (silent o) (configure_rx_thread v m). Proof. unfold configure_rx_thread, stop_rx_thread. cbv zeta. keep3 sil. Qed.
Lemma silent_parts o v m : keeps (silent o) (configure_parts v m).
Proof. unfold configure_parts, reply_type. keep3 sil. all: first [apply silent_ipc|apply silent_decoder|apply silent_buffers|apply silent_rx]. Qed.
Lemma silent_configure o v m : keeps (silent o) (configure v m). Proof. apply keeps_configure; [intros; sil|apply silent_parts]. Qed.
Lemma silent_request o v x : keeps (silent o) (request v x).
Proof. unfold request, parse, request_configuration, get_status, get_version, reset_statistics, reply_type, reply_val, reply_id. keep3 sil. all: apply silent_configure. Qed.

(** *** The handler *)
Definition reply_doc (v : env) (m : msg) (i : Z) : list (string * json) :=
  g_doc m ++ [("msg_type", JStr (name_of_type (g_type m))); ("msg_val", JStr (name_of_val (g_val m))); ("id", JInt i); ("timestamp", JStr (cstr (time_text (v_clock v) (g_time m))))].
Lemma encode_form v m i : form m -> g_id m = Some i -> encode (v_clock v) m = Ret (reply_doc v m i).
Proof. intros (l & D) I. unfold encode, reply_doc. rewrite I, D. reflexivity. Qed.
Definition id_of (v : env) (x : option json) : option Z := match parsed v x with Ret m => g_id m | _ => Some 0 end.
Definition val_of (v : env) (x : option json) : msg_val := match parsed v x with Ret m => match g_type m with TCmd => g_val m | _ => VIllegal end | _ => VIllegal end.
Lemma ctrl_reply v client x s s' : handle_ctrl v client x s = (s', Ret tt) ->
  exists m i, form m /\ answer m /\ id_of v x = Some i /\ g_id m = Some i /\ g_val m = val_of v x /\ c_reply s' = m /\ answered s s' client (reply_doc v m i).
Proof.
  intros H. unfold handle_ctrl, seq at 1, change in H. set (s0 := w_c_reply _ s) in H. unfold seq at 1 in H.
  assert (R : post (attempt v (request v x) Some) s0 (fun r s1 => silent (c_out s) s1 /\ reply_ok (id_of v x) (val_of v x) s1 /\ (r = None -> answer (c_reply s1))) (fun _ _ => True)).
  { pose proof (silent_request (c_out s) v x s0) as SI. assert (silent (c_out s) s0) as S0 by (exists []; split; [symmetry; apply app_nil_r|intros f []]). specialize (SI S0).
    pose proof (request_post v x s0 eq_refl) as RP. unfold id_of, val_of. unfold post, attempt in *. destruct (parsed v x) as [m|e|] eqn:P.
    - change (g_val (c_reply s0)) with VIllegal in RP. unfold reply_val_of in RP. change (g_val (c_reply s0)) with VIllegal in RP. destruct (request v x s0) as [s1 [r|[w|[| | |]| | |]|]]; try exact Logic.I; intuition; discriminate.
    - rewrite RP in *. destruct e; try exact Logic.I; (split; [exact SI|split; [split; [eexists; reflexivity|split; reflexivity]|discriminate]]).
    - assert (U : request v x s0 = (s0, Undef)) by (unfold request, seq; rewrite parse_eq, P; reflexivity). rewrite U. exact Logic.I. }
  unfold post in R. destruct (attempt v (request v x) Some s0) as [s1 [r|e|]]; [|discriminate|discriminate]. destruct R as (SI & (F & I & W) & A).
  assert (S2 : exists s2, (match r with Some w => reply_type TNack ;; put "error" (XStr w) | None => ret tt end) s1 = (s2, Ret tt) /\ silent (c_out s) s2 /\ reply_ok (id_of v x) (val_of v x) s2 /\ answer (c_reply s2)).
  { destruct r as [w|]; [|exists s1; repeat split; auto]. unfold seq, reply_type, change, put. fields. cbv zeta. destruct F as (l & F). erewrite put_error; [|cbn; exact F]. eexists. split; [reflexivity|]. split; [exact SI|]. split; [split; [eexists; reflexivity|split; assumption]|]. right. split; [reflexivity|].
    exists (cstr w). cbn. rewrite find_put. rewrite String.eqb_refl. reflexivity. }
  destruct S2 as (s2 & E2 & SI2 & (F2 & I2 & W2) & A2). unfold seq at 1 in H. rewrite E2 in H. unfold send_reply, seq, get, lift in H. destruct (id_of v x) as [i|] eqn:ID.
  2:{ unfold encode in H. rewrite I2 in H. discriminate. }
  rewrite (encode_form v _ i F2 I2) in H. cbn [emit change] in H. injection H as <-. exists (c_reply s2), i. fields. repeat split; auto. destruct SI2 as (l & E & N). exists l. fields. rewrite E, <- app_assoc. split; [reflexivity|exact N].
Qed.
Lemma doc_says v m i : form m -> says (reply_doc v m i) "msg_type" (JStr (name_of_type (g_type m))) /\ says (reply_doc v m i) "msg_val" (JStr (name_of_val (g_val m))) /\ says (reply_doc v m i) "id" (JInt i) /\
  forall p x, at_path ("params" :: p) (JObj (g_doc m)) = Some x -> param (reply_doc v m i) p x.
Proof.
  intros (l & D). unfold reply_doc, says, param. rewrite D. repeat split; try (apply leads_at; reflexivity). intros p x H. apply leads_at. exact H.
Qed.
