(** Requests one by one: what the reply says and what the request did. *)
From Coq Require Import String Ascii.
From Verif Require Import Base StrOrder FrameModel JsonModel JsonSpec JsonProofs JsonProps LiveModel LiveSpec PortModel PortSpec PortProps EqualModel RcvModel RcvSpec RcvProofs RcvReply RcvInv RcvSafe RcvCount RcvApply.
Local Open Scope string_scope.
Local Open Scope list_scope.
Local Open Scope Z_scope.

(** *** Parameters of the reply *)
Definition good_name (n : string) : Prop := exists c, good_path c /\ n = slashed c.
Definition apart_from (q : list string) (p : string * value) : Prop := exists c, good_path c /\ fst p = slashed c /\ apart c q.
Lemma put_eq c v s : good_path c -> put (slashed c) v s = match set_at ("params" :: c) (set_value v) (JObj (g_doc (c_reply s))) with Some (JObj d) => (w_c_reply (with_doc d (c_reply s)) s, Ret tt) | _ => (w_c_reply (c_reply s) s, Throw (EIpc EAssert)) end.
Proof. intros G. unfold put. rewrite (set_param_eq _ _ _ G). destruct (set_at _ _ _) as [[]|]; reflexivity. Qed.
Lemma puts_app a b s : puts (a ++ b) s = (puts a ;; puts b) s.
Proof. revert s. induction a as [|[n v] a IH]; intros s; [reflexivity|]. cbn [puts app]. unfold seq. destruct (put n v s) as [s1 [[]|e|]]; [|reflexivity|reflexivity]. rewrite IH. reflexivity. Qed.
Lemma reply_twice m m' s : w_c_reply m (w_c_reply m' s) = w_c_reply m s. Proof. destruct s; reflexivity. Qed.
Lemma reply_same s : w_c_reply (c_reply s) s = s. Proof. destruct s; reflexivity. Qed.
Lemma puts_only l : forall s s1 o, puts l s = (s1, o) -> s1 = w_c_reply (c_reply s1) s.
Proof.
  induction l as [|[n v] l IH]; intros s s1 o H. { injection H as <- _. symmetry. apply reply_same. } cbn [puts] in H. unfold seq in H. destruct (put n v s) as [s2 o2] eqn:P. assert (E : s2 = w_c_reply (c_reply s2) s) by (unfold put in P; destruct (set_param _ _ _) as [m o']; injection P as <- _; reflexivity).
  destruct o2 as [[]|e|]; [|injection H as <- _; exact E|injection H as <- _; exact E]. apply IH in H. rewrite H at 1. rewrite E at 1. apply reply_twice.
Qed.
Lemma puts_apart q l : forall s s1, puts l s = (s1, Ret tt) -> Forall (apart_from q) l -> at_path ("params" :: q) (JObj (g_doc (c_reply s1))) = at_path ("params" :: q) (JObj (g_doc (c_reply s))) /\ same_head (c_reply s1) (c_reply s).
Proof.
  induction l as [|[n v] l IH]; intros s s1 H F. { injection H as <-. repeat split. } inversion F as [|? ? (c & G & E & A) F']; subst. cbn in E. subst n. cbn [puts] in H. unfold seq in H. rewrite (put_eq c v s G) in H. destruct (set_at ("params" :: c) (set_value v) (JObj (g_doc (c_reply s)))) as [y|] eqn:SA; [|discriminate]. destruct y as [| | | | | |d]; try discriminate.
  destruct (IH _ _ H F') as (IA & IB). rewrite IA. fields. cbn [with_doc g_doc]. split; [apply (set_at_apart _ _ _ _ _ SA), apart_cons, A|]. destruct IB as (B1 & B2 & B3 & B4 & B5). fields in B1 B2 B3 B4 B5. repeat split; assumption.
Qed.
Lemma puts_head l s s1 : puts l s = (s1, Ret tt) -> Forall (fun p => good_name (fst p)) l -> same_head (c_reply s1) (c_reply s).
Proof.
  intros H F. revert s H. induction F as [|[n v] l (c & G & E) F IH]; intros s H. { injection H as <-. repeat split. } cbn in E. subst n. cbn [puts] in H. unfold seq in H. rewrite (put_eq c v s G) in H. destruct (set_at ("params" :: c) (set_value v) (JObj (g_doc (c_reply s)))) as [y|]; [|discriminate]. destruct y; try discriminate.
  destruct (IH _ H) as (B1 & B2 & B3 & B4 & B5). fields in B1 B2 B3 B4 B5. repeat split; assumption.
Qed.
Lemma puts_at c v l1 l2 s s1 : puts (l1 ++ (slashed c, v) :: l2) s = (s1, Ret tt) -> good_path c -> Forall (apart_from c) l2 -> at_path ("params" :: c) (JObj (g_doc (c_reply s1))) = Some (set_value v).
Proof.
  intros H G F. rewrite puts_app in H. unfold seq at 1 in H. destruct (puts l1 s) as [s0 [[]|e|]]; [|discriminate|discriminate]. cbn [puts] in H. unfold seq in H. rewrite (put_eq c v s0 G) in H. destruct (set_at ("params" :: c) (set_value v) (JObj (g_doc (c_reply s0)))) as [y|] eqn:SA; [|discriminate]. destruct y as [| | | | | |d]; try discriminate.
  destruct (puts_apart _ _ _ _ H F) as (-> & _). fields. cbn [with_doc g_doc]. pose proof (set_at_below _ _ _ _ [] SA) as B. rewrite app_nil_r in B. exact B.
Qed.
Fixpoint prefixb (a b : list string) : bool := match a, b with [], _ => true | x :: a, y :: b => String.eqb x y && prefixb a b | _, _ => false end.
Definition apartb (a b : list string) : bool := negb (prefixb a b) && negb (prefixb b a).
Lemma prefixb_ok a b : starts a b -> prefixb a b = true.
Proof. intros (r & ->). induction a as [|x a IH]; [reflexivity|]. cbn. rewrite String.eqb_refl. exact IH. Qed.
Lemma apartb_ok a b : apartb a b = true -> apart a b.
Proof. unfold apartb. rewrite andb_true_iff, !negb_true_iff. intros (A & B). split; intros S; apply prefixb_ok in S; congruence. Qed.
Lemma apart_list q l : forallb (fun p => path_check (pieces (fst p)) && apartb (pieces (fst p)) q) l = true -> Forall (apart_from q) l.
Proof. rewrite forallb_forall. intros H. apply Forall_forall. intros p I. apply H in I. apply andb_true_iff in I. destruct I as (A & B). exists (pieces (fst p)). split; [apply path_check_ok, A|]. split; [symmetry; apply slashed_pieces|apply apartb_ok, B]. Qed.
Lemma puts_names l s s1 : puts l s = (s1, Ret tt) -> forall l1 n v l2, l = l1 ++ (n, v) :: l2 -> path_check (pieces n) = true -> Forall (apart_from (pieces n)) l2 -> at_path ("params" :: pieces n) (JObj (g_doc (c_reply s1))) = Some (set_value v).
Proof. intros H l1 n v l2 E P F. rewrite E in H. apply (puts_at (pieces n) v l1 l2 s s1); [rewrite slashed_pieces; exact H|apply path_check_ok, P|exact F]. Qed.

(** *** The handler *)
Definition fresh_state (v : env) (s : rc) : rc := w_c_reply (new_msg TIllegal VIllegal true (v_now v)) s.
Lemma ctrl_shape v client x s s' : handle_ctrl v client x s = (s', Ret tt) ->
  exists s1 r i, attempt v (request v x) Some (fresh_state v s) = (s1, Ret r) /\ g_id (c_reply s') = Some i /\ s' = w_c_out (c_out s1 ++ [FReply client (reply_doc v (c_reply s') i)]) (w_c_reply (c_reply s') s1) /\
    match r with None => c_reply s' = c_reply s1 | Some w => g_type (c_reply s') = TNack /\ at_path ["params"; "error"] (JObj (g_doc (c_reply s'))) = Some (JStr (cstr w)) end.
Proof.
  intros H. destruct (ctrl_reply v client x s s' H) as (m & i & F & _ & _ & I & _ & E & _). rewrite E. unfold handle_ctrl, seq at 1, change in H. fold (fresh_state v s) in H. unfold seq at 1 in H.
  assert (FR : forall s1 r, attempt v (request v x) Some (fresh_state v s) = (s1, Ret r) -> form (c_reply s1)).
  { intros s1 r A. pose proof (request_post v x (fresh_state v s) eq_refl) as RP. unfold attempt in A. destruct (parsed v x) as [m'|e|] eqn:P.
    - unfold post in RP. destruct (request v x (fresh_state v s)) as [s2 [r2|[w|[| | |]| | |]|]]; try discriminate; injection A as <- _; apply RP.
    - rewrite RP in A. destruct e; try discriminate; injection A as <- _; eexists; reflexivity.
    - unfold request, seq in A. rewrite parse_eq, P in A. discriminate. }
  destruct (attempt v (request v x) Some (fresh_state v s)) as [s1 [r|e|]] eqn:A; [|discriminate|discriminate]. specialize (FR s1 r eq_refl). exists s1, r, i. split; [reflexivity|]. split; [exact I|].
  unfold seq at 1 in H. destruct r as [w|].
  - unfold seq at 1, reply_type, change, put in H. fields in H. cbv zeta in H. destruct FR as (l & D). erewrite put_error in H; [|cbn; exact D]. unfold send_reply, seq, get, lift in H. fields in H. match type of H with context [encode _ ?R] => set (R0 := R) in * end.
    assert (E0 : c_reply s' = R0). { destruct (encode (v_clock v) R0) as [d|e|]; [|discriminate|discriminate]. injection H as <-. reflexivity. } rewrite E0 in E. subst m.
    rewrite (encode_form v R0 i) in H; [|exact F|exact I]. cbn [emit change] in H. injection H as <-. fields. split; [destruct s1; reflexivity|]. split; [reflexivity|]. unfold R0. cbn. rewrite find_put, String.eqb_refl. reflexivity.
  - unfold ret, send_reply, seq, get, lift in H. assert (E0 : c_reply s' = c_reply s1). { destruct (encode (v_clock v) (c_reply s1)) as [d|e|]; [|discriminate|discriminate]. injection H as <-. reflexivity. } rewrite E0 in E. subst m.
    rewrite (encode_form v _ i F I) in H. cbn [emit change] in H. injection H as <-. fields. split; [destruct s1; reflexivity|]. reflexivity.
Qed.
(** The reply of a request that names a command *)
Lemma ack_type v m i : form m -> (acked (reply_doc v m i) <-> g_type m = TAck).
Proof.
  intros F. destruct (doc_says v m i F) as (T & _). split.
  - intros A. pose proof (leads_one _ _ _ T _ A) as E. destruct (g_type m); try discriminate; reflexivity.
  - intros E. rewrite E in T. exact T.
Qed.
Definition program (v : env) (m : msg) : option (M unit) :=
  match g_val m with
  | VConfigure => Some (configure v m) | VRequestConfiguration => Some (request_configuration v) | VStatus => Some get_status | VRequestVersion => Some (get_version v)
  | VResetStatistics => Some reset_statistics | VShutdown => Some (later TStop ;; reply_type TAck) | _ => None end.
Definition reply0 (v : env) (m : msg) : msg := Msg true [("params", JObj [])] TIllegal (g_val m) (g_id m) (Some (v_now v)).
Definition sent (v : env) (client : string) (i : Z) (R : msg) (s1 : rc) : rc := w_c_out (c_out s1 ++ [FReply client (reply_doc v R i)]) (w_c_reply R s1).
Lemma ctrl_command v client x s s' m : parsed v x = Ret m -> g_type m = TCmd -> handle_ctrl v client x s = (s', Ret tt) ->
  exists i, g_id (c_reply s') = Some i /\
  match program v m with
  | Some a => match a (w_c_reply (reply0 v m) s) with
    | (s1, Ret _) => s' = sent v client i (c_reply s1) s1
    | (s1, Throw e) => s' = sent v client i (c_reply s') s1 /\ g_type (c_reply s') = TNack /\ exists e', e = EIpc e' /\ at_path ["params"; "error"] (JObj (g_doc (c_reply s'))) = Some (JStr (cstr (v_what v e')))
    | (_, Undef) => False
    end
  | None => s' = sent v client i (c_reply s') s /\ g_type (c_reply s') = TNack
  end.
Proof.
  intros P T H. destruct (ctrl_shape v client x s s' H) as (s1 & r & i & A & I & E & C). exists i. split; [exact I|]. unfold attempt, request, seq at 1 in A. rewrite parse_eq, P in A. unfold seq at 1, reply_id, change in A. cbv zeta in A. rewrite T in A. unfold seq at 1, reply_val, change in A. cbv zeta in A.
  match type of A with context [match g_val m with _ => _ end ?S] => assert (S0 : S = w_c_reply (reply0 v m) s) by (unfold fresh_state, reply0; destruct s; reflexivity); rewrite S0 in A; clear S0 end. unfold program.
  assert (K : forall a : M unit, match seq a (fun _ => ret None) (w_c_reply (reply0 v m) s) with (s1, Throw (EIpc ERange)) => (s1, Throw (EIpc ERange)) | (s1, Throw (EIpc e)) => (s1, Ret (Some (v_what v e))) | r => r end = (s1, Ret r) ->
     match a (w_c_reply (reply0 v m) s) with
    | (s1, Ret _) => s' = sent v client i (c_reply s1) s1
    | (s1, Throw e) => s' = sent v client i (c_reply s') s1 /\ g_type (c_reply s') = TNack /\ exists e', e = EIpc e' /\ at_path ["params"; "error"] (JObj (g_doc (c_reply s'))) = Some (JStr (cstr (v_what v e')))
    | (_, Undef) => False
    end).
  { clear A. intros a A. unfold seq in A. destruct (a (w_c_reply (reply0 v m) s)) as [s2 [[]|[w|[| | |]| | |]|]]; try discriminate; injection A as -> <-; try (rewrite C in E; exact E); split; try exact E; destruct C as (C1 & C2); split; try exact C1; eexists; split; try reflexivity; exact C2. }
  assert (N : forall w : string, (w_c_reply (reply0 v m) s, (Ret (Some w) : outcome rexc (option string))) = (s1, Ret r) -> s' = sent v client i (c_reply s') s /\ g_type (c_reply s') = TNack).
  { clear A. intros w A. injection A as <- <-. split; [|apply C]. rewrite E at 1. unfold sent. fields. rewrite reply_twice. reflexivity. }
  destruct (g_val m) eqn:V; try (apply N in A; exact A); try (apply K, A).
Qed.
Lemma configure_shape v client x s s' m : parsed v x = Ret m -> g_type m = TCmd -> g_val m = VConfigure -> handle_ctrl v client x s = (s', Ret tt) ->
  exists i R, g_id (c_reply s') = Some i /\ c_reply R = reply0 v m /\ R = w_c_reply (c_reply R) s /\
  match configure_parts v m R with
  | (s1, Ret _) => s' = sent v client i (c_reply s1) s1 /\ g_type (c_reply s1) = TAck /\ g_doc (c_reply s1) = configured_doc s1
  | (s1, Throw e) => s' = sent v client i (c_reply s') s1 /\ g_type (c_reply s') = TNack
  | (_, Undef) => False
  end.
Proof.
  intros P T V H. destruct (ctrl_command v client x s s' m P T H) as (i & I & C). exists i, (w_c_reply (reply0 v m) s). split; [exact I|]. split; [reflexivity|]. split; [fields; reflexivity|]. unfold program in C. rewrite V in C. pose proof (configure_cases v m (w_c_reply (reply0 v m) s) eq_refl) as K.
  assert (W : with_val (g_val m) (w_c_reply (reply0 v m) s) = w_c_reply (reply0 v m) s) by (destruct s; reflexivity). rewrite W in K.
  destruct (configure v m (w_c_reply (reply0 v m) s)) as [s1 [[]|e|]]; [| |destruct C].
  - destruct K as [(K & RE)|(w & s2 & K & ->)]; rewrite K; [rewrite RE in *; cbn [with_head g_type g_doc]; auto|]. split; [|rewrite C; reflexivity]. rewrite C at 1. rewrite C. unfold sent. fields. rewrite reply_twice. reflexivity.
  - destruct K as (K & _). rewrite K. destruct C as (C1 & C2 & _). auto.
Qed.

(** *** Configured parts *)
Definition ipc_is (a : bool) (o : list chan) (s : rc) : Prop := c_ipc s = a /\ c_once s = o.
Ltac ipc_ := idtac; cbv beta in *; unfold ipc_is in *; fields; assumption.
Lemma ipc_is_decoder a o v m : keeps (ipc_is a o) (configure_frame_decoder v m). Proof. unfold configure_frame_decoder, load_decoder, stop_rx_thread, load_class, new_decoder_class. cbv zeta. keep3 ltac:(idtac; ipc_). Qed.
Lemma ipc_is_buffers a o v m : keeps (ipc_is a o) (configure_buffer_manager v m). Proof. unfold configure_buffer_manager, stop_rx_thread. keep3 ltac:(idtac; ipc_). Qed.
Lemma ipc_is_rx a o v m : keeps (ipc_is a o) (configure_rx_thread v m). Proof. unfold configure_rx_thread, stop_rx_thread. cbv zeta. keep3 ltac:(idtac; ipc_). Qed.
Lemma rest_post s0 : post (reply_type TAck ;; i <- get c_ipc ;; d <- get c_dec ;; b <- get c_buf ;; r <- get c_rx ;; puts [("configured/ipc", XBool i); ("configured/decoder", XBool d); ("configured/buffer_manager", XBool b); ("configured/rx_thread", XBool r)]) s0 (fun _ s1 => s1 = w_c_reply (c_reply s1) s0) (fun _ _ => True).
Proof.
  unfold post. match goal with |- match ?a with _ => _ end => destruct a as [s1 [[]|e|]] eqn:E end; [|exact Logic.I|exact Logic.I]. unfold seq at 1, reply_type, change in E. cbv zeta in E. do 4 (unfold seq at 1, get in E). apply puts_only in E. rewrite E at 1. apply reply_twice.
Qed.
Lemma parts_post v m s : flags s -> post (configure_parts v m) s (fun _ s1 => ipc_post s1 /\ rx_post s1 /\ c_all s1 = (c_ipc s1 && c_dec s1 && c_buf s1 && c_rx s1)%bool) (fun _ _ => True).
Proof.
  intros F. unfold configure_parts. rewrite post_seq, post_lift. destruct (has_param m "debug_level") as [h|e|]; [|exact Logic.I|exact Logic.I].
  rewrite post_seq. eapply post_weaken with (Q := fun _ => flags) (X := fun _ _ => True); [vc; auto; flag| |auto]. clear s F. intros _ s F. rewrite post_seq, post_lift. destruct (has_param m "frames") as [h2|e|]; [|exact Logic.I|exact Logic.I].
  rewrite post_seq. eapply post_weaken with (Q := fun _ => flags) (X := fun _ _ => True); [vc; auto; flag| |auto]. clear s F. intros _ s F.
  rewrite post_seq. eapply post_weaken; [apply ipc_post_ok, F| |auto]. clear s F. intros _ s (F & IP).
  rewrite post_seq. eapply post_weaken; [apply post_both; [apply (decoder_post v m s F)|apply (ipc_is_decoder (c_ipc s) (c_once s) v m s); split; reflexivity]| |auto]. intros _ s1 (D1 & I1).
  rewrite post_seq. eapply post_weaken; [apply post_both; [apply (buffers_post v m s1 D1)|apply (ipc_is_buffers (c_ipc s) (c_once s) v m s1); exact I1]| |auto]. intros _ s2 (D2 & I2).
  rewrite post_seq. eapply post_weaken; [apply post_both; [apply (rx_post_ok v m s2 D2)|apply (ipc_is_rx (c_ipc s) (c_once s) v m s2); exact I2]| |auto]. intros _ s3 (D3 & (I3 & O3)).
  rewrite post_seq, post_change. eapply post_weaken; [apply rest_post| |auto]. intros _ s4 ->. fields. split; [unfold ipc_post in *; fields; rewrite I3, O3; exact IP|]. split; [|reflexivity].
  unfold rx_post in *. fields. intros A B C. destruct (D3 A B C) as (d & b & t & S). exists d, b, t. destruct S. constructor; assumption.
Qed.
(** What is bound *)
Definition binds_only (doc : list (string * json)) (s0 : rc) (o : list effect) (s : rc) : Prop :=
  exists l, c_out s = o ++ l /\ forall c e, In (FBind c e) l -> (exists t, param doc [endpoint_name c] (JStr t) /\ e = cstr t) /\ e <> s_end (c_cfg s0) c.
Lemma binds_emit doc s0 o f s : (forall c e, f <> FBind c e) -> binds_only doc s0 o s -> binds_only doc s0 o (w_c_out (c_out s ++ [f]) s).
Proof. intros N (l & E & H). exists (l ++ [f]). fields. rewrite E, app_assoc. split; [reflexivity|]. intros c e I. apply in_app_or in I. destruct I as [I|[I|[]]]; [apply H, I|]. destruct (N c e I). Qed.
Ltac bin := idtac; cbv beta in *; first [ apply binds_emit; [intros ? ?; discriminate|assumption] | unfold binds_only in *; fields; assumption ].
Lemma binds_channel v m c s s0 o : s_end (c_cfg s) c = s_end (c_cfg s0) c -> binds_only (g_doc m) s0 o s -> post (configure_channel v m c) s (fun _ s1 => (forall c', c' <> c -> s_end (c_cfg s1) c' = s_end (c_cfg s) c') /\ binds_only (g_doc m) s0 o s1) (fun _ => binds_only (g_doc m) s0 o).
Proof.
  intros SE B. destruct (endpoint_plain c) as (NS & NN). unfold configure_channel. rewrite post_seq, post_lift. destruct (has_param m (endpoint_name c)) as [h|e|] eqn:H; [|exact B|exact Logic.I]. apply (has_is _ _ _ NS NN) in H. rewrite post_when. destruct h; [|split; [reflexivity|exact B]].
  rewrite post_seq, post_lift. destruct (str_param m (endpoint_name c)) as [e|x|] eqn:SP; [|exact B|exact Logic.I]. destruct H as (x & HX). destruct (str_is _ _ _ _ NS NN SP HX) as (t & -> & ->).
  rewrite post_seq, post_setting, post_when. destruct (negb _) eqn:NE; [|split; [reflexivity|exact B]]. apply Bool.negb_true_iff, String.eqb_neq in NE. rewrite SE in NE.
  rewrite post_seq. eapply post_weaken with (Q := fun _ s1 => s_end (c_cfg s1) = s_end (c_cfg s) /\ binds_only (g_doc m) s0 o s1) (X := fun _ => binds_only (g_doc m) s0 o); [|clear B|auto].
  { unfold unbind_channel. vc; fields; repeat split; auto; try bin. destruct B as (l & B1 & B2). exists (l ++ [FUnbind c (s_end (c_cfg s) c)]). fields. rewrite B1, app_assoc. split; [reflexivity|]. intros c' e' I. apply in_app_or in I. destruct I as [I|[I|[]]]; [apply B2, I|discriminate]. }
  intros _ s1 (E1 & B). rewrite post_seq. eapply post_weaken with (Q := fun _ s2 => s_end (c_cfg s2) = s_end (c_cfg s) /\ binds_only (g_doc m) s0 o s2) (X := fun _ => binds_only (g_doc m) s0 o); [|clear B|auto].
  { unfold setup_channel. vc; fields; repeat split; auto; try bin. destruct B as (l & B1 & B2). exists (l ++ [FBind c (cstr t)]). fields. rewrite B1, app_assoc. split; [reflexivity|]. intros c' e' I. apply in_app_or in I. destruct I as [I|[I|[]]]; [apply B2, I|]. injection I as <- <-. split; [exists t; split; [exact HX|reflexivity]|exact NE]. }
  intros _ s2 (E2 & B). unfold set_end. rewrite post_seq, post_set, post_seq, post_change, post_when. destruct (chan_eqb c CRx); [rewrite post_change|]; fields; (split; [|bin]); intros c' N; rewrite E2; destruct c, c'; try reflexivity; congruence.
Qed.
Lemma binds_ipc v m s : post (configure_ipc_channels v m) s (fun _ => binds_only (g_doc m) s (c_out s)) (fun _ => binds_only (g_doc m) s (c_out s)).
Proof.
  unfold configure_ipc_channels. rewrite post_seq, post_change.
  assert (B0 : binds_only (g_doc m) s (c_out s) (w_c_ipc false s)). { exists []. rewrite app_nil_r. split; [reflexivity|]. intros c e []. }
  rewrite post_seq. eapply post_weaken; [apply (binds_channel v m CCtrl _ s (c_out s)); [reflexivity|exact B0]| |auto]. intros _ s1 (A1 & B1). fields in A1.
  rewrite post_seq. eapply post_weaken; [apply (binds_channel v m CRx _ s (c_out s)); [apply A1; discriminate|exact B1]| |auto]. intros _ s2 (A2 & B2).
  rewrite post_seq. eapply post_weaken; [apply (binds_channel v m CReady _ s (c_out s)); [rewrite A2 by discriminate; apply A1; discriminate|exact B2]| |auto]. intros _ s3 (A3 & B3).
  rewrite post_seq. eapply post_weaken; [apply (binds_channel v m CRelease _ s (c_out s)); [rewrite A3, A2 by discriminate; apply A1; discriminate|exact B3]| |auto]. intros _ s4 (A4 & B4).
  rewrite post_change. bin.
Qed.
Lemma binds_parts v m s : post (configure_parts v m) s (fun _ => binds_only (g_doc m) s (c_out s)) (fun _ => binds_only (g_doc m) s (c_out s)).
Proof.
  assert (W : forall s1, s_end (c_cfg s1) = s_end (c_cfg s) -> c_out s1 = c_out s -> forall s2, binds_only (g_doc m) s1 (c_out s1) s2 -> binds_only (g_doc m) s (c_out s) s2).
  { intros s1 E1 E2 s2 (l & A & B). exists l. rewrite <- E2, <- E1. split; [exact A|exact B]. }
  assert (B0 : forall s1, c_out s1 = c_out s -> binds_only (g_doc m) s (c_out s) s1). { intros s1 E. exists []. rewrite app_nil_r. split; [exact E|]. intros c e []. }
  unfold configure_parts. rewrite post_seq, post_lift. destruct (has_param m "debug_level") as [h|e|]; [|apply B0; reflexivity|exact Logic.I].
  rewrite post_seq. eapply post_weaken with (Q := fun _ s1 => s_end (c_cfg s1) = s_end (c_cfg s) /\ c_out s1 = c_out s) (X := fun _ s1 => c_out s1 = c_out s); [vc; fields; auto| |auto].
  intros _ s1 (E1 & O1). rewrite post_seq, post_lift. destruct (has_param m "frames") as [h2|e|]; [|apply B0, O1|exact Logic.I].
  rewrite post_seq. eapply post_weaken with (Q := fun _ s1 => s_end (c_cfg s1) = s_end (c_cfg s) /\ c_out s1 = c_out s) (X := fun _ s1 => c_out s1 = c_out s); [vc; fields; auto| |auto].
  clear s1 E1 O1. intros _ s1 (E1 & O1). rewrite post_seq. eapply post_weaken; [apply binds_ipc| |intros e s2 B; exact (W s1 E1 O1 s2 B)].
  intros u s2 B. cbv beta in B. clear u. pose proof (W s1 E1 O1 s2 B) as B'. clear B. rename B' into B. clear W B0 s1 E1 O1. revert s2 B. match goal with |- forall s2, _ -> post ?a s2 _ _ => change (keeps (binds_only (g_doc m) s (c_out s)) a) end. clear.
  unfold configure_frame_decoder, load_decoder, load_class, new_decoder_class, configure_buffer_manager, configure_rx_thread, stop_rx_thread, reply_type. cbv zeta. keep3 ltac:(idtac; bin).
Qed.
