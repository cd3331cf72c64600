(** Forwarding and counting. *)
From Coq Require Import String Ascii.
From Verif Require Import Base StrOrder FrameModel JsonModel JsonSpec JsonProofs JsonProps LiveModel PortModel EqualModel RcvModel RcvSpec RcvProofs RcvReply RcvSafe.
Local Open Scope string_scope.
Local Open Scope list_scope.
Local Open Scope Z_scope.

(** *** Heads *)
Lemma says_find doc k x : says doc k x <-> find_member k doc = Some x.
Proof. unfold says. rewrite leads_at. cbn. destruct (find_member k doc); [reflexivity|split; discriminate]. Qed.
Lemma attr_str doc k d r : get_attr str_value doc k d = Ret r -> (find_member k doc = None /\ r = d) \/ exists t, says doc k (JStr t) /\ r = cstr t.
Proof. unfold get_attr. destruct (find_member k doc) as [x|] eqn:F; [|intros H; injection H as <-; auto]. destruct x; try discriminate. intros H. injection H as <-. right. exists s. split; [apply says_find, F|reflexivity]. Qed.
Lemma attr_says doc k d t : says doc k (JStr t) -> no_nul t -> get_attr str_value doc k d = Ret t.
Proof. intros S N. apply says_find in S. unfold get_attr. rewrite S. cbn. rewrite (cstr_id _ N). reflexivity. Qed.
Lemma id_ok doc : id_valid doc <-> exists i, get_attr uint_value doc "id" 0 = Ret i.
Proof.
  unfold id_valid, get_attr. split.
  - intros H. destruct (find_member "id" doc) as [x|] eqn:F; [|eauto]. destruct (H x) as (i & -> & R); [apply says_find, F|]. exists i. unfold uint_value, get_value, in_range. destruct (Z.leb_spec 0 i); [|lia]. destruct (Z.ltb_spec i (2 ^ 32)); [reflexivity|lia].
  - intros (i & H) x S. apply says_find in S. rewrite S in H. destruct x; try discriminate. unfold uint_value, get_value, in_range in H. exists z. split; [reflexivity|]. destruct (Z.leb_spec 0 z); [|discriminate]. destruct (Z.ltb_spec z (2 ^ 32)); [lia|discriminate].
Qed.
Lemma strict_ret c doc m : msg_of_doc c (JObj doc) true = Ret m <->
  exists t w tx i tm l, get_attr str_value doc "msg_type" "none" = Ret t /\ type_of_name t <> TIllegal /\ get_attr str_value doc "msg_val" "none" = Ret w /\ val_of_name w <> VIllegal /\ get_attr str_value doc "timestamp" "none" = Ret tx /\ time_parse c tx = Some tm /\
    get_attr uint_value doc "id" 0 = Ret i /\ find_member "params" doc = Some (JObj l) /\ m = Msg true doc (type_of_name t) (val_of_name w) (Some i) (Some tm).
Proof.
  cbn. unfold bind. split.
  - intros E. destruct (get_attr str_value doc "msg_type" "none") as [t| |] eqn:T; try discriminate. destruct (msg_type_eqb (type_of_name t) TIllegal) eqn:TI; [discriminate|]. destruct (get_attr str_value doc "msg_val" "none") as [w| |] eqn:W; try discriminate. destruct (Nat.eqb (val_index (val_of_name w)) 0) eqn:WI; [discriminate|].
    destruct (get_attr str_value doc "timestamp" "none") as [tx| |] eqn:X; try discriminate. destruct (time_parse c tx) as [tm|] eqn:TP; [|discriminate]. destruct (get_attr uint_value doc "id" 0) as [i| |] eqn:ID; try discriminate. unfold has_params in E. destruct (find_member "params" doc) as [[| | | | | |l]|] eqn:P; try discriminate. injection E as <-.
    exists t, w, tx, i, tm, l. repeat split; auto; [intros Z; rewrite Z in TI; discriminate|intros Z; rewrite Z in WI; discriminate].
  - intros (t & w & tx & i & tm & l & -> & TI & -> & WI & -> & -> & -> & P & ->). replace (msg_type_eqb (type_of_name t) TIllegal) with false by (destruct (type_of_name t); try reflexivity; congruence). replace (Nat.eqb (val_index (val_of_name w)) 0) with false by (destruct (val_of_name w); try reflexivity; congruence). unfold has_params. rewrite P. reflexivity.
Qed.
Lemma type_name_inj t : (type_of_name t = TNotify <-> t = "notify") /\ (type_of_name t = TCmd <-> t = "cmd").
Proof.
  unfold type_of_name, by_name, type_names, List.find, fst, snd. repeat match goal with |- context [String.eqb ?a t] => destruct (String.eqb_spec a t) as [<-|] end; split; split; intros H; try congruence; try discriminate; reflexivity.
Qed.
Lemma val_name_ready t : (val_of_name t = VFrameReady <-> t = "frame_ready") /\ (val_of_name t = VFrameRelease <-> t = "frame_release") /\ (val_of_name t = VResetStatistics <-> t = "reset_statistics").
Proof.
  unfold val_of_name, by_name, val_names, List.find, fst, snd. repeat match goal with |- context [String.eqb ?a t] => destruct (String.eqb_spec a t) as [<-|] end; repeat split; intros H; try congruence; try discriminate; reflexivity.
Qed.
Lemma note_parsed c x j w V : time_parse c "none" = None -> clean x -> (forall t, val_of_name t = V <-> t = w) -> V <> VIllegal -> no_nul w ->
  (note c w x j <-> x = Some j /\ exists m, msg_of_doc c j true = Ret m /\ g_type m = TNotify /\ g_val m = V).
Proof.
  intros NONE CL HV NV NW. split.
  - intros (doc & t & l & -> & -> & T & W & X & TP & ID & P). split; [reflexivity|]. destruct (time_parse c t) as [tm|] eqn:E; [|congruence]. apply id_ok in ID. destruct ID as (i & ID). eexists. split.
    + apply strict_ret. exists "notify", w, t, i, tm, l. repeat split; auto; try discriminate.
      * apply attr_says; [exact T|apply no_char_ok; reflexivity].
      * apply attr_says; [exact W|exact NW].
      * intros Z. apply NV. rewrite <- Z. symmetry. apply HV. reflexivity.
      * apply attr_says; [exact X|]. apply (CL doc "timestamp" t eq_refl); [cbn; auto|exact X].
      * apply says_find, P.
    + cbn. split; [reflexivity|apply HV; reflexivity].
  - intros (-> & m & E & T & V'). destruct j; try discriminate. apply strict_ret in E. destruct E as (t & w' & tx & i & tm & l0 & A1 & A2 & A3 & A4 & A5 & A6 & A7 & A8 & ->). cbn in T, V'. apply (proj1 (type_name_inj t)) in T. apply HV in V'. subst t w'.
    apply attr_str in A1. destruct A1 as [(_ & A1)|(t & S1 & A1)]; [discriminate|]. apply attr_str in A3. apply attr_str in A5.
    destruct A3 as [(_ & A3)|(t3 & S3 & A3)]. { exfalso. apply A4. rewrite A3. reflexivity. }
    destruct A5 as [(_ & A5)|(t5 & S5 & A5)]; [|].
    + congruence.
    + exists l, tx, l0. assert (N1 : cstr t = t) by (apply cstr_id, (CL l "msg_type" t eq_refl); [cbn; auto|exact S1]). assert (N3 : cstr t3 = t3) by (apply cstr_id, (CL l "msg_val" t3 eq_refl); [cbn; auto|exact S3]). assert (N5 : cstr t5 = t5) by (apply cstr_id, (CL l "timestamp" t5 eq_refl); [cbn; auto|exact S5]).
      rewrite N1 in A1. rewrite N3 in A3. rewrite N5 in A5. subst t t3 t5. repeat split; auto; [congruence|apply id_ok; eauto|apply says_find, A8].
Qed.

(** *** Steps that neither count nor forward *)
Record quietly (v : env) (s s' : rc) : Prop := Quietly {
  qu_received : c_received s' = c_received s; qu_released : c_released s' = c_released s;
  qu_out : exists l, c_out s' = c_out s ++ l /\ published l = [] /\ returned l = [] }.
Definition base (n r : Z) (o : list effect) (s : rc) : Prop := c_received s = n /\ c_released s = r /\ exists l, c_out s = o ++ l /\ published l = [] /\ returned l = [].
Lemma base_emit n r o f s : published [f] = [] -> returned [f] = [] -> base n r o s -> base n r o (w_c_out (c_out s ++ [f]) s).
Proof. intros P Q (A & B & l & E & C & D). split; [exact A|split; [exact B|]]. exists (l ++ [f]). fields. rewrite E, app_assoc. split; [reflexivity|]. unfold published, returned in *. rewrite !flat_map_app, P, Q, C, D. auto. Qed.
Ltac bas := idtac; cbv beta in *; first [ apply base_emit; [reflexivity|reflexivity|assumption] | unfold base in *; fields; assumption ].
Section Base.
  Variables (n r : Z) (o : list effect).
  Lemma base_ipc v m : keeps (base n r o) (configure_ipc_channels v m). Proof. unfold configure_ipc_channels, configure_channel, setup_channel, set_end, unbind_channel. keep3 ltac:(idtac; bas). Qed.
  Lemma base_decoder v m : keeps (base n r o) (configure_frame_decoder v m). Proof. unfold configure_frame_decoder, load_decoder, stop_rx_thread, load_class, new_decoder_class. cbv zeta. keep3 ltac:(idtac; bas). Qed.
  Lemma base_buffers v m : keeps (base n r o) (configure_buffer_manager v m). Proof. unfold configure_buffer_manager, stop_rx_thread. keep3 ltac:(idtac; bas). Qed.
  Lemma base_rx v m : keeps (base n r o) (configure_rx_thread v m). Proof. unfold configure_rx_thread, stop_rx_thread. cbv zeta. keep3 ltac:(idtac; bas). Qed.
  Lemma base_configure v m : keeps (base n r o) (configure v m).
  Proof.
    apply keeps_configure; [intros; bas|]. unfold configure_parts, reply_type. keep3 ltac:(idtac; bas). all: first [apply base_ipc|apply base_decoder|apply base_buffers|apply base_rx].
  Qed.
End Base.
Lemma base_init s : base (c_received s) (c_released s) (c_out s) s. Proof. split; [reflexivity|split; [reflexivity|]]. exists []. rewrite app_nil_r. auto. Qed.
Lemma base_quiet v s s' : base (c_received s) (c_released s) (c_out s) s' -> quietly v s s'. Proof. intros (A & B & C). split; assumption. Qed.
Lemma made v t w l s s1 j : make v t w l s = (s1, Ret j) -> exists d, j = JObj d /\ find_member "msg_val" d = Some (JStr (name_of_val w)).
Proof.
  unfold make. assert (G : g_val (new_msg t w true (v_now v)) = w) by reflexivity. revert G. generalize (new_msg t w true (v_now v)). revert s. induction l as [|[n y] l IH]; intros s m G.
  - unfold seq, lift, encode, ret. destruct (g_id m) as [i|]; [|discriminate]. intros H. injection H as <- <-. eexists. split; [reflexivity|]. rewrite !find_put, G. reflexivity.
  - cbn. pose proof (set_param_head m n y) as (_ & _ & HV & _). destruct (set_param m n y) as [m1 o]. cbn in HV. unfold seq, lift. destruct o; try discriminate. apply IH. congruence.
Qed.
Lemma base_notify n r o v : keeps (base n r o) (notify_buffer_config v).
Proof.
  unfold notify_buffer_config. apply keeps_seq; [apply keeps_setting|]. intros name s H. rewrite post_seq. destruct (make_config v name s) as (d & E). unfold post at 1. rewrite E. rewrite post_emit. apply base_emit; [|reflexivity|exact H]. destruct (made _ _ _ _ _ _ _ E) as (doc & -> & F). cbn. rewrite F. reflexivity.
Qed.
Lemma base_timer n r o v : keeps (base n r o) (run_timer v).
Proof. unfold run_timer, unbind_channel. apply keeps_seq; [apply keeps_get|]. intros l. destruct l as [|t q]; [apply keeps_ret|]. apply keeps_seq; [apply keeps_change; intros; bas|]. intros _. destruct t; [|apply base_notify|]; keep3 ltac:(idtac; bas). Qed.
Lemma base_charge n r o v : keeps (base n r o) (precharge_buffers v).
Proof.
  unfold precharge_buffers. apply keeps_seq; [apply keeps_get|]. intros b. apply keeps_seq; [apply keeps_get|]. intros t. destruct b as [b|]; [|apply keeps_ret]. destruct t as [t|]; [|apply keeps_ret]. intros s H. rewrite post_seq. destruct (make_charge v 0 (i32 (b_count b)) s) as (d & E). unfold post at 1. rewrite E. rewrite post_seq, post_get, post_emit. apply base_emit; [reflexivity| |exact H]. destruct (made _ _ _ _ _ _ _ E) as (doc & -> & F). cbn. rewrite F. reflexivity.
Qed.
Lemma attempt_Ret {A} v (a : M A) f s s1 x : a s = (s1, Ret x) -> attempt v a f s = (s1, Ret x). Proof. intros E. unfold attempt. rewrite E. reflexivity. Qed.

(** *** The notifications *)
Lemma parse_strict v x s : parse v x true s = (s, match x with None => Throw (EIpc EIllegal) | Some j => match msg_of_doc (v_clock v) j true with Ret m => Ret m | Throw e => Throw (EIpc e) | Undef => Undef end end).
Proof. destruct x; reflexivity. Qed.
Lemma ready_ok t : val_of_name t = VFrameReady <-> t = "frame_ready". Proof. apply val_name_ready. Qed.
Lemma release_ok t : val_of_name t = VFrameRelease <-> t = "frame_release". Proof. apply val_name_ready. Qed.
Lemma rx_ready v i x j s : time_parse (v_clock v) "none" = None -> clean x -> note (v_clock v) "frame_ready" x j ->
  handle_rx v i x s = (w_c_received ((c_received s + 1) mod 2 ^ 32) (w_c_out (c_out s ++ [FPublish j]) s), Ret tt).
Proof.
  intros NO CL N. apply (note_parsed _ x j _ VFrameReady NO CL ready_ok) in N; [|discriminate|apply no_char_ok; reflexivity]. destruct N as (-> & m & E & T & V). unfold handle_rx. apply attempt_Ret. unfold seq at 1. rewrite parse_strict, E, T, V. reflexivity.
Qed.
Lemma rx_other v i x s s' : time_parse (v_clock v) "none" = None -> clean x -> (forall j, ~ note (v_clock v) "frame_ready" x j) -> handle_rx v i x s = (s', Ret tt) -> base (c_received s) (c_released s) (c_out s) s'.
Proof.
  intros NO CL N H. unfold handle_rx in H.
  match type of H with attempt v ?a ?f s = _ => assert (K : keeps (fun s' => base (c_received s) (c_released s) (c_out s) s') (attempt v a f)) end.
  { apply keeps_attempt. intros s0 H0. rewrite post_seq. unfold post at 1. rewrite parse_strict. destruct x as [j|]; [|exact H0]. destruct (msg_of_doc (v_clock v) j true) as [m|e|] eqn:E; [|exact H0|exact Logic.I].
    assert (NR : ~ (g_type m = TNotify /\ g_val m = VFrameReady)). { intros (T & V). apply (N j). apply (note_parsed _ (Some j) j _ VFrameReady NO CL ready_ok); [discriminate|apply no_char_ok; reflexivity|]. eauto. }
    revert s0 H0. destruct (g_type m), (g_val m); try (intros s0 H0; exact H0); try (destruct (NR (conj eq_refl eq_refl))); [apply base_charge| |].
    - intros s0 H0. rewrite post_seq, post_change, post_seq. destruct (make_identity v (w_c_ident i s0)) as (d & M). unfold post at 1. rewrite M. rewrite post_emit. apply base_emit; [reflexivity| |bas]. destruct (made _ _ _ _ _ _ _ M) as (doc & -> & F). cbn. rewrite F. reflexivity.
    - intros s0 H0. rewrite post_seq, post_lift. destruct (encode (v_clock v) m) as [d|e|]; [|exact H0|exact Logic.I]. rewrite post_seq. unfold post at 1. rewrite parse_strict. destruct (msg_of_doc (v_clock v) (JObj d) true); [|exact H0|exact Logic.I]. rewrite post_change. bas. }
  specialize (K s (base_init s)). unfold post in K. rewrite H in K. exact K.
Qed.
Lemma release_note v x j s : time_parse (v_clock v) "none" = None -> clean x -> note (v_clock v) "frame_release" x j ->
  exists s', handle_release v x s = (s', Ret tt) /\ c_received s' = c_received s /\ c_released s' = (c_released s + 1) mod 2 ^ 32 /\
    c_out s' = c_out s ++ FToRx (c_ident s) j :: (if negb (s_frames (c_cfg s) =? 0) && (s_frames (c_cfg s) <=? (c_released s + 1) mod 2 ^ 32) then [FStop] else []) /\ c_cfg s' = c_cfg s /\ c_ident s' = c_ident s.
Proof.
  intros NO CL N. apply (note_parsed _ x j _ VFrameRelease NO CL release_ok) in N; [|discriminate|apply no_char_ok; reflexivity]. destruct N as (-> & m & E & T & V). unfold handle_release.
  destruct (negb (s_frames (c_cfg s) =? 0) && (s_frames (c_cfg s) <=? (c_released s + 1) mod 2 ^ 32)) eqn:B; (eexists; split; [apply attempt_Ret; unfold seq at 1; rewrite parse_strict, E, T, V; unfold seq, setting, get, emit, change, when; fields; rewrite B; reflexivity|fields]; rewrite <- ?app_assoc; auto 10).
Qed.
Lemma release_other v x s s' : time_parse (v_clock v) "none" = None -> clean x -> (forall j, ~ note (v_clock v) "frame_release" x j) -> handle_release v x s = (s', Ret tt) -> base (c_received s) (c_released s) (c_out s) s'.
Proof.
  intros NO CL N H. unfold handle_release in H.
  match type of H with attempt v ?a ?f s = _ => assert (K : keeps (fun s' => base (c_received s) (c_released s) (c_out s) s') (attempt v a f)) end.
  { apply keeps_attempt. intros s0 H0. rewrite post_seq. unfold post at 1. rewrite parse_strict. destruct x as [j|]; [|exact H0]. destruct (msg_of_doc (v_clock v) j true) as [m|e|] eqn:E; [|exact H0|exact Logic.I].
    assert (NR : ~ (g_type m = TNotify /\ g_val m = VFrameRelease)). { intros (T & V). apply (N j). apply (note_parsed _ (Some j) j _ VFrameRelease NO CL release_ok); [discriminate|apply no_char_ok; reflexivity|]. eauto. }
    revert s0 H0. destruct (g_type m), (g_val m); try (intros s0 H0; exact H0); try (destruct (NR (conj eq_refl eq_refl))); apply base_notify. }
  specialize (K s (base_init s)). unfold post in K. rewrite H in K. exact K.
Qed.
(** *** Control messages *)
Lemma nonstrict_ret c doc m : msg_of_doc c (JObj doc) false = Ret m ->
  exists t w tx, get_attr str_value doc "msg_type" "none" = Ret t /\ get_attr str_value doc "msg_val" "none" = Ret w /\ get_attr str_value doc "timestamp" "none" = Ret tx /\ g_type m = type_of_name t /\ g_val m = val_of_name w.
Proof.
  cbn. unfold bind. intros E. destruct (get_attr str_value doc "msg_type" "none") as [t| |]; try discriminate. destruct (get_attr str_value doc "msg_val" "none") as [w| |]; try discriminate. destruct (get_attr str_value doc "timestamp" "none") as [tx| |]; try discriminate. exists t, w, tx. destruct (get_attr uint_value doc "id" 0); injection E as <-; auto 10.
Qed.
Lemma nonstrict_ok c doc t w tx : get_attr str_value doc "msg_type" "none" = Ret t -> get_attr str_value doc "msg_val" "none" = Ret w -> get_attr str_value doc "timestamp" "none" = Ret tx -> exists m, msg_of_doc c (JObj doc) false = Ret m /\ g_doc m = doc /\ g_type m = type_of_name t /\ g_val m = val_of_name w /\ (forall i, get_attr uint_value doc "id" 0 = Ret i -> g_id m = Some i).
Proof. intros A B C. cbn. unfold bind. rewrite A, B, C. cbn. destruct (get_attr uint_value doc "id" 0); eexists; (split; [reflexivity|]); cbn; repeat split; auto; intros i' H; try discriminate; congruence. Qed.
Lemma command_parsed v x w V : clean x -> (forall t, val_of_name t = V <-> t = w) -> V <> VIllegal -> no_nul w -> (command w x <-> exists m, parsed v x = Ret m /\ g_type m = TCmd /\ g_val m = V).
Proof.
  intros CL HV NV NW. split.
  - intros (doc & -> & T & W & X). assert (A : get_attr str_value doc "msg_type" "none" = Ret "cmd") by (apply attr_says; [exact T|apply no_char_ok; reflexivity]). assert (B : get_attr str_value doc "msg_val" "none" = Ret w) by (apply attr_says; [exact W|exact NW]).
    assert (C : exists tx, get_attr str_value doc "timestamp" "none" = Ret tx). { unfold get_attr. destruct (find_member "timestamp" doc) as [y|] eqn:F; [|eauto]. destruct (X y) as (t & ->); [apply says_find, F|]. cbn. eauto. }
    destruct C as (tx & C). destruct (nonstrict_ok (v_clock v) doc _ _ _ A B C) as (m & E & _ & T' & V' & _). exists m. split; [exact E|]. split; [exact T'|]. rewrite V'. apply HV. reflexivity.
  - intros (m & P & T & V'). destruct (parsed_object v x m P) as (doc & ->). cbn [parsed] in P. apply nonstrict_ret in P. destruct P as (t & w' & tx & A & B & C & T' & V''). rewrite T' in T. rewrite V'' in V'. apply (proj2 (type_name_inj t)) in T. apply HV in V'. subst t w'. exists doc. split; [reflexivity|].
    apply attr_str in A. apply attr_str in B. destruct A as [(_ & A)|(t & S1 & A)]; [discriminate|]. destruct B as [(_ & B)|(t3 & S3 & B)]. { exfalso. apply NV. rewrite <- (proj2 (HV w) eq_refl), B. reflexivity. }
    assert (N1 : cstr t = t) by (apply cstr_id, (CL doc "msg_type" t eq_refl); [cbn; auto|exact S1]). assert (N3 : cstr t3 = t3) by (apply cstr_id, (CL doc "msg_val" t3 eq_refl); [cbn; auto|exact S3]). rewrite N1 in A. rewrite N3 in B. subst t t3. split; [exact S1|]. split; [exact S3|].
    intros y Y. apply says_find in Y. unfold get_attr in C. rewrite Y in C. destruct y; try discriminate. eauto.
Qed.
Lemma reset_ok t : val_of_name t = VResetStatistics <-> t = "reset_statistics". Proof. apply val_name_ready. Qed.
Lemma ctrl_other v client x s s' : clean x -> ~ command "reset_statistics" x -> handle_ctrl v client x s = (s', Ret tt) -> base (c_received s) (c_released s) (c_out s) s'.
Proof.
  intros CL N H. assert (K : keeps (fun s' => base (c_received s) (c_released s) (c_out s) s') (handle_ctrl v client x)).
  { unfold handle_ctrl, send_reply, reply_type. repeat match goal with |- keeps _ (request _ _) => fail 1 | |- keeps _ (attempt _ _ _) => apply keeps_attempt | _ => keep1 ltac:(idtac; bas) end.
    intros s0 H0. unfold request. rewrite post_seq, parse_post. destruct (parsed v x) as [m|e|] eqn:P; [|exact H0|exact Logic.I].
    assert (NR : ~ (g_type m = TCmd /\ g_val m = VResetStatistics)). { intros (T & V). apply N. apply (command_parsed v x _ VResetStatistics CL reset_ok); [discriminate|apply no_char_ok; reflexivity|]. eauto. }
    revert s0 H0. unfold request_configuration, get_status, get_version, reply_type, reply_val, reply_id. destruct (g_type m), (g_val m); try (destruct (NR (conj eq_refl eq_refl))); match goal with |- forall s0, ?B s0 -> post ?a s0 _ _ => change (keeps B a) end; keep3 ltac:(idtac; bas); apply base_configure. }
  specialize (K s (base_init s)). unfold post in K. rewrite H in K. exact K.
Qed.
Lemma ctrl_reset v client x s s' : clean x -> command "reset_statistics" x -> handle_ctrl v client x s = (s', Ret tt) -> base 0 0 (c_out s) s'.
Proof.
  intros CL C H. apply (command_parsed v x _ VResetStatistics CL reset_ok) in C; [|discriminate|apply no_char_ok; reflexivity]. destruct C as (m & P & T & V).
  assert (O : base (c_received s) (c_released s) (c_out s) s) by apply base_init. destruct O as (_ & _ & O).
  unfold handle_ctrl, seq at 1, change in H. unfold seq at 1 in H. set (s0 := w_c_reply _ s) in H.
  assert (A : exists s1, attempt v (request v x) Some s0 = (s1, Ret None) /\ c_received s1 = 0 /\ c_released s1 = 0 /\ c_out s1 = c_out s).
  { eexists. split; [apply attempt_Ret; unfold request, seq at 1; rewrite parse_eq, P, T, V; reflexivity|]. split; [reflexivity|split; reflexivity]. }
  destruct A as (s1 & A & R1 & R2 & R3). rewrite A in H. unfold seq at 1, ret, send_reply, seq, get, lift in H. destruct (encode (v_clock v) (c_reply s1)); try discriminate. unfold emit, change in H. injection H as <-. apply (base_emit 0 0 (c_out s)); [reflexivity|reflexivity|]. split; [exact R1|]. split; [exact R2|rewrite R3; exact O].
Qed.
Lemma direct_base v m s s' : step v (Direct m) s = (s', Ret tt) -> base (c_received s) (c_released s) (c_out s) s'.
Proof.
  cbn [step]. unfold seq, change. intros H. pose proof (base_configure (c_received s) (c_released s) (c_out s) v m (w_c_reply (new_msg TIllegal VIllegal true (v_now v)) s) (base_init s)) as K. unfold post in K. rewrite H in K. exact K.
Qed.
(** *** Runs *)
Lemma step_counts v e s s' : plain_clock v -> clean_event e -> step v e s = (s', Ret tt) ->
  (exists j, ready_of v e j /\ c_received s' = (c_received s + 1) mod 2 ^ 32 /\ c_released s' = c_released s /\ c_out s' = c_out s ++ [FPublish j]) \/
  (exists j l, release_of v e j /\ c_received s' = c_received s /\ c_released s' = (c_released s + 1) mod 2 ^ 32 /\ c_out s' = c_out s ++ FToRx (c_ident s) j :: l /\ (forall f, In f l -> f = FStop)) \/
  (resets e /\ base 0 0 (c_out s) s') \/
  ((forall j, ~ ready_of v e j) /\ (forall j, ~ release_of v e j) /\ ~ resets e /\ base (c_received s) (c_released s) (c_out s) s').
Proof.
  intros NO CL H. destruct e as [m|client x|i x|x|].
  - right. right. right. split; [intros j (i & x & E & _); discriminate|]. split; [intros j (x & E & _); discriminate|]. split; [intros (c & x & E & _); discriminate|]. apply (direct_base v m), H.
  - right. right. cbn [step] in H. cbn in CL.
    assert (D : command "reset_statistics" x \/ ~ command "reset_statistics" x).
    { pose proof (command_parsed v x _ VResetStatistics CL reset_ok ltac:(discriminate) ltac:(apply no_char_ok; reflexivity)) as I. destruct (parsed v x) as [m| |]; [|right; intros C; apply I in C; destruct C as (m & E & _); discriminate..].
      destruct (g_type m) eqn:T; try (right; intros C; apply I in C; destruct C as (m' & E & T' & _); injection E as <-; congruence). destruct (g_val m) eqn:V; try (right; intros C; apply I in C; destruct C as (m' & E & _ & V'); injection E as <-; congruence). left. apply I. eauto. }
    destruct D as [D|D]; [left; split; [exists client, x; auto|apply (ctrl_reset v client x s s' CL D H)]|right]. split; [intros j (i & y & E & _); discriminate|]. split; [intros j (y & E & _); discriminate|]. split; [intros (c & y & E & C); injection E as <- <-; exact (D C)|]. apply (ctrl_other v client x s s' CL D H).
  - cbn [step] in H. cbn in CL.
    assert (D : (exists j, note (v_clock v) "frame_ready" x j) \/ forall j, ~ note (v_clock v) "frame_ready" x j).
    { pose proof (fun j => note_parsed (v_clock v) x j _ VFrameReady NO CL ready_ok ltac:(discriminate) ltac:(apply no_char_ok; reflexivity)) as I. destruct x as [j|]; [|right; intros j C; apply I in C; destruct C as (E & _); discriminate].
      destruct (msg_of_doc (v_clock v) j true) as [m| |] eqn:P; [|right; intros j' C; apply I in C; destruct C as (E & m & E' & _); injection E as <-; congruence..].
      destruct (g_type m) eqn:T; try (right; intros j' C; apply I in C; destruct C as (E & m' & E' & T' & _); injection E as <-; congruence). destruct (g_val m) eqn:V; try (right; intros j' C; apply I in C; destruct C as (E & m' & E' & _ & V'); injection E as <-; congruence). left. exists j. apply I. eauto. }
    destruct D as [(j & D)|D].
    + left. exists j. split; [exists i, x; auto|]. rewrite (rx_ready v i x j s NO CL D) in H. injection H as <-. fields. auto.
    + right. right. right. split; [intros j (i' & y & E & C); injection E as <- <-; exact (D j C)|]. split; [intros j (y & E & _); discriminate|]. split; [intros (c & y & E & _); discriminate|]. apply (rx_other v i x s s' NO CL D H).
  - cbn [step] in H. cbn in CL.
    assert (D : (exists j, note (v_clock v) "frame_release" x j) \/ forall j, ~ note (v_clock v) "frame_release" x j).
    { pose proof (fun j => note_parsed (v_clock v) x j _ VFrameRelease NO CL release_ok ltac:(discriminate) ltac:(apply no_char_ok; reflexivity)) as I. destruct x as [j|]; [|right; intros j C; apply I in C; destruct C as (E & _); discriminate].
      destruct (msg_of_doc (v_clock v) j true) as [m| |] eqn:P; [|right; intros j' C; apply I in C; destruct C as (E & m & E' & _); injection E as <-; congruence..].
      destruct (g_type m) eqn:T; try (right; intros j' C; apply I in C; destruct C as (E & m' & E' & T' & _); injection E as <-; congruence). destruct (g_val m) eqn:V; try (right; intros j' C; apply I in C; destruct C as (E & m' & E' & _ & V'); injection E as <-; congruence). left. exists j. apply I. eauto. }
    destruct D as [(j & D)|D].
    + right. left. destruct (release_note v x j s NO CL D) as (s1 & E & A & B & C & _). rewrite H in E. injection E as <-. exists j. eexists. split; [exists x; auto|]. split; [exact A|]. split; [exact B|]. split; [exact C|]. intros f. destruct (_ && _); [intros [<-|[]]; reflexivity|intros []].
    + right. right. right. split; [intros j (i' & y & E & _); discriminate|]. split; [intros j (y & E & C); injection E as <-; exact (D j C)|]. split; [intros (c & y & E & _); discriminate|]. apply (release_other v x s s' NO CL D H).
  - right. right. right. split; [intros j (i & x & E & _); discriminate|]. split; [intros j (x & E & _); discriminate|]. split; [intros (c & x & E & _); discriminate|]. cbn [step] in H. pose proof (base_timer (c_received s) (c_released s) (c_out s) v s (base_init s)) as K. unfold post in K. rewrite H in K. exact K.
Qed.
Lemma value_of_note c w x j : note c w x j -> value_is w j = true.
Proof. intros (doc & t & l & _ & -> & _ & W & _). apply says_find in W. cbn. rewrite W. apply String.eqb_refl. Qed.
Lemma hits_apart v e j : (ready_of v e j -> (forall k, ~ release_of v e k) /\ ~ resets e) /\ (release_of v e j -> (forall k, ~ ready_of v e k) /\ ~ resets e) /\ (resets e -> ~ ready_of v e j /\ ~ release_of v e j).
Proof.
  repeat split.
  - intros k (y & E & _). destruct H as (i & x & -> & _). discriminate.
  - intros (c & y & E & _). destruct H as (i & x & -> & _). discriminate.
  - intros k (i & y & E & _). destruct H as (x & -> & _). discriminate.
  - intros (c & y & E & _). destruct H as (x & -> & _). discriminate.
  - intros (i & y & E & _). destruct H as (c & x & -> & _). discriminate.
  - intros (y & E & _). destruct H as (c & x & -> & _). discriminate.
Qed.
Lemma note_unique c w x j j' : note c w x j -> note c w x j' -> j = j'. Proof. intros (d & t & l & -> & _) (d' & t' & l' & E & _). congruence. Qed.
Lemma notes_hit (hit : env -> event -> json -> Prop) v e j l rs : (forall j', hit v e j' -> j' = j) -> hit v e j -> notes hit ((v, e) :: l) rs -> exists r, rs = j :: r /\ notes hit l r.
Proof. intros U H N. inversion N as [|v' e' j' l' r A B|v' e' l' r A B]; subst; [rewrite (U _ A); eauto|destruct (A j H)]. Qed.
Lemma notes_not (hit : env -> event -> json -> Prop) v e l rs : (forall j, ~ hit v e j) -> notes hit ((v, e) :: l) rs -> notes hit l rs.
Proof. intros H N. inversion N as [|v' e' j' l' r A B|v' e' l' r A B]; subst; [destruct (H _ A)|exact B]. Qed.
Lemma counted_hit (hit : env -> event -> json -> Prop) v e j n l k : hit v e j -> ~ resets e -> counted hit n ((v, e) :: l) k -> counted hit ((n + 1) mod 2 ^ 32) l k.
Proof. intros H R C. inversion C as [|? ? ? ? ? ? A B|? ? ? ? ? A B|? ? ? ? ? A B D]; subst; [exact B|destruct (R A)|destruct (A _ H)]. Qed.
Lemma counted_reset (hit : env -> event -> json -> Prop) v e n l k : (forall j, ~ hit v e j) -> resets e -> counted hit n ((v, e) :: l) k -> counted hit 0 l k.
Proof. intros H R C. inversion C as [|? ? ? ? ? ? A B|? ? ? ? ? A B|? ? ? ? ? A B D]; subst; [destruct (H _ A)|exact B|destruct (B R)]. Qed.
Lemma counted_not (hit : env -> event -> json -> Prop) v e n l k : (forall j, ~ hit v e j) -> ~ resets e -> counted hit n ((v, e) :: l) k -> counted hit n l k.
Proof. intros H R C. inversion C as [|? ? ? ? ? ? A B|? ? ? ? ? A B|? ? ? ? ? A B D]; subst; [destruct (H _ A)|destruct (R A)|exact D]. Qed.
Lemma run_counts l : forall s s' rs qs n r, observed l -> run l s = (s', Ret tt) -> notes ready_of l rs -> notes release_of l qs -> counted ready_of (c_received s) l n -> counted release_of (c_released s) l r ->
  c_received s' = n /\ c_released s' = r /\ exists o, c_out s' = c_out s ++ o /\ published o = rs /\ returned o = qs.
Proof.
  induction l as [|[v e] l IH]; intros s s' rs qs n r OB R N1 N2 C1 C2.
  - injection R as <-. inversion N1; inversion N2; inversion C1; inversion C2; subst. split; [reflexivity|split; [reflexivity|]]. exists []. rewrite app_nil_r. auto.
  - cbn in R. destruct (step v e s) as [s1 [[]|z|]] eqn:E; try discriminate. destruct (OB v e (or_introl eq_refl)) as (PC & CE). assert (OB' : observed l) by (intros v' e' I; apply OB; right; exact I).
    destruct (step_counts v e s s1 PC CE E) as [(j & A & B1 & B2 & B3)|[(j & q & A & B1 & B2 & B3 & B4)|[(A & B1 & B2 & o & B3 & B4 & B5)|(A1 & A2 & A3 & B1 & B2 & o & B3 & B4 & B5)]]].
    + destruct (hits_apart v e j) as (X & _). destruct (X A) as (X1 & X2). clear X. destruct (notes_hit ready_of v e j l rs) as (rs' & -> & N1'); [|exact A|exact N1|].
      { intros j' (i & x & -> & NT). destruct A as (i' & x' & EE & NT'). injection EE as <- <-. exact (note_unique _ _ _ _ _ NT NT'). }
      apply notes_not in N2; [|exact X1]. apply (counted_hit _ v e j) in C1; [|exact A|exact X2]. apply counted_not in C2; [|exact X1|exact X2]. rewrite <- B1 in C1. rewrite <- B2 in C2.
      destruct (IH s1 s' rs' qs n r OB' R N1' N2 C1 C2) as (D1 & D2 & o & D3 & D4 & D5). split; [exact D1|split; [exact D2|]]. exists (FPublish j :: o). rewrite D3, B3, <- app_assoc. split; [reflexivity|]. destruct A as (i & x & _ & NT). apply value_of_note in NT. unfold published, returned in *. cbn. rewrite NT, D4. split; [reflexivity|exact D5].
    + destruct (hits_apart v e j) as (_ & X & _). destruct (X A) as (X1 & X2). clear X. destruct (notes_hit release_of v e j l qs) as (qs' & -> & N2'); [|exact A|exact N2|].
      { intros j' (x & -> & NT). destruct A as (x' & EE & NT'). injection EE as <-. exact (note_unique _ _ _ _ _ NT NT'). }
      apply notes_not in N1; [|exact X1]. apply (counted_hit _ v e j) in C2; [|exact A|exact X2]. apply counted_not in C1; [|exact X1|exact X2]. rewrite <- B1 in C1. rewrite <- B2 in C2.
      destruct (IH s1 s' rs qs' n r OB' R N1 N2' C1 C2) as (D1 & D2 & o & D3 & D4 & D5). split; [exact D1|split; [exact D2|]]. exists (FToRx (c_ident s) j :: q ++ o). rewrite D3, B3, <- app_assoc. split; [reflexivity|].
      assert (Q : published q = [] /\ returned q = []). { clear - B4. induction q as [|f q IH]; [auto|]. rewrite (B4 f (or_introl eq_refl)). cbn. apply IH. intros g I. apply B4. right. exact I. }
      destruct A as (x & _ & NT). apply value_of_note in NT. unfold published, returned in *. cbn. rewrite !flat_map_app, NT, D4, D5. destruct Q as (-> & ->). auto.
    + assert (X : forall j, ~ ready_of v e j /\ ~ release_of v e j) by (intros j; apply (hits_apart v e j), A). apply notes_not in N1; [|intros j; apply X]. apply notes_not in N2; [|intros j; apply X]. apply counted_reset in C1; [|intros j; apply X|exact A]. apply counted_reset in C2; [|intros j; apply X|exact A]. rewrite <- B1 in C1. rewrite <- B2 in C2.
      destruct (IH s1 s' rs qs n r OB' R N1 N2 C1 C2) as (D1 & D2 & o' & D3 & D4 & D5). split; [exact D1|split; [exact D2|]]. exists (o ++ o'). rewrite D3, B3, <- app_assoc. split; [reflexivity|]. unfold published, returned in *. rewrite !flat_map_app, B4, B5. auto.
    + apply notes_not in N1; [|exact A1]. apply notes_not in N2; [|exact A2]. apply counted_not in C1; [|exact A1|exact A3]. apply counted_not in C2; [|exact A2|exact A3]. rewrite <- B1 in C1. rewrite <- B2 in C2.
      destruct (IH s1 s' rs qs n r OB' R N1 N2 C1 C2) as (D1 & D2 & o' & D3 & D4 & D5). split; [exact D1|split; [exact D2|]]. exists (o ++ o'). rewrite D3, B3, <- app_assoc. split; [reflexivity|]. unfold published, returned in *. rewrite !flat_map_app, B4, B5. auto.
Qed.
