(** No exception leaves a handler. *)
From Coq Require Import String Ascii.
From Verif Require Import Base StrOrder FrameModel JsonModel JsonSpec JsonProofs JsonProps LiveModel LiveSpec PortModel PortSpec PortProps EqualModel RcvModel RcvSpec RcvProofs RcvReply.
Local Open Scope string_scope.
Local Open Scope list_scope.
Local Open Scope Z_scope.

Definition caught (e : rexc) : Prop := match e with EReceiver _ => True | EIpc ERange => False | EIpc _ => True | _ => False end.
Definition safe {A} (P : rc -> Prop) (a : M A) : Prop := forall s, P s -> match a s with (s1, Ret _) => P s1 | (s1, Throw e) => caught e /\ P s1 | (_, Undef) => False end.
Definition fine {A} (o : outcome ipcexc A) : Prop := match o with Ret _ => True | Throw ERange => False | Throw _ => True | Undef => False end.
Lemma safe_seq {A B} P (a : M A) (f : A -> M B) : safe P a -> (forall x, safe P (f x)) -> safe P (seq a f).
Proof. intros HA HF s H. unfold seq. specialize (HA s H). destruct (a s) as [s1 [x|e|]]; auto. apply HF, HA. Qed.
Lemma safe_seq' {A B} P (a : M A) (f : A -> M B) (R : A -> Prop) : safe P a -> (forall s s1 x, P s -> a s = (s1, Ret x) -> R x) -> (forall x, R x -> safe P (f x)) -> safe P (seq a f).
Proof. intros HA HR HF s H. unfold seq. specialize (HA s H). destruct (a s) as [s1 [x|e|]] eqn:E; auto. apply (HF x (HR _ _ _ H E)), HA. Qed.
Lemma safe_ret {A} P (a : A) : safe P (ret a). Proof. intros s H. exact H. Qed.
Lemma safe_raise {A} P e : caught e -> safe P (raise (A := A) e). Proof. intros C s H. split; assumption. Qed.
Lemma safe_get {A} P (f : rc -> A) : safe P (get f). Proof. intros s H. exact H. Qed.
Lemma safe_lift {A} P (o : outcome ipcexc A) : fine o -> safe P (lift o). Proof. intros F s H. unfold lift. destruct o as [a|e|]; [exact H| |destruct F]. split; [destruct e; [exact Logic.I|exact Logic.I|destruct F|exact Logic.I]|exact H]. Qed.
Lemma safe_when P b a : safe P a -> safe P (when b a). Proof. intros K. destruct b; [exact K|apply safe_ret]. Qed.
Lemma safe_change (P : rc -> Prop) f : (forall s, P s -> P (f s)) -> safe P (change f). Proof. intros K s H. apply K, H. Qed.
Lemma safe_fresh (P : rc -> Prop) : (forall s, P s -> P (w_c_next (S (c_next s)) s)) -> safe P fresh. Proof. intros K s H. apply K, H. Qed.

(** *** Reading parameters *)
Lemma get_node_fine n x : fine (get_node n x).
Proof. revert x. induction n as [|k n IH]; intros x; [exact Logic.I|]. cbn. destruct x; try exact Logic.I. destruct (find_member (cstr k) l); [apply IH|exact Logic.I]. Qed.
Lemma get_raw_fine m n : fine (get_raw m n). Proof. unfold get_raw. destruct (params_of m); [apply get_node_fine|exact Logic.I]. Qed.
Lemma get_value_fine g x : fine (get_value g x).
Proof. destruct g, x; try exact Logic.I; cbn; unfold in_range; match goal with |- fine (if ?b then _ else _) => destruct b; exact Logic.I end. Qed.
Lemma get_param_fine g m n : fine (get_param g m n). Proof. unfold get_param. pose proof (get_raw_fine m n) as F. destruct (get_raw m n); [apply get_value_fine|exact F|exact F]. Qed.
Lemma has_node_fine n x : fine (has_node n x).
Proof. revert x. induction n as [|k n IH]; intros x; [exact Logic.I|]. cbn. destruct x; try exact Logic.I. destruct (find_member (cstr k) l); [apply IH|exact Logic.I]. Qed.
Lemma has_param_fine m n : fine (has_param m n). Proof. unfold has_param. destruct (params_of m); [apply has_node_fine|exact Logic.I]. Qed.
Lemma bind_fine {A B} (o : outcome ipcexc A) (f : A -> outcome ipcexc B) : fine o -> (forall x, fine (f x)) -> fine (bind o f). Proof. intros H F. destruct o; [apply F|exact H|exact H]. Qed.
Lemma str_param_fine m n : fine (str_param m n). Proof. apply bind_fine; [apply get_param_fine|intros; exact Logic.I]. Qed.
Lemma int_param_fine g m n : fine (int_param g m n). Proof. apply bind_fine; [apply get_param_fine|intros; exact Logic.I]. Qed.
Lemma get_or_fine g m n d : fine (get_param_or g m n d). Proof. unfold get_param_or. destruct (params_of m) as [[| | | | | |l]|]; try exact Logic.I. destruct (find_member (cstr n) l); [apply get_value_fine|exact Logic.I]. Qed.
Lemma str_or_fine m n d : fine (str_param_or m n d). Proof. apply bind_fine; [apply get_or_fine|intros; exact Logic.I]. Qed.
Lemma int_or_fine g m n d : fine (int_param_or g m n d). Proof. apply bind_fine; [apply get_or_fine|intros; exact Logic.I]. Qed.
Lemma get_ref_fine m n : (forall k, pieces n = k -> List.length k = 1%nat) -> fine (get_ref m n).
Proof. intros L. unfold get_ref. pose proof (get_raw_fine m n) as F. destruct (get_raw m n); [|exact F|exact F]. specialize (L _ eq_refl). destruct (pieces n) as [|? [|]]; try discriminate; exact Logic.I. Qed.
Lemma str_or_value m n d r : str_param_or m n d = Ret r -> no_nul n -> r = d \/ exists t, holds m [n] (JStr t) /\ r = cstr t.
Proof.
  unfold str_param_or, get_param_or. intros H N. destruct (params_of m) as [p|] eqn:P; [|injection H as <-; auto]. destruct p; try discriminate. destruct (find_member (cstr n) l) as [x|] eqn:F; [|injection H as <-; auto]. destruct x; try discriminate. injection H as <-. right. exists s. split; [|reflexivity]. apply holds_at. cbn. unfold params_of in P. rewrite P. cbn. rewrite (cstr_id _ N) in F. rewrite F. reflexivity.
Qed.

(** *** Setting parameters *)
Lemma set_param_fine m c v : good_path c -> fine (snd (set_param m (slashed c) v)).
Proof. intros G. rewrite (set_param_eq _ _ _ G). destruct (set_at _ _ _) as [[]|]; exact Logic.I. Qed.
Lemma put_safe (P : rc -> Prop) c v : (forall s m, P s -> P (w_c_reply m s)) -> good_path c -> safe P (put (slashed c) v).
Proof.
  intros K G s H. unfold put. pose proof (set_param_fine (c_reply s) c v G) as F. destruct (set_param (c_reply s) (slashed c) v) as [m [a|e|]]; cbn in F; [apply K, H|split; [destruct e; exact F|apply K, H]|exact F].
Qed.
Lemma puts_safe (P : rc -> Prop) l : (forall s m, P s -> P (w_c_reply m s)) -> Forall (fun p => exists c, good_path c /\ fst p = slashed c) l -> safe P (puts l).
Proof. intros K F. induction F as [|[n v] l (c & G & E) F IH]; [apply safe_ret|]. cbn in E. subst n. cbn [puts]. apply safe_seq; [apply put_safe; assumption|intros _; exact IH]. Qed.
Lemma slashed_under a c : c <> [] -> slashed (a :: c) = append a (append "/" (slashed c)). Proof. destruct c; [congruence|reflexivity]. Qed.
Lemma below_good a b n : param_name n -> no_slash a -> no_nul a -> plain a -> no_slash b -> no_nul b -> exists c, good_path c /\ append a (append "/" (append b (append "/" n))) = slashed c.
Proof.
  intros (c & N & S & Z & P & ->) A1 A2 A3 B1 B2. exists (a :: b :: c). split; [|rewrite slashed_under by discriminate; rewrite slashed_under by exact N; reflexivity].
  split; [discriminate|]. split; [repeat constructor; assumption|]. split; [repeat constructor; assumption|]. split; [exact A3|]. destruct c; [congruence|exact P].
Qed.
Lemma below_good1 a n : param_name n -> no_slash a -> no_nul a -> plain a -> exists c, good_path c /\ append a (append "/" n) = slashed c.
Proof.
  intros (c & N & S & Z & P & ->) A1 A2 A3. exists (a :: c). split; [|rewrite slashed_under by exact N; reflexivity].
  split; [discriminate|]. split; [constructor; assumption|]. split; [constructor; assumption|]. split; [exact A3|]. destruct c; [congruence|exact P].
Qed.
(** Updating the configuration of the decoder *)
Lemma update_names_fine other l : params_of other = Some (JObj l) -> forall names m, (forall n, In n names -> In n (map fst l) /\ no_slash n /\ no_nul n /\ plain n) -> fine (snd (update_names m other names)).
Proof.
  intros P. induction names as [|n r IH]; intros m H; [exact Logic.I|]. cbn [update_names]. destruct (H n (or_introl eq_refl)) as (I & S & Z & PL).
  assert (E : exists x, get_ref other n = Ret x).
  { unfold get_ref, get_raw. rewrite P, (pieces_no_slash _ S). cbn. rewrite (cstr_id _ Z). destruct (find_member n l) eqn:F; [eauto|]. apply find_none in F. destruct (F I). }
  destruct E as (x & ->). pose proof (set_param_fine m [n] (XJson x)) as F. cbn [slashed] in F. destruct (set_param m n (XJson x)) as [m1 o]. cbn in F. assert (G : good_path [n]) by (repeat split; try (constructor; [assumption|constructor]); try assumption; try discriminate; apply PL).
  specialize (F G). destruct o as [[]|e|]; [apply IH; intros k K; apply H; right; exact K|exact F|exact F].
Qed.
Lemma update_safe (P : rc -> Prop) x now : (forall s m, P s -> P (w_c_cfg (w_s_dcfg m (c_cfg s)) s)) -> (forall l n y, x = JObj l -> In (n, y) l -> no_slash n /\ no_nul n /\ plain n) ->
  safe P (update_decoder_config (msg_of_value x TIllegal VIllegal true now)).
Proof.
  intros K G s H. unfold update_decoder_config.
  assert (F : fine (snd (update_msg (s_dcfg (c_cfg s)) (msg_of_value x TIllegal VIllegal true now)))).
  { unfold update_msg, get_param_names. change (params_of (msg_of_value x TIllegal VIllegal true now)) with (Some x). destruct x; try exact Logic.I. apply (update_names_fine (msg_of_value (JObj l) TIllegal VIllegal true now) l eq_refl). intros n I. apply in_map_iff in I. destruct I as ((k & y) & <- & I). cbn [fst]. destruct (G l k y eq_refl I) as (A & B & C). rewrite (cstr_id _ B). split; [apply in_map_iff; exists (k, y); auto|auto]. }
  destruct (update_msg _ _) as [m o]. cbn in F. destruct o as [a|e|]; [apply K, H|split; [destruct e; exact F|apply K, H]|exact F].
Qed.

(** *** The programs *)
Definition sound (s : rc) : Prop := s_ports (c_cfg s) <> [] /\ s_path (c_cfg s) <> "".
Ltac snd_ := idtac; cbv beta in *; unfold sound in *; fields; assumption.
Lemma good_one n : path_check n = true -> good_path n. Proof. apply path_check_ok. Qed.
Ltac fine_ := first [apply str_param_fine|apply int_param_fine|apply str_or_fine|apply int_or_fine|apply has_param_fine|apply get_ref_fine; intros ? <-; reflexivity|apply get_param_fine].
Ltac sf1 :=
  match goal with
  | |- safe _ (ret _) => apply safe_ret
  | |- safe _ (raise (EReceiver _)) => apply safe_raise; exact Logic.I
  | |- safe _ (get _) => apply safe_get
  | |- safe _ (setting _) => apply safe_get
  | |- safe _ (lift _) => apply safe_lift; fine_
  | |- safe _ (when _ _) => apply safe_when
  | |- safe _ (seq _ _) => apply safe_seq; [|intros ?]
  | |- safe _ (change _) => apply safe_change; intros; snd_
  | |- safe _ (set _) => apply safe_change; intros; snd_
  | |- safe _ (emit _) => apply safe_change; intros; snd_
  | |- safe _ (later _) => apply safe_change; intros; snd_
  | |- safe _ fresh => apply safe_fresh; intros; snd_
  | |- safe _ (if ?b then _ else _) => destruct b
  | |- safe _ (match ?o with _ => _ end) => destruct o
  end.
Ltac sf := repeat sf1.
Lemma safe_unbind v c e d : calm v -> safe sound (unbind_channel v c e d).
Proof. intros C. unfold unbind_channel. apply safe_seq; [apply safe_get|]. intros b. destruct b; [|apply safe_ret]. destruct d; [sf|]. rewrite (ca_unbind v C). sf. Qed.
Lemma safe_ipc v m : calm v -> safe sound (configure_ipc_channels v m).
Proof. intros C. unfold configure_ipc_channels, configure_channel, setup_channel, set_end. sf. all: apply safe_unbind, C. Qed.
Lemma safe_reset_decoder : safe sound reset_decoder. Proof. apply safe_change. intros s H. destruct (released_eq s) as (l & ->). snd_. Qed.
Lemma safe_reset_buffers : safe sound reset_buffers.
Proof. apply safe_change. intros s H. destruct (c_buffers s) as [b|]; [|exact H]. cbv zeta. match goal with |- sound (w_c_buffers None (if ?k then _ else _)) => destruct k end; snd_. Qed.
Lemma safe_register : safe sound register_buffers. Proof. apply safe_change. intros s H. destruct (c_decoder s) as [d|]; [|exact H]. cbv zeta. destruct (released_eq s) as (l & ->). snd_. Qed.
Lemma safe_decoder v m : tame (g_doc m) -> safe sound (configure_frame_decoder v m).
Proof.
  intros T. unfold configure_frame_decoder. cbv zeta.
  apply safe_seq' with (R := fun p => p <> ""); [sf| |].
  { intros s s1 x H E. injection E as <- <-. apply H. }
  intros path0 P0. apply safe_seq' with (R := fun p => p <> ""); [sf| |].
  { intros s s1 x H E. unfold lift in E. destruct (str_param_or m "decoder_path" path0) as [r|e|] eqn:SP; try discriminate. injection E as <- <-. apply str_or_value in SP; [|apply no_char_ok; reflexivity]. destruct SP as [->|(t & H1 & ->)]; [exact P0|]. destruct (ta_path _ T t H1) as (N & NE). rewrite (cstr_id _ N). exact NE. }
  intros path P. apply safe_seq; [apply safe_when, safe_seq; [|intros _; sf]|intros _].
  { apply safe_change. intros s (H1 & H2). split; fields; assumption. }
  destruct (last_char path) as [c|] eqn:L. 2:{ exfalso. clear - L P. induction path as [|a r IH]; [congruence|]. cbn in L. destruct r; [discriminate|]. apply IH; [discriminate|exact L]. }
  unfold load_decoder, stop_rx_thread, load_class, new_decoder_class. cbv zeta.
  repeat match goal with
    | |- safe _ reset_decoder => apply safe_reset_decoder
    | |- safe _ (x <- lift (get_ref m "decoder_config") ;; _) => apply safe_seq' with (R := fun x => forall l n y, x = JObj l -> In (n, y) l -> no_slash n /\ no_nul n /\ plain n); [| |intros ? ?]
    | |- safe _ (update_decoder_config _) => apply update_safe; [intros; snd_|assumption]
    | _ => sf1 end.
  intros s s1 xx H E l n y -> I. unfold lift in E. destruct (get_ref m "decoder_config") as [r|e|] eqn:G; try discriminate. injection E as <- ->. apply (ta_names _ T l n y); [|exact I]. unfold get_ref in G. destruct (get_raw m "decoder_config") eqn:GR; try discriminate. destruct (pieces "decoder_config") as [|? []]; try discriminate. injection G as ->. apply (proj1 (get_raw_holds m ["decoder_config"] _ ltac:(apply good_any, good_one; reflexivity))) in GR. exact GR.
Qed.
Lemma safe_buffers v m : calm v -> safe sound (configure_buffer_manager v m).
Proof.
  intros C. unfold configure_buffer_manager, stop_rx_thread.
  repeat match goal with
    | |- safe _ reset_buffers => apply safe_reset_buffers
    | |- safe _ register_buffers => apply safe_register
    | |- safe _ (match v_shm v ?a ?b ?c with _ => _ end) => pose proof (ca_shm v C a b c); destruct (v_shm v a b c); [|congruence]
    | _ => sf1 end.
Qed.
Lemma ports_set v m s : calm v -> tame (g_doc m) -> forall cur list, str_param_or m "rx_ports" cur = Ret list -> String.eqb list cur = false -> sound s -> sound (w_c_cfg (w_s_ports (tokenize_port_list (v_stale v) list) (c_cfg s)) s).
Proof.
  intros C T cur list SP NE (_ & H). split; fields; [|exact H]. apply str_or_value in SP; [|apply no_char_ok; reflexivity]. destruct SP as [->|(t & H1 & ->)]; [rewrite String.eqb_refl in NE; discriminate|]. destruct (ta_ports _ T t H1) as (N & parts & entries & ports & -> & A & B & D & E & F). rewrite (cstr_id _ N). rewrite (c50_parse_partial _ parts entries ports (ca_stale v C) A B D E). exact F.
Qed.
Lemma safe_rx v m : calm v -> tame (g_doc m) -> safe sound (configure_rx_thread v m).
Proof.
  intros C T. unfold configure_rx_thread, stop_rx_thread. cbv zeta. do 9 (apply safe_seq; [sf|intros ?]).
  apply safe_seq' with (R := fun p => p <> []); [sf|intros s s1 xx H E; injection E as <- <-; apply H|]. intros ports0 P0.
  destruct (rx_port_list ports0) as [current|] eqn:RP. 2:{ exfalso. destruct ports0; [congruence|]. rewrite port_list_text in RP; discriminate. }
  apply safe_seq' with (R := fun l => str_param_or m "rx_ports" current = Ret l); [sf| |].
  { intros s s1 l H E. unfold lift in E. destruct (str_param_or m "rx_ports" current); try discriminate. injection E as <- <-. reflexivity. }
  intros list SP. apply safe_seq; [|intros _; sf]. destruct (String.eqb list current) eqn:NE; cbn [negb when]; [apply safe_ret|]. apply safe_seq; [|intros _; sf]. apply safe_change. intros s H. exact (ports_set v m s C T current list SP NE H).
Qed.
Lemma safe_configure v m : calm v -> tame (g_doc m) -> safe sound (configure v m).
Proof.
  intros C T. assert (K : safe sound (configure_parts v m)).
  { unfold configure_parts, reply_type. repeat match goal with
      | |- safe _ (configure_ipc_channels _ _) => apply safe_ipc, C | |- safe _ (configure_frame_decoder _ _) => apply safe_decoder, T | |- safe _ (configure_buffer_manager _ _) => apply safe_buffers, C | |- safe _ (configure_rx_thread _ _) => apply safe_rx; assumption
      | |- safe _ (puts _) => apply puts_safe; [intros; snd_|]
      | _ => sf1 end.
    repeat constructor; match goal with |- exists c, _ /\ fst (?n, _) = _ => exists (pieces n) end; (split; [apply good_one; reflexivity|reflexivity]). }
  unfold configure, reply_val. apply safe_seq; [sf|]. intros _ s H. specialize (K s H). destruct (configure_parts v m s) as [s1 [a|e|]]; [exact K| |exact K]. destruct e as [w|e| | |]; try exact K.
  assert (E : safe sound (reply_type TNack ;; put "error" (XStr w))). { apply safe_seq; [unfold reply_type; sf|]. intros _. apply (put_safe sound ["error"]); [intros; snd_|apply good_one; reflexivity]. }
  apply E, K.
Qed.

(** *** The handlers *)
Definition sane {A} (a : M A) : Prop := forall s s1 w, a s <> (s1, Throw (EReceiver w)).
Lemma sane_seq {A B} (a : M A) (f : A -> M B) : sane a -> (forall x, sane (f x)) -> sane (seq a f).
Proof. intros HA HF s s1 w. unfold seq. specialize (HA s). destruct (a s) as [s2 [x|e|]]; [apply HF| |discriminate]. intros E. injection E as -> ->. exact (HA s1 w eq_refl). Qed.
Lemma sane_put n v : sane (put n v). Proof. intros s s1 w. unfold put. destruct (set_param _ _ _) as [m [a|e|]]; discriminate. Qed.
Lemma sane_puts l : sane (puts l). Proof. induction l as [|[n v] l IH]; [discriminate|]. apply sane_seq; [apply sane_put|intros _; exact IH]. Qed.
Lemma sane_lift {A} (o : outcome ipcexc A) : sane (lift o). Proof. intros s s1 w. unfold lift. destruct o; discriminate. Qed.
Ltac sane_ :=
  repeat match goal with
  | |- sane (ret _) => discriminate
  | |- sane (get _) => discriminate
  | |- sane (change _) => discriminate
  | |- sane (emit _) => discriminate
  | |- sane (later _) => discriminate
  | |- sane (raise EOutOfRange) => discriminate
  | |- sane (raise (EIpc _)) => discriminate
  | |- sane (lift _) => apply sane_lift
  | |- sane (put _ _) => apply sane_put
  | |- sane (puts _) => apply sane_puts
  | |- sane (seq _ _) => apply sane_seq; [|intros ?]
  | |- sane (when ?b _) => destruct b; cbn [when]
  | |- sane (if ?b then _ else _) => destruct b
  | |- sane (match ?o with _ => _ end) => destruct o
  end.
Lemma sane_configure v m : sane (configure v m).
Proof.
  unfold configure, reply_val. apply sane_seq; [discriminate|]. intros _ s s1 w. destruct (configure_parts v m s) as [s2 [a|e|]]; try discriminate. destruct e; try discriminate. assert (K : sane (reply_type TNack ;; put "error" (XStr what))) by (unfold reply_type; sane_). apply K.
Qed.
Lemma sane_request v x : sane (request v x).
Proof.
  unfold request, parse, request_configuration, get_status, get_version, reset_statistics, reply_type, reply_val, reply_id, setting. sane_. all: apply sane_configure.
Qed.
Lemma parsed_doc v doc m : parsed v (Some (JObj doc)) = Ret m -> g_doc m = doc /\ (id_valid doc -> exists i, g_id m = Some i).
Proof.
  unfold parsed, msg_of_doc, bind. intros H.
  destruct (get_attr str_value doc "msg_type" "none"); try discriminate. cbn [andb] in H. destruct (get_attr str_value doc "msg_val" "none"); try discriminate. destruct (get_attr str_value doc "timestamp" "none"); try discriminate.
  destruct (get_attr uint_value doc "id" 0) as [i|e|] eqn:G; injection H as <-; cbn; (split; [reflexivity|]); [eauto| |].
  - intros IV. exfalso. unfold get_attr in G. destruct (find_member "id" doc) as [y|] eqn:F; [|discriminate]. destruct (IV y) as (i & -> & R); [apply leads_at; cbn; rewrite F; reflexivity|]. unfold uint_value, get_value, in_range in G. destruct (Z.leb_spec 0 i); [|lia]. destruct (Z.ltb_spec i (2 ^ 32)); [|lia]. discriminate.
  - intros IV. exfalso. unfold get_attr in G. destruct (find_member "id" doc) as [y|] eqn:F; [|discriminate]. destruct (IV y) as (i & -> & R); [apply leads_at; cbn; rewrite F; reflexivity|]. unfold uint_value, get_value, in_range in G. destruct (Z.leb_spec 0 i); [|lia]. destruct (Z.ltb_spec i (2 ^ 32)); [|lia]. discriminate.
Qed.
Lemma parsed_object v x m : parsed v x = Ret m -> exists doc, x = Some (JObj doc).
Proof. destruct x as [[]|]; try discriminate. eauto. Qed.
Lemma attr_fine doc n d : fine (get_attr str_value doc n d). Proof. unfold get_attr. destruct (find_member n doc) as [[]|]; exact Logic.I. Qed.
Lemma msg_of_doc_fine c x st : fine (msg_of_doc c x st).
Proof.
  destruct x; try exact Logic.I. cbn. apply bind_fine; [apply attr_fine|]. intros t. destruct (st && _); [exact Logic.I|]. apply bind_fine; [apply attr_fine|]. intros w. destruct (st && _); [exact Logic.I|]. apply bind_fine; [apply attr_fine|]. intros tm. destruct (st && _); [exact Logic.I|]. destruct (get_attr uint_value l "id" 0); [|destruct st; exact Logic.I|destruct st; exact Logic.I]. destruct (st && _); exact Logic.I.
Qed.
Lemma parsed_fine v x : fine (parsed v x). Proof. destruct x; [apply msg_of_doc_fine|exact Logic.I]. Qed.
Lemma safe_puts_one l : forallb (fun p => path_check (pieces (fst p))) l = true -> Forall (fun p : string * value => exists c, good_path c /\ fst p = slashed c) l.
Proof. intros H. rewrite forallb_forall in H. apply Forall_forall. intros p I. exists (pieces (fst p)). split; [apply good_one, H, I|]. symmetry. apply slashed_pieces. Qed.
Lemma safe_request v x : calm v -> tame_event (Ctrl "" x) -> safe sound (request v x).
Proof.
  intros C T. unfold request. apply safe_seq' with (R := fun m => exists doc, x = Some (JObj doc) /\ g_doc m = doc).
  - intros s H. rewrite parse_eq. pose proof (parsed_fine v x) as F. destruct (parsed v x) as [m|e|]; [exact H|split; [destruct e; exact F|exact H]|exact F].
  - intros s s1 m H E. rewrite parse_eq in E. destruct (parsed v x) as [m'|e|] eqn:P; try discriminate. injection E as <- ->. destruct (parsed_object v x m P) as (doc & ->). exists doc. split; [reflexivity|]. apply (parsed_doc v doc m P).
  - intros m (doc & -> & D). destruct T as (T & _). rewrite <- D in T. apply safe_seq; [unfold reply_id; sf|]. intros _.
    unfold request_configuration, get_status, get_version, reset_statistics, reply_type, reply_val, reply_id.
    destruct (g_type m); try (sf; fail). apply safe_seq; [sf|]. intros _.
    destruct (g_val m); try (sf; fail).
    + repeat match goal with |- safe _ (puts _) => apply puts_safe; [intros; snd_|apply safe_puts_one; reflexivity] | |- safe _ (put "decoder" _) => apply (put_safe sound ["decoder"]); [intros; snd_|apply good_one; reflexivity] | _ => sf1 end.
    + apply safe_seq; [apply safe_configure; assumption|intros _; sf].
    + apply safe_seq; [|intros _; sf]. apply safe_seq; [sf|]. intros _. apply safe_seq' with (R := fun g => s_ports g <> []); [sf|intros s s1 g H E; injection E as <- <-; apply H|]. intros g P. apply safe_seq; [apply puts_safe; [intros; snd_|apply safe_puts_one; reflexivity]|intros _].
      apply safe_seq; [sf|intros d]. apply safe_seq.
      { destruct d; [|sf]. apply puts_safe; [intros; snd_|]. apply Forall_forall. intros p I. apply in_map_iff in I. destruct I as (q & <- & I). cbn [fst]. pose proof (ca_config v C) as F. rewrite Forall_forall in F. destruct (below_good1 "decoder_config" (fst q) (F q I)) as (c & G & E); [apply no_char_ok; reflexivity|apply no_char_ok; reflexivity|apply plain_check_ok; reflexivity|]. exists c. split; [exact G|exact E]. }
      intros _. apply safe_seq; [apply puts_safe; [intros; snd_|apply safe_puts_one; reflexivity]|intros _]. destruct (s_ports g) as [|p0 pr]; [congruence|]. rewrite port_list_text by discriminate. apply puts_safe; [intros; snd_|apply safe_puts_one; reflexivity].
    + apply safe_seq; [|intros _; sf]. apply safe_seq; [sf|intros _]. apply safe_seq; [apply puts_safe; [intros; snd_|apply safe_puts_one; reflexivity]|intros _]. apply safe_seq; [sf|intros d]. destruct d; [|sf]. apply puts_safe; [intros; snd_|]. apply Forall_forall. intros p I. apply in_map_iff in I. destruct I as (q & <- & I). cbn [fst]. pose proof (ca_version v C) as F. rewrite Forall_forall in F.
      destruct (below_good "version" "decoder" (fst q) (F q I)) as (c & G & E); [apply no_char_ok; reflexivity|apply no_char_ok; reflexivity|apply plain_check_ok; reflexivity|apply no_char_ok; reflexivity|apply no_char_ok; reflexivity|]. exists c. split; [exact G|exact E].
Qed.
Lemma ctrl_returns v client x s : calm v -> tame_event (Ctrl "" x) -> sound s -> exists s', handle_ctrl v client x s = (s', Ret tt) /\ sound s'.
Proof.
  intros C T H. unfold handle_ctrl, seq at 1, change. set (s0 := w_c_reply _ s). assert (H0 : sound s0) by exact H. unfold seq at 1.
  pose proof (safe_request v x C T s0 H0) as SR. pose proof (sane_request v x s0) as SN. pose proof (request_post v x s0 eq_refl) as RP.
  assert (A : exists s1 r, attempt v (request v x) Some s0 = (s1, Ret r) /\ sound s1 /\ form (c_reply s1) /\ exists i, g_id (c_reply s1) = Some i).
  { unfold attempt. unfold post in RP. destruct (parsed v x) as [m|e|] eqn:P.
    - assert (I : exists i, g_id m = Some i). { destruct (parsed_object v x m P) as (doc & ->). destruct T as (_ & T). destruct (parsed_doc v doc m P) as (_ & I). apply I, T. }
      destruct I as (i & I). rewrite I in RP. destruct (request v x s0) as [s1 [r|e|]]; [| |destruct SR].
      + destruct RP as ((F & G & _) & _). exists s1, r. eauto.
      + destruct SR as (CA & S1). destruct RP as (F & G & _). destruct e as [w|e| | |]; try destruct CA; [destruct (SN s1 w eq_refl)|]. destruct e; try destruct CA; eexists _, _; (split; [reflexivity|]); eauto.
    - rewrite RP in *. destruct SR as (CA & _). destruct e; try destruct CA; eexists _, _; (split; [reflexivity|]); (split; [exact H0|]); (split; [exists []; reflexivity|eexists; reflexivity]).
    - pose proof (parsed_fine v x) as F. rewrite P in F. destruct F. }
  destruct A as (s1 & r & -> & S1 & (l & F) & (i & I)).
  assert (B : exists s2, (match r with Some w => reply_type TNack ;; put "error" (XStr w) | None => ret tt end) s1 = (s2, Ret tt) /\ sound s2 /\ form (c_reply s2) /\ g_id (c_reply s2) = Some i).
  { destruct r as [w|]; [|exists s1; split; [reflexivity|]; split; [exact S1|split; [exists l; exact F|exact I]]]. unfold seq, reply_type, change, put. fields. cbv zeta. erewrite put_error; [|cbn; exact F]. eexists. split; [reflexivity|]. split; [exact S1|]. split; [eexists; reflexivity|exact I]. }
  destruct B as (s2 & E2 & S2 & F2 & I2). unfold seq at 1. rewrite E2. unfold send_reply, seq, get, lift. rewrite (encode_form v _ i F2 I2). eexists. split; [reflexivity|exact S2].
Qed.
Lemma make_config v n s : exists d, make v TNotify VBufferConfig [("shared_buffer_name", XStr n)] s = (s, Ret d). Proof. eexists. reflexivity. Qed.
Lemma make_charge v a b s : exists d, make v TNotify VBufferPrecharge [("start_buffer_id", XInt a); ("num_buffers", XInt b)] s = (s, Ret d). Proof. eexists. reflexivity. Qed.
Lemma make_identity v s : exists d, make v TAck VIdentity [] s = (s, Ret d). Proof. eexists. reflexivity. Qed.
Lemma safe_notify v : safe sound (notify_buffer_config v).
Proof. unfold notify_buffer_config. apply safe_seq; [sf|intros n]. apply safe_seq; [|intros d; sf]. intros s H. destruct (make_config v n s) as (d & ->). exact H. Qed.
Lemma attempt_returns {A} (P : rc -> Prop) v (a : M A) f s : safe P a -> sane a -> P s -> exists s1 r, attempt v a f s = (s1, Ret r) /\ P s1.
Proof. intros S N H. specialize (S s H). specialize (N s). unfold attempt. destruct (a s) as [s1 [r|e|]]; [eauto| |destruct S]. destruct S as (C & H1). destruct e as [w|e| | |]; try destruct C; [destruct (N s1 w eq_refl)|]. destruct e; try destruct C; eauto. Qed.
Lemma safe_parse v x st : safe sound (parse v x st). Proof. unfold parse. destruct x; [apply safe_lift, msg_of_doc_fine|apply safe_raise; exact Logic.I]. Qed.
Lemma make_sane v t w l : sane (make v t w l).
Proof. unfold make. generalize (new_msg t w true (v_now v)). induction l as [|[n y] l IH]; intros m; [sane_|]. cbn. destruct (set_param m n y) as [m1 o]. apply sane_seq; [apply sane_lift|intros _; apply IH]. Qed.
Lemma strict_id v x m s s1 : parse v x true s = (s1, Ret m) -> exists i, g_id m = Some i.
Proof.
  unfold parse, lift. destruct x as [j|]; [|discriminate]. destruct (msg_of_doc (v_clock v) j true) as [m'|e|] eqn:E; try discriminate. intros H. injection H as <- ->. destruct j; try discriminate. cbn in E. unfold bind in E. destruct (get_attr str_value l "msg_type" "none"); try discriminate. destruct (msg_type_eqb _ _); [discriminate|]. destruct (get_attr str_value l "msg_val" "none"); try discriminate. destruct (Nat.eqb _ _); [discriminate|]. destruct (get_attr str_value l "timestamp" "none"); try discriminate. destruct (time_parse _ _); [|discriminate]. destruct (get_attr uint_value l "id" 0); try discriminate. destruct (has_params l); [|discriminate]. injection E as <-. eexists. reflexivity.
Qed.
Lemma rx_returns v i x s : sound s -> exists s', handle_rx v i x s = (s', Ret tt) /\ sound s'.
Proof.
  intros H. unfold handle_rx. match goal with |- exists s', attempt v ?a ?f s = _ /\ _ => destruct (attempt_returns sound v a f s) as (s1 & [] & E & S); [| |exact H|rewrite E; eauto] end.
  - apply safe_seq' with (R := fun m => exists i, g_id m = Some i); [apply safe_parse|intros s0 s1 m _ E; exact (strict_id v x m s0 s1 E)|]. intros m (k & I). destruct x as [j|]; [|apply safe_ret].
    destruct (g_type m) eqn:T, (g_val m) eqn:V; try apply safe_ret; try (unfold precharge_buffers; sf; fail).
    + unfold precharge_buffers. apply safe_seq; [sf|intros b]. apply safe_seq; [sf|intros t]. destruct b; [|sf]. destruct t; [|sf]. apply safe_seq; [|intros d; sf]. intros s0 H0. destruct (make_charge v 0 (i32 (b_count b)) s0) as (d & ->). exact H0.
    + sf.
      intros s0 H0. destruct (make_identity v s0) as (d & ->). exact H0.
    + apply safe_seq; [apply safe_lift; unfold encode; rewrite I; exact Logic.I|]. intros d. apply safe_seq; [apply safe_parse|intros m1; sf].
  - unfold parse, precharge_buffers. repeat match goal with |- sane (make _ _ _ _) => apply make_sane | _ => progress sane_ end.
Qed.
Lemma release_returns v x s : sound s -> exists s', handle_release v x s = (s', Ret tt) /\ sound s'.
Proof.
  intros H. unfold handle_release. match goal with |- exists s', attempt v ?a ?f s = _ /\ _ => destruct (attempt_returns sound v a f s) as (s1 & [] & E & S); [| |exact H|rewrite E; eauto] end.
  - apply safe_seq; [apply safe_parse|]. intros m. destruct x as [j|]; [|apply safe_ret]. destruct (g_type m), (g_val m); try apply safe_ret; [apply safe_notify|]. sf.
  - unfold parse, notify_buffer_config, setting. repeat match goal with |- sane (make _ _ _ _) => apply make_sane | _ => progress sane_ end.
Qed.
Lemma timer_returns v s : calm v -> sound s -> exists s', run_timer v s = (s', Ret tt) /\ sound s'.
Proof.
  intros C H. unfold run_timer, seq at 1, get. destruct (c_timers s) as [|t r]; [exists s; split; [reflexivity|exact H]|]. unfold seq, change. assert (H1 : sound (w_c_timers r s)) by exact H. destruct t as [c e| |].
  - unfold unbind_channel, seq, get. destruct (is_bound c e _); [|eexists; split; [reflexivity|exact H1]]. rewrite (ca_unbind v C). eexists. split; [reflexivity|exact H].
  - eexists. split; [reflexivity|exact H].
  - eexists. split; [reflexivity|exact H].
Qed.
Lemma step_returns v e s : calm v -> tame_event e -> from_outside e -> sound s -> exists s', step v e s = (s', Ret tt) /\ sound s'.
Proof.
  intros C T O H. destruct e as [m|client x|i x|x|]; cbn [step]; [destruct (O m eq_refl)|apply ctrl_returns; assumption|apply rx_returns, H|apply release_returns, H|apply timer_returns; assumption].
Qed.
Lemma step_sound v e s s' : calm v -> tame_event e -> step v e s = (s', Ret tt) -> sound s -> sound s'.
Proof.
  intros C T E H. destruct e as [m|client x|i x|x|].
  - cbn [step] in E. unfold seq, change in E. assert (S : sound (w_c_reply (new_msg TIllegal VIllegal true (v_now v)) s)) by exact H. pose proof (safe_configure v m C T _ S) as K. rewrite E in K. exact K.
  - destruct (step_returns v (Ctrl client x) s C T ltac:(discriminate) H) as (s1 & E1 & S). rewrite E in E1. injection E1 as ->. exact S.
  - destruct (step_returns v (FromRx i x) s C T ltac:(discriminate) H) as (s1 & E1 & S). rewrite E in E1. injection E1 as ->. exact S.
  - destruct (step_returns v (Release x) s C T ltac:(discriminate) H) as (s1 & E1 & S). rewrite E in E1. injection E1 as ->. exact S.
  - destruct (step_returns v Timer s C T ltac:(discriminate) H) as (s1 & E1 & S). rewrite E in E1. injection E1 as ->. exact S.
Qed.
Lemma run_sound l s s' : (forall v e, In (v, e) l -> calm v /\ tame_event e) -> run l s = (s', Ret tt) -> sound s -> sound s'.
Proof.
  revert s. induction l as [|[v e] l IH]; intros s K R H; [injection R as <-; exact H|]. cbn in R. destruct (step v e s) as [s1 [[]|z|]] eqn:E; try discriminate. destruct (K v e (or_introl eq_refl)) as (C & T). apply (IH s1); [intros v' e' I; apply K; right; exact I|exact R|exact (step_sound v e s s1 C T E H)].
Qed.
Lemma init_sound b st fr tot now : (forall s, st s = s) -> sound (rc_init b st fr tot now).
Proof.
  intros S. split; cbn.
  - unfold tokenize_port_list. change (split_on "," "8989,8990") with ["8989"; "8990"]. cbn [map]. rewrite !S. discriminate.
  - destruct b; discriminate.
Qed.
