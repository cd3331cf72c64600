(** C48: executing stored configurations of the frame processor. *)
From Coq Require Import String Ascii.
From Verif Require Import Base StrOrder PluginModel CtrlModel JsonModel JsonSpec JsonProofs MessageProps JsonReadModel JsonDoubleModel JsonRoundSpec JsonReadProps JsonMachineProps PrcModel PrcSpec PrcProofs PrcMoves PrcExec PrcEnds.
Local Open Scope string_scope.
Local Open Scope list_scope.

Lemma strict_params {P} (v : env P) t m : msg_of_text (v_clock v) t true = Ret m -> exists l, params_of m = Some (JObj l) /\ machine (JObj l).
Proof.
  unfold msg_of_text. destruct (parse t) as [x|] eqn:PT; [|discriminate]. apply c54_machine in PT. unfold msg_of_doc. destruct x as [| | | | | |doc]; try discriminate. unfold bind.
  destruct (get_attr str_value doc "msg_type" "none"); try discriminate. destruct (true && _); [discriminate|]. destruct (get_attr str_value doc "msg_val" "none"); try discriminate. destruct (true && _); [discriminate|].
  destruct (get_attr str_value doc "timestamp" "none"); try discriminate. destruct (true && _); [discriminate|]. destruct (get_attr uint_value doc "id" 0%Z); try discriminate. unfold has_params. destruct (find_member "params" doc) as [p|] eqn:F; [|discriminate]. destruct p as [| | | | | |l]; try discriminate. cbn.
  intros H. injection H as <-. exists l. split; [exact F|]. apply (occurs_part (JObj doc) (JObj l) ["params"] PT). cbn. rewrite F. reflexivity.
Qed.
Lemma params_hold m x : params_of m = Some x -> holds m [] x. Proof. intros H. apply holds_at. cbn. unfold params_of in H. rewrite H. reflexivity. Qed.
Lemma find_leads n q x : leads [n] (JObj q) x <-> find_member n q = Some x.
Proof. split; [intros H; apply leads_at in H; cbn in H; destruct (find_member n q); congruence|intros H; apply leads_at; cbn; rewrite H; reflexivity]. Qed.
Lemma stored_as t y l : parse t = Some y -> messages y l -> stored_messages t = l.
Proof. intros E M. unfold stored_messages. rewrite E. destruct M as [->|(-> & N)]; [reflexivity|]. destruct y; try reflexivity. destruct (N l eq_refl). Qed.
Lemma alike_stored {P} (s s1 : prc P) : alike s s1 -> p_stored s = p_stored s1. Proof. intros A. apply (f_equal (@p_stored P)) in A. exact A. Qed.
Lemma alike_objs {P} (s s1 : prc P) : alike s s1 -> p_objs s = p_objs s1. Proof. intros A. apply (f_equal (@p_objs P)) in A. exact A. Qed.

(** A message that only executes has the effect of sending the messages of the configuration one after the other, up to the first that gets no reply; it gets a reply exactly if each of these does.
    [elsewhere]: "execute" is not also read as the settings of a plugin. *)
Theorem c48_as_sent_partial {P} (v : env P) n c te q i t y l texts s s1 o :
  behaved v -> carries v te (JObj [("execute", JObj q)]) -> leads ["index"] (JObj q) (JStr i) ->
  sm_get (p_stored s) (cstr i) = Some t -> parse t = Some y -> messages y l -> Forall2 (sent_as v) texts l ->
  handle_ctrl v (S n) c te s = (s1, o) -> (forall j, In j (map fst (p_objs s1)) -> elsewhere "execute" j) ->
  exists s2 b, sends v n c texts s s2 b /\ alike s1 s2 /\ (b = true <-> answered c s s1).
Proof.
  intros B C LI ST PT ML F H EW. destruct (carried v te _ C) as (m & MT & T & V & PX). apply find_leads in LI.
  assert (AS : alike (started v m s) s) by (apply alike_sym, started_alike).
  pose proof (only_execute v n m q i t (started v m s) PX LI ltac:(rewrite (alike_stored _ _ AS); exact ST)) as OE. rewrite (stored_as t y l PT ML) in OE.
  pose proof (sends_each v (proj1 B) B n c l texts (started v m s) s AS F) as SE. unfold seq in OE. destruct (each l _ (started v m s)) as (sa, oa) eqn:EA. destruct SE as (s2 & b & SD & AL & BO). exists s2, b. split; [exact SD|].
  assert (PN : forall j, In j (map fst (p_objs s1)) -> elsewhere "execute" j) by exact EW.
  assert (CF : configure v (S n) m (started v m s) = (sa, oa)).
  { rewrite OE. destruct oa as [[]|e|]; [|reflexivity..].
    apply (pass_none v m q); [exact PX|]. intros j J. apply EW. pose proof (does_pass v false m sa) as MV. pose proof (moves_names v _ _ _ j MV J) as J1.
    destruct (pass_on v m sa) as (sb, ob) eqn:PA. cbn [fst] in J1. assert (CF : configure v (S n) m (started v m s) = (sb, ob)) by exact OE.
    destruct (handle_configure v (proj1 B) (S n) c te m s sb ob MT T V CF) as [(_ & s3 & d & HC & _ & -> & _)|(_ & s3 & HC & _ & _ & OB)].
    - rewrite H in HC. injection HC as -> _. exact J1.
    - rewrite H in HC. cbn in HC. subst s3. rewrite OB. exact J1. }
  destruct (handle_configure v (proj1 B) (S n) c te m s sa oa MT T V CF) as [(-> & s3 & d & HC & _ & _ & A3 & AN)|(NO & s3 & HC & A3 & AN & _)].
  - rewrite H in HC. injection HC as -> _. split; [eapply alike_trans; eassumption|]. tauto.
  - rewrite H in HC. cbn in HC. subst s3. split; [eapply alike_trans; eassumption|]. split; [intros X; apply BO in X; contradiction|contradiction].
Qed.
(** An index where nothing is stored: no effect, and a reply. *)
Theorem c48_unknown {P} (v : env P) n c te q i s s1 o :
  behaved v -> carries v te (JObj [("execute", JObj q)]) -> leads ["index"] (JObj q) (JStr i) -> sm_get (p_stored s) (cstr i) = None ->
  handle_ctrl v (S n) c te s = (s1, o) -> (forall j, In j (map fst (p_objs s)) -> elsewhere "execute" j) -> alike s1 s /\ answered c s s1.
Proof.
  intros B C LI ST H EW. destruct (carried v te _ C) as (m & MT & T & V & PX). apply find_leads in LI. set (s0 := started v m s).
  assert (N : forall k, In k ["hdf/master"; "clear_errors"; "frames"; "inject_eoa"; "debug_level"; "ctrl_endpoint"; "meta_endpoint"; "plugin"; "fr_setup"; "store"] -> has_param m k = Ret false).
  { intros k K. unfold has_param. rewrite PX. cbn in K. repeat (destruct K as [<-|K]; [reflexivity|]). destruct K. }
  assert (SK : forall k (a : M P unit), In k ["hdf/master"; "clear_errors"; "frames"; "inject_eoa"; "debug_level"; "ctrl_endpoint"; "meta_endpoint"; "plugin"; "fr_setup"; "store"] -> (h <- lift (has_param m k) ;; when h a) s0 = (s0, Ret tt)).
  { intros k a K. unfold seq, lift. rewrite (N k K). reflexivity. }
  assert (CF : configure v (S n) m s0 = (s0, Ret tt)).
  { cbn [configure]. unfold configure_once.
    repeat (erewrite skip_seq; [|first [ apply (SK "hdf/master") | apply (SK "clear_errors") | apply (SK "frames") | apply (SK "inject_eoa") | apply (SK "debug_level") | apply (SK "ctrl_endpoint") | apply (SK "meta_endpoint") | apply (SK "plugin") | apply (SK "fr_setup") | apply (SK "store") ]; cbn; tauto]).
    erewrite skip_seq; [apply (pass_none v m q s0 PX EW)|]. unfold run_stored. erewrite skip_seq; [|unfold lift, has_param; rewrite PX; reflexivity]. cbn [when]. erewrite skip_seq; [|unfold section, seq, lift, get_ref, get_raw; rewrite PX; reflexivity].
    assert (PS : params_of (msg_of_value (JObj q) TIllegal VIllegal true (v_now v)) = Some (JObj q)) by reflexivity.
    erewrite skip_seq; [|unfold lift, has_param; rewrite PS; cbn; rewrite LI; reflexivity]. cbn [when]. erewrite skip_seq; [|unfold str_param, lift, bind, get_param, get_raw; rewrite PS; cbn; rewrite LI; reflexivity].
    unfold seq, get. change (p_stored s0) with (p_stored s). rewrite ST. reflexivity. }
  destruct (handle_configure v (proj1 B) (S n) c te m s s0 (Ret tt) MT T V CF) as [(_ & s3 & d & HC & _ & _ & A3 & AN)|(NO & _)]; [|congruence]. rewrite H in HC. injection HC as -> _. split; [eapply alike_trans; [exact A3|apply alike_sym, started_alike]|exact AN].
Qed.
(** What a message that gets a reply stores: the value, up to doubles, at the index; other indexes keep theirs. *)
Theorem c48_stored {P} (v : env P) n c te x i y s s1 o :
  polite v -> carries v te x -> leads ["store"; "index"] x (JStr i) -> leads ["store"; "value"] x y -> (forall z, ~ leads ["execute"] x z) ->
  handle_ctrl v (S n) c te s = (s1, o) -> answered c s s1 ->
  (exists t, sm_get (p_stored s1) (cstr i) = Some t /\ ((forall b, occurs (JDouble b) y -> ~ no_number b) -> exists y', parse t = Some y' /\ like read_back y y')) /\
  forall j, j <> cstr i -> sm_get (p_stored s1) j = sm_get (p_stored s) j.
Proof.
  intros B C LI LY NE H AN. destruct (carried v te _ C) as (m & MT & T & V & PX). destruct (strict_params v te m MT) as (l & PL & MX). rewrite PL in PX. injection PX as <-.
  destruct (configure v (S n) m (started v m s)) as (sa, oa) eqn:CF.
  destruct (handle_configure v B (S n) c te m s sa oa MT T V CF) as [(-> & s3 & d & HC & _ & _ & A3 & _)|(NO & s3 & HC & _ & NA & _)]; [|rewrite H in HC; cbn in HC; subst s3; contradiction].
  rewrite H in HC. injection HC as -> _. rewrite (alike_stored _ _ A3). clear A3 AN H.
  change (configure v (S n) m (started v m s)) with (configure_once v (configure v n) m (started v m s)) in CF. rewrite once_eq in CF. unfold seq at 1 in CF.
  pose proof (moves_stored v _ _ (does_settings v false m (started v m s))) as E1. fold (settings v m) in E1. destruct (settings v m (started v m s)) as (sb, [[]|e|]); [|discriminate CF..]. cbn in E1.
  unfold seq at 1 in CF. assert (ST : store v m sb = (w_stored (sm_put (p_stored sb) (cstr i) (cut (fst (emit y)))) sb, Ret tt)).
  { apply leads_at in LI, LY. cbn in LI, LY. destruct (find_member "store" l) as [z|] eqn:FS; [|discriminate]. destruct z as [| | | | | |q]; try discriminate. destruct (find_member "index" q) as [z1|] eqn:FI; [|discriminate]. injection LI as ->. destruct (find_member "value" q) as [z2|] eqn:FV; [|discriminate]. injection LY as ->.
    unfold store. erewrite skip_seq; [|unfold lift, has_param; rewrite PL; cbn; rewrite FS; reflexivity]. cbn [when]. erewrite skip_seq; [|unfold section, seq, lift, get_ref, get_raw; rewrite PL; cbn; rewrite FS; reflexivity].
    assert (PS : params_of (msg_of_value (JObj q) TIllegal VIllegal true (v_now v)) = Some (JObj q)) by reflexivity.
    erewrite skip_seq; [|unfold has_all, seq, lift, has_param; rewrite PS; cbn; rewrite FI, FV; reflexivity]. cbn [when]. erewrite skip_seq; [|unfold str_param, lift, bind, get_param, get_raw; rewrite PS; cbn; rewrite FI; reflexivity].
    erewrite skip_seq; [|unfold lift, get_ref, get_raw; rewrite PS; cbn; rewrite FV; reflexivity]. reflexivity. }
  rewrite ST in CF. unfold seq at 1 in CF. assert (RN : run_stored v (configure v n) m (w_stored (sm_put (p_stored sb) (cstr i) (cut (fst (emit y)))) sb) = (w_stored (sm_put (p_stored sb) (cstr i) (cut (fst (emit y)))) sb, Ret tt)).
  { unfold run_stored, seq, lift, has_param. rewrite PL. cbn. destruct (find_member "execute" l) as [z|] eqn:FE; [|reflexivity]. destruct (NE z). apply find_leads, FE. }
  rewrite RN in CF. pose proof (moves_stored v _ _ (does_pass v false m (w_stored (sm_put (p_stored sb) (cstr i) (cut (fst (emit y)))) sb))) as E2. rewrite CF in E2. cbn [fst] in E2. rewrite E2, <- E1. cbn. split.
  - exists (cut (fst (emit y))). rewrite sm_get_put, String.eqb_refl. split; [reflexivity|]. intros ND. rewrite parse_cut. assert (MY : machine y) by (eapply occurs_part; [exact MX|apply leads_at, LY]). destruct (c55_written y MY ND) as (y' & _ & PY & LK). eauto.
  - intros j N. rewrite sm_get_put. apply String.eqb_neq in N. rewrite N. reflexivity.
Qed.
(** If all messages sent have ranks below [b], execution ends at any depth of the stack from [b] on, in the same way. *)
Theorem c48_ends_partial {P} (v : env P) r b n s0 s c t :
  polite v -> p_stored s0 = [] -> b <= n ->
  let ok t := forall x, carries v t x -> ranked r b x in
  reached v (S n) ok s0 s -> ok t -> snd (handle_ctrl v (S n) c t s) <> Throw PDeep /\ forall k, handle_ctrl v (S n + k) c t s = handle_ctrl v (S n) c t s.
Proof.
  intros PO S0 LB ok RE OK.
  assert (STEP : forall c t s, ok t -> kept r s -> snd (handle_ctrl v (S n) c t s) <> Throw PDeep /\ kept r (fst (handle_ctrl v (S n) c t s)) /\ forall k, handle_ctrl v (S n + k) c t s = handle_ctrl v (S n) c t s).
  { clear s c t RE OK. intros c t s OK K. destruct (msg_of_text (v_clock v) t true) as [m|e|] eqn:MT.
    2,3: unfold handle_ctrl; rewrite MT; try destruct e; (split; [discriminate|]; split; [exact K|reflexivity]).
    assert (REQ : snd (request v (S n) t m (begun v m s)) <> Throw PDeep /\ kept r (fst (request v (S n) t m (begun v m s))) /\ forall k, request v (S n + k) t m (begun v m s) = request v (S n) t m (begun v m s)).
    { assert (D : (g_type m, g_val m) = (TCmd, VConfigure) \/ (g_type m, g_val m) <> (TCmd, VConfigure)) by (destruct (g_type m), (g_val m); (left; reflexivity) || (right; discriminate)). destruct D as [D|D].
      - injection D as T V. assert (RQ : forall k, request v k t m (begun v m s) = configure v k m (started v m s)) by (intros k; unfold request; rewrite T, V; reflexivity). destruct (strict_params v t m MT) as (l & PL & MX).
        assert (RK : ranked r b (JObj l)) by (apply OK; exists m; split; [exact MT|]; split; [exact T|]; split; [exact V|apply params_hold, PL]).
        destruct (configure_ends v r n b (JObj l) m (started v m s) LB RK MX PL K) as (D & K1). rewrite !RQ. split; [exact D|]. split; [exact K1|]. intros k. rewrite !RQ. apply deeper, D.
      - split; [|split].
        + apply sh_request, D.
        + pose proof (calm_request v PO (S n) t m D (begun v m s)) as CR. destruct (request v (S n) t m (begun v m s)) as (s1, o). destruct CR as (lo & _ & (E & _) & _). apply (kept_same r s); [|exact K]. apply (f_equal (@p_stored P)) in E. exact E.
        + intros k. unfold request. destruct (g_type m), (g_val m); try reflexivity. congruence. }
    destruct REQ as (D & K1 & RK). destruct (request v (S n) t m (begun v m s)) as (s1, o) eqn:RQ. cbn [fst snd] in D, K1.
    pose proof (handle_request v PO (S n) c t m s s1 o MT RQ) as HR. assert (HK : forall k, handle_ctrl v (S n + k) c t s = handle_ctrl v (S n) c t s).
    { intros k. specialize (RK k). rewrite <- RQ in RK. revert RK. generalize (S n + k) (S n). intros p q E. unfold handle_ctrl. rewrite MT. cbv zeta.
      assert (G : forall d, (change (w_reply (Msg (g_strict (new_msg TIllegal VIllegal true (v_now v))) (g_doc (new_msg TIllegal VIllegal true (v_now v))) TIllegal (g_val m) (g_id m) (g_time (new_msg TIllegal VIllegal true (v_now v))))) ;; request v d t m ;; r <- get p_reply ;; x <- lift (encode (v_clock v) r) ;; tell (FReply c x)) s
        = (let '(s1, o) := request v d t m (begun v m s) in match o with Ret _ => (r <- get p_reply ;; x <- lift (encode (v_clock v) r) ;; tell (FReply c x)) s1 | Throw e => (s1, Throw e) | Undef => (s1, Undef) end)) by reflexivity.
      rewrite !G, E. reflexivity. }
    match goal with |- ?A /\ ?B /\ ?C => assert (AB : A /\ B); [|split; [apply AB|]; split; [apply AB|exact HK]] end. split.
    all: destruct o as [[]|e|]; [destruct HR as (d & _ & HR)|destruct e as [[[]|w|]|]; try (destruct HR as (d & rr & _ & HR))|]; rewrite HR; try discriminate; try exact K1; try contradiction. }
  assert (K : kept r s).
  { induction RE as [|s c' t' s1 RE IH OT HC]; [unfold kept; rewrite S0; discriminate|]. destruct (STEP c' t' s OT IH) as (_ & K & _). rewrite HC in K. exact K. }
  destruct (STEP c t s OK K) as (A & _ & C). auto.
Qed.

(** ** A controller whose plugins note what they are given *)
Definition noted := list json.
Definition given (m : msg) : json := match params_of m with Some x => x | None => JNull end.
Definition note_env : env noted :=
  Env (fun o m r => (o ++ [given m], r, Ret tt)) (fun o r => (o, r, Ret tt)) (fun o n r => (o ++ [JStr n], r, Ret tt)) (fun o r => (o, r, Ret tt))
      (fun o => ["start"; "stop"]) (fun o => ([], true)) (fun o => o) (fun o => o) (fun o => []) (fun o => []) (fun o => (0, 0, 0)%Z) (fun o => (1, 2, 3, "1.2.3", "1.2.3-5")%Z)
      (fun l => if String.eqb l "libDummy.so" then inr ["Dummy"] else inl "no such file") (fun c i => Some []) (fun i => None)
      (fun b e => if existsb (String.eqb e) b then Some "Address already in use" else None) (fun b e => if existsb (String.eqb e) b then Some "Address already in use" else None) (fun p q => None) true
      5%Z a_clock 1%Z 2%Z 3%Z "1.2.3" "1.2.3-4".
Lemma note_behaved : behaved note_env.
Proof. split; [intros o r; unfold keeps_head; cbn; intuition|intros o m r r'; split; reflexivity]. Qed.
Definition command_text (w p : string) : list ascii := list_ascii_of_string ("{""msg_type"":""cmd"",""msg_val"":""" ++ w ++ """,""id"":7,""timestamp"":""2017-06-07T12:00:05"",""params"":" ++ p ++ "}")%string.
Definition to_configure := command_text "configure".
Definition fresh : prc noted := prc_init 0 0.
Fixpoint run (n : nat) (l : list string) (s : prc noted) : prc noted := match l with [] => s | t :: r => run n r (fst (handle_ctrl note_env n "c" (to_configure t) s)) end.

Lemma answered_new {P} c (s s1 : prc P) d : p_out s1 = p_out s ++ [FReply c d] -> answered c s s1. Proof. intros H. exists [], d. exact H. Qed.
Ltac refused := match goal with |- ~ answered _ ?s ?s1 => apply (not_answered _ s s1 []); [vm_compute; reflexivity|constructor] end.

(** Two messages, the second to a plugin *)
Definition two := "[{""debug_level"":3},{""hdf"":{""a"":1}}]".
Definition before := run 4 ["{""plugin"":{""load"":{""name"":""Dummy"",""index"":""hdf"",""library"":""libDummy.so""}}}"; "{""store"":{""index"":""x"",""value"":" ++ two ++ "}}"]%string fresh.
Example c48_case : exists s1 t y,
  carries note_env (to_configure "{""execute"":{""index"":""x""}}") (JObj [("execute", JObj [("index", JStr "x")])]) /\ leads ["index"] (JObj [("index", JStr "x")]) (JStr "x") /\
  sm_get (p_stored before) "x" = Some t /\ parse t = Some y /\ messages y [JObj [("debug_level", JInt 3)]; JObj [("hdf", JObj [("a", JInt 1)])]] /\
  Forall2 (sent_as note_env) [to_configure "{""debug_level"":3}"; to_configure "{""hdf"":{""a"":1}}"] [JObj [("debug_level", JInt 3)]; JObj [("hdf", JObj [("a", JInt 1)])]] /\
  handle_ctrl note_env 4 "c" (to_configure "{""execute"":{""index"":""x""}}") before = (s1, Ret tt) /\ map fst (p_objs s1) = ["hdf"] /\ elsewhere "execute" "hdf" /\
  answered "c" before s1 /\ p_debug before = 0%Z /\ p_debug s1 = 3%Z /\ sm_get (p_objs before) "hdf" = Some [] /\ sm_get (p_objs s1) "hdf" = Some [JObj [("a", JInt 1)]].
Proof.
  eexists. exists (list_ascii_of_string two). eexists. split; [eexists; split; [vm_compute; reflexivity|]; split; [reflexivity|]; split; [reflexivity|]; apply params_hold; reflexivity|]. split; [apply find_leads; reflexivity|]. split; [vm_compute; reflexivity|]. split; [vm_compute; reflexivity|]. split; [left; reflexivity|].
  split; [repeat constructor; (eexists; split; [vm_compute; reflexivity|]; split; [reflexivity|]; split; [reflexivity|]; apply params_hold; reflexivity)|]. split; [vm_compute; reflexivity|]. split; [reflexivity|]. split; [exists "hdf", []; split; [|split; [reflexivity|discriminate]]; split; [discriminate|]; split; (constructor; [|constructor]); vm_compute; intuition discriminate|].
  split; [eapply answered_new; vm_compute; reflexivity|]. split; [vm_compute; reflexivity|]. split; [reflexivity|]. split; [vm_compute; reflexivity|reflexivity].
Qed.

(** A configuration that executes itself does not end, whatever the depth of the stack. *)
Definition itself := "{""execute"":{""index"":""a""}}".
Theorem c48_self_refuted : exists s, (forall n, handle_ctrl note_env (S n) "c" (to_configure ("{""store"":{""index"":""a"",""value"":" ++ itself ++ "}}")%string) fresh = (s, Ret tt)) /\ answered "c" fresh s /\
  forall n, snd (handle_ctrl note_env n "c" (to_configure itself) s) = Throw PDeep.
Proof.
  eexists. split; [intros n; vm_compute; reflexivity|]. split; [eapply answered_new; vm_compute; reflexivity|]. set (s := Prc _ _ _ _ _ _ _ _ _ _ _ _ _ _).
  assert (D : forall n m s', params_of m = Some (JObj [("execute", JObj [("index", JStr "a")])]) -> p_stored s' = p_stored s -> snd (configure note_env n m s') = Throw PDeep).
  { induction n as [|n IH]; intros m s' PM ST; [reflexivity|]. rewrite (only_execute note_env n m [("index", JStr "a")] "a" (list_ascii_of_string itself) s' PM eq_refl); [|rewrite ST; reflexivity]. replace (stored_messages (list_ascii_of_string itself)) with [JObj [("execute", JObj [("index", JStr "a")])]] by (vm_compute; reflexivity).
    cbn [each]. unfold seq at 1, seq at 1. specialize (IH (msg_of_value (JObj [("execute", JObj [("index", JStr "a")])]) TCmd VConfigure true (v_now note_env)) s' eq_refl ST). destruct (configure note_env n _ s') as (s2, o). cbn in IH. subst o. reflexivity. }
  intros n. destruct (msg_of_text a_clock (to_configure itself) true) as [m|e|] eqn:MT; [|vm_compute in MT; discriminate..]. assert (PM : params_of m = Some (JObj [("execute", JObj [("index", JStr "a")])]) /\ g_type m = TCmd /\ g_val m = VConfigure) by (vm_compute in MT; injection MT as <-; repeat split). destruct PM as (PM & T & V).
  specialize (D n m (started note_env m s) PM eq_refl). destruct (configure note_env n m (started note_env m s)) as (s1, o) eqn:CF. cbn in D. subst o.
  assert (RQ : request note_env n (to_configure itself) m (begun note_env m s) = (s1, Throw PDeep)) by (unfold request; rewrite T, V; exact CF). rewrite (handle_request note_env (proj1 note_behaved) n "c" (to_configure itself) m s s1 _ MT RQ). reflexivity.
Qed.
(** Execution stops at the first message that fails; clients that send them all get further. *)
Theorem c48_rest_refuted : let bad := "{""debug_level"":""x""}" in let good := "{""debug_level"":3}" in
  let s := run 4 ["{""store"":{""index"":""a"",""value"":[" ++ bad ++ "," ++ good ++ "]}}"]%string fresh in
  p_debug (run 4 [itself] s) = 0%Z /\ ~ answered "c" s (run 4 [itself] s) /\ p_debug (run 4 [bad; good] s) = 3%Z.
Proof. intros bad good s. split; [vm_compute; reflexivity|]. split; [refused|vm_compute; reflexivity]. Qed.
(** A number that is read as infinity cannot be stored: the message has an effect when it is sent, but not when it is stored and executed. *)
Theorem c48_infinite_refuted : let t := "{""debug_level"":3,""hdf"":{""x"":1.7976931348623159e308}}" in
  let s := run 4 ["{""store"":{""index"":""a"",""value"":" ++ t ++ "}}"]%string fresh in
  answered "c" fresh s /\ p_debug (run 4 [t] s) = 3%Z /\ answered "c" s (run 4 [t] s) /\ p_debug (run 4 [itself] s) = 0%Z /\ ~ answered "c" s (run 4 [itself] s).
Proof. intros t s. split; [eapply answered_new; vm_compute; reflexivity|]. split; [vm_compute; reflexivity|]. split; [eapply answered_new; vm_compute; reflexivity|]. split; [vm_compute; reflexivity|refused]. Qed.
(** A message stores [y] with a rank; the storing of [itself] has none. *)
Example c48_ranks : ranked (fun i => if String.eqb i "x" then 1 else 0) 2 (JObj [("store", JObj [("index", JStr "x"); ("value", JObj [("execute", JObj [("index", JStr "y")])])]); ("execute", JObj [("index", JStr "x")])]) /\
  forall r b, ~ ranked r b (JObj [("store", JObj [("index", JStr "a"); ("value", JObj [("execute", JObj [("index", JStr "a")])])])]).
Proof.
  split.
  - constructor; [intros i H; apply leads_at in H; injection H as <-; cbn; lia|]. intros i y z H1 H2 (l & M & I). apply leads_at in H1, H2. injection H1 as <-. injection H2 as <-. destruct M as [M|(-> & _)]; [discriminate|]. destruct I as [<-|[]]. constructor; [intros i H; apply leads_at in H; injection H as <-; cbn; lia|]. intros i y z H. apply leads_at in H. discriminate.
  - intros r b R. inversion R as [? ? _ S]; subst. specialize (S "a" _ (JObj [("execute", JObj [("index", JStr "a")])]) ltac:(apply leads_at; reflexivity) ltac:(apply leads_at; reflexivity)). specialize (S ltac:(eexists; split; [right; split; [reflexivity|discriminate]|left; reflexivity])). inversion S as [? ? E _]; subst. specialize (E "a" ltac:(apply leads_at; reflexivity)). cbn in E. lia.
Qed.
(** Storing and executing an index that is not there *)
Example c48_stored_case : let te := to_configure ("{""store"":{""index"":""x"",""value"":" ++ two ++ "}}")%string in exists x y s1,
  carries note_env te x /\ leads ["store"; "index"] x (JStr "x") /\ leads ["store"; "value"] x y /\ (forall z, ~ leads ["execute"] x z) /\ handle_ctrl note_env 1 "c" te fresh = (s1, Ret tt) /\ answered "c" fresh s1 /\ (forall b, ~ occurs (JDouble b) y) /\
  carries note_env (to_configure "{""execute"":{""index"":""z""}}") (JObj [("execute", JObj [("index", JStr "z")])]) /\ sm_get (p_stored s1) "z" = None /\ map fst (p_objs s1) = [].
Proof.
  intros te. eexists. eexists. eexists. split; [eexists; split; [vm_compute; reflexivity|]; split; [reflexivity|]; split; [reflexivity|]; apply params_hold; reflexivity|]. split; [apply leads_at; reflexivity|]. split; [apply leads_at; reflexivity|]. split; [intros z H; apply leads_at in H; discriminate|].
  split; [vm_compute; reflexivity|]. split; [eapply answered_new; vm_compute; reflexivity|]. split; [|split; [eexists; split; [vm_compute; reflexivity|]; split; [reflexivity|]; split; [reflexivity|]; apply params_hold; reflexivity|split; reflexivity]].
  intros b O. repeat match goal with
    | H : occurs _ (JArr _) |- _ => inversion H; clear H; subst
    | H : occurs _ (JObj _) |- _ => inversion H; clear H; subst
    | H : occurs _ (JInt _) |- _ => inversion H; clear H; subst
    | H : In _ [] |- _ => destruct H
    | H : In _ (_ :: _) |- _ => apply in_inv in H; destruct H as [H|H]
    | H : (_, _) = (_, _) |- _ => injection H as <- <-
    | H : _ = ?x |- _ => is_var x; subst x end.
Qed.

Print Assumptions c48_as_sent_partial.
Print Assumptions c48_unknown.
Print Assumptions c48_stored.
Print Assumptions c48_ends_partial.
Print Assumptions c48_self_refuted.
Print Assumptions c48_rest_refuted.
Print Assumptions c48_infinite_refuted.
