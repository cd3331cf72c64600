(** C69: what a configuration file does at the start of the frame receiver. *)
From Coq Require Import String Ascii Lia.
From Verif Require Import Base StrOrder FrameModel JsonModel JsonSpec JsonProofs LiveModel PortModel EqualModel JsonReadModel JsonDoubleModel RcvModel RcvSpec RcvProofs RcvReply RcvCount JsonProps RcvSafe RcvProps RcvCases AppModel RappModel RappSpec RappProofs.
Local Open Scope string_scope.
Local Open Scope list_scope.
Local Open Scope Z_scope.

Lemma start_good v ctrl s s1 : receiver_run v ctrl None s = (s1, Runs) -> good (c_reply s1).
Proof.
  unfold receiver_run, receiver_start. cbn -[configure]. unfold seq, lift. set (m := with_doc _ _). set (r0 := w_c_reply _ s). pose proof (resp_configure (v O) m m eq_refl r0 r0) as R. specialize (R ltac:(split; [apply alike_refl|split; apply good_new])). cbn -[configure].
  destruct (configure (v O) m r0) as (s2, [[]|e|]); cbn; try discriminate. intros H. injection H as <-. apply R.
Qed.
Lemma start_with v ctrl t s s1 : receiver_run v ctrl None s = (s1, Runs) ->
  receiver_run v ctrl (Some t) s = match load_file v t s1 with (s2, Ret _) => (s2, Runs) | (s2, Throw _) => (s2, Ends 1) | (s2, Undef) => (s2, Dies) end.
Proof.
  unfold receiver_run, receiver_start. cbn -[configure load_file]. unfold seq, lift. set (m := with_doc _ _). destruct (configure (v O) m _) as (s2, [[]|e|]); cbn -[load_file]; try discriminate. intros H. injection H as <-. reflexivity.
Qed.
(** The file has the effect of its messages sent by a client one after the other, up to one that is refused or ends the process; the program serves requests iff it got through them all. *)
Theorem c69_receiver v ctrl c t y l docs s s0 s1 r :
  receiver_run v ctrl None s0 = (s, Runs) -> t <> [] -> JsonReadModel.parse t = Some y -> messages_of y l -> Forall2 asks_for docs l -> receiver_run v ctrl (Some t) s0 = (s1, r) ->
  exists s2 b, hands v c 1 docs s s2 b /\ alike s1 s2 /\ (b = true <-> r = Runs).
Proof.
  intros ST NE PT ML F R. rewrite (start_with v ctrl t s0 s ST) in R. pose proof (submit_hands v c l docs 1 s s (alike_refl s) (start_good _ _ _ _ ST) F) as SH.
  assert (LF : load_file v t s = submit v 1 l s). { unfold load_file. destruct t; [congruence|]. rewrite PT. destruct ML as [->|(-> & NA)]; [reflexivity|]. destruct y; try reflexivity. destruct (NA l). reflexivity. }
  rewrite LF in R. destruct (submit v 1 l s) as (sa, oa). destruct SH as (s2 & b & HA & AL & BO). exists s2, b. split; [exact HA|]. destruct oa as [[]|e|]; injection R as <- <-; (split; [exact AL|]); rewrite BO; split; congruence.
Qed.
(** Nobody gets a reply at the start. *)
Theorem c69_receiver_silent v ctrl file s s1 r : receiver_run v ctrl file s = (s1, r) -> r <> Dies -> exists l, c_out s1 = c_out s ++ l /\ forall f, In f l -> ~ is_reply f.
Proof.
  intros H NU. set (o := c_out s). assert (CS : forall v m s, silent o s -> match configure v m s with (s1, Undef) => True | (s1, _) => silent o s1 end).
  { intros v0 m s0 S0. pose proof (silent_configure o v0 m s0 S0) as S. unfold post in S. destruct (configure v0 m s0) as (s2, [[]|e|]); exact S. }
  assert (SU : forall l i s, silent o s -> match submit v i l s with (s1, Undef) => True | (s1, _) => silent o s1 end).
  { induction l as [|x l IH]; intros i s0 S0; [exact S0|]. cbn [submit]. specialize (CS (v i) (msg_of_value x TCmd VConfigure true (v_now (v i))) s0 S0). unfold result. destruct (configure (v i) _ s0) as (s2, [[]|e|]); cbn [fst snd]; [apply IH, CS|exact CS|exact Logic.I]. }
  assert (LF : forall t s, silent o s -> match load_file v t s with (s1, Undef) => True | (s1, _) => silent o s1 end).
  { intros t s0 S0. unfold load_file. destruct t; [exact S0|]. destruct (JsonReadModel.parse _) as [[]|]; try (apply SU, S0); exact S0. }
  revert H. unfold receiver_run, receiver_start. cbn -[configure load_file]. unfold seq, lift. set (m := with_doc _ _). cbn -[configure load_file]. set (r0 := w_c_reply _ s). specialize (CS (v O) m r0 ltac:(exists []; split; [symmetry; apply app_nil_r|intros f []])).
  destruct (configure (v O) m r0) as (s2, [[]|e|]); cbn -[load_file]; [|intros H; injection H as <- <-; exact CS|intros H; injection H as <- <-; congruence].
  destruct file as [t|]; [|intros H; injection H as <- <-; exact CS]. specialize (LF t s2 CS). destruct (load_file v t s2) as (s3, [[]|e|]); intros H; injection H as <- <-; try exact LF. congruence.
Qed.
Lemma last_dir dir : last_char (dir ++ "/lib/") = Some "/"%char.
Proof.
  induction dir as [|c d IH]; [reflexivity|]. cbn [append last_char]. destruct (d ++ "/lib/")%string eqn:E; [|exact IH]. destruct d; discriminate.
Qed.
Lemma skip {A B} (a : M A) (f : A -> M B) s x s1 : a s = (s1, Ret x) -> seq a f s = f x s1.
Proof. intros E. unfold seq. rewrite E. reflexivity. Qed.
Lemma path_self t : (t =? t)%string = true. Proof. apply String.eqb_refl. Qed.
(** A receiver that has been given its endpoints only is not configured any further. *)
Lemma only_ends v m e e' s : params_of m = Some (JObj [("ctrl_endpoint", JStr e); ("rx_endpoint", JStr e')]) -> last_char (s_path (c_cfg s)) = Some "/"%char -> c_ndec s = false -> c_nbuf s = false -> c_decoder s = None -> s_rx (c_cfg s) = RxUDP -> (exists p, rx_port_list (s_ports (c_cfg s)) = Some p) ->
  configure_frame_decoder v m s = (s, Ret tt) /\ configure_buffer_manager v m s = (s, Ret tt) /\ configure_rx_thread v m s = (if c_nrx s then w_c_rx false s else s, Ret tt).
Proof.
  intros PM LP ND NB DE RX (p & PO).
  assert (STR : forall n d, In n ["decoder_path"; "decoder_type"; "shared_buffer_name"; "rx_type"; "rx_address"; "rx_ports"] -> str_param_or m n d = Ret d).
  { intros n d I. unfold str_param_or, get_param_or. rewrite PM. cbn in I. repeat (destruct I as [<-|I]; [reflexivity|]). destruct I. }
  assert (HAS : has_param m "decoder_config" = Ret false) by (unfold has_param; rewrite PM; reflexivity).
  assert (INT : forall g n d, In n ["max_buffer_mem"; "rx_recv_buffer_size"] -> int_param_or g m n d = Ret d).
  { intros g n d I. unfold int_param_or, get_param_or. rewrite PM. cbn in I. repeat (destruct I as [<-|I]; [reflexivity|]). destruct I. }
  split; [|split].
  - unfold configure_frame_decoder. erewrite skip by reflexivity. erewrite skip by (rewrite STR by (cbn; tauto); reflexivity). rewrite path_self. erewrite skip by reflexivity. rewrite LP. cbv zeta. erewrite skip by reflexivity. erewrite skip by (rewrite STR by (cbn; tauto); reflexivity). rewrite path_self. erewrite skip by reflexivity.
    erewrite skip by (rewrite HAS; reflexivity). erewrite skip by reflexivity. erewrite skip by (unfold get; rewrite ND; reflexivity). reflexivity.
  - unfold configure_buffer_manager. erewrite skip by reflexivity. erewrite skip by (rewrite STR by (cbn; tauto); reflexivity). rewrite path_self. erewrite skip by reflexivity. erewrite skip by reflexivity. erewrite skip by (rewrite INT by (cbn; tauto); reflexivity). rewrite Z.eqb_refl. erewrite skip by reflexivity.
    erewrite skip by (unfold get; rewrite NB; reflexivity). reflexivity.
  - unfold configure_rx_thread. erewrite skip by (unfold setting, get; rewrite RX; reflexivity). erewrite skip by (rewrite STR by (cbn; tauto); reflexivity). cbv zeta. change (rx_type_of_name (rx_name_of_type RxUDP)) with RxUDP. erewrite skip by reflexivity. erewrite skip by reflexivity. erewrite skip by (rewrite STR by (cbn; tauto); reflexivity). rewrite path_self. erewrite skip by reflexivity.
    erewrite skip by reflexivity. erewrite skip by (rewrite INT by (cbn; tauto); reflexivity). rewrite Z.eqb_refl. erewrite skip by reflexivity. erewrite skip by reflexivity. rewrite PO. erewrite skip by (rewrite STR by (cbn; tauto); reflexivity). rewrite path_self. erewrite skip by reflexivity.
    erewrite skip by reflexivity. destruct (c_nrx s); [|reflexivity]. cbn [when]. erewrite skip by reflexivity. erewrite skip by (unfold get; change (c_decoder (w_c_rx false s)) with (c_decoder s); rewrite DE; reflexivity). erewrite skip by reflexivity. reflexivity.
Qed.
(** Control and internal channel can be bound: clients reach the receiver at its endpoint.  The memory of a string just freed is still there (PortModel). *)
Theorem c69_receiver_endpoint v ctrl dir fr tot now : let e := cstr ctrl in
  v_bind (v O) [] CCtrl e = None -> v_bind (v O) [(CCtrl, e)] CRx "inproc://rx_channel" = None -> e <> "" ->
  exists s, receiver_run v ctrl None (rc_init dir (fun t => t) fr tot now) = (s, Runs) /\ listening CCtrl s /\ s_end (c_cfg s) CCtrl = e.
Proof.
  intros e B1 B2 NE. unfold receiver_run, receiver_start. cbn -[configure rc_init]. unfold seq, lift. set (m := with_doc _ _). set (r0 := w_c_reply _ _). cbn -[configure r0].
  assert (PM : params_of m = Some (JObj [("ctrl_endpoint", JStr e); ("rx_endpoint", JStr "inproc://rx_channel")])) by reflexivity. clearbody m.
  assert (NO : forall k, In k ["debug_level"; "frames"; "frame_ready_endpoint"; "frame_release_endpoint"] -> has_param m k = Ret false) by (intros k I; unfold has_param; rewrite PM; cbn in I; repeat (destruct I as [<-|I]; [reflexivity|]); destruct I).
  assert (IDEM : cstr e = e) by apply cstr_idem. assert (NEQ : (e =? "")%string = false) by (apply String.eqb_neq; exact NE).
  assert (CP : exists s1, configure_parts (v O) m (with_val (g_val m) r0) = (s1, Ret tt) /\ c_bound s1 = [(CCtrl, e); (CRx, "inproc://rx_channel")] /\ s_end (c_cfg s1) CCtrl = e).
  { set (s0 := with_val (g_val m) r0). unfold configure_parts. erewrite skip by (rewrite NO by (cbn; tauto); reflexivity). erewrite skip by reflexivity. erewrite skip by (rewrite NO by (cbn; tauto); reflexivity). erewrite skip by reflexivity.
    assert (IPC : exists s2, configure_ipc_channels (v O) m s0 = (s2, Ret tt) /\ s2 = w_c_ipc false (w_c_nrx true (w_c_once [CRx; CCtrl] (w_c_cfg (c_cfg s2) (w_c_bound [(CCtrl, e); (CRx, "inproc://rx_channel")] (w_c_out [FBind CCtrl e; FBind CRx "inproc://rx_channel"] s0))))) /\ c_cfg s2 = w_s_end (s_end (c_cfg s2)) (c_cfg s0) /\ s_end (c_cfg s2) CCtrl = e).
    { unfold configure_ipc_channels. erewrite skip by reflexivity.
      assert (H1 : has_param m "ctrl_endpoint" = Ret true) by (unfold has_param; rewrite PM; reflexivity). assert (H2 : has_param m "rx_endpoint" = Ret true) by (unfold has_param; rewrite PM; reflexivity).
      assert (S1 : str_param m "ctrl_endpoint" = Ret e) by (unfold str_param, get_param, get_raw; rewrite PM; cbn; rewrite IDEM; reflexivity). assert (S2 : str_param m "rx_endpoint" = Ret "inproc://rx_channel") by (unfold str_param, get_param, get_raw; rewrite PM; reflexivity).
      erewrite skip.
      2:{ unfold configure_channel, endpoint_name. erewrite skip by (rewrite H1; reflexivity). cbn [when]. erewrite skip by (rewrite S1; reflexivity). erewrite skip by reflexivity. change (s_end (c_cfg (w_c_ipc false s0)) CCtrl) with "". rewrite NEQ. cbn [negb when chan_eqb]. erewrite skip by reflexivity.
          erewrite skip. 2:{ unfold setup_channel. erewrite skip by reflexivity. change (c_bound (w_c_ipc false s0)) with (@nil (chan * string)). rewrite B1. reflexivity. } reflexivity. }
      erewrite skip.
      2:{ unfold configure_channel, endpoint_name. erewrite skip by (rewrite H2; reflexivity). cbn [when]. erewrite skip by (rewrite S2; reflexivity). erewrite skip by reflexivity. match goal with |- when ?b _ _ = _ => change b with true end. cbn [when chan_eqb]. erewrite skip by reflexivity.
          erewrite skip. 2:{ unfold setup_channel. erewrite skip by reflexivity. match goal with |- context [v_bind _ ?l CRx] => change l with [(CCtrl, e)] end. rewrite B2. reflexivity. } reflexivity. }
      erewrite skip by (unfold configure_channel, endpoint_name; erewrite skip by (rewrite NO by (cbn; tauto); reflexivity); reflexivity). erewrite skip by (unfold configure_channel, endpoint_name; erewrite skip by (rewrite NO by (cbn; tauto); reflexivity); reflexivity).
      eexists. split; [reflexivity|]. repeat split; reflexivity. }
    destruct IPC as (s2 & EI & E2 & EC & EE). erewrite skip by exact EI. destruct (only_ends (v O) m e "inproc://rx_channel" s2 PM) as (OD & OB & OR).
    { rewrite EC. exact (last_dir dir). } { rewrite E2. reflexivity. } { rewrite E2. reflexivity. } { rewrite E2. reflexivity. } { rewrite EC. reflexivity. } { rewrite EC. eexists. vm_compute. reflexivity. }
    erewrite skip by exact OD. erewrite skip by exact OB. erewrite skip by exact OR. replace (c_nrx s2) with true by (rewrite E2; reflexivity).
    erewrite skip by reflexivity. erewrite skip by reflexivity. erewrite skip by reflexivity. erewrite skip by reflexivity. erewrite skip by reflexivity. erewrite skip by reflexivity. match goal with |- context [puts _ ?st] => rewrite (report_reply _ _ _ _ (c_reply st)) end; [|rewrite E2; reflexivity|reflexivity].
    eexists. split; [reflexivity|]. split; [rewrite E2; reflexivity|exact EE]. }
  destruct CP as (s1 & CP & BO & EE). pose proof (configure_cases (v O) m r0 eq_refl) as CC. destruct (configure (v O) m r0) as (s2, [[]|x|]); cbn [fst snd] in *.
  - destruct CC as [(C & _)|(w & s3 & C & _)]; rewrite CP in C; [|discriminate]. injection C as <-. eexists. split; [reflexivity|]. split; [|exact EE]. unfold listening. rewrite BO, EE. left. reflexivity.
  - destruct CC as (C & _). rewrite CP in C. discriminate.
  - rewrite CP in CC. discriminate.
Qed.
(** ... when its endpoint cannot be bound, it runs all the same, and nobody can reach it. *)
Theorem c69_receiver_deaf v ctrl dir stale fr tot now w : cstr ctrl <> "" -> v_bind (v O) [] CCtrl (cstr ctrl) = Some w ->
  exists s, receiver_run v ctrl None (rc_init dir stale fr tot now) = (s, Runs) /\ c_bound s = [].
Proof.
  set (e := cstr ctrl). intros NE B1. unfold receiver_run, receiver_start. cbn -[configure rc_init]. unfold seq, lift. set (m := with_doc _ _). set (r0 := w_c_reply _ _). cbn -[configure r0].
  assert (PM : params_of m = Some (JObj [("ctrl_endpoint", JStr e); ("rx_endpoint", JStr "inproc://rx_channel")])) by reflexivity. clearbody m.
  assert (NO : forall k, In k ["debug_level"; "frames"] -> has_param m k = Ret false) by (intros k I; unfold has_param; rewrite PM; cbn in I; repeat (destruct I as [<-|I]; [reflexivity|]); destruct I).
  assert (IDEM : cstr e = e) by apply cstr_idem. assert (NEQ : (e =? "")%string = false) by (apply String.eqb_neq; exact NE).
  assert (CP : exists s1 w', configure_parts (v O) m (with_val (g_val m) r0) = (s1, Throw (EReceiver w')) /\ c_bound s1 = []).
  { set (s0 := with_val (g_val m) r0). unfold configure_parts. erewrite skip by (rewrite NO by (cbn; tauto); reflexivity). erewrite skip by reflexivity. erewrite skip by (rewrite NO by (cbn; tauto); reflexivity). erewrite skip by reflexivity.
    assert (IPC : exists s2 w', configure_ipc_channels (v O) m s0 = (s2, Throw (EReceiver w')) /\ c_bound s2 = []).
    { unfold configure_ipc_channels. erewrite skip by reflexivity.
      assert (H1 : has_param m "ctrl_endpoint" = Ret true) by (unfold has_param; rewrite PM; reflexivity). assert (S1 : str_param m "ctrl_endpoint" = Ret e) by (unfold str_param, get_param, get_raw; rewrite PM; cbn; rewrite IDEM; reflexivity).
      assert (CH : exists s2 w', configure_channel (v O) m CCtrl (w_c_ipc false s0) = (s2, Throw (EReceiver w')) /\ c_bound s2 = []).
      { unfold configure_channel, endpoint_name. erewrite skip by (rewrite H1; reflexivity). cbn [when]. erewrite skip by (rewrite S1; reflexivity). erewrite skip by reflexivity. change (s_end (c_cfg (w_c_ipc false s0)) CCtrl) with "". rewrite NEQ. cbn [negb when chan_eqb]. erewrite skip by reflexivity.
        unfold seq at 1, setup_channel. erewrite skip by reflexivity. change (c_bound (w_c_ipc false s0)) with (@nil (chan * string)). rewrite B1. eexists _, _. split; reflexivity. }
      destruct CH as (s2 & w' & CH & CB). unfold seq at 1. rewrite CH. eauto. }
    destruct IPC as (s2 & w' & EI & CB). unfold seq at 1. rewrite EI. eauto. }
  destruct CP as (s1 & w' & CP & BO). pose proof (configure_cases (v O) m r0 eq_refl) as CC. destruct (configure (v O) m r0) as (s2, [[]|x|]); cbn [fst snd] in *.
  - destruct CC as [(C & _)|(w2 & s3 & C & ->)]; rewrite CP in C; [discriminate|]. injection C as <- <-. eexists. split; [reflexivity|exact BO].
  - destruct CC as (C & _ & N). rewrite CP in C. injection C as <- <-. destruct (N w'). reflexivity.
  - rewrite CP in CC. discriminate.
Qed.
(** A file that is empty or not JSON ends the program. *)
Theorem c69_receiver_unreadable v ctrl t s s0 : receiver_run v ctrl None s0 = (s, Runs) -> t = [] \/ JsonReadModel.parse t = None -> receiver_run v ctrl (Some t) s0 = (s, Ends 1).
Proof. intros ST D. rewrite (start_with v ctrl t s0 s ST). unfold load_file. destruct t; [reflexivity|]. destruct D as [D|D]; [discriminate|]. rewrite D. reflexivity. Qed.

(** ** Cases *)
Definition at_v0 : nat -> env := fun _ => v0.
Definition addr := "tcp://0.0.0.0:5000".
Definition begin : rc := fst (receiver_run at_v0 addr None start).
Definition request (x : json) : json := JObj [("msg_type", JStr "cmd"); ("msg_val", JStr "configure"); ("id", JInt 1); ("params", x)].
Lemma asks_request x : asks_for (request x) x.
Proof.
  exists [("msg_type", JStr "cmd"); ("msg_val", JStr "configure"); ("id", JInt 1); ("params", x)]. split; [reflexivity|]. split; [|split; [|split]].
  - eexists. split; [reflexivity|]. repeat split; try (apply leads_at; reflexivity). intros y H. apply leads_at in H. discriminate.
  - intros doc k t E I S. injection E as <-. apply leads_at in S. cbn in I. destruct I as [<-|[<-|[<-|[]]]]; cbn in S; try discriminate; injection S as <-; apply no_char_ok; reflexivity.
  - intros y S. apply leads_at in S. injection S as <-. exists 1. split; [reflexivity|lia].
  - apply leads_at. reflexivity.
Qed.
Definition file_whole := "[{""frame_ready_endpoint"":""tcp://0.0.0.0:5001"",""frame_release_endpoint"":""tcp://0.0.0.0:5002""},{""decoder_type"":""DummyUDP"",""decoder_path"":""/lib""}]".
(** Two messages that configure all of the receiver *)
Example c69_receiver_case : exists l s1, receiver_run at_v0 addr None start = (begin, Runs) /\ JsonReadModel.parse (list_ascii_of_string file_whole) = Some (JArr l) /\ messages_of (JArr l) l /\ Forall2 asks_for (map request l) l /\
  receiver_run at_v0 addr (Some (list_ascii_of_string file_whole)) start = (s1, Runs) /\ c_all s1 = true /\ c_all begin = false.
Proof.
  eexists. eexists. split; [vm_compute; reflexivity|]. split; [vm_compute; reflexivity|]. split; [left; reflexivity|]. split; [constructor; [apply asks_request|constructor; [apply asks_request|constructor]]|]. split; [vm_compute; reflexivity|]. split; reflexivity.
Qed.
(** A refused message (the decoder is not there) leaves the receiver without decoder and running; the message after it is applied.  A client would have been told. *)
Theorem c69_receiver_refused : let x := "{""decoder_type"":""Missing"",""decoder_path"":""/lib""}" in
  let '(s, r) := receiver_run at_v0 addr (Some (list_ascii_of_string ("[" ++ x ++ ",{""debug_level"":3}]")%string)) start in
  r = Runs /\ c_debug s = 3 /\ c_decoder s = None /\ c_out s = c_out begin /\
  exists s1, step v0 (Ctrl "c" (Some (request (JObj [("decoder_type", JStr "Missing"); ("decoder_path", JStr "/lib")])))) begin = (s1, Ret tt) /\ refused (last_reply s1).
Proof.
  vm_compute. repeat split; try reflexivity. eexists. split; [reflexivity|]. split; [apply leads_at; reflexivity|]. eexists. apply leads_at. reflexivity.
Qed.
(** A value of the wrong type in the file ends the program; sent by a client it does not keep the next message from having its effect. *)
Theorem c69_receiver_wrong_type_refuted : let bad := JObj [("debug_level", JStr "x")] in let good := JObj [("debug_level", JInt 3)] in
  snd (receiver_run at_v0 addr (Some (list_ascii_of_string "[{""debug_level"":""x""},{""debug_level"":3}]")) start) = Ends 1 /\
  c_debug (after [(v0, Ctrl "c" (Some (request bad))); (v0, Ctrl "c" (Some (request good)))] begin) = 3.
Proof. vm_compute. split; reflexivity. Qed.
Example c69_receiver_bound : v_bind v0 [] CCtrl addr = None /\ v_bind v0 [(CCtrl, addr)] CRx "inproc://rx_channel" = None /\ cstr addr = addr /\
  v_bind (surroundings (fun l c e => Some "in use") (Some 10) true) [] CCtrl addr = Some "in use".
Proof. repeat split; reflexivity. Qed.

Print Assumptions c69_receiver.
Print Assumptions c69_receiver_silent.
Print Assumptions c69_receiver_endpoint.
Print Assumptions c69_receiver_deaf.
Print Assumptions c69_receiver_unreadable.
Print Assumptions c69_receiver_refused.
Print Assumptions c69_receiver_wrong_type_refuted.
