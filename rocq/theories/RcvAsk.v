(** What status and request_configuration answer. *)
From Coq Require Import String Ascii.
From Verif Require Import Base StrOrder FrameModel JsonModel JsonSpec JsonProofs JsonProps LiveModel LiveSpec PortModel PortSpec PortProps EqualModel RcvModel RcvSpec RcvProofs RcvReply RcvInv RcvSafe RcvCount RcvApply RcvCtrl.
Local Open Scope string_scope.
Local Open Scope list_scope.
Local Open Scope Z_scope.

Definition typed (s : rc) : rc := w_c_reply (with_head (c_reply s) TAck (g_val (c_reply s)) (g_doc (c_reply s))) s.
Lemma typed_eq (f : unit -> M unit) s : seq (reply_type TAck) f s = f tt (typed s). Proof. reflexivity. Qed.
Lemma seq_ret {A B} (a : M A) (f : A -> M B) s s1 (b : B) : seq a f s = (s1, Ret b) -> exists x s0, a s = (s0, Ret x) /\ f x s0 = (s1, Ret b).
Proof. unfold seq. destruct (a s) as [s0 [x|e|]]; intros H; try discriminate. eauto. Qed.
Definition status_head (s : rc) : list (string * value) :=
  [("status/ipc_configured", XBool (c_ipc s)); ("status/decoder_configured", XBool (c_dec s)); ("status/buffer_manager_configured", XBool (c_buf s)); ("status/rx_thread_configured", XBool (c_rx s)); ("status/configuration_complete", XBool (c_all s))].
Definition status_tail (s : rc) (e p t d : Z) : list (string * value) :=
  [("buffers/total", XUint (c_total s)); ("buffers/empty", XUint e); ("buffers/mapped", XUint p); ("frames/timedout", XUint t); ("frames/received", XUint (c_received s)); ("frames/released", XUint (c_released s)); ("frames/dropped", XUint d)].
(** The numbers and the status of the decoder come from the last status of the receiver thread. *)
Definition from_rx (s : rc) (mid : list (string * value)) (e p t d : Z) : Prop :=
  match c_status s with
  | None => mid = [] /\ e = 0 /\ p = 0 /\ t = 0 /\ d = 0
  | Some m => int_param GUint m "rx_thread/empty_buffers" = Ret e /\ int_param GUint m "rx_thread/mapped_buffers" = Ret p /\ int_param GUint m "rx_thread/frames_timedout" = Ret t /\ int_param GUint m "rx_thread/frames_dropped" = Ret d /\
    (has_param m "decoder" = Ret false /\ mid = [] \/ exists y, get_ref m "decoder" = Ret y /\ mid = [("decoder", XJson y)])
  end.
Lemma status_puts s s1 : get_status s = (s1, Ret tt) ->
  exists mid e p t d, from_rx s mid e p t d /\ (mid = [] \/ exists y, mid = [("decoder", XJson y)]) /\ puts (status_head s ++ mid ++ status_tail s e p t d) (typed s) = (s1, Ret tt).
Proof.
  intros H. unfold get_status in H. rewrite typed_eq in H. do 5 (unfold seq at 1, get at 1 in H). fold (status_head s) in H.
  change (c_ipc (typed s)) with (c_ipc s) in H. change (c_dec (typed s)) with (c_dec s) in H. change (c_buf (typed s)) with (c_buf s) in H. change (c_rx (typed s)) with (c_rx s) in H. change (c_all (typed s)) with (c_all s) in H. fold (status_head s) in H.
  apply seq_ret in H. destruct H as ([] & s2 & H1 & H). unfold seq at 1, get at 1 in H. apply seq_ret in H. destruct H as ((((e & p) & t) & d) & s3 & H2 & H).
  assert (W : forall s', s' = w_c_reply (c_reply s') (typed s) -> c_total s' = c_total s /\ c_received s' = c_received s /\ c_released s' = c_released s) by (intros s' ->; auto).
  pose proof (puts_only _ _ _ _ H1) as O1.
  assert (ST : c_status s2 = c_status s) by (rewrite O1; reflexivity). rewrite ST in H2.
  assert (M : exists mid, from_rx s mid e p t d /\ (mid = [] \/ exists y, mid = [("decoder", XJson y)]) /\ puts mid s2 = (s3, Ret tt)).
  { unfold from_rx. destruct (c_status s) as [m|]; [|injection H2 as <- <- <- <- <-; exists []; auto 10]. do 4 (apply seq_ret in H2; destruct H2 as (? & ? & LL & H2); unfold lift in LL; match type of LL with context [int_param GUint m ?n] => destruct (int_param GUint m n); try discriminate end; injection LL as <- <-).
    apply seq_ret in H2. destruct H2 as (h & s4 & LL & H2). unfold lift in LL. destruct (has_param m "decoder") as [h'|?|]; try discriminate. injection LL as <- <-. apply seq_ret in H2. destruct H2 as ([] & s5 & LL & H2). injection H2 as -> <- <- <- <-. unfold when in LL. destruct h'; [|injection LL as <-; exists []; split; [auto 10|auto]].
    apply seq_ret in LL. destruct LL as (y & s6 & L1 & L2). unfold lift in L1. destruct (get_ref m "decoder") as [yy|?|]; try discriminate. injection L1 as <- <-. exists [("decoder", XJson yy)]. split; [do 4 (split; [reflexivity|]); right; eauto|]. split; [eauto|]. cbn [puts]. unfold seq. rewrite L2. reflexivity. }
  destruct M as (mid & FX & MM & PM). exists mid, e, p, t, d. split; [exact FX|]. split; [exact MM|]. rewrite puts_app. unfold seq. rewrite H1. rewrite puts_app. unfold seq. rewrite PM.
  pose proof (puts_only _ _ _ _ PM) as O2. assert (O3 : s3 = w_c_reply (c_reply s3) (typed s)) by (rewrite O2 at 1; rewrite O1; apply reply_twice). destruct (W s3 O3) as (T1 & T2 & T3). do 3 (unfold seq at 1, get at 1 in H). rewrite T1, T2, T3 in H. exact H.
Qed.
Lemma int_at m c r : any_path c -> int_param GUint m (slashed c) = Ret r -> holds m c (JInt r).
Proof.
  intros A H. unfold int_param, get_param, bind in H. destruct (get_raw m (slashed c)) as [x|e|] eqn:G; try discriminate. apply (get_raw_holds m c x A) in G. destruct x; try discriminate. cbn in H. unfold in_range in H. destruct (_ && _)%bool; [|discriminate]. injection H as <-. exact G.
Qed.
Lemma ref_at m n y : no_slash n -> no_nul n -> get_ref m n = Ret y -> holds m [n] y.
Proof.
  intros NS NN H. unfold get_ref in H. destruct (get_raw m n) as [x|e|] eqn:G; try discriminate. rewrite (pieces_no_slash _ NS) in H. injection H as <-. apply (get_raw_holds m [n]); [|exact G]. split; [discriminate|]. split; [constructor; [exact NS|constructor]|constructor; [exact NN|constructor]].
Qed.
Ltac at_names P l1 := 
  match goal with |- at_path ("params" :: _) _ = Some _ => eapply (puts_names _ _ _ P l1); [reflexivity|reflexivity|] end.
Lemma mid_apart mid q : (mid = [] \/ exists y : json, mid = [("decoder", XJson y)]) -> apartb ["decoder"] q = true -> Forall (apart_from q) mid.
Proof. intros [->|(y & ->)] A; [constructor|]. apply apart_list. cbn. rewrite A. reflexivity. Qed.
Lemma status_reports v s s1 R i : get_status (w_c_reply R s) = (s1, Ret tt) -> form R -> g_type (c_reply s1) = TAck /\ unchanged s s1 /\ (form (c_reply s1) -> reports_status s (reply_doc v (c_reply s1) i) /\ reports_rx s (reply_doc v (c_reply s1) i)).
Proof.
  intros H F. destruct (status_puts _ _ H) as (mid & e & p & t & d & FX & M & P). pose proof (puts_only _ _ _ _ P) as O.
  assert (GN : Forall (fun p => good_name (fst p)) (status_head (w_c_reply R s) ++ mid ++ status_tail (w_c_reply R s) e p t d)).
  { apply Forall_app. split; [|apply Forall_app; split]; [| |]; try (repeat constructor; eexists; (split; [|symmetry; apply slashed_pieces]); apply path_check_ok; reflexivity).
    destruct M as [->|(y & ->)]; repeat constructor. eexists. split; [|symmetry; apply slashed_pieces]. apply path_check_ok. reflexivity. }
  pose proof (puts_head _ _ _ P GN) as (_ & HT & _). split; [rewrite HT; reflexivity|]. split. { exists (c_reply s1), (c_out s). rewrite O at 1. unfold typed. destruct s; reflexivity. }
  intros F1. destruct (doc_says v (c_reply s1) i F1) as (_ & _ & _ & PS). unfold reports_status.
  assert (G : forall l1 n x l2, status_head (w_c_reply R s) ++ mid ++ status_tail (w_c_reply R s) e p t d = l1 ++ (n, x) :: l2 -> path_check (pieces n) = true -> Forall (apart_from (pieces n)) l2 -> param (reply_doc v (c_reply s1) i) (pieces n) (set_value x)).
  { intros l1 n x l2 E PC FA. apply PS. exact (puts_names _ _ _ P l1 n x l2 E PC FA). }
  assert (HD : forall k, (k < 5)%nat -> forall n x, nth_error (status_head s) k = Some (n, x) -> path_check (pieces n) = true -> apartb ["decoder"] (pieces n) = true -> Forall (apart_from (pieces n)) (skipn (S k) (status_head s)) -> Forall (apart_from (pieces n)) (status_tail s e p t d) -> param (reply_doc v (c_reply s1) i) (pieces n) (set_value x)).
  { intros k K n x N PC AD F2 F3. apply (G (firstn k (status_head s)) n x (skipn (S k) (status_head s) ++ mid ++ status_tail s e p t d)); [|exact PC|apply Forall_app; split; [exact F2|apply Forall_app; split; [apply mid_apart; assumption|exact F3]]].
    change (status_head (w_c_reply R s)) with (status_head s). change (status_tail (w_c_reply R s)) with (status_tail s). assert (SK : status_head s = firstn k (status_head s) ++ (n, x) :: skipn (S k) (status_head s)). { clear - N. revert N. generalize (status_head s). induction k as [|k IH]; intros [|a l] N; try discriminate; cbn in N |- *; [injection N as ->; reflexivity|]. f_equal. apply IH, N. }
    rewrite SK at 1. rewrite <- app_assoc. reflexivity. }
  assert (TL : forall k, (k < 7)%nat -> forall n x, nth_error (status_tail s e p t d) k = Some (n, x) -> path_check (pieces n) = true -> Forall (apart_from (pieces n)) (skipn (S k) (status_tail s e p t d)) -> param (reply_doc v (c_reply s1) i) (pieces n) (set_value x)).
  { intros k K n x N PC F2. apply (G (status_head s ++ mid ++ firstn k (status_tail s e p t d)) n x (skipn (S k) (status_tail s e p t d))); [|exact PC|exact F2].
    change (status_head (w_c_reply R s)) with (status_head s). change (status_tail (w_c_reply R s)) with (status_tail s). assert (SK : status_tail s e p t d = firstn k (status_tail s e p t d) ++ (n, x) :: skipn (S k) (status_tail s e p t d)). { clear - N. revert N. generalize (status_tail s e p t d). induction k as [|k IH]; intros [|a l] N; try discriminate; cbn in N |- *; [injection N as ->; reflexivity|]. f_equal. apply IH, N. }
    rewrite SK at 1. rewrite <- !app_assoc. reflexivity. }
  split; [|unfold reports_rx; change (c_status s) with (c_status (w_c_reply R s)); unfold from_rx in FX].
  2:{ assert (T1 : param (reply_doc v (c_reply s1) i) ["buffers"; "empty"] (JInt e)) by (apply (TL 1%nat ltac:(lia) _ _ eq_refl); [reflexivity|apply apart_list; reflexivity]).
      assert (T2 : param (reply_doc v (c_reply s1) i) ["buffers"; "mapped"] (JInt p)) by (apply (TL 2%nat ltac:(lia) _ _ eq_refl); [reflexivity|apply apart_list; reflexivity]).
      assert (T3 : param (reply_doc v (c_reply s1) i) ["frames"; "timedout"] (JInt t)) by (apply (TL 3%nat ltac:(lia) _ _ eq_refl); [reflexivity|apply apart_list; reflexivity]).
      assert (T4 : param (reply_doc v (c_reply s1) i) ["frames"; "dropped"] (JInt d)) by (apply (TL 6%nat ltac:(lia) _ _ eq_refl); [reflexivity|apply apart_list; reflexivity]).
      clear HD TL. destruct (c_status (w_c_reply R s)) as [m|].
      - destruct FX as (X1 & X2 & X3 & X4 & X5). assert (AP : forall n, no_slash n -> no_nul n -> any_path ["rx_thread"; n]) by (intros n N1 N2; split; [discriminate|]; split; repeat constructor; try assumption; apply no_char_ok; reflexivity).
        split.
        + intros p' q [I|[I|[I|[I|[]]]]]; injection I as <- <-; eexists; (split; [|eassumption]); apply int_at; try assumption; apply AP; apply no_char_ok; reflexivity.
        + intros y Y. destruct X5 as [(HF & _)|(y' & GY & ->)].
          * apply has_is in HF; [|apply no_char_ok; reflexivity|apply no_char_ok; reflexivity]. destruct (HF y Y).
          * apply ref_at in GY; [|apply no_char_ok; reflexivity|apply no_char_ok; reflexivity]. pose proof (leads_one _ _ _ Y _ GY) as ->. apply (G (status_head s) "decoder" (XJson y') (status_tail s e p t d)); [reflexivity|reflexivity|apply apart_list; reflexivity].
      - destruct FX as (_ & -> & -> & -> & ->). intros p' q [I|[I|[I|[I|[]]]]]; injection I as <- <-; assumption. }
  split; [apply (HD 0%nat ltac:(lia) _ _ eq_refl); [reflexivity|reflexivity|apply apart_list; reflexivity|apply apart_list; reflexivity]|].
  split; [apply (HD 1%nat ltac:(lia) _ _ eq_refl); [reflexivity|reflexivity|apply apart_list; reflexivity|apply apart_list; reflexivity]|].
  split; [apply (HD 2%nat ltac:(lia) _ _ eq_refl); [reflexivity|reflexivity|apply apart_list; reflexivity|apply apart_list; reflexivity]|].
  split; [apply (HD 3%nat ltac:(lia) _ _ eq_refl); [reflexivity|reflexivity|apply apart_list; reflexivity|apply apart_list; reflexivity]|].
  split; [apply (HD 4%nat ltac:(lia) _ _ eq_refl); [reflexivity|reflexivity|apply apart_list; reflexivity|apply apart_list; reflexivity]|].
  split; [apply (TL 0%nat ltac:(lia) _ _ eq_refl); [reflexivity|apply apart_list; reflexivity]|].
  split; [apply (TL 4%nat ltac:(lia) _ _ eq_refl); [reflexivity|apply apart_list; reflexivity]|].
  apply (TL 5%nat ltac:(lia) _ _ eq_refl); [reflexivity|apply apart_list; reflexivity].
Qed.

Definition settings_head (g : settings) : list (string * value) :=
  [("ctrl_endpoint", XStr (s_end g CCtrl)); ("rx_endpoint", XStr (s_end g CRx)); ("frame_ready_endpoint", XStr (s_end g CReady)); ("frame_release_endpoint", XStr (s_end g CRelease)); ("decoder_path", XStr (s_path g)); ("decoder_type", XStr (s_type g))].
Definition settings_tail (g : settings) (l : string) : list (string * value) :=
  [("shared_buffer_name", XStr (s_shm g)); ("max_buffer_mem", XUint64 (s_mem g)); ("rx_type", XStr (rx_name_of_type (s_rx g))); ("rx_address", XStr (s_addr g)); ("rx_ports", XStr l); ("rx_recv_buffer_size", XInt (s_size g)); ("frame_count", XUint (s_frames g))].
Lemma configuration_puts v s s1 : request_configuration v s = (s1, Ret tt) ->
  exists mid l, (mid = [] \/ mid = map (fun p => (("decoder_config/" ++ fst p)%string, snd p)) (v_config v)) /\ rx_port_list (s_ports (c_cfg s)) = Some l /\ puts (settings_head (c_cfg s) ++ mid ++ settings_tail (c_cfg s) l) (typed s) = (s1, Ret tt).
Proof.
  intros H. unfold request_configuration in H. rewrite typed_eq in H. unfold seq at 1, get at 1 in H. change (c_cfg (typed s)) with (c_cfg s) in H. fold (settings_head (c_cfg s)) in H. apply seq_ret in H. destruct H as ([] & s2 & H1 & H). unfold seq at 1, get at 1 in H. apply seq_ret in H. destruct H as ([] & s3 & H2 & H).
  assert (M : exists mid, (mid = [] \/ mid = map (fun p => (("decoder_config/" ++ fst p)%string, snd p)) (v_config v)) /\ puts mid s2 = (s3, Ret tt)). { destruct (c_decoder s2); [eauto|]. injection H2 as <-. exists []. auto. }
  destruct M as (mid & MM & PM). apply seq_ret in H. destruct H as ([] & s4 & H3 & H). destruct (rx_port_list (s_ports (c_cfg s))) as [l|]; [|discriminate]. exists mid, l. split; [exact MM|]. split; [reflexivity|].
  rewrite puts_app. unfold seq. rewrite H1. rewrite puts_app. unfold seq. rewrite PM. change (settings_tail (c_cfg s) l) with ([("shared_buffer_name", XStr (s_shm (c_cfg s))); ("max_buffer_mem", XUint64 (s_mem (c_cfg s))); ("rx_type", XStr (rx_name_of_type (s_rx (c_cfg s)))); ("rx_address", XStr (s_addr (c_cfg s)))] ++ [("rx_ports", XStr l); ("rx_recv_buffer_size", XInt (s_size (c_cfg s))); ("frame_count", XUint (s_frames (c_cfg s)))]).
  rewrite puts_app. unfold seq. rewrite H3. exact H.
Qed.
Lemma port_text_clean ports l : rx_port_list ports = Some l -> Forall (fun p => 1 <= p) ports -> printed ports l /\ no_nul l.
Proof.
  intros E F. assert (NE : ports <> []) by (intros ->; discriminate). destruct (c50_print ports NE F) as (s & E' & P). rewrite E in E'. injection E' as <-. split; [exact P|]. destruct P as (parts & -> & F2). clear - F2.
  assert (D : forall t p, number (chars t) p -> no_nul t). { intros t p N. unfold no_nul. remember (chars t) as cs. clear Heqcs t. induction N as [c d D _|l w c d N IH D]; intros I. - destruct I as [->|[]]. destruct D as (D1 & D2). change (Z.of_nat (nat_of_ascii zero)) with 0 in D2. lia. - apply in_app_or in I. destruct I as [I|[->|[]]]; [exact (IH I)|]. destruct D as (D1 & D2). change (Z.of_nat (nat_of_ascii zero)) with 0 in D2. lia. }
  induction F2 as [|p t ports parts N F2 IH]; [intros []|]. apply D in N. destruct parts as [|t2 parts]; [exact N|]. change (joined "," (t :: t2 :: parts)) with (append t (append "," (joined "," (t2 :: parts)))). apply no_nul_app; [exact N|]. apply no_nul_app; [apply no_char_ok; reflexivity|exact IH].
Qed.
Lemma rx_name_clean t : no_nul (rx_name_of_type t). Proof. destruct t; apply no_char_ok; reflexivity. Qed.
Lemma configuration_reports v s s1 R i : Forall (fun p => param_name (fst p)) (v_config v) -> request_configuration v (w_c_reply R s) = (s1, Ret tt) -> form R ->
  g_type (c_reply s1) = TAck /\ unchanged s s1 /\ (form (c_reply s1) -> reports_settings (c_cfg s) (reply_doc v (c_reply s1) i)).
Proof.
  intros CF H F. destruct (configuration_puts _ _ _ H) as (mid & l & M & PL & P). change (c_cfg (w_c_reply R s)) with (c_cfg s) in *. pose proof (puts_only _ _ _ _ P) as O.
  assert (MG : Forall (fun p => exists c, good_path ("decoder_config" :: c) /\ c <> [] /\ fst p = slashed ("decoder_config" :: c)) mid).
  { destruct M as [-> | ->]; [constructor|]. apply Forall_forall. intros p I. apply in_map_iff in I. destruct I as (q & <- & I). cbn [fst]. rewrite Forall_forall in CF. destruct (CF q I) as (c & N & S & Z & PN & E). exists c. split; [|split; [exact N|rewrite slashed_under by exact N; rewrite E; reflexivity]].
    split; [discriminate|]. split; [constructor; [apply no_char_ok; reflexivity|exact S]|]. split; [constructor; [apply no_char_ok; reflexivity|exact Z]|]. split; [apply plain_check_ok; reflexivity|]. destruct c; [congruence|exact PN]. }
  assert (GN : Forall (fun p => good_name (fst p)) (settings_head (c_cfg s) ++ mid ++ settings_tail (c_cfg s) l)).
  { apply Forall_app. split; [|apply Forall_app; split]; [| |]; try (repeat constructor; eexists; (split; [|symmetry; apply slashed_pieces]); apply path_check_ok; reflexivity).
    eapply Forall_impl; [|exact MG]. intros p (c & G & _ & E). exists ("decoder_config" :: c). auto. }
  pose proof (puts_head _ _ _ P GN) as (_ & HT & _). split; [rewrite HT; reflexivity|]. split. { exists (c_reply s1), (c_out s). rewrite O at 1. unfold typed. destruct s; reflexivity. }
  intros F1. destruct (doc_says v (c_reply s1) i F1) as (_ & _ & _ & PS). unfold reports_settings, text_is.
  assert (MA : forall n, n <> "decoder_config" -> Forall (apart_from [n]) mid). { intros n N. eapply Forall_impl; [|exact MG]. intros p (c & G & _ & E). exists ("decoder_config" :: c). split; [exact G|]. split; [exact E|]. apply apart_head. congruence. }
  assert (SKIP : forall {A} k (L : list A) a, nth_error L k = Some a -> L = firstn k L ++ a :: skipn (S k) L). { clear. intros A k. induction k as [|k IH]; intros [|b L] a N; try discriminate; cbn in N |- *; [injection N as ->; reflexivity|]. f_equal. apply IH, N. }
  assert (HD : forall k n x, nth_error (settings_head (c_cfg s)) k = Some (n, x) -> pieces n = [n] -> n <> "decoder_config" -> path_check (pieces n) = true -> Forall (apart_from (pieces n)) (skipn (S k) (settings_head (c_cfg s))) -> Forall (apart_from (pieces n)) (settings_tail (c_cfg s) l) -> param (reply_doc v (c_reply s1) i) [n] (set_value x)).
  { intros k n x N PN ND PC F2 F3. rewrite <- PN. apply PS. apply (puts_names _ _ _ P (firstn k (settings_head (c_cfg s))) n x (skipn (S k) (settings_head (c_cfg s)) ++ mid ++ settings_tail (c_cfg s) l)); [|exact PC|apply Forall_app; split; [exact F2|apply Forall_app; split; [rewrite PN; apply MA, ND|exact F3]]].
    rewrite (SKIP _ k _ _ N) at 1. rewrite <- app_assoc. reflexivity. }
  assert (TL : forall k n x, nth_error (settings_tail (c_cfg s) l) k = Some (n, x) -> pieces n = [n] -> path_check (pieces n) = true -> Forall (apart_from (pieces n)) (skipn (S k) (settings_tail (c_cfg s) l)) -> param (reply_doc v (c_reply s1) i) [n] (set_value x)).
  { intros k n x N PN PC F2. rewrite <- PN. apply PS. apply (puts_names _ _ _ P (settings_head (c_cfg s) ++ mid ++ firstn k (settings_tail (c_cfg s) l)) n x (skipn (S k) (settings_tail (c_cfg s) l))); [|exact PC|exact F2].
    rewrite (SKIP _ k _ _ N) at 1. rewrite <- !app_assoc. reflexivity. }
  assert (TX : forall n t, param (reply_doc v (c_reply s1) i) [n] (set_value (XStr t)) -> no_nul t -> param (reply_doc v (c_reply s1) i) [n] (JStr t)). { intros n t X N. cbn in X. rewrite (cstr_id _ N) in X. exact X. }
  split; [apply TX, (HD 0%nat _ _ eq_refl); [reflexivity|discriminate|reflexivity|apply apart_list; reflexivity|apply apart_list; reflexivity]|].
  split; [apply TX, (HD 1%nat _ _ eq_refl); [reflexivity|discriminate|reflexivity|apply apart_list; reflexivity|apply apart_list; reflexivity]|].
  split; [apply TX, (HD 2%nat _ _ eq_refl); [reflexivity|discriminate|reflexivity|apply apart_list; reflexivity|apply apart_list; reflexivity]|].
  split; [apply TX, (HD 3%nat _ _ eq_refl); [reflexivity|discriminate|reflexivity|apply apart_list; reflexivity|apply apart_list; reflexivity]|].
  split; [apply TX, (HD 4%nat _ _ eq_refl); [reflexivity|discriminate|reflexivity|apply apart_list; reflexivity|apply apart_list; reflexivity]|].
  split; [apply TX, (HD 5%nat _ _ eq_refl); [reflexivity|discriminate|reflexivity|apply apart_list; reflexivity|apply apart_list; reflexivity]|].
  split; [apply TX, (TL 0%nat _ _ eq_refl); [reflexivity|reflexivity|apply apart_list; reflexivity]|].
  split; [apply (TL 1%nat _ _ eq_refl); [reflexivity|reflexivity|apply apart_list; reflexivity]|].
  split; [apply TX, (TL 2%nat _ _ eq_refl); [reflexivity|reflexivity|apply apart_list; reflexivity]|].
  split; [apply TX, (TL 3%nat _ _ eq_refl); [reflexivity|reflexivity|apply apart_list; reflexivity]|].
  split; [intros FP; destruct (port_text_clean _ _ PL FP) as (PR & NL); exists l; split; [exact PR|]; apply TX; [|exact NL]; apply (TL 4%nat _ _ eq_refl); [reflexivity|reflexivity|apply apart_list; reflexivity]|].
  split; [apply (TL 5%nat _ _ eq_refl); [reflexivity|reflexivity|apply apart_list; reflexivity]|].
  apply (TL 6%nat _ _ eq_refl); [reflexivity|reflexivity|apply apart_list; reflexivity].
Qed.
(** request_version *)
Lemma version_reports v s s1 R i : Forall (fun p => param_name (fst p)) (v_version v) -> get_version v (w_c_reply R s) = (s1, Ret tt) -> form R ->
  g_type (c_reply s1) = TAck /\ unchanged s s1 /\ (form (c_reply s1) -> reports_version v (reply_doc v (c_reply s1) i)).
Proof.
  intros CF H F. set (head := [("version/odin-data/major", XInt (v_major v)); ("version/odin-data/minor", XInt (v_minor v)); ("version/odin-data/patch", XInt (v_patch v)); ("version/odin-data/short", XStr (v_short v)); ("version/odin-data/full", XStr (v_full v))]).
  assert (P : exists mid, (mid = [] \/ mid = map (fun p => (("version/decoder/" ++ fst p)%string, snd p)) (v_version v)) /\ puts (head ++ mid) (typed (w_c_reply R s)) = (s1, Ret tt)).
  { unfold get_version in H. rewrite typed_eq in H. fold head in H. apply seq_ret in H. destruct H as ([] & s2 & H1 & H). unfold seq at 1, get at 1 in H. destruct (c_decoder s2); [eexists; split; [right; reflexivity|]|exists []; split; [left; reflexivity|]]; rewrite puts_app; unfold seq; rewrite H1; exact H. }
  clear H. destruct P as (mid & M & P). pose proof (puts_only _ _ _ _ P) as O.
  assert (MG : Forall (fun p => exists c, good_path ("version" :: "decoder" :: c) /\ fst p = slashed ("version" :: "decoder" :: c)) mid).
  { destruct M as [-> | ->]; [constructor|]. apply Forall_forall. intros p I. apply in_map_iff in I. destruct I as (q & <- & I). cbn [fst]. rewrite Forall_forall in CF. destruct (CF q I) as (c & N & S & Z & PN & E). exists c. split; [|rewrite slashed_under by discriminate; rewrite (slashed_under "decoder") by exact N; rewrite E; reflexivity].
    split; [discriminate|]. split; [constructor; [apply no_char_ok; reflexivity|constructor; [apply no_char_ok; reflexivity|exact S]]|]. split; [constructor; [apply no_char_ok; reflexivity|constructor; [apply no_char_ok; reflexivity|exact Z]]|]. split; [apply plain_check_ok; reflexivity|]. destruct c; [congruence|exact PN]. }
  assert (GN : Forall (fun p => good_name (fst p)) (head ++ mid)).
  { apply Forall_app. split; [repeat constructor; eexists; (split; [|symmetry; apply slashed_pieces]); apply path_check_ok; reflexivity|]. eapply Forall_impl; [|exact MG]. intros p (c & G & E). eexists. eauto. }
  pose proof (puts_head _ _ _ P GN) as (_ & HT & _). split; [rewrite HT; reflexivity|]. split. { exists (c_reply s1), (c_out s). rewrite O at 1. unfold typed. destruct s; reflexivity. }
  intros F1. destruct (doc_says v (c_reply s1) i F1) as (_ & _ & _ & PS).
  assert (MA : forall n, Forall (apart_from ["version"; "odin-data"; n]) mid). { intros n. eapply Forall_impl; [|exact MG]. intros p (c & G & E). exists ("version" :: "decoder" :: c). split; [exact G|]. split; [exact E|]. split; intros (r & H); injection H; discriminate. }
  assert (HD : forall k n x, nth_error head k = Some (append "version/odin-data/" n, x) -> pieces (append "version/odin-data/" n) = ["version"; "odin-data"; n] -> path_check ["version"; "odin-data"; n] = true -> Forall (apart_from ["version"; "odin-data"; n]) (skipn (S k) head) -> param (reply_doc v (c_reply s1) i) ["version"; "odin-data"; n] (set_value x)).
  { intros k n x N PN PC F2. rewrite <- PN. apply PS. apply (puts_names _ _ _ P (firstn k head) (append "version/odin-data/" n) x (skipn (S k) head ++ mid)); [|rewrite PN; exact PC|rewrite PN; apply Forall_app; split; [exact F2|apply MA]].
    assert (SK : head = firstn k head ++ (append "version/odin-data/" n, x) :: skipn (S k) head). { clear - N. revert N. generalize head. induction k as [|k IH]; intros [|b L] N; try discriminate; cbn in N |- *; [injection N as ->; reflexivity|]. f_equal. apply IH, N. }
    rewrite SK at 1. rewrite <- app_assoc. reflexivity. }
  split; [apply (HD 0%nat _ _ eq_refl); [reflexivity|reflexivity|apply apart_list; reflexivity]|].
  split; [apply (HD 1%nat _ _ eq_refl); [reflexivity|reflexivity|apply apart_list; reflexivity]|].
  split; [apply (HD 2%nat _ _ eq_refl); [reflexivity|reflexivity|apply apart_list; reflexivity]|].
  assert (TX : forall n t, param (reply_doc v (c_reply s1) i) n (set_value (XStr t)) -> no_nul t -> param (reply_doc v (c_reply s1) i) n (JStr t)). { intros n t X N. cbn in X. rewrite (cstr_id _ N) in X. exact X. }
  split; [apply TX, (HD 3%nat _ _ eq_refl); [reflexivity|reflexivity|apply apart_list; reflexivity]|].
  apply TX, (HD 4%nat _ _ eq_refl); [reflexivity|reflexivity|apply apart_list; reflexivity].
Qed.
