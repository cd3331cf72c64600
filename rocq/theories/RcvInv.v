(** What a successful configure leaves behind. *)
From Coq Require Import String Ascii.
From Verif Require Import Base StrOrder FrameModel JsonModel JsonSpec JsonProofs LiveModel PortModel EqualModel RcvModel RcvSpec RcvProofs.
Local Open Scope string_scope.
Local Open Scope list_scope.
Local Open Scope Z_scope.

(** *** Decoder *)
Definition dec_ok (s : rc) (d : decoder) : Prop := c_decoder s = Some d /\ d_class d = append (s_type (c_cfg s)) "FrameDecoder" /\ d_init d = Some (s_dcfg (c_cfg s)).
Definition dec_post (s : rc) : Prop := flags s /\ (c_dec s = true -> c_nbuf s = true /\ c_nrx s = true /\ exists d, dec_ok s d /\ d_buf d = None).
Lemma load_class_post v class lib s (Q : option decoder -> rc -> Prop) (X : rexc -> rc -> Prop) :
  (forall l, Q None (w_c_classes l s)) -> (forall l n f, Q (Some (Decoder n class f None None)) (w_c_next (S n) (w_c_classes l s))) -> (forall e, X e s) -> post (load_class v class lib) s Q X.
Proof.
  intros N S E. assert (R : w_c_classes (c_classes s) s = s) by (destruct s; reflexivity). unfold load_class. vc; fields; auto.
  - rewrite <- R. rewrite <- R at 3. change (c_next (w_c_classes (c_classes s) s)) with (c_next s). specialize (S (c_classes s) (c_next s)). rewrite R in *. apply S.
  - rewrite <- R. apply N.
  - rewrite <- R. apply N.
Qed.
Lemma load_decoder_post v dir type s : s_type (c_cfg s) = type -> c_ndec s = true -> c_dec s = false -> flags s -> post (load_decoder v dir type) s (fun _ => dec_post) (fun _ _ => True).
Proof.
  intros T N D F. unfold load_decoder. cbv zeta. rewrite post_seq. eapply post_weaken with (Q := fun _ s1 => s_type (c_cfg s1) = type /\ c_ndec s1 = true /\ c_dec s1 = false /\ flags s1) (X := fun _ _ => True); [|clear s T N D F|auto].
  - unfold stop_rx_thread. vc; fields; auto. repeat split; auto; flag.
  - intros _ s (T & N & D & F). rewrite post_seq. unfold reset_decoder. rewrite post_change. destruct (released_eq s) as (ln & ->). rewrite post_seq. apply load_class_post; auto.
    + intros l. vc; exact Logic.I.
    + intros l n f. vc; auto. unfold dec_post, dec_ok, flags in *. fields. rewrite T. intuition. eexists. repeat split; reflexivity.
Qed.
Lemma decoder_post v m s : flags s -> post (configure_frame_decoder v m) s (fun _ => dec_post) (fun _ _ => True).
Proof.
  intros F. unfold configure_frame_decoder. cbv zeta.
  rewrite post_seq, post_setting, post_seq, post_lift. destruct (str_param_or _ _ _) as [path|e|]; [|exact Logic.I|exact Logic.I].
  rewrite post_seq. eapply post_weaken with (Q := fun _ => flags) (X := fun _ _ => True); [vc; flag| |auto]. clear s F. intros _ s F. destruct (last_char path); [|exact Logic.I].
  rewrite post_seq, post_setting, post_seq, post_lift. destruct (str_param_or _ _ _) as [type|e|]; [|exact Logic.I|exact Logic.I].
  rewrite post_seq. eapply post_weaken with (Q := fun _ s1 => flags s1 /\ s_type (c_cfg s1) = type) (X := fun _ _ => True); [| |auto].
  { vc; fields. - split; [flag|reflexivity]. - split; [flag|]. match goal with H : negb _ = false |- _ => apply Bool.negb_false_iff, String.eqb_eq in H; congruence end. }
  clear s F. intros _ s (F & T). rewrite post_seq, post_lift. destruct (has_param m "decoder_config") as [h|e|]; [|exact Logic.I|exact Logic.I].
  rewrite post_seq. eapply post_weaken with (Q := fun _ s1 => flags s1 /\ s_type (c_cfg s1) = type) (X := fun _ _ => True); [| |auto].
  { eapply post_weaken with (X := fun _ s1 => flags s1 /\ s_type (c_cfg s1) = type); [|intros x s1 H; exact H|auto].
    assert (K : keeps (fun s1 => flags s1 /\ s_type (c_cfg s1) = type) (when h (x <- lift (get_ref m "decoder_config");; cur <- setting s_dcfg;; when (negb (msg_eqb (v_deq v) (msg_of_value x TIllegal VIllegal true (v_now v)) cur)) (n <- new_decoder_class m;; (if n : bool then set (w_s_dcfg (msg_of_value x TIllegal VIllegal true (v_now v))) else update_decoder_config (msg_of_value x TIllegal VIllegal true (v_now v)));; change (w_c_ndec true))))).
    { unfold new_decoder_class. keep flag. }
    apply K. auto. }
  clear s F T. intros _ s (F & T). rewrite post_seq, post_get, post_when. destruct (c_ndec s) eqn:N.
  - rewrite post_seq, post_change, post_when. destruct (negb (is_unknown type)); [apply load_decoder_post; fields; auto; flag|]. split; [flag|fields; discriminate].
  - split; [exact F|]. intros H. destruct F as (A & _). rewrite (A H) in N. discriminate.
Qed.

(** *** Buffers *)
Definition buf_ok (s : rc) (b : buffers) : Prop := c_buffers s = Some b /\ b_name b = s_shm (c_cfg s) /\ b_mem b = s_mem (c_cfg s) /\ In (b_name b) (c_names s).
Definition buf_post (s : rc) : Prop := flags s /\ (c_dec s = true -> c_buf s = true -> c_nrx s = true /\ exists d b, dec_ok s d /\ buf_ok s b /\ d_buf d = Some b).
Lemma buffers_post v m s : dec_post s -> post (configure_buffer_manager v m) s (fun _ => buf_post) (fun _ _ => True).
Proof.
  intros F. unfold configure_buffer_manager.
  assert (W : forall f, (forall g, s_type (f g) = s_type g /\ s_dcfg (f g) = s_dcfg g) -> forall s, dec_post s -> dec_post (w_c_nbuf true (w_c_cfg (f (c_cfg s)) s))).
  { clear. intros f Hf s (F & D). split; [flag|]. fields. intros H. destruct (D H) as (A & B & d & (C1 & C2 & C3) & E). split; [reflexivity|]. split; [exact B|]. exists d. unfold dec_ok. fields. destruct (Hf (c_cfg s)) as (-> & ->). auto. }
  rewrite post_seq, post_setting, post_seq, post_lift. destruct (str_param_or _ _ _) as [name|e|]; [|exact Logic.I|exact Logic.I].
  rewrite post_seq. eapply post_weaken with (Q := fun _ s1 => dec_post s1 /\ s_shm (c_cfg s1) = name) (X := fun _ _ => True); [| |auto].
  { vc; fields. - split; [|reflexivity]. apply (W (w_s_shm name)); [intros g; split; reflexivity|exact F]. - split; [exact F|]. match goal with H : negb _ = false |- _ => apply Bool.negb_false_iff, String.eqb_eq in H; congruence end. }
  clear s F. intros _ s (F & T). rewrite post_seq, post_setting, post_seq, post_lift. destruct (int_param_or _ _ _ _) as [mem|e|]; [|exact Logic.I|exact Logic.I].
  rewrite post_seq. eapply post_weaken with (Q := fun _ s1 => dec_post s1 /\ s_shm (c_cfg s1) = name /\ s_mem (c_cfg s1) = mem) (X := fun _ _ => True); [| |auto].
  { vc; fields. - split; [|split; [exact T|reflexivity]]. apply (W (w_s_mem mem)); [intros g; split; reflexivity|exact F]. - split; [exact F|]. split; [exact T|]. match goal with H : negb _ = false |- _ => apply Bool.negb_false_iff, Z.eqb_eq in H; congruence end. }
  clear s F T W. intros _ s (F & T & U). rewrite post_seq, post_get, post_when. destruct (c_nbuf s) eqn:N.
  2:{ destruct F as (F & _). split; [exact F|]. intros _ H. destruct F as (_ & A & _). rewrite (A H) in N. discriminate. }
  rewrite post_seq, post_change, post_seq, post_get. destruct (c_decoder (w_c_buf false s)) as [d|] eqn:D; fields in D; [|split; [destruct F; flag|fields; discriminate]].
  destruct F as (F & G).
  assert (P : flags s /\ s_shm (c_cfg s) = name /\ s_mem (c_cfg s) = mem /\ c_nbuf s = true /\ c_decoder s = Some d /\ (c_dec s = true -> dec_ok s d /\ d_buf d = None)).
  { repeat split; auto; try (destruct (G H) as (_ & _ & d0 & (O & O1 & O2) & P); rewrite D in O; injection O as <-; assumption); flag. }
  clear F G T U D N. rewrite post_seq. eapply post_weaken with (Q := fun _ s => flags s /\ s_shm (c_cfg s) = name /\ s_mem (c_cfg s) = mem /\ c_nbuf s = true /\ c_decoder s = Some d /\ (c_dec s = true -> dec_ok s d /\ d_buf d = None)) (X := fun _ _ => True); [| |auto].
  { unfold stop_rx_thread, dec_ok in *. vc; fields; intuition; flag. }
  clear s P. intros _ s P. rewrite post_seq. eapply post_weaken with (Q := fun _ s => flags s /\ s_shm (c_cfg s) = name /\ s_mem (c_cfg s) = mem /\ c_nbuf s = true /\ c_decoder s = Some d /\ (c_dec s = true -> dec_ok s d /\ d_buf d = None)) (X := fun _ _ => True); [| |auto].
  { match goal with |- post _ _ (fun _ => ?R) _ => assert (K : keeps R reset_buffers) end.
    - apply keeps_reset_buffers. unfold dec_ok. intros s1 l H. fields. intuition; flag.
    - eapply post_weaken; [apply K; exact P|auto|auto]. }
  clear s P. intros _ s (F & T & U & N & D & G). destruct (v_shm _ _ _ _) as [count|]; [|exact Logic.I].
  rewrite post_seq, post_fresh. rewrite post_seq, post_change. rewrite post_seq, post_emit. rewrite post_seq, post_change. rewrite post_seq. unfold register_buffers. rewrite post_change. fields. rewrite D.
  rewrite post_seq, post_later, post_seq, post_change, post_change. cbv zeta.
  destruct (c_dec s) eqn:E.
  - destruct (G eq_refl) as ((_ & G1 & G2) & G3). unfold released_by_decoder. fields. rewrite D, G3. split; [flag|]. fields. intros _ _. split; [reflexivity|]. unfold dec_ok, buf_ok. fields. eexists _, _. repeat split; try reflexivity; cbn; auto.
  - split; [|match goal with |- c_dec ?s1 = true -> _ => replace (c_dec s1) with false; [discriminate|] end].
    + match goal with |- context [released_by_decoder ?z] => destruct (released_eq z) as (l & ->) end. flag.
    + match goal with |- context [released_by_decoder ?z] => destruct (released_eq z) as (l & ->) end. fields. symmetry. exact E.
Qed.

(** *** Thread *)
Definition rx_post (s : rc) : Prop := c_dec s = true -> c_buf s = true -> c_rx s = true -> exists d b t, in_service s d b t.
Lemma rx_post_ok v m s : buf_post s -> post (configure_rx_thread v m) s (fun _ => rx_post) (fun _ _ => True).
Proof.
  intros F. unfold configure_rx_thread. cbv zeta.
  assert (W : forall f, (forall g, s_type (f g) = s_type g /\ s_dcfg (f g) = s_dcfg g /\ s_shm (f g) = s_shm g /\ s_mem (f g) = s_mem g) -> forall s, buf_post s -> buf_post (w_c_nrx true (w_c_cfg (f (c_cfg s)) s))).
  { clear. intros f Hf s (F & D). split; [flag|]. fields. intros H1 H2. destruct (D H1 H2) as (A & d & b & (C1 & C2 & C3) & (B1 & B2 & B3 & B4) & E). split; [reflexivity|]. exists d, b. unfold dec_ok, buf_ok. fields. destruct (Hf (c_cfg s)) as (-> & -> & -> & ->). auto 10. }
  rewrite post_seq, post_setting, post_seq, post_lift. destruct (str_param_or _ _ _) as [name|e|]; [|exact Logic.I|exact Logic.I].
  rewrite post_seq. eapply post_weaken with (Q := fun _ s1 => buf_post s1 /\ s_rx (c_cfg s1) = rx_type_of_name name) (X := fun _ _ => True); [| |auto].
  { vc; fields. - split; [|reflexivity]. apply (W (w_s_rx _)); [intros g; auto|exact F]. - split; [exact F|]. match goal with H : negb _ = false |- _ => apply Bool.negb_false_iff in H; revert H; generalize (rx_type_of_name name); generalize (s_rx (c_cfg s)); intros [] []; cbn; congruence end. }
  clear s F. intros _ s (F & T). rewrite post_seq, post_setting, post_seq, post_lift. destruct (str_param_or _ _ _) as [addr|e|]; [|exact Logic.I|exact Logic.I].
  rewrite post_seq. eapply post_weaken with (Q := fun _ s1 => buf_post s1 /\ s_rx (c_cfg s1) = rx_type_of_name name) (X := fun _ _ => True); [| |auto].
  { vc; fields; [|auto]. split; [|exact T]. apply (W (w_s_addr _)); [intros g; auto|exact F]. }
  clear s F T. intros _ s (F & T). rewrite post_seq, post_setting, post_seq, post_lift. destruct (int_param_or _ _ _) as [size|e|]; [|exact Logic.I|exact Logic.I].
  rewrite post_seq. eapply post_weaken with (Q := fun _ s1 => buf_post s1 /\ s_rx (c_cfg s1) = rx_type_of_name name) (X := fun _ _ => True); [| |auto].
  { vc; fields; [|auto]. split; [|exact T]. apply (W (w_s_size _)); [intros g; auto|exact F]. }
  clear s F T. intros _ s (F & T). rewrite post_seq, post_setting. destruct (rx_port_list _) as [current|]; [|exact Logic.I]. rewrite post_seq, post_lift. destruct (str_param_or _ _ _) as [ports|e|]; [|exact Logic.I|exact Logic.I].
  rewrite post_seq. eapply post_weaken with (Q := fun _ s1 => buf_post s1 /\ s_rx (c_cfg s1) = rx_type_of_name name) (X := fun _ _ => True); [| |auto].
  { vc; fields; [|auto]. split; [|exact T]. apply (W (w_s_ports _)); [intros g; auto|exact F]. }
  clear s F T W. intros _ s (F & T). rewrite post_seq, post_get, post_when. destruct (c_nrx s) eqn:N.
  2:{ destruct F as (F & _). intros _ _ H. destruct F as (_ & _ & A). rewrite (A H) in N. discriminate. }
  rewrite post_seq, post_change, post_seq, post_get, post_seq, post_get. fields. destruct (c_decoder s) as [d|] eqn:D; [|intros _ _; fields; discriminate]. destruct (c_buffers s) as [b|] eqn:B; [|intros _ _; fields; discriminate].
  destruct F as (F & G). rewrite post_seq.
  set (P := fun s => s_rx (c_cfg s) = rx_type_of_name name /\ (c_dec s = true -> c_buf s = true -> dec_ok s d /\ buf_ok s b /\ d_buf d = Some b)).
  eapply post_weaken with (Q := fun _ => P) (X := fun _ _ => True); [| |auto].
  { assert (H : P s). { split; [exact T|]. intros H1 H2. destruct (G H1 H2) as (_ & d0 & b0 & (C1 & C) & (B1 & B2) & E). rewrite D in C1. rewrite B in B1. injection C1 as <-. injection B1 as <-. repeat split; auto; tauto. }
    unfold stop_rx_thread, P, dec_ok, buf_ok in *. vc; fields; exact H. }
  clear s T N D B F G. intros _ s (T & G). destruct (rx_type_of_name name) eqn:R; [exact Logic.I| | |]; (rewrite post_seq, post_get, post_seq, post_change, post_seq, post_emit, post_change; intros H1 H2 H3; fields in H1 H2 H3; destruct (G H1 H2) as ((D1 & D2 & D3) & (B1 & B2 & B3 & B4) & E); exists d, b; eexists; split; fields; try reflexivity; try assumption; [split; reflexivity|symmetry; exact T]).
Qed.
Definition ipc_post (s : rc) : Prop := c_ipc s = true -> forall c, In c [CCtrl; CRx; CReady] -> In c (c_once s).
Lemma once_In c s : once c s = true -> In c (c_once s).
Proof. unfold once. intros H. apply existsb_exists in H. destruct H as (x & I & E). destruct c, x; try discriminate; exact I. Qed.
Lemma ipc_post_ok v m s : flags s -> post (configure_ipc_channels v m) s (fun _ s1 => flags s1 /\ ipc_post s1) (fun _ _ => True).
Proof.
  intros F. assert (K : post (configure_ipc_channels v m) s (fun _ => flags) (fun _ => flags)) by (apply flags_ipc, F).
  assert (L : post (configure_ipc_channels v m) s (fun _ => ipc_post) (fun _ _ => True)).
  { unfold configure_ipc_channels. assert (E : forall {A} (a : M A) s, post a s (fun _ _ => True) (fun _ _ => True)) by (intros A a s0; unfold post; destruct (a s0) as [? []]; exact Logic.I).
    do 5 (rewrite post_seq; eapply post_weaken; [apply E| |auto]; cbv beta; intros _ ? _). rewrite post_change. unfold ipc_post. fields. intros H. apply andb_prop in H. destruct H as (H & _). apply andb_prop in H. destruct H as (H & H2). apply andb_prop in H. destruct H as (H & H1).
    intros c I. change (In c (c_once s4)). apply once_In in H, H1, H2. cbn in I. destruct I as [<-|[<-|[<-|[]]]]; assumption. }
  eapply post_weaken; [apply (post_both _ _ _ _ _ _ K L)|auto|auto].
Qed.
