(** The settings after a configure. *)
From Coq Require Import String Ascii.
From Verif Require Import Base StrOrder FrameModel JsonModel JsonSpec JsonProofs JsonProps LiveModel LiveSpec PortModel PortSpec PortProps EqualModel RcvModel RcvSpec RcvProofs RcvReply RcvSafe.
Local Open Scope string_scope.
Local Open Scope list_scope.
Local Open Scope Z_scope.

(** *** Reading *)
Lemma holds_find m n x : holds m [n] x <-> exists l, params_of m = Some (JObj l) /\ find_member n l = Some x.
Proof.
  rewrite holds_at. cbn. unfold params_of. destruct (find_member "params" (g_doc m)) as [p|]; [|split; [discriminate|intros (l & E & _); discriminate]].
  destruct p; try (split; [discriminate|intros (l0 & E & _); discriminate]). split; [intros H; exists l; split; [reflexivity|]; destruct (find_member n l); [exact H|discriminate]|]. intros (l0 & E & F). injection E as <-. rewrite F. reflexivity.
Qed.
Lemma str_or_set m n d r : no_nul n -> str_param_or m n d = Ret r -> text_set (g_doc m) n d r.
Proof.
  intros N H. unfold str_param_or, get_param_or in H. rewrite (cstr_id _ N) in H. split.
  - intros t P NT. change (holds m [n] (JStr t)) in P. apply holds_find in P. destruct P as (l & E & F). rewrite E, F in H. cbn in H. injection H as <-. apply cstr_id, NT.
  - intros NO. destruct (params_of m) as [[| | | | | |l]|] eqn:E; try discriminate; try (injection H as <-; reflexivity). destruct (find_member n l) as [x|] eqn:F; [|injection H as <-; reflexivity]. exfalso. apply (NO x). change (holds m [n] x). apply holds_find. eauto.
Qed.
Lemma int_or_set g m n d r : In g [GInt; GUint; GInt64; GUint64] -> no_nul n -> int_param_or g m n d = Ret r -> number_set (g_doc m) n d r.
Proof.
  intros G N H. unfold int_param_or, get_param_or in H. rewrite (cstr_id _ N) in H. split.
  - intros z P. change (holds m [n] (JInt z)) in P. apply holds_find in P. destruct P as (l & E & F). rewrite E, F in H. cbn in G. repeat destruct G as [<-|G]; try destruct G; cbn in H; unfold in_range in H; destruct (_ && _); try discriminate; injection H as <-; reflexivity.
  - intros NO. destruct (params_of m) as [[| | | | | |l]|] eqn:E; try discriminate; try (injection H as <-; reflexivity). destruct (find_member n l) as [x|] eqn:F; [|injection H as <-; reflexivity]. exfalso. apply (NO x). change (holds m [n] x). apply holds_find. eauto.
Qed.
Lemma has_is m n b : no_slash n -> no_nul n -> has_param m n = Ret b -> if b then exists x, holds m [n] x else forall x, ~ holds m [n] x.
Proof.
  intros S N H. pose proof (c33_has m [n] b) as C. cbn [slashed] in C. destruct C as (C1 & C2); [split; [discriminate|split; constructor; auto]|exact H|]. destruct b; [apply C1; reflexivity|]. intros x P. assert (E : false = true) by (apply C1; eauto). discriminate.
Qed.
Lemma str_is m n r x : no_slash n -> no_nul n -> str_param m n = Ret r -> holds m [n] x -> exists t, x = JStr t /\ r = cstr t.
Proof.
  intros S N H P. assert (G : get_raw m n = Ret x) by (apply (get_raw_holds m [n]); [split; [discriminate|split; constructor; auto]|exact P]). unfold str_param, get_param in H. rewrite G in H. destruct x; try discriminate. injection H as <-. eauto.
Qed.
Lemma int_is g m n r x : In g [GInt; GUint; GInt64; GUint64] -> no_slash n -> no_nul n -> int_param g m n = Ret r -> holds m [n] x -> x = JInt r.
Proof.
  intros I S N H P. assert (G : get_raw m n = Ret x) by (apply (get_raw_holds m [n]); [split; [discriminate|split; constructor; auto]|exact P]). unfold int_param, get_param in H. rewrite G in H. cbn in I. repeat destruct I as [<-|I]; try destruct I; destruct x; try discriminate; cbn in H; unfold in_range in H; destruct (_ && _); try discriminate; injection H as <-; reflexivity.
Qed.
Lemma leads_one p x y : leads p x y -> forall z, leads p x z -> y = z. Proof. intros A z B. apply leads_at in A, B. congruence. Qed.

(** *** The parts *)
Definition ends_same (g g' : settings) : Prop := forall c, s_end g' c = s_end g c.
Definition rest_ipc (g g' : settings) : Prop := s_path g' = s_path g /\ s_type g' = s_type g /\ s_shm g' = s_shm g /\ s_mem g' = s_mem g /\ s_addr g' = s_addr g /\ s_size g' = s_size g /\ s_rx g' = s_rx g /\ s_frames g' = s_frames g /\ s_ports g' = s_ports g.
Lemma endpoint_plain c : no_slash (endpoint_name c) /\ no_nul (endpoint_name c). Proof. destruct c; split; apply no_char_ok; reflexivity. Qed.
Lemma channel_set v m c s : post (configure_channel v m c) s (fun _ s1 => text_set (g_doc m) (endpoint_name c) (s_end (c_cfg s) c) (s_end (c_cfg s1) c) /\ (forall c', c' <> c -> s_end (c_cfg s1) c' = s_end (c_cfg s) c') /\ rest_ipc (c_cfg s) (c_cfg s1)) (fun _ _ => True).
Proof.
  destruct (endpoint_plain c) as (NS & NN). unfold configure_channel. rewrite post_seq, post_lift. destruct (has_param m (endpoint_name c)) as [h|e|] eqn:H; [|exact Logic.I|exact Logic.I]. apply (has_is _ _ _ NS NN) in H. rewrite post_when. destruct h.
  2:{ split; [split; [intros t P; destruct (H _ P)|intros _; reflexivity]|]. split; [auto|]. unfold rest_ipc. auto 10. }
  rewrite post_seq, post_lift. destruct (str_param m (endpoint_name c)) as [e|x|] eqn:SP; [|exact Logic.I|exact Logic.I]. destruct H as (x & HX). destruct (str_is _ _ _ _ NS NN SP HX) as (t & -> & ->).
  rewrite post_seq, post_setting, post_when.
  assert (TS : forall new, new = cstr t -> text_set (g_doc m) (endpoint_name c) (s_end (c_cfg s) c) new).
  { intros new ->. split; [|intros NO; destruct (NO _ HX)]. intros t' P NT. pose proof (leads_one _ _ _ HX _ P) as E. injection E as ->. apply cstr_id, NT. }
  destruct (negb _) eqn:NE.
  2:{ apply Bool.negb_false_iff, String.eqb_eq in NE. split; [apply TS; symmetry; exact NE|]. split; [auto|]. unfold rest_ipc. auto 10. }
  rewrite post_seq. eapply post_weaken with (Q := fun _ s1 => c_cfg s1 = c_cfg s) (X := fun _ _ => True); [unfold unbind_channel; vc; fields; auto| |auto].
  intros _ s1 E1. rewrite post_seq. eapply post_weaken with (Q := fun _ s1 => c_cfg s1 = c_cfg s) (X := fun _ _ => True); [unfold setup_channel; vc; fields; auto| |auto].
  intros _ s2 E2. unfold set_end. rewrite post_seq, post_set, post_seq, post_change, post_when. assert (G : forall g, g = w_s_end (fun c' => if chan_eqb c c' then cstr t else s_end (c_cfg s2) c') (c_cfg s2) -> text_set (g_doc m) (endpoint_name c) (s_end (c_cfg s) c) (s_end g c) /\ (forall c', c' <> c -> s_end g c' = s_end (c_cfg s) c') /\ rest_ipc (c_cfg s) g).
  { intros g ->. rewrite E2. fields. split; [apply TS; destruct c; reflexivity|]. split; [intros c' N; destruct c, c'; try reflexivity; congruence|]. unfold rest_ipc. fields. auto 10. }
  destruct (chan_eqb c CRx); [rewrite post_change|]; apply G; reflexivity.
Qed.
Lemma rest_trans a b c : rest_ipc a b -> rest_ipc b c -> rest_ipc a c. Proof. unfold rest_ipc. intuition congruence. Qed.
Lemma ipc_set v m s : post (configure_ipc_channels v m) s (fun _ s1 => (forall c, text_set (g_doc m) (endpoint_name c) (s_end (c_cfg s) c) (s_end (c_cfg s1) c)) /\ rest_ipc (c_cfg s) (c_cfg s1)) (fun _ _ => True).
Proof.
  unfold configure_ipc_channels. rewrite post_seq, post_change.
  rewrite post_seq. eapply post_weaken; [apply channel_set| |auto]. intros _ s1 (A1 & A2 & A3). fields in A1 A2 A3. rewrite post_seq. eapply post_weaken; [apply channel_set| |auto]. intros _ s2 (B1 & B2 & B3). rewrite post_seq. eapply post_weaken; [apply channel_set| |auto]. intros _ s3 (C1 & C2 & C3). rewrite post_seq. eapply post_weaken; [apply channel_set| |auto]. intros _ s4 (D1 & D2 & D3).
  rewrite post_change. fields. split; [|eapply rest_trans; [exact A3|eapply rest_trans; [exact B3|eapply rest_trans; [exact C3|exact D3]]]].
  intros [].
  - rewrite (D2 CCtrl), (C2 CCtrl), (B2 CCtrl) by discriminate. exact A1.
  - rewrite (D2 CRx), (C2 CRx) by discriminate. rewrite <- (A2 CRx) by discriminate. exact B1.
  - rewrite (D2 CReady) by discriminate. rewrite <- (A2 CReady), <- (B2 CReady) by discriminate. exact C1.
  - rewrite <- (A2 CRelease), <- (B2 CRelease), <- (C2 CRelease) by discriminate. exact D1.
Qed.
Definition rest_dec (g g' : settings) : Prop := s_end g' = s_end g /\ s_shm g' = s_shm g /\ s_mem g' = s_mem g /\ s_addr g' = s_addr g /\ s_size g' = s_size g /\ s_rx g' = s_rx g /\ s_frames g' = s_frames g /\ s_ports g' = s_ports g.
Lemma cfg_load v a b g : keeps (fun s => c_cfg s = g) (load_decoder v a b).
Proof. unfold load_decoder, stop_rx_thread, load_class. cbv zeta. keep3 ltac:(idtac; cbv beta in *; fields; assumption). Qed.
Lemma decoder_set v m s : post (configure_frame_decoder v m) s (fun _ s1 => text_set (g_doc m) "decoder_path" (s_path (c_cfg s)) (s_path (c_cfg s1)) /\ text_set (g_doc m) "decoder_type" (s_type (c_cfg s)) (s_type (c_cfg s1)) /\ rest_dec (c_cfg s) (c_cfg s1)) (fun _ _ => True).
Proof.
  unfold configure_frame_decoder. cbv zeta. rewrite post_seq, post_setting, post_seq, post_lift. destruct (str_param_or m "decoder_path" _) as [path|e|] eqn:SP; [|exact Logic.I|exact Logic.I]. apply str_or_set in SP; [|apply no_char_ok; reflexivity].
  rewrite post_seq. eapply post_weaken with (Q := fun _ s1 => s_path (c_cfg s1) = path /\ s_type (c_cfg s1) = s_type (c_cfg s) /\ rest_dec (c_cfg s) (c_cfg s1)) (X := fun _ _ => True); [| |auto].
  { unfold rest_dec. vc; fields; auto 15. match goal with H : negb _ = false |- _ => apply Bool.negb_false_iff, String.eqb_eq in H end. auto 15. }
  intros _ s1 (P1 & T1 & R1). destruct (last_char path); [|exact Logic.I]. rewrite post_seq, post_setting, post_seq, post_lift. destruct (str_param_or m "decoder_type" _) as [type|e|] eqn:ST; [|exact Logic.I|exact Logic.I]. apply str_or_set in ST; [|apply no_char_ok; reflexivity]. rewrite T1 in ST.
  set (Z := fun s2 : rc => s_path (c_cfg s2) = path /\ s_type (c_cfg s2) = type /\ rest_dec (c_cfg s) (c_cfg s2)).
  eapply post_weaken with (Q := fun _ => Z) (X := fun _ _ => True); [|intros _ s2 (-> & -> & R2); auto|auto].
  rewrite post_seq. eapply post_weaken with (Q := fun _ => Z) (X := fun _ _ => True); [| |auto].
  { unfold Z, rest_dec in *. vc; fields; auto 15. match goal with H : negb _ = false |- _ => apply Bool.negb_false_iff, String.eqb_eq in H end. split; [exact P1|]. split; [congruence|exact R1]. }
  clear. intros _ s2 H. match goal with |- post ?a _ _ _ => assert (K : keeps Z a) end; [|eapply post_weaken; [apply K, H|auto|auto]]. clear s2 H.
  unfold new_decoder_class.
  repeat match goal with |- keeps _ (load_decoder _ _ _) => fail 1 | |- keeps _ (seq (get _) (fun n => when n _)) => apply keeps_need2 | _ => keep1 ltac:(idtac; cbv beta in *; unfold Z, rest_dec in *; fields; assumption) end.
  intros s0 H. eapply post_weaken; [apply (cfg_load v _ _ (c_cfg s0)); reflexivity| |]; intros ? s1 E; unfold Z in *; cbv beta in *; rewrite E; exact H.
Qed.
Definition rest_buf (g g' : settings) : Prop := s_end g' = s_end g /\ s_path g' = s_path g /\ s_type g' = s_type g /\ s_addr g' = s_addr g /\ s_size g' = s_size g /\ s_rx g' = s_rx g /\ s_frames g' = s_frames g /\ s_ports g' = s_ports g.
Lemma buffers_set v m s : post (configure_buffer_manager v m) s (fun _ s1 => text_set (g_doc m) "shared_buffer_name" (s_shm (c_cfg s)) (s_shm (c_cfg s1)) /\ number_set (g_doc m) "max_buffer_mem" (s_mem (c_cfg s)) (s_mem (c_cfg s1)) /\ rest_buf (c_cfg s) (c_cfg s1)) (fun _ _ => True).
Proof.
  unfold configure_buffer_manager. rewrite post_seq, post_setting, post_seq, post_lift. destruct (str_param_or m "shared_buffer_name" _) as [name|e|] eqn:SP; [|exact Logic.I|exact Logic.I]. apply str_or_set in SP; [|apply no_char_ok; reflexivity].
  rewrite post_seq. eapply post_weaken with (Q := fun _ s1 => s_shm (c_cfg s1) = name /\ s_mem (c_cfg s1) = s_mem (c_cfg s) /\ rest_buf (c_cfg s) (c_cfg s1)) (X := fun _ _ => True); [| |auto].
  { unfold rest_buf. vc; fields; auto 15. match goal with H : negb _ = false |- _ => apply Bool.negb_false_iff, String.eqb_eq in H end. auto 15. }
  intros _ s1 (P1 & T1 & R1). rewrite post_seq, post_setting, post_seq, post_lift. destruct (int_param_or GUint64 m "max_buffer_mem" _) as [mem|e|] eqn:ST; [|exact Logic.I|exact Logic.I]. apply int_or_set in ST; [|cbn; auto|apply no_char_ok; reflexivity]. rewrite T1 in ST.
  set (Z := fun s2 : rc => s_shm (c_cfg s2) = name /\ s_mem (c_cfg s2) = mem /\ rest_buf (c_cfg s) (c_cfg s2)).
  eapply post_weaken with (Q := fun _ => Z) (X := fun _ _ => True); [|intros _ s2 (-> & -> & R2); auto|auto].
  rewrite post_seq. eapply post_weaken with (Q := fun _ => Z) (X := fun _ _ => True); [| |auto].
  { unfold Z, rest_buf in *. vc; fields; auto 15. match goal with H : negb _ = false |- _ => apply Bool.negb_false_iff, Z.eqb_eq in H end. split; [exact P1|]. split; [congruence|exact R1]. }
  clear. intros _ s2 H. match goal with |- post ?a _ _ _ => assert (K : keeps Z a) end; [|eapply post_weaken; [apply K, H|auto|auto]]. clear s2 H.
  unfold stop_rx_thread. keep3 ltac:(idtac; cbv beta in *; unfold Z, rest_buf in *; fields; assumption).
Qed.
Definition rest_rx (g g' : settings) : Prop := s_end g' = s_end g /\ s_path g' = s_path g /\ s_type g' = s_type g /\ s_shm g' = s_shm g /\ s_mem g' = s_mem g /\ s_frames g' = s_frames g.
Definition in_range16 (g : settings) : Prop := Forall (fun p => 1 <= p <= 65535) (s_ports g).
Definition rx_type_set (doc : list (string * json)) (old new : rx_type) : Prop :=
  (forall t, param doc ["rx_type"] (JStr t) -> no_nul t -> new = rx_type_of_name t) /\ ((forall x, ~ param doc ["rx_type"] x) -> old <> RxIllegal -> new = old).
Definition ports_given (doc : list (string * json)) (old new : list Z) : Prop :=
  (forall parts entries ports t, param doc ["rx_ports"] (JStr t) -> no_nul t -> t = LiveSpec.joined "," parts -> parts <> [] -> Forall LiveSpec.no_comma parts -> Forall2 entry_text parts entries -> ports_of entries ports -> new = ports)
    /\ ((forall x, ~ param doc ["rx_ports"] x) -> new = old).
Lemma rx_eqb_eq a b : negb (rx_type_eqb a b) = false -> a = b. Proof. destruct a, b; intros H; try discriminate H; reflexivity. Qed.
Lemma rx_set v m s : (forall t, v_stale v t = t) -> in_range16 (c_cfg s) ->
  post (configure_rx_thread v m) s (fun _ s1 => rx_type_set (g_doc m) (s_rx (c_cfg s)) (s_rx (c_cfg s1)) /\ text_set (g_doc m) "rx_address" (s_addr (c_cfg s)) (s_addr (c_cfg s1)) /\ number_set (g_doc m) "rx_recv_buffer_size" (s_size (c_cfg s)) (s_size (c_cfg s1))
    /\ ports_given (g_doc m) (s_ports (c_cfg s)) (s_ports (c_cfg s1)) /\ rest_rx (c_cfg s) (c_cfg s1)) (fun _ _ => True).
Proof.
  intros ST RG. unfold configure_rx_thread. cbv zeta. rewrite post_seq, post_setting, post_seq, post_lift. destruct (str_param_or m "rx_type" _) as [tn|e|] eqn:S1; [|exact Logic.I|exact Logic.I]. apply str_or_set in S1; [|apply no_char_ok; reflexivity].
  set (type := rx_type_of_name tn).
  assert (T1 : rx_type_set (g_doc m) (s_rx (c_cfg s)) type). { destruct S1 as (A & B). split; [intros t P N; unfold type; rewrite (A t P N); reflexivity|]. intros NO NI. unfold type. rewrite (B NO). apply c50_types, NI. }
  rewrite post_seq. eapply post_weaken with (Q := fun _ s1 => s_rx (c_cfg s1) = type /\ s_addr (c_cfg s1) = s_addr (c_cfg s) /\ s_size (c_cfg s1) = s_size (c_cfg s) /\ s_ports (c_cfg s1) = s_ports (c_cfg s) /\ rest_rx (c_cfg s) (c_cfg s1)) (X := fun _ _ => True); [| |auto].
  { unfold rest_rx. vc; fields; auto 15. match goal with H : negb _ = false |- _ => apply rx_eqb_eq in H end. auto 15. }
  intros _ s1 (P1 & P2 & P3 & P4 & P5). rewrite post_seq, post_setting, post_seq, post_lift. destruct (str_param_or m "rx_address" _) as [addr|e|] eqn:S2; [|exact Logic.I|exact Logic.I]. apply str_or_set in S2; [|apply no_char_ok; reflexivity]. rewrite P2 in S2.
  rewrite post_seq. eapply post_weaken with (Q := fun _ s1 => s_rx (c_cfg s1) = type /\ s_addr (c_cfg s1) = addr /\ s_size (c_cfg s1) = s_size (c_cfg s) /\ s_ports (c_cfg s1) = s_ports (c_cfg s) /\ rest_rx (c_cfg s) (c_cfg s1)) (X := fun _ _ => True); [| |auto].
  { unfold rest_rx in *. vc; fields; auto 15. match goal with H : negb _ = false |- _ => apply Bool.negb_false_iff, String.eqb_eq in H end. split; [exact P1|]. split; [congruence|]. auto. }
  clear s1 P1 P2 P3 P4 P5. intros _ s1 (P1 & P2 & P3 & P4 & P5). rewrite post_seq, post_setting, post_seq, post_lift. destruct (int_param_or GInt m "rx_recv_buffer_size" _) as [size|e|] eqn:S3; [|exact Logic.I|exact Logic.I]. apply int_or_set in S3; [|cbn; auto|apply no_char_ok; reflexivity]. rewrite P3 in S3.
  rewrite post_seq. eapply post_weaken with (Q := fun _ s1 => s_rx (c_cfg s1) = type /\ s_addr (c_cfg s1) = addr /\ s_size (c_cfg s1) = size /\ s_ports (c_cfg s1) = s_ports (c_cfg s) /\ rest_rx (c_cfg s) (c_cfg s1)) (X := fun _ _ => True); [| |auto].
  { unfold rest_rx in *. vc; fields; auto 15. match goal with H : negb _ = false |- _ => apply Bool.negb_false_iff, Z.eqb_eq in H end. split; [exact P1|]. split; [exact P2|]. split; [congruence|]. auto. }
  clear s1 P1 P2 P3 P4 P5. intros _ s1 (P1 & P2 & P3 & P4 & P5). rewrite post_seq, post_setting. rewrite P4. destruct (rx_port_list (s_ports (c_cfg s))) as [current|] eqn:PL; [|exact Logic.I].
  rewrite post_seq, post_lift. destruct (str_param_or m "rx_ports" current) as [list|e|] eqn:S4; [|exact Logic.I|exact Logic.I]. apply str_or_set in S4; [|apply no_char_ok; reflexivity].
  assert (NE : s_ports (c_cfg s) <> []) by (intros E; rewrite E in PL; discriminate).
  destruct (c50_round_trip_partial (v_stale v) _ ST NE RG) as (cur' & PL' & RT). assert (cur' = current) by congruence. subst cur'. clear PL'.
  assert (PG : forall new, new = tokenize_port_list (v_stale v) list -> ports_given (g_doc m) (s_ports (c_cfg s)) new).
  { intros new ->. destruct S4 as (A & B). split; [|intros NO; rewrite (B NO); exact RT]. intros parts entries ports t P N -> NP NC F PO. rewrite (A _ P N). apply (c50_parse_partial (v_stale v) parts entries); assumption. }
  set (Z := fun s2 : rc => s_rx (c_cfg s2) = type /\ s_addr (c_cfg s2) = addr /\ s_size (c_cfg s2) = size /\ ports_given (g_doc m) (s_ports (c_cfg s)) (s_ports (c_cfg s2)) /\ rest_rx (c_cfg s) (c_cfg s2)).
  eapply post_weaken with (Q := fun _ => Z) (X := fun _ _ => True); [|intros _ s2 (-> & -> & -> & PP & R2); auto|auto].
  rewrite post_seq. eapply post_weaken with (Q := fun _ => Z) (X := fun _ _ => True); [| |auto].
  { rewrite post_when. destruct (negb (list =? current)%string) eqn:NQ.
    - rewrite post_seq, post_set, post_change. unfold Z, rest_rx in *. fields. split; [exact P1|]. split; [exact P2|]. split; [exact P3|]. split; [apply PG; reflexivity|exact P5].
    - apply Bool.negb_false_iff, String.eqb_eq in NQ. unfold Z. split; [exact P1|]. split; [exact P2|]. split; [exact P3|]. split; [apply PG; rewrite P4, NQ; symmetry; exact RT|exact P5]. }
  clear - Z. clearbody type. intros _ s2 H. match goal with |- post ?a _ _ _ => assert (K : keeps Z a) end; [|eapply post_weaken; [apply K, H|auto|auto]]. clear s2 H.
  unfold stop_rx_thread. keep3 ltac:(idtac; cbv beta in *; unfold Z, rest_rx in *; fields; assumption).
Qed.

(** *** All of it *)
Lemma parts_set v m s : (forall t, v_stale v t = t) -> in_range16 (c_cfg s) ->
  post (configure_parts v m) s (fun _ s1 => applied (g_doc m) (c_cfg s) (c_cfg s1) /\ (forall n, param (g_doc m) ["debug_level"] (JInt n) -> c_debug s1 = n)) (fun _ _ => True).
Proof.
  intros ST RG. unfold configure_parts.
  rewrite post_seq, post_lift. destruct (has_param m "debug_level") as [h|e|] eqn:H1; [|exact Logic.I|exact Logic.I]. apply has_is in H1; [|apply no_char_ok; reflexivity|apply no_char_ok; reflexivity].
  rewrite post_seq. eapply post_weaken with (Q := fun _ s1 => c_cfg s1 = c_cfg s /\ forall n, param (g_doc m) ["debug_level"] (JInt n) -> c_debug s1 = n) (X := fun _ _ => True); [| |auto].
  { rewrite post_when. destruct h; [|split; [reflexivity|intros n P; destruct (H1 _ P)]]. rewrite post_seq, post_lift. destruct (int_param GUint m "debug_level") as [l|e|] eqn:IP; [|exact Logic.I|exact Logic.I]. rewrite post_change. fields. split; [reflexivity|]. intros n P.
    apply (int_is GUint m "debug_level" l _) in P; [injection P as ->; reflexivity|cbn; auto|apply no_char_ok; reflexivity|apply no_char_ok; reflexivity|exact IP]. }
  intros _ s1 (C1 & D1). rewrite post_seq, post_lift. destruct (has_param m "frames") as [h2|e|] eqn:H2; [|exact Logic.I|exact Logic.I]. apply has_is in H2; [|apply no_char_ok; reflexivity|apply no_char_ok; reflexivity].
  set (FS := fun g' : settings => (forall n, param (g_doc m) ["frames"] (JInt n) -> n <> 0 -> s_frames g' = n) /\ ((forall x, ~ param (g_doc m) ["frames"] x) -> s_frames g' = s_frames (c_cfg s))).
  set (dbg := fun s1 : rc => forall n, param (g_doc m) ["debug_level"] (JInt n) -> c_debug s1 = n).
  assert (KD : forall d A (a : M A), keeps (fun s => c_debug s = d) a -> forall s, c_debug s = d -> post a s (fun _ s1 => c_debug s1 = d) (fun _ _ => True)). { intros d A a K s0 E. eapply post_weaken; [apply K, E|auto|auto]. }
  rewrite post_seq. eapply post_weaken with (Q := fun _ s1 => c_debug s1 = c_debug s1 /\ dbg s1 /\ FS (c_cfg s1) /\ rest_rx (w_s_frames 0 (c_cfg s)) (w_s_frames 0 (c_cfg s1)) /\ s_rx (c_cfg s1) = s_rx (c_cfg s) /\ s_addr (c_cfg s1) = s_addr (c_cfg s) /\ s_size (c_cfg s1) = s_size (c_cfg s) /\ s_ports (c_cfg s1) = s_ports (c_cfg s)) (X := fun _ _ => True); [| |auto].
  { rewrite post_when. destruct h2; [|split; [reflexivity|]; rewrite C1; split; [exact D1|split; [split; [intros n P; destruct (H2 _ P)|reflexivity]|]]; unfold rest_rx; auto 15].
    rewrite post_seq, post_lift. destruct (int_param GUint m "frames") as [l|e|] eqn:IP; [|exact Logic.I|exact Logic.I]. destruct H2 as (x & HX). pose proof (int_is GUint m "frames" l _ ltac:(cbn; auto) ltac:(apply no_char_ok; reflexivity) ltac:(apply no_char_ok; reflexivity) IP HX) as ->.
    rewrite post_when. destruct (negb (l =? 0)) eqn:NZ.
    - rewrite post_set. unfold dbg, FS, rest_rx. fields. rewrite C1. split; [reflexivity|]. split; [exact D1|]. split; [|auto 15]. split; [|intros NO; destruct (NO _ HX)]. intros n P _. pose proof (leads_one _ _ _ HX _ P) as E. injection E as ->. reflexivity.
    - apply Bool.negb_false_iff, Z.eqb_eq in NZ. subst l. rewrite C1. split; [reflexivity|]. split; [exact D1|]. unfold rest_rx. split; [|auto 15]. split; [|intros NO; destruct (NO _ HX)]. intros n P N. pose proof (leads_one _ _ _ HX _ P) as E. injection E as <-. congruence. }
  clear s1 C1 D1. intros _ s1 (_ & D1 & F1 & R1 & Q1 & Q2 & Q3 & Q4). unfold rest_rx in R1. fields in R1. destruct R1 as (R1 & R2 & R3 & R4 & R5 & _).
  rewrite post_seq. eapply post_weaken; [apply post_both; [apply ipc_set|apply (KD (c_debug s1)); [unfold configure_ipc_channels, configure_channel, setup_channel, set_end, unbind_channel; keep ltac:(idtac; cbv beta in *; fields; assumption)|reflexivity]]| |auto].
  intros _ s2 ((E2 & I1 & I2 & I3 & I4 & I5 & I6 & I7 & I8 & I9) & D2). rewrite R1 in E2. rewrite post_seq. eapply post_weaken; [apply post_both; [apply decoder_set|apply (KD (c_debug s1)); [unfold configure_frame_decoder, load_decoder, stop_rx_thread, load_class, new_decoder_class; cbv zeta; keep3 ltac:(idtac; cbv beta in *; fields; assumption)|exact D2]]| |auto].
  intros _ s3 ((E3 & E3' & J1 & J2 & J3 & J4 & J5 & J6 & J7 & J8) & D3). rewrite post_seq. eapply post_weaken; [apply post_both; [apply buffers_set|apply (KD (c_debug s1)); [unfold configure_buffer_manager, stop_rx_thread; keep3 ltac:(idtac; cbv beta in *; fields; assumption)|exact D3]]| |auto].
  intros _ s4 ((E4 & E4' & K1 & K2 & K3 & K4 & K5 & K6 & K7 & K8) & D4). rewrite post_seq.
  assert (PO : s_ports (c_cfg s4) = s_ports (c_cfg s)) by congruence.
  eapply post_weaken; [apply post_both; [apply (rx_set v m s4 ST); unfold in_range16; rewrite PO; exact RG|apply (KD (c_debug s1)); [unfold configure_rx_thread, stop_rx_thread; cbv zeta; keep3 ltac:(idtac; cbv beta in *; fields; assumption)|exact D4]]| |auto].
  intros _ s5 ((L1 & L2 & L3 & L4 & L5 & L6 & L7 & L8 & L9 & L10) & D5).
  set (G := fun s6 : rc => c_cfg s6 = c_cfg s5 /\ c_debug s6 = c_debug s5).
  eapply post_weaken with (Q := fun _ => G) (X := fun _ _ => True).
  { match goal with |- post ?a _ _ _ => assert (K : keeps G a) end.
    { unfold reply_type. keep ltac:(idtac; cbv beta in *; unfold G in *; fields; assumption). }
    eapply post_weaken; [apply K; split; reflexivity|auto|auto]. }
  2:{ auto. }
  intros _ s6 (-> & D6). split; [|unfold dbg in D1; intros n P; rewrite D6, D5; apply D1, P].
  assert (EN : forall c, text_set (g_doc m) (endpoint_name c) (s_end (c_cfg s) c) (s_end (c_cfg s5) c)). { intros c. rewrite L5, K1, J1. apply E2. }
  constructor.
  - exact (EN CCtrl).
  - exact (EN CRx).
  - exact (EN CReady).
  - exact (EN CRelease).
  - rewrite L6, K2, <- R2, <- I1. exact E3.
  - rewrite L7, K3, <- R3, <- I2. exact E3'.
  - rewrite L8, <- R4, <- I3, <- J2. exact E4.
  - rewrite L9, <- R5, <- I4, <- J3. exact E4'.
  - rewrite <- Q2, <- I5, <- J4, <- K4. exact L2.
  - rewrite <- Q3, <- I6, <- J5, <- K5. exact L3.
  - rewrite <- Q1, <- I7, <- J6, <- K6. exact L1.
  - rewrite L10, K7, J7, I8. exact F1.
  - rewrite <- PO. exact L4.
Qed.
