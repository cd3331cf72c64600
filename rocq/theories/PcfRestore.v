(** Sending back what plugins reported. *)
From Coq Require Import String Ascii.
From Verif Require Import Base StrOrder JsonModel JsonSpec JsonProofs JsonProps PrcModel PrcSpec PrcReply PrcLive PrcSet PrcExec CfgModel CfgSpec CfgProofs CfgReply FwcAsk FrameModel AdjModel AdjSpec AdjProps LiveModel LiveSpec LiveProps GapModel BloscModel BloscProps KafkaModel KafkaProps PcfModel PcfSpec PcfProofs PcfFit PcfAsk.
Local Open Scope string_scope.
Local Open Scope list_scope.
Local Open Scope Z_scope.

Lemma range_int v : int32 v -> get_value GInt (JInt v) = Ret (RInt v).
Proof. intros (A & B). unfold get_value, in_range. destruct (Z.leb_spec (- 2 ^ 31) v), (Z.ltb_spec v (2 ^ 31)); try lia. reflexivity. Qed.
Lemma range_i64 v : int64 v -> get_value GInt64 (JInt v) = Ret (RInt v).
Proof. intros (A & B). unfold get_value, in_range. destruct (Z.leb_spec (- 2 ^ 63) v), (Z.ltb_spec v (2 ^ 63)); try lia. reflexivity. Qed.
Lemma range_uint v : 0 <= v < 2 ^ 32 -> get_value GUint (JInt v) = Ret (RInt v).
Proof. intros (A & B). unfold get_value, in_range. destruct (Z.leb_spec 0 v), (Z.ltb_spec v (2 ^ 32)); try lia. reflexivity. Qed.
(** A setting that the message has *)
Lemma if_has_on {S} c l k g (set : result -> S -> S) s y r : name_ok k -> params_of c = Some (JObj l) -> find_member k l = Some y -> get_value g y = Ret r -> if_has c k g set (s, Ret tt) = (set r s, Ret tt).
Proof. intros N E F V. rewrite (if_has_go c l); [rewrite F, V; reflexivity|exact N|exact E|]. intros y' F'. rewrite F in F'. injection F' as <-. eauto. Qed.
Lemma if_has_off {S} c l k g (set : result -> S -> S) s : name_ok k -> params_of c = Some (JObj l) -> find_member k l = None -> if_has c k g set (s, Ret tt) = (s, Ret tt).
Proof. intros N E F. rewrite (if_has_go c l); [rewrite F; reflexivity|exact N|exact E|]. intros y' F'. congruence. Qed.
Ltac on E L := erewrite if_has_on; [|name|exact E|reflexivity|L].
Ltac off E := erewrite if_has_off; [|name|exact E|reflexivity].
Lemma offset_restored m v v' : int64 v -> params_of m = Some (JObj (members (POffset v))) -> offset_configure m v' = (v, Ret tt).
Proof. intros F E. unfold offset_configure. on E ltac:(apply range_i64, F). reflexivity. Qed.
Lemma dummy_restored m d d' : fit (PDummy d) -> params_of m = Some (JObj (members (PDummy d))) -> dummy_configure m d' = (Dummy (dm_width d) (dm_height d) (dm_lost d') (dm_copy d), Ret tt).
Proof. intros (A & B & _) E. unfold dummy_configure. on E ltac:(apply range_int, A). on E ltac:(apply range_int, B). on E ltac:(reflexivity). reflexivity. Qed.
Lemma live_restored z m p p' : fit (PLive p) -> fit (PLive p') -> (lv_bound p' = true -> lv_addr p <> lv_addr p' -> zmq_unbind z (lv_addr p') = true) -> params_of m = Some (JObj (members (PLive p))) ->
  exists p1, live_configure z m p' = (p1, Ret tt) /\ same_settings (PLive p) (PLive p1) /\ counters_kept (PLive p') (PLive p1).
Proof.
  intros (A & B & C & D) (_ & _ & _ & D') U E. unfold live_configure. on E ltac:(apply range_int, A). on E ltac:(apply range_int, B). off E. off E. cbn [num]. set (q := set_per_second (lv_per_second p) (set_freq (lv_freq p) p')).
  assert (Q : lv_bound q = lv_bound p' /\ lv_addr q = lv_addr p' /\ lv_endpoints q = lv_endpoints p' /\ lv_freq q = lv_freq p /\ lv_per_second q = lv_per_second p /\ lv_last q = lv_last p' /\ lv_datasets q = lv_datasets p' /\ lv_tags q = lv_tags p') by (cbn; auto 10). clearbody q.
  rewrite (has_go "live_view_socket_addr" m _ ltac:(name) E). cbn [members at_path find_member String.eqb Ascii.eqb Bool.eqb].
  rewrite (proj2 (get_at m _ "live_view_socket_addr" GStr ltac:(name) E (RStr (lv_addr p)))); [|eexists; split; [reflexivity|]; cbn; rewrite (cstr_id _ C); reflexivity]. eexists. split; [reflexivity|]. cbn [str]. destruct (socket_same z (lv_addr p) q) as (S1 & S2 & S3 & S4 & S5). destruct Q as (Q1 & Q2 & Q3 & Q4 & Q5 & Q6 & Q7 & Q8).
  cbn [same_settings counters_kept]. rewrite S1, S2, S3, S4, S5. split; [|auto]. split; [exact Q4|]. split; [exact Q5|]. unfold set_socket. rewrite Q3. unfold socket_ok in D'. destruct (lv_bound p') eqn:BO; rewrite D'; cbn [sm_get].
  - destruct (String.eqb_spec (lv_addr p) (lv_addr p')) as [->|N]; [exact Q2|]. rewrite Q2, String.eqb_refl, (U eq_refl N). reflexivity.
  - reflexivity.
Qed.
Lemma ints_back l : Forall int32 l -> as_list as_int (JArr (map JInt l)) = Some l.
Proof.
  intros F. cbn [as_list]. induction F as [|z l (A & B) F IH]; [reflexivity|]. cbn [map all_some]. unfold as_int at 1, number_in. destruct (Z.leb_spec (- 2 ^ 31) z), (Z.ltb_spec z (2 ^ 31)); try lia. cbn [andb]. rewrite IH. reflexivity.
Qed.
Lemma gap_restored d m g g' : fit (PGap g) -> gp_grid g <> [] -> gp_chip g <> [] -> gp_x g <> [] -> gp_y g <> [] -> (d = true -> (2 <= List.length (gp_grid g))%nat /\ (2 <= List.length (gp_chip g))%nat) ->
  params_of m = Some (JObj (members (PGap g))) -> gap_configure d m g' = (g, Ret tt).
Proof.
  destruct g as [a b c e]. cbn [fit gp_grid gp_chip gp_x gp_y]. intros (A & B & C & D) NA NB NC ND L E. assert (M : members (PGap (Gap a b c e)) = [("grid_size", JArr (map JInt a)); ("chip_size", JArr (map JInt b)); ("x_gaps", JArr (map JInt c)); ("y_gaps", JArr (map JInt e))]) by (cbn; destruct a, b, c, e; try congruence; reflexivity). rewrite M in E. clear M.
  unfold gap_configure.
  erewrite (gap_go m _ "grid_size") by first [name|exact E|intros y Y; injection Y as <-; exists a; split; [apply ints_back, A|intros Q; apply L, Q]]. cbn [find_member String.eqb Ascii.eqb Bool.eqb]. rewrite (ints_back a A).
  erewrite (gap_go m _ "chip_size") by first [name|exact E|intros y Y; injection Y as <-; exists b; split; [apply ints_back, B|intros Q; apply L, Q]]. cbn [find_member String.eqb Ascii.eqb Bool.eqb]. rewrite (ints_back b B).
  erewrite (gap_go m _ "x_gaps") by first [name|exact E|intros y Y; injection Y as <-; exists c; split; [apply ints_back, C|discriminate]]. cbn [find_member String.eqb Ascii.eqb Bool.eqb]. rewrite (ints_back c C).
  erewrite (gap_go m _ "y_gaps") by first [name|exact E|intros y Y; injection Y as <-; exists e; split; [apply ints_back, D|discriminate]]. cbn [find_member String.eqb Ascii.eqb Bool.eqb]. rewrite (ints_back e D). reflexivity.
Qed.
Lemma absent_get {A} (m : smap A) n : ~ In n (map fst m) -> sm_get m n = None.
Proof. intros N. destruct (sm_get m n) as [v|] eqn:G; [|reflexivity]. apply sm_get_in in G. apply (in_map fst) in G. contradiction. Qed.
Lemma adjust_restored m a a' : fit (PAdjust a) -> fit (PAdjust a') -> ad_adjustments a <> [] -> nameable (PAdjust a) -> incl (map fst (ad_adjustments a')) (map fst (ad_adjustments a)) -> params_of m = Some (JObj (members (PAdjust a))) ->
  exists a1, adjust_configure m a' = (a1, Ret tt) /\ same_settings (PAdjust a) (PAdjust a1).
Proof.
  intros (A & B & C & D) (A' & B' & C' & D') NE NA IN E. cbn in NA. set (rs := rows (sm_get (ad_inputs a)) (ad_adjustments a)).
  assert (M : members (PAdjust a) = [("parameter", JObj rs)]) by (unfold members; destruct (ad_adjustments a) as [|e l] eqn:EA; [congruence|]; unfold rs; reflexivity). rewrite M in E.
  assert (RO : forall n v, In (n, v) (ad_adjustments a) -> row_of (row_json v (sm_get (ad_inputs a) n)) v (sm_get (ad_inputs a) n)).
  { intros n v I. pose proof (proj1 (Forall_forall _ _) C _ I) as (_ & V). split; [split; [apply leads_at; destruct (sm_get (ad_inputs a) n); reflexivity|exact V]|]. destruct (sm_get (ad_inputs a) n) as [t|] eqn:G.
    - split; [apply leads_at; reflexivity|]. apply sm_get_in in G. exact (proj1 (proj1 (Forall_forall _ _) D _ G)).
    - intros y L. apply leads_at in L. discriminate. }
  assert (RS : forall n x, In (n, x) rs -> exists v, In (n, v) (ad_adjustments a) /\ x = row_json v (sm_get (ad_inputs a) n)). { intros n x I. apply in_map_iff in I as ((n', v) & Q & I). injection Q as -> <-. eauto. }
  destruct (c39_configure_partial m rs a') as (a1 & R & S & _ & O & V).
  - apply holds_at. unfold params_of in E. cbn [at_path]. rewrite E. reflexivity.
  - unfold rs. rewrite rows_names. apply sm_nodup, A.
  - intros n x I. destruct (RS n x I) as (v & J & ->). split; [exact (proj1 (Forall_forall _ _) NA _ J)|]. split; [exact (proj1 (proj1 (Forall_forall _ _) C _ J))|]. do 2 eexists. apply RO, J.
  - exists a1. split; [exact R|]. intros n. destruct (sm_get (ad_adjustments a) n) as [v|] eqn:G.
    + pose proof (sm_get_in _ _ _ G) as I. destruct (V n (row_json v (sm_get (ad_inputs a) n)) v (sm_get (ad_inputs a) n)) as (V1 & V2); [unfold rs, rows; apply (in_map (fun e => (fst e, row_json (snd e) (sm_get (ad_inputs a) (fst e)))) _ _ I)|apply RO, I|].
      split; [exact V1|]. intros i NI. rewrite V2. destruct (sm_get (ad_inputs a) n); [reflexivity|]. split; intros H; [injection H as H; congruence|discriminate].
    + assert (NI : ~ In n (map fst (ad_adjustments a))) by (intros I; apply in_map_iff in I as ((n', v) & Q & I); cbn in Q; subst n'; apply (sm_in_get _ _ _ A) in I; congruence).
      destruct O with (n := n) as (O1 & O2); [intros Q; unfold rs, rows in Q; apply map_eq_nil in Q; contradiction|unfold rs; rewrite rows_names; exact NI|]. rewrite O1, O2. assert (N' : ~ In n (map fst (ad_adjustments a'))) by (intros I; apply NI, IN, I). rewrite (absent_get _ _ N'). split; [reflexivity|].
      assert (X : sm_get (ad_inputs a') n = None). { destruct (sm_get (ad_inputs a') n) as [t|] eqn:T; [|reflexivity]. apply sm_get_in in T. destruct (proj1 (Forall_forall _ _) D' _ T) as (_ & T'). contradiction. }
      assert (Y : sm_get (ad_inputs a) n = None). { destruct (sm_get (ad_inputs a) n) as [t|] eqn:T; [|reflexivity]. apply sm_get_in in T. destruct (proj1 (Forall_forall _ _) D _ T) as (_ & T'). contradiction. }
      rewrite X, Y. reflexivity.
Qed.
Lemma command_go lib f g p r : (bp_acq p = "" -> bl_supports lib (bs_compressor (f (bp_cmd p))) = true) -> exists g1 p1, blosc_command lib f (g, p) r = ((g1, p1), r, Ret tt) /\ bp_cmd p1 = f (bp_cmd p) /\ bp_acq p1 = bp_acq p /\ (bp_acq p <> "" -> bp_cur p1 = bp_cur p).
Proof.
  intros S. unfold blosc_command, cseq, cset, cget. cbn [bp_acq]. destruct (String.eqb_spec (bp_acq p) "") as [E|E].
  - unfold blosc_update, update_settings. cbn [bp_cmd bp_acq]. rewrite (S E). do 2 eexists. split; [reflexivity|]. split; [reflexivity|]. split; [reflexivity|congruence].
  - do 2 eexists. split; [reflexivity|]. auto.
Qed.
Lemma blosc_restored lib m g p g' p' r : known (bp_cmd p) -> (bp_acq p' = "" -> bl_supports lib (bs_compressor (bp_cmd p)) = true /\ bl_supports lib (bs_compressor (bp_cmd p')) = true) -> params_of m = Some (JObj (members (PBlosc g p))) ->
  exists g1 p1, bloscx_configure lib m (g', p') r = ((g1, p1), r, Ret tt) /\ bp_cmd p1 = bp_cmd p /\ bp_acq p1 = bp_acq p' /\ (bp_acq p' <> "" -> bp_cur p1 = bp_cur p').
Proof.
  intros (K1 & K2 & K3 & K4) S E. set (c := bp_cmd p) in *.
  assert (I : forall z lo hi, lo <= z < hi -> number_in lo hi (JInt z) = Some z) by (intros z lo hi (A & B); unfold number_in; destruct (Z.leb_spec lo z), (Z.ltb_spec z hi); try lia; reflexivity).
  destruct (command_go lib (set_level (bs_level c)) g' p' r) as (g1 & p1 & C1 & D1 & A1 & U1); [intros Q; apply S, Q|].
  destruct (command_go lib (set_shuffle (bs_shuffle c)) g1 p1 r) as (g2 & p2 & C2 & D2 & A2 & U2); [intros Q; rewrite D1; apply S; congruence|].
  destruct (command_go lib (set_threads (bs_threads c)) g2 p2 r) as (g3 & p3 & C3 & D3 & A3 & U3); [intros Q; rewrite D2, D1; apply S; congruence|].
  destruct (command_go lib (set_compressor (bs_compressor c)) g3 p3 r) as (g4 & p4 & C4 & D4 & A4 & U4). { intros Q. unfold set_compressor. cbn. destruct (Z.ltb_spec 5 (bs_compressor c)); [lia|]. apply S. congruence. }
  exists g4, p4. split; [|split; [|split; [congruence|intros Q; rewrite U4, U3, U2, U1 by congruence; reflexivity]]].
  - unfold bloscx_configure.
    rewrite (cseq_go _ _ _ _ (g1, p1) r tt). 2:{ erewrite (setting_go int as_int "level") by first [exact E|apply reads_int|name|reflexivity|apply I; fold c; lia]. fold c. unfold level_warning. destruct (Z.ltb_spec (bs_level c) 1), (Z.ltb_spec 9 (bs_level c)); try lia. exact C1. }
    rewrite (cseq_go _ _ _ _ (g2, p2) r tt). 2:{ erewrite (setting_go uint as_uint "shuffle") by first [exact E|apply reads_uint|name|reflexivity|apply I; fold c; lia]. fold c. unfold shuffle_warning. destruct (Z.ltb_spec 2 (bs_shuffle c)); try lia. exact C2. }
    rewrite (cseq_go _ _ _ _ (g3, p3) r tt). 2:{ erewrite (setting_go uint as_uint "threads") by first [exact E|apply reads_uint|name|reflexivity|apply I; fold c; lia]. fold c. unfold threads_warning. destruct (Z.ltb_spec 256 (bs_threads c)); try lia. exact C3. }
    erewrite (setting_go uint as_uint "compressor") by first [exact E|apply reads_uint|name|reflexivity|apply I; fold c; lia]. fold c. unfold compressor_warning. destruct (Z.ltb_spec 5 (bs_compressor c)); try lia. exact C4.
  - rewrite D4, D3, D2, D1. apply settings_eq; cbn.
    + destruct (Z.ltb_spec (bs_level c) 1), (Z.ltb_spec 9 (bs_level c)); lia.
    + destruct (Z.ltb_spec 2 (bs_shuffle c)); lia.
    + destruct (Z.ltb_spec 256 (bs_threads c)); lia.
    + destruct (Z.ltb_spec 5 (bs_compressor c)); lia.
Qed.
Lemma kafka_restored k rs m p p' : fit (PKafka p) -> 0 <= kp_partition p -> kl_servers k (kp_servers p) = true -> params_of m = Some (JObj (members (PKafka p))) ->
  exists p1, kafka_configure k rs m p' = (p1, Ret tt) /\ same_settings (PKafka p) (PKafka p1) /\ counters_kept (PKafka p') (PKafka p1).
Proof.
  intros (A & B & C & D & _) P S E. unfold int32 in D. unfold kafka_configure. rewrite !(kstep_if _ "include_parameters"), !(kstep_if _ "dataset"), !(kstep_if _ "partition"), !(kstep_if _ "topic").
  unfold kstep. rewrite (has_go "servers" m _ ltac:(name) E). cbn [members at_path find_member String.eqb Ascii.eqb Bool.eqb]. rewrite (proj2 (get_at m _ "servers" GStr ltac:(name) E (RStr (kp_servers p)))); [|eexists; split; [reflexivity|]; cbn; rewrite (cstr_id _ A); reflexivity]. cbn [str].
  destruct (destroyed rs p') as (D1 & D2 & _). set (q := destroy_kafka rs p') in *. clearbody q. unfold configure_servers. rewrite S. unfold configure_topic at 2. cbn [kp_producer with_handles].
  on E ltac:(cbn; rewrite (cstr_id _ B); reflexivity). on E ltac:(apply range_uint; lia). on E ltac:(cbn; rewrite (cstr_id _ C); reflexivity). on E ltac:(reflexivity). eexists. split; [reflexivity|]. cbn [str num flag].
  destruct (to_int32_is (kp_partition p) ltac:(lia)) as (-> & _). unfold to_int32. destruct (Z.ltb_spec (kp_partition p) (2 ^ 31)); [|lia]. unfold configure_topic. cbn. auto 10.
Qed.
Lemma restored w m s s' r : fit s -> fit s' -> restorable w s s' -> params_of m = Some (JObj (members s)) -> exists s1, plugin_configure w m s' r = (s1, r, Ret tt) /\ same_settings s s1 /\ counters_kept s' s1.
Proof.
  intros F F' R E. destruct s, s'; try contradiction; cbn [restorable plugin_configure] in *.
  - rewrite (offset_restored m v v0 F E). eexists. split; [reflexivity|]. split; [reflexivity|exact Logic.I].
  - destruct R as (R1 & R2 & R3). destruct (adjust_restored m a a0 F F' R1 R2 R3 E) as (a1 & -> & Q). eexists. split; [reflexivity|]. split; [exact Q|exact Logic.I].
  - destruct (live_restored (wo_zmq w) m p p0 F F' R E) as (p1 & -> & Q). eexists. split; [reflexivity|]. exact Q.
  - destruct R as (R1 & R2 & R3 & R4 & R5). rewrite (gap_restored _ m g g0 F R1 R2 R3 R4 R5 E). eexists. split; [reflexivity|]. split; [reflexivity|exact Logic.I].
  - destruct (blosc_restored (wo_blosc w) m g p g0 p0 r (proj1 F) R E) as (g1 & p1 & -> & Q1 & Q2 & Q3). eexists. split; [reflexivity|]. split; [exact Q1|]. split; assumption.
  - destruct R as (R1 & R2). destruct (kafka_restored (wo_kafka w) (wo_reports w) m p p0 F R1 R2 E) as (p1 & -> & Q). eexists. split; [reflexivity|]. exact Q.
  - rewrite (dummy_restored m d d0 F E). eexists. split; [reflexivity|]. cbn. auto.
  - eexists. split; [reflexivity|]. split; exact Logic.I.
Qed.
