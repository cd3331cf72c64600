(** Configuring plugins: single settings, what a message sets, values within their types. *)
From Coq Require Import String Ascii.
From Verif Require Import Base StrOrder JsonModel JsonSpec JsonProofs JsonProps PrcModel PrcSpec PrcReply PrcLive PrcSet CfgModel CfgSpec CfgProofs CfgReply FrameModel AdjModel LiveModel LiveSpec LiveProps GapModel BloscModel BloscProps KafkaModel KafkaProps PcfModel PcfSpec.
Local Open Scope string_scope.
Local Open Scope list_scope.
Local Open Scope Z_scope.

Ltac name := split; plain_name.

(** ** Single settings *)
Section One.
  Context {S : Type}.
  Lemma has_at m x k h : name_ok k -> params_of m = Some x -> has_param m k = Ret h -> h = match at_path [k] x with Some _ => true | None => false end.
  Proof.
    intros (N & U) E H. unfold has_param in H. rewrite E, (pieces_no_slash _ N) in H. cbn in H. rewrite (cstr_id _ U) in H. destruct x as [| | | | | |l]; try discriminate. cbn. destruct (find_member k l); injection H as <-; reflexivity.
  Qed.
  Lemma get_at m x k g : name_ok k -> params_of m = Some x -> forall r, get_param g m k = Ret r <-> exists y, at_path [k] x = Some y /\ get_value g y = Ret r.
  Proof.
    intros N E r. unfold get_param. split.
    - destruct (get_raw m k) as [y| |] eqn:G; try discriminate. apply (raw_one m x) in G; [|assumption..]. eauto.
    - intros (y & Y & V). apply (raw_one m x) in Y; [|assumption..]. rewrite Y. exact V.
  Qed.
  Lemma if_has_ret c x k g (set : result -> S -> S) st s1 : name_ok k -> params_of c = Some x -> if_has c k g set st = (s1, Ret tt) ->
    exists s, st = (s, Ret tt) /\ match at_path [k] x with Some y => exists r, get_value g y = Ret r /\ s1 = set r s | None => s1 = s end.
  Proof.
    intros N E H. destruct st as [s [[]| |]]; cbn [if_has] in H; try discriminate. exists s. split; [reflexivity|]. destruct (has_param c k) as [h| |] eqn:HP; try discriminate. pose proof (has_at c x k h N E HP) as ->.
    destruct (at_path [k] x) as [y|] eqn:Y; [|congruence]. destruct (get_param g c k) as [r| |] eqn:G; try discriminate. injection H as <-. apply (get_at c x) in G as (z & Z & V); [|assumption..]. rewrite Y in Z. injection Z as <-. eauto.
  Qed.
  Lemma if_has_go c l k g (set : result -> S -> S) s : name_ok k -> params_of c = Some (JObj l) -> (forall y, find_member k l = Some y -> exists r, get_value g y = Ret r) ->
    if_has c k g set (s, Ret tt) = (match find_member k l with Some y => match get_value g y with Ret r => set r s | _ => s end | None => s end, Ret tt).
  Proof.
    intros N E V. unfold if_has. rewrite (has_go k c l N E). cbn [at_path]. destruct (find_member k l) as [y|] eqn:F; [|reflexivity]. destruct (V y eq_refl) as (r & R). rewrite (proj2 (get_at c (JObj l) k g N E r)); [rewrite R; reflexivity|]. exists y. cbn. rewrite F. auto.
  Qed.
  Lemma if_has_inv (P : S -> Prop) c k g (set : result -> S -> S) st : P (fst st) -> (forall y r s, get_value g y = Ret r -> P s -> P (set r s)) -> P (fst (if_has c k g set st)).
  Proof.
    intros H T. destruct st as [s [[]| |]]; try exact H. cbn [if_has]. destruct (has_param c k) as [[|]| |]; try exact H. destruct (get_param g c k) as [r| |] eqn:G; try exact H. unfold get_param in G. destruct (get_raw c k) as [y| |]; try discriminate. exact (T y r s G H).
  Qed.
End One.
Lemma kstep_if c n g set st : kstep c n g (fun p => p) set st = if_has c n g set st.
Proof. destruct st as [p [u| |]]; reflexivity. Qed.
Lemma value_int y r : get_value GInt y = Ret r -> exists z, r = RInt z /\ as_int y = Some z /\ int32 z.
Proof. destruct y; try discriminate. unfold get_value, as_int, in_range, number_in, int32. destruct (Z.leb_spec (- 2 ^ 31) z), (Z.ltb_spec z (2 ^ 31)); cbn; try discriminate; intros V; injection V as <-; exists z; repeat split; assumption. Qed.
Lemma value_i64 y r : get_value GInt64 y = Ret r -> exists z, r = RInt z /\ as_i64 y = Some z /\ int64 z.
Proof. destruct y; try discriminate. unfold get_value, as_i64, in_range, number_in, int64. destruct (Z.leb_spec (- 2 ^ 63) z), (Z.ltb_spec z (2 ^ 63)); cbn; try discriminate; intros V; injection V as <-; exists z; repeat split; assumption. Qed.
Lemma value_uint y r : get_value GUint y = Ret r -> exists z, r = RInt z /\ as_uint y = Some z /\ 0 <= z < 2 ^ 32.
Proof. destruct y; try discriminate. unfold get_value, as_uint, in_range, number_in. destruct (Z.leb_spec 0 z), (Z.ltb_spec z (2 ^ 32)); cbn; try discriminate; intros V; injection V as <-; exists z; repeat split; assumption. Qed.
Lemma value_text y r : get_value GStr y = Ret r -> exists t, r = RStr t /\ as_text y = Some t /\ no_nul t.
Proof. destruct y; try discriminate. cbn. intros H. injection H as <-. exists (cstr s). split; [reflexivity|]. split; [reflexivity|]. unfold no_nul. clear. induction s as [|c s IH]; [intros []|]. cbn. destruct (Ascii.eqb_spec c zero) as [->|N]; [intros []|]. cbn. intros [E|I]; [congruence|auto]. Qed.
Lemma value_bool y r : get_value GBool y = Ret r -> exists b, r = RBool b /\ as_bool y = Some b.
Proof. destruct y; try discriminate. cbn. intros H. injection H as <-. eauto. Qed.
Lemma to_int32_is z : 0 <= z < 2 ^ 32 -> i32 z = to_int32 z /\ int32 (i32 z).
Proof. intros R. unfold i32, to_int32, int32. destruct (Z.ltb_spec z (2 ^ 31)); [rewrite Z.mod_small by lia; lia|]. replace (z + 2 ^ 31) with ((z - 2 ^ 31) + 1 * 2 ^ 32) by lia. rewrite Z.mod_add by lia. rewrite Z.mod_small by lia. lia. Qed.

(** ** What a message sets *)
(** Along a chain of settings, from the last one to the first *)
Ltac step H q :=
  match type of H with if_has ?c ?k ?g ?set ?st = (?s1, Ret tt) =>
    match goal with E : params_of c = Some ?x |- _ => apply (if_has_ret c x k g set st s1) in H; [|name|exact E]; let R := fresh "R" in destruct H as (q & H & R); cbv beta in R end end.
Ltac start H := match type of H with (?a, Ret tt) = (?b, Ret tt) => injection H as H; subst b end.
(** A setting: [rd] its values, [U] stores it, [V] reads it *)
Lemma upd_step {S A B} x k g (rd : json -> option A) (conv : A -> B) (set : result -> S -> S) (U : B -> S -> S) (V : S -> B) s s1 : (forall y r, get_value g y = Ret r -> exists a, rd y = Some a /\ set r s = U (conv a) s) -> U (V s) s = s ->
  match at_path [k] x with Some y => exists r, get_value g y = Ret r /\ s1 = set r s | None => s1 = s end -> exists b, s1 = U b s /\ CfgSpec.given x [k] (omap conv rd) (V s) b.
Proof.
  intros T UV H. setoid_rewrite given_at. unfold omap. destruct (at_path [k] x) as [y|]; [|exists (V s); subst; auto]. destruct H as (r & R & ->). destruct (T y r R) as (a & A1 & A2). exists (conv a). rewrite A1, A2. auto.
Qed.
Lemma given_id {A} x q (rd : json -> option A) a b : CfgSpec.given x q (omap (fun z => z) rd) a b -> CfgSpec.given x q rd a b.
Proof. rewrite !given_at. unfold omap. destruct (at_path q x) as [y|]; [destruct (rd y); auto|auto]. Qed.

Ltac reads L := let y := fresh in let r := fresh in let V := fresh in let z := fresh in let A := fresh in intros y r V; apply L in V; destruct V as (z & -> & A); exists z; split; [try exact A; exact (proj1 A)|reflexivity].
Lemma offset_applied m x v v1 : params_of m = Some x -> offset_configure m v = (v1, Ret tt) -> CfgSpec.given x ["offset_adjustment"] as_i64 v v1.
Proof.
  intros E H. unfold offset_configure in H. step H q. start H. rewrite given_at. destruct (at_path _ x); [|exact R]. destruct R as (r & V & ->). apply value_i64 in V as (z & -> & A & _). exact A.
Qed.
Lemma dummy_applied m x d d1 : params_of m = Some x -> dummy_configure m d = (d1, Ret tt) -> configured x (PDummy d) (PDummy d1).
Proof.
  intros E H. unfold dummy_configure in H. step H d3. step H d2. step H d0. start H.
  apply (upd_step x _ GInt as_int (fun z => z) (fun r => (fun z d => Dummy z (dm_height d) (dm_lost d) (dm_copy d)) (num r)) (fun z d => Dummy z (dm_height d) (dm_lost d) (dm_copy d)) dm_width) in R1 as (b1 & -> & G1); [|reads value_int|destruct d; reflexivity].
  apply (upd_step x _ GInt as_int (fun z => z) (fun r => (fun z d => Dummy (dm_width d) z (dm_lost d) (dm_copy d)) (num r)) (fun z d => Dummy (dm_width d) z (dm_lost d) (dm_copy d)) dm_height) in R0 as (b2 & -> & G2); [|reads value_int|reflexivity].
  apply (upd_step x _ GBool as_bool (fun z => z) (fun r => (fun z d => Dummy (dm_width d) (dm_height d) (dm_lost d) z) (flag r)) (fun z d => Dummy (dm_width d) (dm_height d) (dm_lost d) z) dm_copy) in R as (b3 & -> & G3); [|reads value_bool|reflexivity].
  cbn in *. repeat split; apply given_id; assumption.
Qed.
Lemma socket_same z a p : lv_freq (set_socket z a p) = lv_freq p /\ lv_per_second (set_socket z a p) = lv_per_second p /\ lv_last (set_socket z a p) = lv_last p /\ lv_datasets (set_socket z a p) = lv_datasets p /\ lv_tags (set_socket z a p) = lv_tags p.
Proof. unfold set_socket. destruct (sm_get (lv_endpoints p) a); [auto|]. destruct (_ && _); cbn; auto. Qed.
Lemma live_applied z m x p p1 : params_of m = Some x -> live_configure z m p = (p1, Ret tt) -> configured x (PLive p) (PLive p1).
Proof.
  intros E H. unfold live_configure in H. match type of H with context [match ?t with (_, _) => _ end] => destruct t as [q o] eqn:T end. destruct o as [[]| |]; try discriminate.
  assert (S : lv_freq p1 = lv_freq q /\ lv_per_second p1 = lv_per_second q /\ lv_last p1 = lv_last q).
  { destruct (has_param m "live_view_socket_addr") as [[|]| |]; try discriminate.
    - destruct (get_param GStr m "live_view_socket_addr") as [r| |]; try discriminate. injection H as <-. destruct (socket_same z (str r) q) as (A & B & C & _). auto.
    - injection H as <-. destruct (lv_bound q); [auto|]. destruct (socket_same z default_addr q) as (A & B & C & _). auto. }
  clear H. step T q4. step T q3. step T q2. step T q1. start T.
  assert (S4 : lv_freq q = lv_freq q4 /\ lv_per_second q = lv_per_second q4 /\ lv_last q = lv_last q4) by (destruct (at_path ["filter_tagged"] x); [destruct R as (r & _ & ->)|subst q]; auto).
  assert (S3 : lv_freq q4 = lv_freq q3 /\ lv_per_second q4 = lv_per_second q3 /\ lv_last q4 = lv_last q3) by (destruct (at_path ["dataset_name"] x); [destruct R0 as (r & _ & ->)|subst q4]; auto).
  apply (upd_step x _ GInt as_int (fun z => z) (fun r => set_freq (num r)) set_freq lv_freq) in R2 as (b1 & -> & G1); [|reads value_int|destruct p; reflexivity].
  assert (S2 : lv_freq q3 = b1 /\ CfgSpec.given x ["per_second"] as_int (lv_per_second p) (lv_per_second q3) /\ lv_last q3 = lv_last p).
  { rewrite given_at. destruct (at_path ["per_second"] x); [|subst q3; cbn; auto]. destruct R1 as (r & V & ->). apply value_int in V as (v & -> & A & _). cbn. auto. }
  cbn [configured]. destruct S as (-> & -> & ->), S4 as (-> & -> & ->), S3 as (-> & -> & ->), S2 as (-> & P & ->). cbn [configured]. split; [apply given_id, G1|]. split; [exact P|reflexivity].
Qed.
Lemma reports_more r : forall p, kp_partition (reports r p) = kp_partition p /\ kp_servers (reports r p) = kp_servers p /\ kp_parameters (reports r p) = kp_parameters p.
Proof. unfold reports. induction r as [|b r IH]; intros p; [auto|]. cbn [fold_left]. destruct (IH (report p b)) as (-> & -> & ->). destruct b; auto. Qed.
Lemma destroyed r p : kp_sent (destroy_kafka r p) = kp_sent p /\ kp_lost (destroy_kafka r p) = kp_lost p /\ kp_dataset (destroy_kafka r p) = kp_dataset p /\ kp_partition (destroy_kafka r p) = kp_partition p /\ kp_parameters (destroy_kafka r p) = kp_parameters p /\ kp_servers (destroy_kafka r p) = kp_servers p /\ kp_topic_name (destroy_kafka r p) = kp_topic_name p.
Proof. unfold destroy_kafka. destruct (kp_topic p); cbn; [|auto 10]. destruct (reports_same r p) as (A1 & A2 & A3 & A4 & A5 & A6), (reports_more r p) as (B1 & B2 & B3). repeat split; congruence. Qed.
Lemma kafka_applied k r m x p p1 : params_of m = Some x -> kafka_configure k r m p = (p1, Ret tt) -> configured x (PKafka p) (PKafka p1).
Proof.
  intros E H. unfold kafka_configure in H. rewrite !(kstep_if _ "include_parameters"), !(kstep_if _ "dataset"), !(kstep_if _ "partition"), !(kstep_if _ "topic") in H. step H q4. step H q3. step H q2. step H q1.
  assert (S1 : kp_sent q1 = kp_sent p /\ kp_lost q1 = kp_lost p /\ kp_dataset q1 = kp_dataset p /\ kp_partition q1 = kp_partition p /\ kp_parameters q1 = kp_parameters p).
  { clear - H. unfold kstep in H. destruct (has_param m "servers") as [[|]| |]; try discriminate; [|injection H as <-; auto]. destruct (get_param GStr m "servers") as [v| |]; try discriminate. injection H as <-.
    destruct (destroyed r p) as (D1 & D2 & D3 & D4 & D5 & _). set (q := destroy_kafka r p) in *. clearbody q. unfold configure_servers, configure_topic. destruct (kl_servers k (str v)); cbn; [auto|]. destruct (kp_producer q); cbn; auto. }
  assert (S2 : kp_sent q2 = kp_sent q1 /\ kp_lost q2 = kp_lost q1 /\ kp_dataset q2 = kp_dataset q1 /\ kp_partition q2 = kp_partition q1 /\ kp_parameters q2 = kp_parameters q1).
  { clear - R2. destruct (at_path ["topic"] x); [|subst; auto]. destruct R2 as (v & _ & ->). unfold configure_topic. destruct (kp_producer q1); cbn; auto. }
  clear H R2.
  apply (upd_step x _ GUint as_uint to_int32 (fun r => with_partition (i32 (num r))) with_partition kp_partition) in R1 as (b1 & -> & G1); [| |destruct q2; reflexivity]. 2:{ intros y v V. apply value_uint in V as (z & -> & A & B). exists z. split; [exact A|]. cbn [num]. destruct (to_int32_is z B) as (-> & _). reflexivity. }
  apply (upd_step x _ GStr as_text (fun z => z) (fun r => with_dataset (str r)) with_dataset kp_dataset) in R0 as (b2 & -> & G2); [|reads value_text|reflexivity].
  apply (upd_step x _ GBool as_bool (fun z => z) (fun r => with_parameters (flag r)) with_parameters kp_parameters) in R as (b3 & -> & G3); [|reads value_bool|reflexivity].
  destruct S1 as (A1 & A2 & A3 & A4 & A5), S2 as (B1 & B2 & B3 & B4 & B5). cbn in *. rewrite B4, A4 in G1. rewrite B3, A3 in G2. rewrite B5, A5 in G3. apply given_id in G2, G3. rewrite B1, B2. auto 6.
Qed.
(** Arrays of numbers *)
Lemma fill_all l a : int_fill l = (a, Ret tt) -> all_some (map as_int l) = Some a.
Proof.
  revert a. induction l as [|y l IH]; intros a; cbn [int_fill map all_some]; [intros H; injection H as <-; reflexivity|]. destruct (get_value GInt y) as [r| |] eqn:V; try discriminate. apply value_int in V as (z & -> & A & _). destruct (int_fill l) as [t o]. intros H. injection H as <- ->. rewrite A, (IH t eq_refl). reflexivity.
Qed.
Lemma all_fill l a : all_some (map as_int l) = Some a -> int_fill l = (a, Ret tt).
Proof.
  revert a. induction l as [|y l IH]; intros a; cbn [int_fill map all_some]; [intros H; injection H as <-; reflexivity|]. destruct (as_int y) as [z|] eqn:A; [|discriminate]. destruct (all_some (map as_int l)) as [t|]; [|discriminate]. intros H. injection H as <-.
  destruct y; try discriminate. unfold as_int, number_in in A. unfold get_value, in_range. destruct ((- 2 ^ 31 <=? z0) && (z0 <? 2 ^ 31)); [|discriminate]. injection A as ->. rewrite (IH t eq_refl). reflexivity.
Qed.
Lemma fill_range l a o : int_fill l = (a, o) -> Forall int32 a.
Proof.
  revert a o. induction l as [|y l IH]; intros a o; cbn [int_fill]; [intros H; injection H as <- <-; constructor|]. destruct (get_value GInt y) as [r|e|] eqn:V.
  - apply value_int in V as (z & -> & _ & B). destruct (int_fill l) as [t o']. intros H. injection H as <- <-. constructor; [exact B|eapply IH; reflexivity].
  - intros H. injection H as <- <-. change (0 :: map (fun _ : json => 0) l) with (map (fun _ : json => 0) (y :: l)). apply Forall_map, Forall_forall. unfold int32. lia.
  - intros H. injection H as <- <-. change (0 :: map (fun _ : json => 0) l) with (map (fun _ : json => 0) (y :: l)). apply Forall_map, Forall_forall. unfold int32. lia.
Qed.
Lemma gap_ret m x k logs set st g1 : name_ok k -> params_of m = Some x -> gap_step m k logs set st = (g1, Ret tt) ->
  exists g, st = (g, Ret tt) /\ match at_path [k] x with Some y => exists l, as_list as_int y = Some l /\ g1 = set l g /\ (logs = true -> (2 <= List.length l)%nat) | None => g1 = g end.
Proof.
  intros N E H. destruct st as [g [[]| |]]; cbn [gap_step] in H; try discriminate. exists g. split; [reflexivity|]. destruct (has_param m k) as [h| |] eqn:HP; try discriminate. pose proof (has_at m x k h N E HP) as ->.
  destruct (at_path [k] x) as [y|] eqn:Y; [|congruence]. destruct (get_ref m k) as [z| |] eqn:G; try discriminate. apply (ref_one m x) in G; [|assumption..]. rewrite Y in G. injection G as <-.
  destruct (int_vector y) as [l o] eqn:V. destruct o as [[]| |]; try discriminate. destruct (logs && Nat.ltb (List.length l) 2) eqn:L; [discriminate|]. injection H as <-. exists l. destruct y; try discriminate. cbn [int_vector] in V. split; [apply fill_all, V|]. split; [reflexivity|]. intros ->. cbn [andb] in L. apply Nat.ltb_ge in L. exact L.
Qed.
Lemma gap_go m l k logs set g : name_ok k -> params_of m = Some (JObj l) -> (forall y, find_member k l = Some y -> exists a, as_list as_int y = Some a /\ (logs = true -> (2 <= List.length a)%nat)) ->
  gap_step m k logs set (g, Ret tt) = (match find_member k l with Some y => match as_list as_int y with Some a => set a g | None => g end | None => g end, Ret tt).
Proof.
  intros N E V. unfold gap_step. rewrite (has_go k m l N E). cbn [at_path]. destruct (find_member k l) as [y|] eqn:F; [|reflexivity]. destruct (V y eq_refl) as (a & A & L). rewrite (proj2 (ref_one m (JObj l) k y N E)); [|cbn; rewrite F; reflexivity]. rewrite A. destruct y; try discriminate. cbn [int_vector as_list] in *. rewrite (all_fill _ _ A). destruct logs; [|reflexivity]. cbn [andb]. specialize (L eq_refl). apply Nat.ltb_ge in L. rewrite L. reflexivity.
Qed.
Lemma gap_inv (P : gap -> Prop) m k logs set st : P (fst st) -> (forall l g, Forall int32 l -> P g -> P (set l g)) -> P (fst (gap_step m k logs set st)).
Proof.
  intros H T. destruct st as [g [[]| |]]; try exact H. cbn [gap_step]. destruct (has_param m k) as [[|]| |]; try exact H. destruct (get_ref m k) as [y| |]; try exact H. destruct (int_vector y) as [l o] eqn:V. cbn [fst]. apply T; [|exact H]. destruct y; try (injection V as <- <-; constructor). exact (fill_range _ _ _ V).
Qed.
Lemma gap_applied d m x g g1 : params_of m = Some x -> gap_configure d m g = (g1, Ret tt) -> configured x (PGap g) (PGap g1).
Proof.
  intros E H. unfold gap_configure in H. apply (gap_ret m x) in H as (g4 & H & R4); [|name|exact E]. apply (gap_ret m x) in H as (g3 & H & R3); [|name|exact E]. apply (gap_ret m x) in H as (g2 & H & R2); [|name|exact E]. apply (gap_ret m x) in H as (g0 & H & R1); [|name|exact E]. injection H as <-.
  cbn [configured]. rewrite !given_at. destruct g as [a b c e]. cbn [gp_grid gp_chip gp_x gp_y] in *.
  destruct (at_path ["grid_size"] x) as [y1|]; [destruct R1 as (l1 & L1 & -> & _)|subst g2]; (destruct (at_path ["chip_size"] x) as [y2|]; [destruct R2 as (l2 & L2 & -> & _)|subst g3]); (destruct (at_path ["x_gaps"] x) as [y3|]; [destruct R3 as (l3 & L3 & -> & _)|subst g4]);
    (destruct (at_path ["y_gaps"] x) as [y4|]; [destruct R4 as (l4 & L4 & -> & _)|subst g1]); cbn; auto.
Qed.
(** Compression *)
Definition moved (a b : bglobal * bst) : Prop :=
  bp_acq (snd b) = bp_acq (snd a) /\ (bp_acq (snd a) <> "" -> bp_cur (snd b) = bp_cur (snd a) /\ fst b = fst a) /\
  (bp_acq (snd a) = "" -> (snd b = snd a /\ fst b = fst a) \/ (bp_cur (snd b) = bp_cmd (snd b) /\ fst b = Bglobal (bs_compressor (bp_cmd (snd b))) (bs_threads (bp_cmd (snd b))))).
Lemma moved_same a : moved a a. Proof. split; [reflexivity|]. auto. Qed.
Lemma moved_trans a b c : moved a b -> moved b c -> moved a c.
Proof.
  intros (A1 & A2 & A3) (B1 & B2 & B3). split; [congruence|]. split.
  - intros N. destruct (A2 N) as (A4 & A5), (B2 ltac:(congruence)) as (B4 & B5). split; congruence.
  - intros N. destruct (B3 ltac:(congruence)) as [(E1 & E2)|B4]; [rewrite E1, E2; apply A3, N|right; exact B4].
Qed.
Lemma command_ret lib f s r s1 r1 : blosc_command lib f s r = (s1, r1, Ret tt) -> r1 = r /\ bp_cmd (snd s1) = f (bp_cmd (snd s)) /\ moved s s1.
Proof.
  destruct s as (g, p). unfold blosc_command, cseq, cset, cget. cbn [bp_acq]. destruct (String.eqb_spec (bp_acq p) "") as [E|E].
  - unfold blosc_update, update_settings. cbn [bp_cmd bp_acq]. destruct (bl_supports lib _); intros H; [|discriminate]. injection H as <- <-. split; [reflexivity|]. split; [reflexivity|]. split; [reflexivity|]. cbn. split; [congruence|auto].
  - intros H. injection H as <- <-. split; [reflexivity|]. split; [reflexivity|]. split; [reflexivity|]. cbn. split; [auto|congruence].
Qed.
Lemma warn_ret w (s : bglobal * bst) r s1 r1 : warn w s r = (s1, r1, Ret tt) -> s1 = s /\ match w with Some (n, v) => set_param r n v = (r1, Ret tt) | None => r1 = r end.
Proof. destruct w as [(n, v)|]; [|intros H; injection H as <- <-; auto]. unfold warn, cput. destruct (set_param r n v) as [m [[]| |]]; intros H; try discriminate. injection H as <- <-. auto. Qed.
(** One setting: what it commands, what it says *)
Definition sets (x : json) (k : string) (rd : json -> option Z) (f : Z -> settings -> settings) (w : Z -> option (string * value)) (s : bglobal * bst) (r : msg) (s1 : bglobal * bst) (r1 : msg) : Prop :=
  moved s s1 /\ match at_path [k] x with
  | Some y => exists a, rd y = Some a /\ bp_cmd (snd s1) = f a (bp_cmd (snd s)) /\ match w a with Some (n, v) => set_param r n v = (r1, Ret tt) | None => r1 = r end
  | None => s1 = s /\ r1 = r end.
Lemma one_set lib m x k get rd f w s r s1 r1 : reads get rd -> name_ok k -> params_of m = Some x -> setting m k get (fun v => cseq (warn (w v)) (fun _ => blosc_command lib (f v))) s r = (s1, r1, Ret tt) -> sets x k rd f w s r s1 r1.
Proof.
  intros R N E H. apply (setting_ret get rd k m x) in H; [|assumption..]. unfold sets. destruct (at_path [k] x) as [y|]; [|destruct H as (-> & ->); split; [apply moved_same|auto]].
  destruct H as (a & A & H). apply cseq_ret in H as ([] & s0 & r0 & W & H). apply warn_ret in W as (-> & W). apply command_ret in H as (-> & C & M). split; [exact M|eauto].
Qed.
Lemma bloscx_ret lib m x s r s4 r4 : params_of m = Some x -> bloscx_configure lib m s r = (s4, r4, Ret tt) -> exists s1 r1 s2 r2 s3 r3,
  sets x "level" as_int set_level level_warning s r s1 r1 /\ sets x "shuffle" as_uint set_shuffle shuffle_warning s1 r1 s2 r2 /\ sets x "threads" as_uint set_threads threads_warning s2 r2 s3 r3 /\ sets x "compressor" as_uint set_compressor compressor_warning s3 r3 s4 r4.
Proof.
  intros E H. unfold bloscx_configure in H. apply cseq_ret in H as ([] & s1 & r1 & H1 & H). apply cseq_ret in H as ([] & s2 & r2 & H2 & H). apply cseq_ret in H as ([] & s3 & r3 & H3 & H4). exists s1, r1, s2, r2, s3, r3.
  apply (one_set lib m x _ _ as_int) in H1; [|apply reads_int|name|exact E]. apply (one_set lib m x _ _ as_uint) in H2; [|apply reads_uint|name|exact E]. apply (one_set lib m x _ _ as_uint) in H3; [|apply reads_uint|name|exact E]. apply (one_set lib m x _ _ as_uint) in H4; [|apply reads_uint|name|exact E]. auto.
Qed.
Lemma blosc_applied lib m x g p r g1 p1 r1 : params_of m = Some x -> bloscx_configure lib m (g, p) r = ((g1, p1), r1, Ret tt) -> configured x (PBlosc g p) (PBlosc g1 p1).
Proof.
  intros E H. apply (bloscx_ret lib m x _ _ _ _ E) in H as (s1 & q1 & s2 & q2 & s3 & q3 & (M1 & S1) & (M2 & S2) & (M3 & S3) & (M4 & S4)). pose proof (moved_trans _ _ _ (moved_trans _ _ _ (moved_trans _ _ _ M1 M2) M3) M4) as M. cbn [configured]. rewrite !given_at.
  assert (A1 : match at_path ["level"] x with Some y => exists a, as_int y = Some a /\ bp_cmd (snd s1) = set_level a (bp_cmd p) | None => bp_cmd (snd s1) = bp_cmd p end) by (destruct (at_path ["level"] x); [destruct S1 as (a & ? & ? & _); eauto|destruct S1 as (-> & _); reflexivity]).
  assert (A2 : match at_path ["shuffle"] x with Some y => exists a, as_uint y = Some a /\ bp_cmd (snd s2) = set_shuffle a (bp_cmd (snd s1)) | None => bp_cmd (snd s2) = bp_cmd (snd s1) end) by (destruct (at_path ["shuffle"] x); [destruct S2 as (a & ? & ? & _); eauto|destruct S2 as (-> & _); reflexivity]).
  assert (A3 : match at_path ["threads"] x with Some y => exists a, as_uint y = Some a /\ bp_cmd (snd s3) = set_threads a (bp_cmd (snd s2)) | None => bp_cmd (snd s3) = bp_cmd (snd s2) end) by (destruct (at_path ["threads"] x); [destruct S3 as (a & ? & ? & _); eauto|destruct S3 as (-> & _); reflexivity]).
  assert (A4 : match at_path ["compressor"] x with Some y => exists a, as_uint y = Some a /\ bp_cmd p1 = set_compressor a (bp_cmd (snd s3)) | None => bp_cmd p1 = bp_cmd (snd s3) end) by (destruct (at_path ["compressor"] x); [destruct S4 as (a & ? & ? & _); eauto|destruct S4 as (S4 & _); rewrite <- S4; reflexivity]).
  split; [|split; [|split; [|split; [|exact M]]]]; clear M M1 M2 M3 M4 S1 S2 S3 S4; unfold omap.
  - assert (L : bs_level (bp_cmd p1) = bs_level (bp_cmd (snd s1))) by (destruct (at_path ["compressor"] x), (at_path ["threads"] x), (at_path ["shuffle"] x); repeat match goal with H : exists _, _ |- _ => destruct H as (? & ? & H) end; rewrite A4, ?A3, ?A2; unfold set_compressor, set_threads, set_shuffle; cbn; rewrite ?A3, ?A2; reflexivity).
    rewrite L. destruct (at_path ["level"] x); [|rewrite A1; reflexivity]. destruct A1 as (a & -> & ->). cbn. f_equal. unfold capped. destruct (Z.ltb_spec a 1), (Z.ltb_spec 9 a); lia.
  - assert (L : bs_shuffle (bp_cmd p1) = bs_shuffle (bp_cmd (snd s2))) by (destruct (at_path ["compressor"] x), (at_path ["threads"] x); repeat match goal with H : exists _, _ |- _ => destruct H as (? & ? & H) end; rewrite A4, ?A3; unfold set_compressor, set_threads; cbn; rewrite ?A3; reflexivity).
    assert (L0 : bs_shuffle (bp_cmd (snd s1)) = bs_shuffle (bp_cmd p)) by (destruct (at_path ["level"] x); [destruct A1 as (? & _ & ->)|rewrite A1]; reflexivity).
    rewrite L. destruct (at_path ["shuffle"] x); [|rewrite A2; exact L0]. destruct A2 as (a & -> & ->). cbn. f_equal. unfold legal_or. destruct (Z.ltb_spec 2 a), (Z.leb_spec a 2); lia.
  - assert (L : bs_threads (bp_cmd p1) = bs_threads (bp_cmd (snd s3))) by (destruct (at_path ["compressor"] x); [destruct A4 as (? & _ & ->)|rewrite A4]; reflexivity).
    assert (L0 : bs_threads (bp_cmd (snd s2)) = bs_threads (bp_cmd p)) by (destruct (at_path ["level"] x), (at_path ["shuffle"] x); repeat match goal with H : exists _, _ |- _ => destruct H as (? & ? & H) end; rewrite A2; unfold set_shuffle; cbn; rewrite A1; reflexivity).
    rewrite L. destruct (at_path ["threads"] x); [|rewrite A3; exact L0]. destruct A3 as (a & -> & ->). cbn. f_equal. unfold legal_or. destruct (Z.ltb_spec 256 a), (Z.leb_spec a 256); lia.
  - assert (L0 : bs_compressor (bp_cmd (snd s3)) = bs_compressor (bp_cmd p)) by (destruct (at_path ["level"] x), (at_path ["shuffle"] x), (at_path ["threads"] x); repeat match goal with H : exists _, _ |- _ => destruct H as (? & ? & H) end; rewrite A3; unfold set_threads; cbn; rewrite A2; unfold set_shuffle; cbn; rewrite A1; reflexivity).
    destruct (at_path ["compressor"] x); [|rewrite A4; exact L0]. destruct A4 as (a & -> & ->). cbn. f_equal. unfold legal_or. destruct (Z.ltb_spec 5 a), (Z.leb_spec a 5); lia.
Qed.
(** Warnings in the reply *)
Lemma put_top r n v r1 : good_path [n] -> roomy r -> set_param r n v = (r1, Ret tt) -> grown n (set_value v) r r1.
Proof.
  intros G R H. destruct (roomy_set n (set_value v) r R) as (d & S). change n with (slashed [n]) in H at 1. rewrite (set_param_eq _ _ _ G), S in H. injection H as <-. exists d. auto.
Qed.
Lemma one_warned x k rd f w name text s r s1 r1 : path_check [name] = true -> roomy r -> sets x k rd f w s r s1 r1 -> (forall a, match w a with Some (n, v) => n = name /\ text a = Some (set_value v) | None => text a = None end) ->
  roomy r1 /\ warned x k rd name text r r1 /\ (forall q y, q <> [] -> hd "" q <> name -> (holds r1 q y <-> holds r q y)) /\ g_type r1 = g_type r /\ g_val r1 = g_val r /\ g_id r1 = g_id r.
Proof.
  intros G R (_ & S) W. apply path_check_ok in G. assert (SAME : r1 = r -> (forall y z t, leads [k] x y -> rd y = Some z -> text z <> Some t) -> roomy r1 /\ warned x k rd name text r r1 /\ (forall q y, q <> [] -> hd "" q <> name -> (holds r1 q y <-> holds r q y)) /\ g_type r1 = g_type r /\ g_val r1 = g_val r /\ g_id r1 = g_id r).
  { intros -> T. split; [exact R|]. split; [right; split; [exact T|reflexivity]|]. split; [reflexivity|auto]. }
  destruct (at_path [k] x) as [y|] eqn:Y; [|destruct S as (_ & ->); apply SAME; [reflexivity|]; intros y z t L; apply leads_at in L; congruence].
  destruct S as (a & A & _ & S). specialize (W a). destruct (w a) as [(n, v)|].
  - destruct W as (-> & T). apply (put_top _ _ _ _ G R) in S. split; [exact (grown_roomy _ _ _ _ S)|]. split; [left; exists y, a, (set_value v); split; [apply leads_at; exact Y|]; split; [exact A|]; split; [exact T|]; exact (grown_holds _ _ _ _ S)|]. split; [|exact (grown_keeps _ _ _ _ S)].
    intros q z N D. rewrite !holds_at. pose proof (grown_apart _ _ _ _ q S N D) as Q. unfold at_param in Q. rewrite Q. reflexivity.
  - subst r1. apply SAME; [reflexivity|]. intros y' z t L RD. apply leads_at in L. rewrite Y in L. injection L as <-. congruence.
Qed.
Lemma warned_later x k rd name text r0 r r1 r2 : warned x k rd name text r r1 -> (forall y, holds r [name] y <-> holds r0 [name] y) -> (forall y, holds r2 [name] y <-> holds r1 [name] y) -> warned x k rd name text r0 r2.
Proof.
  intros [(y & z & t & A & B & C & D)|(A & B)] Q P; [left; exists y, z, t; split; [exact A|]; split; [exact B|]; split; [exact C|]; apply P, D|right; split; [exact A|]]. intros t. rewrite P, B. apply Q.
Qed.
Lemma blosc_warned lib m x s r s4 r4 : params_of m = Some x -> roomy r -> bloscx_configure lib m s r = (s4, r4, Ret tt) -> warnings x r r4.
Proof.
  intros E R H. apply (bloscx_ret lib m x _ _ _ _ E) in H as (s1 & r1 & s2 & r2 & s3 & r3 & S1 & S2 & S3 & S4).
  apply (one_warned _ _ _ _ _ "warning: level" level_text) in S1 as (R1 & W1 & K1 & T1); [|reflexivity|exact R|intros a; unfold level_warning, level_text; destruct (a <? 1); [split; reflexivity|]; destruct (9 <? a); [split; reflexivity|reflexivity]].
  apply (one_warned _ _ _ _ _ "warning: shuffle filter" (over 2 (JStr "Disabled"))) in S2 as (R2 & W2 & K2 & T2); [|reflexivity|exact R1|intros a; unfold shuffle_warning, over; destruct (2 <? a); [split; reflexivity|reflexivity]].
  apply (one_warned _ _ _ _ _ "warning: threads" (over 256 (JInt 8))) in S3 as (R3 & W3 & K3 & T3); [|reflexivity|exact R2|intros a; unfold threads_warning, over; destruct (256 <? a); [split; reflexivity|reflexivity]].
  apply (one_warned _ _ _ _ _ "warning: compressor" (over 5 (JInt 1))) in S4 as (R4 & W4 & K4 & T4); [|reflexivity|exact R3|intros a; unfold compressor_warning, over; destruct (5 <? a); [split; reflexivity|reflexivity]].
  assert (ONE : forall n (r r1 : msg), (forall q y, q <> [] -> hd "" q <> n -> (holds r1 q y <-> holds r q y)) -> forall n', n' <> n -> forall y, holds r1 [n'] y <-> holds r [n'] y) by (intros n q q1 K n' N y; apply K; [discriminate|exact N]).
  split; [|split; [|split; [|split; [|split]]]].
  - apply (warned_later _ _ _ _ _ _ _ _ _ W1); [reflexivity|]. intros y. rewrite (ONE _ _ _ K4), (ONE _ _ _ K3), (ONE _ _ _ K2) by discriminate. reflexivity.
  - apply (warned_later _ _ _ _ _ _ _ _ _ W2); intros y; [rewrite (ONE _ _ _ K1) by discriminate; reflexivity|]. rewrite (ONE _ _ _ K4), (ONE _ _ _ K3) by discriminate. reflexivity.
  - apply (warned_later _ _ _ _ _ _ _ _ _ W3); intros y; [rewrite (ONE _ _ _ K2), (ONE _ _ _ K1) by discriminate; reflexivity|]. rewrite (ONE _ _ _ K4) by discriminate. reflexivity.
  - apply (warned_later _ _ _ _ _ _ _ _ _ W4); intros y; [|reflexivity]. rewrite (ONE _ _ _ K3), (ONE _ _ _ K2), (ONE _ _ _ K1) by discriminate. reflexivity.
  - intros q y N D. cbn [warning_names In] in D. rewrite K4, K3, K2, K1 by (try exact N; intros EQ; apply D; rewrite EQ; auto). reflexivity.
  - intuition congruence.
Qed.
Lemma applied w m x s r s1 r1 : params_of m = Some x -> plugin_configure w m s r = (s1, r1, Ret tt) -> configured x s s1.
Proof.
  intros E H. unfold plugin_configure in H. destruct s.
  - destruct (offset_configure m v) as [v1 [[]| |]] eqn:C; try discriminate. injection H as <- <-. exact (offset_applied _ _ _ _ E C).
  - destruct (adjust_configure m a) as [v1 [[]| |]] eqn:C; try discriminate. injection H as <- <-. exact Logic.I.
  - destruct (live_configure (wo_zmq w) m p) as [v1 [[]| |]] eqn:C; try discriminate. injection H as <- <-. exact (live_applied _ _ _ _ _ E C).
  - destruct (gap_configure (wo_debug w) m g) as [v1 [[]| |]] eqn:C; try discriminate. injection H as <- <-. exact (gap_applied _ _ _ _ _ E C).
  - destruct (bloscx_configure (wo_blosc w) m (g, p) r) as [[[g1 p1] q1] [[]| |]] eqn:C; try discriminate. injection H as <- <-. exact (blosc_applied _ _ _ _ _ _ _ _ _ E C).
  - destruct (kafka_configure (wo_kafka w) (wo_reports w) m p) as [v1 [[]| |]] eqn:C; try discriminate. injection H as <- <-. exact (kafka_applied _ _ _ _ _ _ E C).
  - destruct (dummy_configure m d) as [v1 [[]| |]] eqn:C; try discriminate. injection H as <- <-. exact (dummy_applied _ _ _ _ E C).
  - injection H as <- <-. exact Logic.I.
Qed.
