(** C28 for the whole way of the buffers, and C30 from the receiver on. *)
From Coq Require Import Permutation.
From Verif Require Import Base DecModel DecSpec DecProofs DecInv DecProps LoopModel LoopSpec LoopProofs LoopImage.
Local Open Scope Z_scope.

(** ** C28 *)
(** After the receiver thread was started once, each buffer is at every time in exactly one place; there are no others.
    Missing: frame number 2^32-1, packets directly after the time-out of their frame (c28_late_refuted), a second start
    (c28_restart_refuted). *)
Theorem c28_loop_partial : forall c mem ops s id, cfg_ok c -> yrun c mem ops s -> (starts ops <= 1)%nat -> wf (y_trace s) -> no_late (y_trace s) ->
  count_occ Z.eq_dec (places c s) id = if (0 <=? id) && (id <? num_buffers c) then starts ops else 0%nat.
Proof.
  intros c mem ops s id CK R K W NL. pose proof (l_one _ _ _ _ _ _ (loop_run c mem ops s CK R K W NL) id) as H. fold (count id (places c s)). rewrite places_count.
  unfold none, one in H. destruct (_ && _); lia.
Qed.

(** What the frame processor finds in a buffer it was handed, or is about to receive, is what the decoder handed over, changed
    only by writes of the frame processor: the decoder does not touch it. *)
Theorem c28_contents_partial : forall c mem ops s, cfg_ok c -> yrun c mem ops s -> (starts ops <= 1)%nat -> wf (y_trace s) -> no_late (y_trace s) ->
  (forall x, In x (y_ready s) -> d_mem (y_dec s) (Shared (r_id x)) = r_buf x) /\
  (forall h, In h (y_held s) -> d_mem (y_dec s) (Shared (o_id h)) = o_buf h) /\ NoDup (map o_id (y_held s)).
Proof.
  intros c mem ops s CK R K W NL. pose proof (loop_run c mem ops s CK R K W NL) as L. split; [exact (l_ready _ _ _ _ _ _ L)|]. split; [exact (l_held _ _ _ _ _ _ L)|].
  apply (held_nodup _ _ _ _ _ _ K L).
Qed.

(** The frame processor was configured before its first ready message: no buffer is lost. *)
Definition configured_first (ops : list yop) : Prop := forall a n b, ops = a ++ YReceive n :: b -> In YConfig a.
Lemma push_all_lost c l : forall s s', push_all c l s = Ret s' -> y_lost s' = y_lost s /\ y_conf s' = y_conf s.
Proof.
  induction l as [|i l IH]; intros s s' H; cbn [push_all] in H; [injection H as <-; auto|]. cbn in H. destruct (IH _ _ H) as (A & B). auto.
Qed.
Lemma ystep_lost c o s s' : ystep c o s = Ret s' -> (y_conf s = true -> y_conf s' = true) /\ (o = YConfig -> y_conf s' = true) /\
  ((forall n, o = YReceive n -> y_conf s = true) -> y_lost s' = y_lost s).
Proof.
  intros H. assert (D : forall o' s1, y_conf s1 = y_conf s -> y_lost s1 = y_lost s -> dec_step c o' s1 = Ret s' -> y_conf s' = y_conf s /\ y_lost s' = y_lost s).
  { intros o' s1 A B X. unfold dec_step in X. destruct (dstep c o' (y_dec s1)) as [[d r]| |]; try discriminate. injection X as <-. auto. }
  assert (Q : (o <> YConfig -> y_conf s' = y_conf s) /\ (o = YConfig -> y_conf s' = true) /\ ((forall n, o = YReceive n -> y_conf s = true) -> y_lost s' = y_lost s)).
  { destruct o as [|fn fl p t|t| | | |n|j|j|j b|j w ht]; cbn [ystep] in H; (split; [|split]); try discriminate; intros HH;
      try (apply (D _ _ eq_refl eq_refl H)); try congruence.
    - injection H as <-. destruct (d_empty _); reflexivity.
    - injection H as <-. destruct (d_empty _); reflexivity.
    - destruct (y_back s) as [|[|id] l]; [injection H as <-; reflexivity| |apply (D _ (set_back l s) eq_refl eq_refl H)]. apply push_all_lost in H. cbn in H. apply H.
    - destruct (y_back s) as [|[|id] l]; [injection H as <-; reflexivity| |apply (D _ (set_back l s) eq_refl eq_refl H)]. apply push_all_lost in H. cbn in H. apply H.
    - injection H as <-. reflexivity.
    - injection H as <-. reflexivity.
    - destruct (y_ready s); [injection H as <-; reflexivity|]. destruct (y_conf s) eqn:E; [|injection H as <-; reflexivity]. destruct (legal_id _ _); [|discriminate]. destruct n; injection H as <-; exact E.
    - destruct (y_ready s); [injection H as <-; reflexivity|]. rewrite (HH n eq_refl) in H. destruct (legal_id _ _); [|discriminate]. destruct n; injection H as <-; reflexivity.
    - injection H as <-. destruct (nth_error _ _); reflexivity.
    - injection H as <-. destruct (nth_error _ _); reflexivity.
    - injection H as <-. destruct (nth_error _ _) as [h|]; [destruct (o_refs h) as [|[|]]|]; reflexivity.
    - injection H as <-. destruct (nth_error _ _) as [h|]; [destruct (o_refs h) as [|[|]]|]; reflexivity.
    - destruct (nth_error _ _) as [h|]; [|injection H as <-; reflexivity]. eapply D; [| |exact H]; reflexivity.
    - destruct (nth_error _ _) as [h|]; [|injection H as <-; reflexivity]. eapply D; [| |exact H]; reflexivity.
    - destruct (nth_error _ _) as [h|]; [|injection H as <-; reflexivity]. destruct (process_frame _ _ _ _) as [[[b n] out]| |]; try discriminate. eapply D; [| |exact H]; reflexivity.
    - destruct (nth_error _ _) as [h|]; [|injection H as <-; reflexivity]. destruct (process_frame _ _ _ _) as [[[b n] out]| |]; try discriminate. eapply D; [| |exact H]; reflexivity. }
  destruct Q as (Q1 & Q2 & Q3). split; [|split; auto]. intros E. assert (DC : o = YConfig \/ o <> YConfig) by (destruct o; (left; reflexivity) || (right; discriminate)).
  destruct DC as [DC|DC]; [auto|]. rewrite Q1; assumption.
Qed.
Theorem c28_none_lost : forall c mem ops s, yrun c mem ops s -> configured_first ops -> y_lost s = [].
Proof.
  intros c mem ops s R CF. assert (X : y_lost s = [] /\ (In YConfig ops -> y_conf s = true)); [|apply X].
  induction R as [|ops s o s' R IH S]; [cbn; tauto|]. destruct (ystep_lost _ _ _ _ S) as (A & B & D).
  assert (CF' : configured_first ops). { intros a n b E. apply (CF a n (b ++ [o])). rewrite E, <- app_assoc. reflexivity. }
  destruct (IH CF') as (I1 & I2). split.
  - rewrite D; [exact I1|]. intros n ->. apply I2, (CF ops n []). reflexivity.
  - intros H. apply in_app_or in H as [H|[H|[]]]; [apply A, I2, H|apply B; auto].
Qed.

(** When no frame is being filled, on the way or held and nothing was lost, the decoder has all buffers again. *)
Theorem c28_all_return_partial : forall c mem ops s, cfg_ok c -> yrun c mem ops s -> starts ops = 1%nat -> wf (y_trace s) -> no_late (y_trace s) -> configured_first ops ->
  d_map (y_dec s) = [] -> y_ready s = [] -> y_held s = [] -> y_back s = [] -> Permutation (d_empty (y_dec s)) (map Z.of_nat (seq 0 (Z.to_nat (num_buffers c)))).
Proof.
  intros c mem ops s CK R K W NL CF E1 E2 E3 E4. apply (Permutation_count_occ Z.eq_dec). intros id.
  pose proof (c28_loop_partial c mem ops s id CK R ltac:(lia) W NL) as H. unfold places in H. rewrite E1, E2, E3, E4, (c28_none_lost c mem ops s R CF) in H. cbn [map flat_map app] in H. rewrite app_nil_r in H.
  rewrite H, K. symmetry. exact (count_buffers c id).
Qed.

(** Sequences of operations, for examples. *)
Fixpoint ygo (c : cfg) (l : list yop) (s : sys) : outcome dexc sys :=
  match l with [] => Ret s | o :: l' => match ystep c o s with Ret s' => ygo c l' s' | Throw e => Throw e | Undef => Undef end end.
Definition yafter (c : cfg) (l : list yop) : sys := match ygo c l (sys_init (fun _ => blank)) with Ret s => s | _ => sys_init (fun _ => blank) end.
Lemma ygo_run c mem l : forall pre s s', yrun c mem pre s -> ygo c l s = Ret s' -> yrun c mem (pre ++ l) s'.
Proof.
  induction l as [|o l IH]; intros pre s s' R H; cbn [ygo] in H; [injection H as <-; rewrite app_nil_r; exact R|].
  destruct (ystep c o s) as [s1| |] eqn:E; try discriminate. change (o :: l) with ([o] ++ l). rewrite app_assoc. eapply IH; [|exact H]. econstructor; eassumption.
Qed.
Lemma yafter_run c l : match ygo c l (sys_init (fun _ => blank)) with Ret _ => True | _ => False end -> yrun c (fun _ => blank) l (yafter c l).
Proof. unfold yafter. destruct (ygo c l _) as [s| |] eqn:E; try tauto. intros _. change l with ([] ++ l). eapply ygo_run; [constructor|exact E]. Qed.

Definition wf_check (tr : trace) : bool :=
  forallb (fun e => match fst e with Packet fn fl _ _ => (0 <=? fn) && (fn <? 2 ^ 32 - 1) && (0 <=? fl) && (fl <? 2 ^ 32) | _ => true end) tr.
Lemma wf_check_ok tr : wf_check tr = true -> wf tr.
Proof. intros H o r I. unfold wf_check in H. rewrite forallb_forall in H. specialize (H _ I). cbn in H. destruct o; auto. rewrite !andb_true_iff in H. lia. Qed.
Definition quiet_check (tr : trace) : bool := forallb (fun e => is_packet (fst e) || match snd e with [] => true | _ => false end) tr.
Lemma quiet_check_ok tr : quiet_check tr = true -> no_late tr.
Proof.
  intros H. apply no_timeout_no_late. intros e I P. unfold quiet_check in H. rewrite forallb_forall in H. specialize (H e I). rewrite P in H. cbn in H. destruct (snd e); [reflexivity|discriminate].
Qed.

(** Four buffers; two frames go all the way, one shared by two plugins. *)
Definition tour : list yop :=
  [YStart; YMsg; YConfig; YPacket 5 0 [1; 2] 0; YPacket 6 2 [3; 4] 1; YPacket 5 2 [5; 6] 2; YPacket 5 1 [7; 8] 3; YPacket 6 0 [1; 1] 4; YReceive 1; YPacket 6 1 [2; 2] 5;
   YShare 0; YProcess 0 1 3; YDrop 0; YReceive 0; YDrop 0; YMsg; YMsg].
Example c28_tour : let s := yafter c3 tour in yrun c3 (fun _ => blank) tour s /\ starts tour = 1%nat /\ wf (y_trace s) /\ no_late (y_trace s) /\ configured_first tour /\
  cfg_ok c3 /\ d_map (y_dec s) = [] /\ y_ready s = [] /\ y_held s = [] /\ y_back s = [] /\ d_empty (y_dec s) = [2; 3; 1; 0] /\ y_out s = [(5, [1; 2; 7; 8; 5; 6])].
Proof.
  split; [apply yafter_run; vm_compute; exact I|]. split; [reflexivity|]. split; [apply wf_check_ok; vm_compute; reflexivity|]. split; [apply quiet_check_ok; vm_compute; reflexivity|].
  split; [|split; [cbv; intuition discriminate|repeat split; vm_compute; reflexivity]].
  intros a n b E. destruct a as [|o1 [|o2 [|o3 a]]]; injection E as E; try discriminate. subst. cbn. auto.
Qed.

(** A frame that is ready before the frame processor is configured: its buffer never comes back. *)
Definition early : list yop := [YStart; YMsg; YPacket 5 0 [1; 2] 0; YPacket 5 2 [5; 6] 2; YPacket 5 1 [7; 8] 3; YReceive 1; YConfig].
Theorem c28_no_config_refuted : let s := yafter c3 early in yrun c3 (fun _ => blank) early s /\ y_lost s = [0] /\ y_back s = [] /\ y_held s = [] /\ d_empty (y_dec s) = [1; 2; 3].
Proof. split; [apply yafter_run; vm_compute; exact I|]. repeat split; vm_compute; reflexivity. Qed.

(** The receiver thread is started again (reconfiguration) while the decoder has no empty buffer: it is given all buffers, also
    those the frame processor holds.  Frame 7 is then received into the buffer of frame 5 while the frame processor holds it. *)
Definition c1 : cfg := Cfg 1 2 1000 1.
Definition again : list yop := [YStart; YMsg; YConfig; YPacket 5 0 [50; 51] 0; YReceive 1; YStart; YMsg; YPacket 7 0 [70; 71] 1].
Theorem c28_restart_refuted : let s := yafter c1 again in yrun c1 (fun _ => blank) again s /\
  count_occ Z.eq_dec (places c1 s) 0 = 2%nat /\ map (fun h => (o_id h, o_frame h, map (b_data (o_buf h)) [0; 1])) (y_held s) = [(0, 5, [50; 51])] /\
  map (b_data (d_mem (y_dec s) (Shared 0))) [0; 1] = [70; 71].
Proof. split; [apply yafter_run; vm_compute; exact I|]. repeat split; vm_compute; reflexivity. Qed.

(** ** C30 from the packets on *)
(** [pl] is packet [i] of image [img] of [size] bytes, cut into packets of [plen]. *)
Definition slice (img : Z -> Z) (size plen i : Z) (pl : list Z) : Prop :=
  Z.of_nat (length pl) = Z.min plen (size - plen * i) /\ forall o, 0 <= o < Z.of_nat (length pl) -> nth (Z.to_nat o) pl 0 = img (plen * i + o).

Lemma last_payload_in i pk : In i (map fst pk) -> exists pl, last_payload i pk = Some pl /\ In (i, pl) pk.
Proof.
  induction pk as [|[j q] pk IH] using rev_ind; [intros []|]. rewrite map_app, last_payload_app. intros H. destruct (Z.eqb_spec j i) as [->|N].
  - exists q. split; [reflexivity|]. apply in_or_app. right. left. reflexivity.
  - apply in_app_or in H as [H|[H|[]]]; [|cbn in H; congruence]. destruct (IH H) as (pl & A & B). exists pl. split; [exact A|]. apply in_or_app. auto.
Qed.
Lemma fill_picture c k pk b img size n : 0 <= ppf c < 2 ^ 31 -> 0 < psize c -> holds c k pk b -> NoDup (map fst pk) -> (forall i, In i (map fst pk) -> 0 <= i < ppf c) ->
  (forall i pl, In (i, pl) pk -> slice img size (psize c) i pl) -> n <= size -> n <= ppf c * psize c ->
  map (fun m => filled b (Z.of_nat m)) (seq 0 (Z.to_nat n)) = picture img n (psize c) (map fst pk).
Proof.
  intros PP PS H ND RG SL LE LE2. unfold picture. apply map_ext_in. intros m Hm. apply in_seq in Hm. set (o := Z.of_nat m). assert (Ho : 0 <= o < n) by lia. clearbody o. clear m Hm. cbn zeta.
  set (p := psize c) in *. set (i := o / p). assert (DM : o = p * i + o mod p) by (apply Z.div_mod; lia). pose proof (Z.mod_pos_bound o p PS) as MB.
  assert (Hi : 0 <= i < ppf c). { split; [apply Z.div_pos; lia|]. apply Z.div_lt_upper_bound; [exact PS|]. rewrite Z.mul_comm. lia. }
  assert (LEN : Z.of_nat (length pk) <= ppf c). { rewrite <- (map_length fst). assert (length (map fst pk) <= length (zseq (ppf c)))%nat by (apply NoDup_incl_length; [exact ND|intros j Hj; apply zseq_in, RG, Hj]). rewrite zseq_length in H0. lia. }
  unfold filled. destruct H as [_ H2 H3 H4 H5 H6]. fold p in H3, H6. rewrite H2, H4. rewrite (Z.mod_small (Z.of_nat (length pk)) (2 ^ 32)) by lia.
  assert (GAP : gap b o = negb (h_pstate (b_hdr b) i)).
  { unfold gap. rewrite H2, H3. destruct (h_pstate (b_hdr b) i) eqn:E; cbn [negb].
    - apply not_true_is_false. intros X. apply existsb_exists in X as (j & J1 & J2). cbn zeta in J2. rewrite !andb_true_iff in J2. destruct J2 as (J2 & J3 & J4).
      assert (Z.of_nat j = i). { unfold i. apply (Z.div_unique o p (Z.of_nat j) (o - p * Z.of_nat j)); [left; lia|lia]. } subst i. rewrite H in J2. rewrite E in J2. discriminate.
    - apply existsb_exists. exists (Z.to_nat i). split; [apply in_seq; lia|]. cbn zeta. rewrite Z2Nat.id by lia. rewrite E. cbn [negb andb]. apply andb_true_iff. split; lia. }
  rewrite GAP. destruct (in_dec Z.eq_dec i (map fst pk)) as [I|NI].
  - rewrite (proj2 (H5 i) I). cbn [negb]. rewrite andb_false_r. destruct (last_payload_in i pk I) as (pl & L1 & L2). destruct (SL i pl L2) as (S1 & S2).
    rewrite DM. rewrite (H6 i pl (o mod p) L1) by lia. apply S2. lia.
  - assert (E : h_pstate (b_hdr b) i = false) by (apply not_true_is_false; intros X; apply NI, H5, X). rewrite E. cbn [negb]. rewrite andb_true_r.
    assert (LT : Z.of_nat (length pk) < ppf c).
    { destruct (Z.eq_dec (Z.of_nat (length pk)) (ppf c)) as [EQ|]; [|lia]. exfalso. apply NI. apply (complete_pigeon _ (ppf c)); auto. rewrite map_length. exact EQ. }
    unfold wrap32. rewrite Z.mod_small by lia. unfold i32. rewrite (Z.mod_small (ppf c - _ + 2 ^ 31)) by lia. destruct (Z.ltb_spec 0 (ppf c - Z.of_nat (length pk) + 2 ^ 31 - 2 ^ 31)); [reflexivity|lia].
Qed.

Lemma out_holds c mem ops s k out : cfg_ok c -> yrun c mem ops s -> (starts ops <= 1)%nat -> wf (y_trace s) -> no_late (y_trace s) -> writes ops = 0%nat -> In (k, out) (y_out s) ->
  0 <= k < 2 ^ 32 - 1 /\ exists x pk, In x (handed k (y_trace s)) /\ subseq pk (sent k (y_trace s)) /\ holds c k pk (r_buf x) /\ Z.of_nat (length out) <= ppf c * psize c /\
    out = map (fun n => filled (r_buf x) (Z.of_nat n)) (seq 0 (length out)).
Proof.
  intros CK R K W NL NW IO. pose proof (loop_run c mem ops s CK R K W NL) as L. destruct (made_run c mem ops s CK R K W NL NW) as [_ _ MO].
  destruct (MO k out IO) as (x & size & X1 & X2 & X3 & X4).
  destruct (run_frames c mem (y_trace s) (y_dec s) CK (l_run _ _ _ _ _ _ L) W (l_env _ _ _ _ _ _ L) NL) as (RF & _). destruct (RF x X1) as (k0 & K0 & K1).
  assert (IH : In x (handed k0 (y_trace s))) by (unfold handed; apply filter_In; split; [exact X1|apply Z.eqb_eq; exact K1]).
  destruct (handed_holds c mem _ _ k0 x CK (l_run _ _ _ _ _ _ L) W (l_env _ _ _ _ _ _ L) NL K0 IH) as (pk & S1 & H1 & _).
  assert (k0 = k) by (rewrite <- X2; symmetry; exact (ho_frame _ _ _ _ H1)). subst k0. split; [exact K0|]. exists x, pk. repeat (split; [assumption|]).
  assert (LO : length out = Z.to_nat size) by (rewrite X4, map_length, seq_length; reflexivity). rewrite LO. split; [lia|exact X4].
Qed.

(** Every image the process plugin pushes as frame [k] is the original image with the regions of some packets that did not
    arrive in the frame's buffer zeroed; no byte of another frame is in it.
    Missing: a packet sent twice (c30_duplicates_refuted), and the restrictions of C28. *)
Theorem c30_image_partial : forall c mem ops s k out img size, cfg_ok c -> 0 < psize c -> yrun c mem ops s -> (starts ops <= 1)%nat -> wf (y_trace s) -> no_late (y_trace s) ->
  in_frame c (y_trace s) -> writes ops = 0%nat -> In (k, out) (y_out s) -> NoDup (map fst (sent k (y_trace s))) ->
  (forall i pl, In (i, pl) (sent k (y_trace s)) -> slice img size (psize c) i pl) -> Z.of_nat (length out) <= size ->
  exists got, subseq got (map fst (sent k (y_trace s))) /\ out = picture img (Z.of_nat (length out)) (psize c) got.
Proof.
  intros c mem ops s k out img size CK PS R K W NL IF NW IO ND SL LE.
  destruct (out_holds c mem ops s k out CK R K W NL NW IO) as (K0 & x & pk & IH & S1 & H1 & LO & EQ).
  exists (map fst pk). split; [apply subseq_map, S1|]. rewrite EQ at 1. rewrite <- (Nat2Z.id (length out)) at 1.
  apply (fill_picture c k pk (r_buf x) img size); auto.
  - unfold cfg_ok, max_packets in CK. lia.
  - exact (subseq_nodup _ _ (subseq_map fst _ _ S1) ND).
  - intros i Hi. apply (sent_range c k (y_trace s) i IF). eapply subseq_in; [apply subseq_map; exact S1|exact Hi].
  - intros i pl Hi. apply SL. eapply subseq_in; eassumption.
Qed.

(** No frame dropped, frame [k] handed over once and not being received any more: exactly the regions of the packets that did
    not arrive are zeroed. *)
Theorem c30_exactly_lost_partial : forall c mem ops s k out img size, cfg_ok c -> 0 < ppf c -> 0 < psize c -> yrun c mem ops s -> (starts ops <= 1)%nat -> wf (y_trace s) -> no_late (y_trace s) ->
  in_frame c (y_trace s) -> writes ops = 0%nat -> no_reset (y_trace s) -> Z.of_nat (length (y_trace s)) < 2 ^ 32 -> f_dropped (y_dec s) = 0 ->
  In (k, out) (y_out s) -> NoDup (map fst (sent k (y_trace s))) -> length (handed k (y_trace s)) = 1%nat -> zm_get (d_map (y_dec s)) (i32 k) = None ->
  (forall i pl, In (i, pl) (sent k (y_trace s)) -> slice img size (psize c) i pl) -> Z.of_nat (length out) <= size ->
  out = picture img (Z.of_nat (length out)) (psize c) (map fst (sent k (y_trace s))).
Proof.
  intros c mem ops s k out img size CK PP PS R K W NL IF NW NR LEN FD IO ND HL NG SL LE.
  destruct (out_holds c mem ops s k out CK R K W NL NW IO) as (K0 & x & _ & IH & _ & _ & LO & EQ). pose proof (loop_run c mem ops s CK R K W NL) as L.
  destruct (run_inv c mem _ _ CK (l_run _ _ _ _ _ _ L) W (l_env _ _ _ _ _ _ L) NL) as (nd & C & _ & _ & D). destruct (D NR LEN) as (_ & D'). specialize (D' FD PP). subst nd.
  destruct (k_frames _ _ _ _ C k K0) as (ch & rs & _ & A & F & M). specialize (A eq_refl). rewrite NG in M. subst rs. rewrite app_nil_r in A.
  destruct (handed k (y_trace s)) as [|y [|z l]]; try discriminate. destruct IH as [->|[]]. inversion F as [|pk ? ch' ? (H1 & _) F']; subst. inversion F'; subst. cbn in A. rewrite app_nil_r in A. subst pk.
  rewrite EQ at 1. rewrite <- (Nat2Z.id (length out)) at 1. apply (fill_picture c k _ (r_buf x) img size); auto.
  - unfold cfg_ok, max_packets in CK. lia.
  - intros i Hi. apply (sent_range c k (y_trace s) i IF Hi).
Qed.

(** All packets arrived: the original image. *)
Lemma picture_full img n plen got : 0 < plen -> (forall o, 0 <= o < n -> In (o / plen) got) -> picture img n plen got = map (fun m => img (Z.of_nat m)) (seq 0 (Z.to_nat n)).
Proof. intros P H. unfold picture. apply map_ext_in. intros m Hm. apply in_seq in Hm. cbn zeta. destruct (in_dec _ _ _) as [|N]; [reflexivity|]. exfalso. apply N, H. lia. Qed.
Theorem c30_complete_partial : forall c mem ops s k out img size, cfg_ok c -> 0 < ppf c -> 0 < psize c -> yrun c mem ops s -> (starts ops <= 1)%nat -> wf (y_trace s) -> no_late (y_trace s) ->
  in_frame c (y_trace s) -> writes ops = 0%nat -> no_reset (y_trace s) -> Z.of_nat (length (y_trace s)) < 2 ^ 32 -> f_dropped (y_dec s) = 0 ->
  In (k, out) (y_out s) -> length (handed k (y_trace s)) = 1%nat -> zm_get (d_map (y_dec s)) (i32 k) = None ->
  Permutation (map fst (sent k (y_trace s))) (zseq (ppf c)) ->
  (forall i pl, In (i, pl) (sent k (y_trace s)) -> slice img size (psize c) i pl) -> Z.of_nat (length out) <= size ->
  out = map (fun m => img (Z.of_nat m)) (seq 0 (length out)).
Proof.
  intros c mem ops s k out img size CK PP PS R K W NL IF NW NR LEN FD IO HL NG PM SL LE.
  assert (ND : NoDup (map fst (sent k (y_trace s)))) by (apply (Permutation_NoDup (Permutation_sym PM)), zseq_nodup).
  destruct (out_holds c mem ops s k out CK R K W NL NW IO) as (_ & _ & _ & _ & _ & _ & LO & _).
  rewrite (c30_exactly_lost_partial c mem ops s k out img size CK PP PS R K W NL IF NW NR LEN FD IO ND HL NG SL LE) at 1.
  rewrite picture_full; [rewrite Nat2Z.id; reflexivity|exact PS|]. intros o Ho. apply (Permutation_in _ (Permutation_sym PM)), zseq_in.
  split; [apply Z.div_pos; lia|]. apply Z.div_lt_upper_bound; [exact PS|]. rewrite Z.mul_comm. lia.
Qed.

(** Packet 1 of frame 9 lost (time-out), images of six bytes; the buffer had been used by frame 8 before. *)
Definition c1b : cfg := Cfg 3 2 1 1.
Definition lossy : list yop :=
  [YStart; YMsg; YConfig; YPacket 8 0 [80; 81] 0; YPacket 8 1 [82; 83] 0; YPacket 8 2 [84; 85] 0; YReceive 1; YProcess 0 1 3; YDrop 0; YMsg;
   YPacket 9 2 [94; 95] 10; YPacket 9 0 [90; 91] 10; YMonitor 3000000; YReceive 2; YProcess 0 1 3; YProcess 0 1 3].
Example c30_case : let s := yafter c1b lossy in yrun c1b (fun _ => blank) lossy s /\ cfg_ok c1b /\ starts lossy = 1%nat /\ writes lossy = 0%nat /\ wf (y_trace s) /\ f_dropped (y_dec s) = 0 /\
  map fst (sent 9 (y_trace s)) = [2; 0] /\ length (handed 9 (y_trace s)) = 1%nat /\ d_map (y_dec s) = [] /\
  y_out s = [(8, [80; 81; 82; 83; 84; 85]); (9, [90; 91; 0; 0; 94; 95]); (9, [90; 91; 0; 0; 94; 95])] /\
  (forall i pl, In (i, pl) (sent 9 (y_trace s)) -> slice (fun o => 90 + o) 6 2 i pl).
Proof.
  split; [apply yafter_run; vm_compute; exact I|]. split; [cbv; intuition discriminate|]. split; [reflexivity|]. split; [reflexivity|]. split; [apply wf_check_ok; vm_compute; reflexivity|].
  repeat (split; [vm_compute; reflexivity|]). intros i pl H. assert (E : sent 9 (y_trace (yafter c1b lossy)) = [(2, [94; 95]); (0, [90; 91])]) by (vm_compute; reflexivity). rewrite E in H.
  destruct H as [[= <- <-]|[[= <- <-]|[]]]; (split; [reflexivity|]); cbn [length]; intros o Ho; assert (D : o = 0 \/ o = 1) by lia; destruct D as [->| ->]; reflexivity.
Qed.
(** [no_late] and [in_frame] hold too: after the time-out of frame 9 no packet follows. *)
Fixpoint late_check (last : option Z) (timed : list Z) (tr : trace) : bool :=
  match tr with
  | [] => true
  | (Packet fn _ _ _, _) :: t => negb (match last with Some f => (f =? fn) && existsb (Z.eqb (i32 fn)) timed | None => false end) && late_check (Some fn) [] t
  | (_, r) :: t => late_check last (timed ++ map r_frame r) t
  end.
Lemma late_check_mid last timed mid fn fl p t r tr2 : late_check last timed (mid ++ (Packet fn fl p t, r) :: tr2) = true -> (forall e, In e mid -> is_packet (fst e) = false) ->
  last = Some fn -> ~ In (i32 fn) (timed ++ map r_frame (flat_map snd mid)).
Proof.
  revert timed. induction mid as [|[o ro] mid IH]; intros timed H P ->.
  - cbn in H. rewrite Z.eqb_refl in H. cbn in H. apply andb_true_iff in H as (H & _). rewrite app_nil_r. intros X. apply negb_true_iff in H. assert (existsb (Z.eqb (i32 fn)) timed = true); [|congruence].
    apply existsb_exists. exists (i32 fn). rewrite Z.eqb_refl. auto.
  - pose proof (P (o, ro) (or_introl eq_refl)) as PO. cbn in PO. cbn [flat_map snd]. rewrite map_app, app_assoc.
    apply IH; [|intros e He; apply P; right; exact He|reflexivity]. destruct o; try discriminate; exact H.
Qed.
Lemma late_check_ok tr : forall last timed, late_check last timed tr = true -> no_late tr.
Proof.
  intros last timed H tr1 fn fl p t r mid fl' p' t' r' tr2 E M (e & x & X1 & X2 & X3). subst tr. revert last timed H. induction tr1 as [|[o ro] tr1 IH]; intros last timed H.
  - cbn [app late_check] in H. apply andb_true_iff in H as (_ & H). apply (late_check_mid (Some fn) [] mid fn fl' p' t' r' tr2 H M eq_refl). cbn. rewrite <- X3. apply in_map, in_flat_map. eauto.
  - destruct o; cbn [app late_check] in H; try (eapply IH; exact H). apply andb_true_iff in H as (_ & H). eapply IH, H.
Qed.
Definition in_frame_check (c : cfg) (tr : trace) : bool := forallb (fun e => match fst e with Packet _ fl _ _ => fl mod 2 ^ 30 <? ppf c | _ => true end) tr.
Lemma in_frame_check_ok c tr : in_frame_check c tr = true -> in_frame c tr.
Proof. intros H o r I. unfold in_frame_check in H. rewrite forallb_forall in H. specialize (H _ I). cbn in H. destruct o; auto. lia. Qed.
Example c30_case_env : let s := yafter c1b lossy in no_late (y_trace s) /\ in_frame c1b (y_trace s) /\ NoDup (map fst (sent 9 (y_trace s))) /\ no_reset (y_trace s).
Proof.
  split; [apply (late_check_ok _ None []); vm_compute; reflexivity|]. split; [apply in_frame_check_ok; vm_compute; reflexivity|]. split.
  - assert (E : map fst (sent 9 (y_trace (yafter c1b lossy))) = [2; 0]) by (vm_compute; reflexivity). rewrite E. repeat constructor; cbn; intuition discriminate.
  - intros r H. assert (X : existsb (fun e => match fst e with ResetStats => true | _ => false end) (y_trace (yafter c1b lossy)) = true) by (apply existsb_exists; eexists; split; [exact H|reflexivity]). vm_compute in X. discriminate.
Qed.

(** A packet that comes twice makes up for a lost one: nothing is zeroed and bytes of the frame that used the buffer before
    are in the image. *)
Definition dupl : list yop :=
  [YStart; YMsg; YConfig; YPacket 8 0 [80; 81] 0; YPacket 8 1 [82; 83] 0; YPacket 8 2 [84; 85] 0; YReceive 1; YDrop 0; YMsg;
   YPacket 9 2 [94; 95] 10; YPacket 9 0 [90; 91] 10; YPacket 9 0 [90; 91] 10; YReceive 1; YProcess 0 1 3].
Theorem c30_duplicates_refuted : let s := yafter c1b dupl in yrun c1b (fun _ => blank) dupl s /\ map fst (sent 9 (y_trace s)) = [2; 0; 0] /\ y_out s = [(9, [90; 91; 82; 83; 94; 95])].
Proof. split; [apply yafter_run; vm_compute; exact I|]. repeat split; vm_compute; reflexivity. Qed.

Print Assumptions c28_loop_partial.
Print Assumptions c28_contents_partial.
Print Assumptions c28_none_lost.
Print Assumptions c28_all_return_partial.
Print Assumptions c28_no_config_refuted.
Print Assumptions c28_restart_refuted.
Print Assumptions c30_image_partial.
Print Assumptions c30_exactly_lost_partial.
Print Assumptions c30_complete_partial.
Print Assumptions c30_duplicates_refuted.

(** ** The count of lost packets *)
Lemma zero_missing_count h n : forall i d k, snd (zero_missing h i n d k) = k + Z.of_nat (List.length (filter (fun j => negb (h_pstate h (i + Z.of_nat j))) (seq 0 n))).
Proof.
  induction n as [|n IH]; intros i d k; cbn [zero_missing]; [cbn; lia|]. cbn [seq filter]. rewrite Z.add_0_r.
  assert (E : List.length (filter (fun j => negb (h_pstate h (i + Z.of_nat j))) (seq 1 n)) = List.length (filter (fun j => negb (h_pstate h (i + 1 + Z.of_nat j))) (seq 0 n))).
  { clear IH. rewrite <- seq_shift. induction (seq 0 n) as [|a l IHl]; [reflexivity|]. cbn [map filter]. replace (i + Z.of_nat (S a)) with (i + 1 + Z.of_nat a) by lia. destruct (negb _); cbn [List.length]; [f_equal|]; exact IHl. }
  destruct (h_pstate h i); cbn [negb]; rewrite IH; cbn [List.length]; rewrite E; lia.
Qed.
Lemma process_lost_count b : counted b -> snd (process_lost b) = missing b.
Proof.
  intros (R & E). unfold process_lost, missing. set (h := b_hdr b) in *. assert (I : i32 (wrap32 (h_expected h - h_received h)) = h_expected h - h_received h) by (rewrite i32_wrap; unfold i32; rewrite Z.mod_small; lia). rewrite I.
  destruct (Z.ltb_spec 0 (h_expected h - h_received h)), (Z.ltb_spec (h_received h) (h_expected h)); try lia; [|reflexivity].
  pose proof (zero_missing_count h (Z.to_nat (h_expected h)) 0 (b_data b) 0) as Q. destruct (zero_missing _ _ _ _ _) as (d, k). cbn [snd] in *. rewrite Q. cbn [Z.add]. reflexivity.
Qed.
(** The plugin's count of lost packets starts at 0 and grows with each frame it handles by the packets missing in that frame, and only then. *)
Theorem c30_packets_lost : forall c mem o s s', y_plost (sys_init mem) = 0 /\ (ystep c o s = Ret s' ->
  (forall j w ht h, o = YProcess j w ht -> nth_error (y_held s) j = Some h -> counted (d_mem (y_dec s) (Shared (o_id h))) -> y_plost s' = i32 (y_plost s + missing (d_mem (y_dec s) (Shared (o_id h))))) /\
  ((forall j w ht, o <> YProcess j w ht) -> y_plost s' = y_plost s)).
Proof.
  intros c mem o s s'. split; [reflexivity|]. intros H.
  assert (DS : forall o s0 s1, dec_step c o s0 = Ret s1 -> y_plost s1 = y_plost s0) by (intros o0 s0 s1; unfold dec_step; destruct (dstep _ _ _) as [[]| |]; [intros [= <-]; reflexivity|discriminate..]).
  assert (PA : forall l s0 s1, push_all c l s0 = Ret s1 -> y_plost s1 = y_plost s0).
  { induction l as [|a l IHl]; intros s0 s1; cbn [push_all]; [intros [= <-]; reflexivity|]. destruct (dec_step c (Push a) s0) as [s2| |] eqn:D; try discriminate. intros X. apply IHl in X. apply DS in D. congruence. }
  split.
  - intros j w ht h -> N CB. cbn [ystep] in H. rewrite N in H. set (b := d_mem (y_dec s) (Shared (o_id h))) in *. unfold process_frame in H. pose proof (process_lost_count b CB) as PC. destruct (process_lost b) as (b', n) eqn:PL. destruct (_ && _); [|discriminate]. apply DS in H. cbn [y_plost add_out set_held] in H. cbn [snd] in PC. congruence.
  - intros NP. destruct o; cbn [ystep] in H.
    + injection H as <-. destruct (d_empty _); reflexivity.
    + exact (DS _ _ _ H). + exact (DS _ _ _ H). + exact (DS _ _ _ H).
    + destruct (y_back s) as [|[|id] t]; [injection H as <-; reflexivity|apply PA in H; exact H|apply DS in H; exact H].
    + injection H as <-. reflexivity.
    + destruct (y_ready s) as [|x t]; [injection H as <-; reflexivity|]. destruct (y_conf s); [|injection H as <-; reflexivity]. destruct (legal_id _ _); [|discriminate]. destruct n; injection H as <-; reflexivity.
    + injection H as <-. destruct (nth_error _ _); reflexivity.
    + injection H as <-. destruct (nth_error _ _) as [h|]; [|reflexivity]. destruct (o_refs h) as [|[|]]; reflexivity.
    + destruct (nth_error _ _) as [h|]; [apply DS in H; exact H|injection H as <-; reflexivity].
    + destruct (NP j w ht eq_refl).
Qed.
Example c30_packets_lost_case : let b := Buffer (Hdr 9 RComplete 0 3 1 2 (fun i => i =? 1)) (fun _ => 0) in counted b /\ missing b = 2 /\ y_plost (yafter c1b lossy) = 2.
Proof. cbv zeta. split; [split; cbn; lia|]. split; vm_compute; reflexivity. Qed.
Print Assumptions c30_packets_lost.
