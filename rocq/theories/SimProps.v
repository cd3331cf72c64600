(** C30: from the simulator to the image. *)
From Coq Require Import Permutation.
From Verif Require Import Base DecModel DecSpec DecProofs DecInv DecProps LoopModel LoopSpec LoopProofs LoopImage LoopProps SimModel.
Local Open Scope Z_scope.

(** Number of packets of an image of [bytes] bytes. *)
Definition npackets (bytes plen : Z) : Z := (bytes + plen - 1) / plen.

Lemma npackets_lt bytes plen i : 0 < plen -> (i < npackets bytes plen <-> plen * i < bytes).
Proof.
  intros P. unfold npackets. pose proof (Z.div_mod (bytes + plen - 1) plen ltac:(lia)) as D. pose proof (Z.mod_pos_bound (bytes + plen - 1) plen P) as B. set (q := (bytes + plen - 1) / plen) in *.
  split; intros H.
  - assert (plen * (i + 1) <= plen * q) by (apply Z.mul_le_mono_nonneg_l; lia). lia.
  - destruct (Z.lt_ge_cases i q) as [|G]; [assumption|]. assert (plen * q <= plen * i) by (apply Z.mul_le_mono_nonneg_l; lia). lia.
Qed.

Definition flag_of (bytes plen i : Z) : Z := if negb (plen <? bytes - plen * i) then eof_mask else if i =? 0 then sof_mask else 0.
Definition the_pkt (plen bytes f i : Z) : pkt :=
  Pkt f (Z.lor (Z.land i number_mask) (flag_of bytes plen i)) (map (fun j => pixel_byte (plen * i + Z.of_nat j)) (seq 0 (Z.to_nat (Z.min plen (bytes - plen * i))))).

Lemma cut_eq plen bytes f : 0 < plen -> npackets bytes plen < 2 ^ 32 - 1 -> forall n pno, 0 <= pno -> bytes - plen * pno <= Z.of_nat n -> (pno <= npackets bytes plen \/ pno = 0) ->
  cut plen f n pno (plen * pno) (bytes - plen * pno) = map (fun i => the_pkt plen bytes f (Z.of_nat i)) (seq (Z.to_nat pno) (Z.to_nat (npackets bytes plen) - Z.to_nat pno)).
Proof.
  intros P NB. induction n as [|n IH]; intros pno PO N LE.
  - assert (npackets bytes plen <= pno). { destruct (Z.lt_ge_cases pno (npackets bytes plen)) as [X|X]; [|exact X]. apply npackets_lt in X; lia. }
    replace (_ - _)%nat with 0%nat by lia. reflexivity.
  - cbn [cut]. destruct (Z.ltb_spec 0 (bytes - plen * pno)) as [R|R].
    + assert (X : pno < npackets bytes plen) by (apply npackets_lt; lia). replace (Z.to_nat (npackets bytes plen) - Z.to_nat pno)%nat with (S (Z.to_nat (npackets bytes plen) - Z.to_nat (pno + 1)))%nat by lia.
      cbn [seq map]. rewrite Z2Nat.id by lia. replace (S (Z.to_nat pno)) with (Z.to_nat (pno + 1)) by lia. rewrite Z.mod_small by lia. f_equal.
      * unfold the_pkt, flag_of. f_equal. destruct (Z.ltb_spec plen (bytes - plen * pno)); cbn [negb]; do 3 f_equal; lia.
      * destruct (Z.ltb_spec plen (bytes - plen * pno)); cbn [negb].
        -- rewrite <- IH; [f_equal; lia|lia|lia|lia].
        -- replace (bytes - plen * pno - (bytes - plen * pno)) with 0 by lia. assert (E : npackets bytes plen <= pno + 1). { destruct (Z.lt_ge_cases (pno + 1) (npackets bytes plen)) as [Y|Y]; [|exact Y]. apply npackets_lt in Y; lia. }
           replace (Z.to_nat (npackets bytes plen) - Z.to_nat (pno + 1))%nat with 0%nat by lia. destruct n; reflexivity.
    + assert (npackets bytes plen <= pno). { destruct (Z.lt_ge_cases pno (npackets bytes plen)) as [X|X]; [|exact X]. apply npackets_lt in X; lia. }
      replace (Z.to_nat (npackets bytes plen) - Z.to_nat pno)%nat with 0%nat by lia. reflexivity.
Qed.
Lemma frame_eq plen bytes f : 0 < plen -> npackets bytes plen < 2 ^ 32 - 1 ->
  frame_packets plen bytes f = map (fun i => the_pkt plen bytes f (Z.of_nat i)) (seq 0 (Z.to_nat (npackets bytes plen))).
Proof.
  intros P NB. unfold frame_packets. rewrite <- (Z.mul_0_r plen) at 2. replace bytes with (bytes - plen * 0) at 2 by lia. rewrite cut_eq by (auto; lia). rewrite Nat.sub_0_r. reflexivity.
Qed.

(** Flags. *)
Lemma land_small i m : 0 <= i < 2 ^ 30 -> Z.land m (Z.ones 30) = 0 -> Z.land i m = 0.
Proof. intros I M. rewrite <- (Z.mod_small i (2 ^ 30)) by exact I. rewrite <- Z.land_ones by lia. rewrite <- Z.land_assoc, (Z.land_comm (Z.ones 30)), M. apply Z.land_0_r. Qed.
Lemma flag_cases bytes plen i : flag_of bytes plen i = eof_mask /\ bytes - plen * i <= plen \/ flag_of bytes plen i = sof_mask /\ plen < bytes - plen * i /\ i = 0 \/ flag_of bytes plen i = 0 /\ plen < bytes - plen * i /\ i <> 0.
Proof. unfold flag_of. destruct (Z.ltb_spec plen (bytes - plen * i)); cbn [negb]; [|auto]. destruct (Z.eqb_spec i 0); auto. Qed.
Lemma flags_facts bytes plen i : 0 <= i < 2 ^ 30 -> let fl := Z.lor (Z.land i number_mask) (flag_of bytes plen i) in
  fl mod 2 ^ 30 = i /\ 0 <= fl < 2 ^ 32 /\ (Z.land fl sof_mask <> 0 <-> i = 0 /\ plen < bytes) /\ (Z.land fl eof_mask <> 0 <-> bytes - plen * i <= plen).
Proof.
  intros I. cbn zeta. replace (Z.land i number_mask) with i by (change number_mask with (Z.ones 30); rewrite Z.land_ones, Z.mod_small; lia).
  assert (F : exists f, flag_of bytes plen i = f /\ (f = eof_mask \/ f = sof_mask \/ f = 0)) by (eexists; split; [reflexivity|]; destruct (flag_cases bytes plen i) as [(-> & _)|[(-> & _)|(-> & _)]]; auto).
  destruct F as (f & EF & F). split; [|split; [|split]].
  - rewrite <- Z.land_ones by lia. rewrite Z.land_lor_distr_l, Z.land_ones, Z.mod_small by lia. rewrite EF. destruct F as [->|[->| ->]]; cbn; apply Z.lor_0_r.
  - assert (Z.lor i (flag_of bytes plen i) mod 2 ^ 32 = Z.lor i (flag_of bytes plen i)).
    { rewrite <- Z.land_ones by lia. rewrite Z.land_lor_distr_l. f_equal; [rewrite Z.land_ones, Z.mod_small; lia|]. rewrite EF. destruct F as [->|[->| ->]]; reflexivity. }
    rewrite <- H. apply Z.mod_pos_bound. reflexivity.
  - rewrite Z.land_lor_distr_l, land_small by (auto; reflexivity). rewrite Z.lor_0_l. destruct (flag_cases bytes plen i) as [(-> & H)|[(-> & H & Hi)|(-> & H & Hi)]].
    + split; [intros X; exfalso; apply X; reflexivity|]. intros (-> & X). lia.
    + subst i. rewrite Z.mul_0_r, Z.sub_0_r in H. split; [auto|]. intros _. discriminate.
    + split; [intros X; exfalso; apply X; reflexivity|]. intros (-> & X). congruence.
  - rewrite Z.land_lor_distr_l, land_small by (auto; reflexivity). rewrite Z.lor_0_l. destruct (flag_cases bytes plen i) as [(-> & H)|[(-> & H & Hi)|(-> & H & Hi)]].
    + split; [auto|]. intros _. discriminate.
    + split; [intros X; exfalso; apply X; reflexivity|lia].
    + split; [intros X; exfalso; apply X; reflexivity|lia].
Qed.
Lemma the_slice plen bytes f i : 0 < plen -> plen * i < bytes -> slice pixel_byte bytes plen i (k_data (the_pkt plen bytes f i)).
Proof.
  intros P L. unfold slice, the_pkt. cbn [k_data]. rewrite map_length, seq_length. split; [lia|]. intros o Ho.
  rewrite (nth_indep _ 0 ((fun j => pixel_byte (plen * i + Z.of_nat j)) 0%nat)) by (rewrite map_length, seq_length; lia).
  rewrite (map_nth (fun j => pixel_byte (plen * i + Z.of_nat j))), seq_nth by lia. f_equal. lia.
Qed.

(** Storing the packets. *)
Lemma extract_app l l' : forall fs, extract_all (l ++ l') fs = match extract_all l fs with Ret fs' => extract_all l' fs' | Throw e => Throw e | Undef => Undef end.
Proof. induction l as [|p l IH]; intros fs; [reflexivity|]. cbn [app extract_all]. destruct (extract p fs); auto. Qed.
Definition ends (l : list pkt) : list Z := flat_map (fun p => if negb (Z.land (k_flags p) eof_mask =? 0) then [k_frame p] else []) l.
Lemma extract_more l : forall fs u, (forall p, In p l -> Z.land (k_flags p) sof_mask = 0) ->
  extract_all l (fs ++ [u]) = Ret (fs ++ [UFrame (u_number u) (u_pkts u ++ l) (u_sof u) (u_eof u ++ ends l)]).
Proof.
  induction l as [|p l IH]; intros fs u H; cbn [extract_all].
  - unfold ends. cbn. rewrite !app_nil_r. destruct u; reflexivity.
  - unfold extract at 1. rewrite (H p (or_introl eq_refl)). cbn [Z.eqb negb]. rewrite rev_app_distr. cbn [rev app]. rewrite rev_involutive. rewrite IH by (intros q Hq; apply H; right; exact Hq).
    cbn [u_number u_pkts u_sof u_eof]. unfold ends at 2. cbn [flat_map]. fold (ends l). rewrite <- !app_assoc. reflexivity.
Qed.
Definition the_frame (plen bytes : Z) (f : nat) : uframe :=
  let l := frame_packets plen bytes (Z.of_nat f) in UFrame (Z.of_nat f) l [Z.of_nat f] (ends l).
Lemma extract_frame plen bytes f fs : 0 < plen < bytes -> npackets bytes plen <= 2 ^ 30 ->
  extract_all (frame_packets plen bytes (Z.of_nat f)) fs = Ret (fs ++ [the_frame plen bytes f]).
Proof.
  intros P NB. assert (N1 : 1 < npackets bytes plen) by (apply npackets_lt; lia). unfold the_frame. rewrite frame_eq by lia.
  replace (Z.to_nat (npackets bytes plen)) with (S (Z.to_nat (npackets bytes plen) - 1)) by lia. cbn [seq map extract_all]. unfold extract at 1.
  destruct (flags_facts bytes plen 0 ltac:(lia)) as (_ & _ & S0 & E0). cbn [the_pkt k_flags k_frame Z.of_nat].
  destruct (Z.eqb_spec (Z.land (Z.lor (Z.land 0 number_mask) (flag_of bytes plen 0)) sof_mask) 0) as [X|_]; [exfalso; apply S0 in X; [exact X|lia]|].
  cbn [negb]. rewrite rev_app_distr. cbn [rev app]. rewrite rev_involutive. rewrite extract_more.
  - cbn [u_number u_pkts u_sof u_eof app]. unfold ends at 2. cbn [flat_map k_flags k_frame]. reflexivity.
  - intros p Hp. apply in_map_iff in Hp as (i & <- & Hi). apply in_seq in Hi. cbn [the_pkt k_flags]. destruct (flags_facts bytes plen (Z.of_nat i) ltac:(lia)) as (_ & _ & SI & _).
    destruct (Z.eq_dec (Z.land (Z.lor (Z.land (Z.of_nat i) number_mask) (flag_of bytes plen (Z.of_nat i))) sof_mask) 0) as [|X]; [assumption|]. apply SI in X. lia.
Qed.
Lemma extract_frames plen bytes l : 0 < plen < bytes -> npackets bytes plen <= 2 ^ 30 -> forall fs,
  extract_all (flat_map (fun f => frame_packets plen bytes (Z.of_nat f)) l) fs = Ret (fs ++ map (the_frame plen bytes) l).
Proof.
  intros P NB. induction l as [|f l IH]; intros fs; cbn [flat_map map extract_all]; [rewrite app_nil_r; reflexivity|].
  rewrite extract_app, extract_frame by auto. rewrite IH, <- app_assoc. reflexivity.
Qed.
Lemma created w h plen n : in_i32 (w * h) = true -> 0 < plen < 2 * (w * h) -> npackets (2 * (w * h)) plen <= 2 ^ 30 ->
  create_frames w h plen n = Ret (map (the_frame plen (2 * (w * h))) (seq 0 (Z.to_nat n))).
Proof.
  intros I P NB. unfold create_frames. rewrite I. cbn [negb]. destruct (Z.ltb_spec (w * h) 0); [lia|]. destruct (Z.leb_spec plen 0); [lia|]. rewrite extract_frames by auto. reflexivity.
Qed.

(** ** The simulator *)
(** An image of more than one packet: frame [f] of the simulator consists of packets 0, 1, ... in order; packet [i] carries the
    bytes from [plen * i] on, its header says frame [f] and number [i]; the start mark is on the first packet only, the end mark
    on the last only. *)
Theorem c30_simulator : forall w h plen n, in_i32 (w * h) = true -> 0 < plen < 2 * (w * h) -> npackets (2 * (w * h)) plen <= 2 ^ 30 ->
  exists fs, create_frames w h plen n = Ret fs /\ length fs = Z.to_nat n /\ forall f u, nth_error fs f = Some u ->
    u_number u = Z.of_nat f /\ u_sof u = [Z.of_nat f] /\ Z.of_nat (length (u_pkts u)) = npackets (2 * (w * h)) plen /\
    forall i p, nth_error (u_pkts u) i = Some p ->
      k_frame p = Z.of_nat f /\ k_flags p mod 2 ^ 30 = Z.of_nat i /\ 0 <= k_flags p < 2 ^ 32 /\ slice pixel_byte (2 * (w * h)) plen (Z.of_nat i) (k_data p) /\
      (Z.land (k_flags p) sof_mask <> 0 <-> i = 0%nat) /\ (Z.land (k_flags p) eof_mask <> 0 <-> Z.of_nat i = npackets (2 * (w * h)) plen - 1).
Proof.
  intros w h plen n I P NB. exists (map (the_frame plen (2 * (w * h))) (seq 0 (Z.to_nat n))). split; [apply created; auto|]. set (bytes := 2 * (w * h)) in *. clearbody bytes.
  split; [rewrite map_length, seq_length; reflexivity|]. intros f u H. rewrite nth_error_map in H. destruct (nth_error (seq 0 (Z.to_nat n)) f) as [f'|] eqn:E; [|discriminate]. injection H as <-.
  assert (f' = f). { pose proof (nth_error_nth _ _ 0%nat E) as X. assert (f < length (seq 0 (Z.to_nat n)))%nat by (apply nth_error_Some; congruence). rewrite seq_length in H. rewrite seq_nth in X by exact H. cbn in X. congruence. }
  subst f'. assert (N1 : 1 < npackets bytes plen) by (apply npackets_lt; lia). split; [reflexivity|]. split; [reflexivity|]. cbn [the_frame u_pkts]. rewrite frame_eq by lia. split; [rewrite map_length, seq_length; lia|].
  intros i p H. rewrite nth_error_map in H. destruct (nth_error (seq 0 (Z.to_nat (npackets bytes plen))) i) as [i'|] eqn:E2; [|discriminate]. injection H as <-.
  assert (LI : (i < Z.to_nat (npackets bytes plen))%nat). { assert (i < length (seq 0 (Z.to_nat (npackets bytes plen))))%nat by (apply nth_error_Some; congruence). rewrite seq_length in H. exact H. }
  assert (i' = i). { pose proof (nth_error_nth _ _ 0%nat E2) as X. rewrite seq_nth in X by exact LI. cbn in X. congruence. } subst i'.
  destruct (flags_facts bytes plen (Z.of_nat i) ltac:(lia)) as (F1 & F2 & F3 & F4). assert (L : plen * Z.of_nat i < bytes) by (apply npackets_lt; lia).
  split; [reflexivity|]. split; [exact F1|]. split; [exact F2|]. split; [apply the_slice; [lia|exact L]|]. cbn [the_pkt k_flags]. split; [rewrite F3; lia|]. rewrite F4.
  pose proof (npackets_lt bytes plen (Z.of_nat i + 1) ltac:(lia)) as X. lia.
Qed.
Example c30_simulator_case : in_i32 (3 * 1) = true /\ 0 < 4 < 2 * (3 * 1) /\ npackets (2 * (3 * 1)) 4 = 2 /\
  create_frames 3 1 4 1 = Ret [UFrame 0 [Pkt 0 (2 ^ 31) [0; 0; 1; 0]; Pkt 0 (1 + 2 ^ 30) [2; 0]] [0] [0]].
Proof. repeat split; vm_compute; reflexivity. Qed.

(** An image that fits into one packet: the only packet has the end mark but not the start mark, and is appended to a frame that does
    not exist. *)
Theorem c30_single_packet_refuted : forall w h plen n, in_i32 (w * h) = true -> 0 < w * h -> 2 * (w * h) <= plen -> 0 < n -> create_frames w h plen n = Undef.
Proof.
  intros w h plen n I P LE N. unfold create_frames. rewrite I. cbn [negb]. destruct (Z.ltb_spec (w * h) 0); [lia|]. destruct (Z.leb_spec plen 0); [lia|].
  set (bytes := 2 * (w * h)) in *. assert (B : 0 < bytes) by lia. clearbody bytes.
  replace (Z.to_nat n) with (S (Z.to_nat n - 1)) by lia. cbn [seq flat_map]. unfold frame_packets at 1. replace (Z.to_nat bytes) with (S (Z.to_nat bytes - 1)) by lia. cbn [cut].
  destruct (Z.ltb_spec 0 bytes); [|lia]. destruct (Z.ltb_spec plen bytes); [lia|]. reflexivity.
Qed.
Example c30_single_packet_case : create_frames 2 2 8 1 = Undef.
Proof. apply c30_single_packet_refuted; vm_compute; congruence || reflexivity. Qed.

(** ** End to end *)
(** The datagrams that reached the receiver. *)
Definition arrived (tr : trace) : list pkt := flat_map (fun e => match fst e with Packet fn fl p _ => [Pkt fn fl p] | _ => [] end) tr.

Lemma sent_arrived k tr : sent k tr = map (fun p => (k_flags p mod 2 ^ 30, k_data p)) (filter (fun p => k_frame p =? k) (arrived tr)).
Proof.
  unfold sent, arrived. induction tr as [|[o r] tr IH]; [reflexivity|]. cbn [flat_map fst]. rewrite filter_app, map_app, <- IH. f_equal. destruct o; try reflexivity. cbn. destruct (fn =? k); reflexivity.
Qed.
Lemma keep_subseq {A} d (l : list A) : forall p, subseq (keep d p l) l.
Proof. induction l as [|x l IH]; intros p; cbn; [constructor|]. destruct (d p); [apply sub_skip|apply sub_keep]; apply IH. Qed.
Lemma keep_all {A} d (l : list A) : (forall p, d p = false) -> forall p, keep d p l = l.
Proof. intros H. induction l as [|x l IH]; intros p; cbn; [reflexivity|]. rewrite H, IH. reflexivity. Qed.
Lemma replay_eq plen bytes n drop :
  replay (map (the_frame plen bytes) (seq 0 (Z.to_nat n))) n drop = flat_map (fun f => keep (drop f) 0 (frame_packets plen bytes (Z.of_nat f))) (seq 0 (Z.to_nat n)).
Proof.
  unfold replay. generalize (Z.to_nat n). intros [|m]; [reflexivity|]. assert (X : forall f, In f (seq 0 (S m)) ->
    match nth_error (map (the_frame plen bytes) (seq 0 (S m))) (Nat.modulo f (length (map (the_frame plen bytes) (seq 0 (S m))))) with Some u => keep (drop f) 0 (u_pkts u) | None => [] end = keep (drop f) 0 (frame_packets plen bytes (Z.of_nat f))).
  { intros f Hf. apply in_seq in Hf. rewrite map_length, seq_length, Nat.mod_small by lia. rewrite nth_error_map.
    rewrite (nth_error_nth' (seq 0 (S m)) 0%nat) by (rewrite seq_length; lia). rewrite seq_nth by lia. reflexivity. }
  cbn [seq map]. cbn [seq map] in X. set (fs := the_frame plen bytes 0 :: _) in *. clearbody fs.
  rewrite !flat_map_concat_map. f_equal. apply map_ext_in. exact X.
Qed.
Lemma filter_replay plen bytes n drop k : 0 < plen -> npackets bytes plen < 2 ^ 32 - 1 ->
  filter (fun p => k_frame p =? k) (flat_map (fun f => keep (drop f) 0 (frame_packets plen bytes (Z.of_nat f))) (seq 0 (Z.to_nat n))) =
  if (0 <=? k) && (k <? n) then keep (drop (Z.to_nat k)) 0 (frame_packets plen bytes k) else [].
Proof.
  intros P NB. assert (KF : forall f p, In p (keep (drop f) 0 (frame_packets plen bytes (Z.of_nat f))) -> k_frame p = Z.of_nat f).
  { intros f p H. apply (subseq_in _ _ _ (keep_subseq _ _ _)) in H. rewrite frame_eq in H by auto. apply in_map_iff in H as (i & <- & _). reflexivity. }
  assert (G : forall l, NoDup l -> filter (fun p => k_frame p =? k) (flat_map (fun f => keep (drop f) 0 (frame_packets plen bytes (Z.of_nat f))) l) =
    if (0 <=? k) && (if in_dec Nat.eq_dec (Z.to_nat k) l then true else false) then keep (drop (Z.to_nat k)) 0 (frame_packets plen bytes k) else []).
  { induction l as [|f l IH]; intros ND; [cbn; rewrite andb_false_r; reflexivity|]. inversion ND as [|? ? NI ND']; subst. cbn [flat_map]. rewrite filter_app, IH by exact ND'.
    set (K := keep (drop f) 0 (frame_packets plen bytes (Z.of_nat f))) in *. specialize (KF f). fold K in KF. destruct (Z.eq_dec (Z.of_nat f) k) as [E|E].
    - assert (K1 : filter (fun p => k_frame p =? k) K = K). { clear -KF E. induction K as [|p K IH]; [reflexivity|]. cbn. rewrite (KF p) by (left; reflexivity). rewrite E, Z.eqb_refl. f_equal. apply IH. intros q Hq. apply KF. right. exact Hq. }
      rewrite K1. subst k. rewrite Nat2Z.id. destruct (in_dec _ f l) as [|_]; [contradiction|]. destruct (in_dec _ f (f :: l)) as [_|N]; [|exfalso; apply N; left; reflexivity].
      rewrite andb_false_r, app_nil_r. destruct (Z.leb_spec 0 (Z.of_nat f)); [|lia]. reflexivity.
    - assert (K1 : filter (fun p => k_frame p =? k) K = []). { clear -KF E. induction K as [|p K IH]; [reflexivity|]. cbn. rewrite (KF p) by (left; reflexivity). destruct (Z.eqb_spec (Z.of_nat f) k); [contradiction|]. apply IH. intros q Hq. apply KF. right. exact Hq. }
      rewrite K1. cbn [app]. destruct (Z.leb_spec 0 k); cbn [andb]; [|reflexivity]. destruct (in_dec _ (Z.to_nat k) l) as [X|X], (in_dec _ (Z.to_nat k) (f :: l)) as [Y|Y]; try reflexivity.
      + exfalso. apply Y. right. exact X.
      + exfalso. destruct Y as [Y|Y]; [lia|contradiction]. }
  rewrite G by apply seq_NoDup. destruct (Z.leb_spec 0 k); cbn [andb]; [|reflexivity]. destruct (in_dec _ _ _) as [I|I]; rewrite in_seq in I; destruct (Z.ltb_spec k n); try reflexivity; lia.
Qed.
Lemma filter_perm {A} (f : A -> bool) l l' : Permutation l l' -> Permutation (filter f l) (filter f l').
Proof.
  induction 1 as [|x l l' P IH|x y l|l l1 l2 P1 IH1 P2 IH2]; cbn; [constructor| | |etransitivity; eassumption].
  - destruct (f x); [constructor|]; exact IH.
  - destruct (f x), (f y); try reflexivity. apply perm_swap.
Qed.

(** The network and the simulator may lose packets and change their order; they do not duplicate or alter them. *)
Definition network (w h plen n : Z) (drop : nat -> nat -> bool) (lost : list pkt) (tr : trace) : Prop :=
  exists fs, create_frames w h plen n = Ret fs /\ Permutation (arrived tr ++ lost) (replay fs n drop).

Lemma network_facts w h plen n drop lost tr c : cfg_ok c -> in_i32 (w * h) = true -> 0 < plen < 2 * (w * h) -> psize c = plen -> ppf c = npackets (2 * (w * h)) plen -> n < 2 ^ 31 ->
  network w h plen n drop lost tr ->
  wf tr /\ in_frame c tr /\ (forall k, NoDup (map fst (sent k tr))) /\ (forall k i pl, In (i, pl) (sent k tr) -> slice pixel_byte (2 * (w * h)) (psize c) i pl) /\
  (lost = [] -> (forall f p, drop f p = false) -> forall k, 0 <= k < n -> Permutation (map fst (sent k tr)) (zseq (ppf c))).
Proof.
  intros CK I P PS PF NL (fs & CF & PM). assert (NB : npackets (2 * (w * h)) plen <= max_packets) by (unfold cfg_ok in CK; lia). unfold max_packets in NB.
  rewrite created in CF by (auto; lia). assert (EF : fs = map (the_frame plen (2 * (w * h))) (seq 0 (Z.to_nat n))) by congruence. subst fs. clear CF. set (bytes := 2 * (w * h)) in *. clearbody bytes. clear I w h. rewrite replay_eq in PM.
  assert (NN : 0 <= npackets bytes plen). { unfold npackets. apply Z.div_pos; lia. }
  assert (PK : forall p, In p (arrived tr) -> exists f i, (f < Z.to_nat n)%nat /\ (i < Z.to_nat (npackets bytes plen))%nat /\ p = the_pkt plen bytes (Z.of_nat f) (Z.of_nat i)).
  { intros p Hp. assert (X : In p (flat_map (fun f => keep (drop f) 0 (frame_packets plen bytes (Z.of_nat f))) (seq 0 (Z.to_nat n)))) by (apply (Permutation_in _ PM), in_or_app; left; exact Hp).
    apply in_flat_map in X as (f & F1 & F2). apply in_seq in F1. apply (subseq_in _ _ _ (keep_subseq _ _ _)) in F2. rewrite frame_eq in F2 by lia. apply in_map_iff in F2 as (i & <- & Hi). apply in_seq in Hi.
    exists f, i. repeat split; auto; lia. }
  assert (AR : forall fn fl p t r, In (Packet fn fl p t, r) tr -> In (Pkt fn fl p) (arrived tr)) by (intros fn fl p t r H; apply in_flat_map; eexists; split; [exact H|left; reflexivity]).
  split; [|split; [|split; [|split]]].
  - intros o r H. destruct o as [fn fl p t| | | |]; auto. destruct (PK _ (AR _ _ _ _ _ H)) as (f & i & Hf & Hi & E). injection E as -> -> _. destruct (flags_facts bytes plen (Z.of_nat i) ltac:(lia)) as (_ & F2 & _). lia.
  - intros o r H. destruct o as [fn fl p t| | | |]; auto. destruct (PK _ (AR _ _ _ _ _ H)) as (f & i & Hf & Hi & E). injection E as -> -> _. destruct (flags_facts bytes plen (Z.of_nat i) ltac:(lia)) as (F1 & _). rewrite F1. lia.
  - intros k. rewrite sent_arrived, map_map. cbn [fst]. pose proof (filter_perm (fun p => k_frame p =? k) _ _ PM) as PM'. rewrite filter_app, filter_replay in PM' by lia.
    assert (ND : NoDup (map (fun p => k_flags p mod 2 ^ 30) (filter (fun p => k_frame p =? k) (arrived tr) ++ filter (fun p => k_frame p =? k) lost))).
    { apply (Permutation_NoDup (Permutation_map (fun p => k_flags p mod 2 ^ 30) (Permutation_sym PM'))). destruct (_ && _); [|constructor].
      eapply subseq_nodup; [apply subseq_map, keep_subseq|]. rewrite frame_eq by lia. rewrite map_map.
      replace (map _ (seq 0 _)) with (zseq (npackets bytes plen)); [apply zseq_nodup|]. unfold zseq. apply map_ext_in. intros i Hi. apply in_seq in Hi. cbn [the_pkt k_flags].
      destruct (flags_facts bytes plen (Z.of_nat i) ltac:(lia)) as (F1 & _). symmetry. exact F1. }
    rewrite map_app in ND. eapply subseq_nodup; [|exact ND]. rewrite <- app_nil_r at 1. apply subseq_app; [apply subseq_refl|apply subseq_nil].
  - intros k i pl H. rewrite sent_arrived in H. apply in_map_iff in H as (p & E & H). apply filter_In in H as (H & _). destruct (PK _ H) as (f & j & Hf & Hj & ->). apply pair_equal_spec in E as (<- & <-).
    destruct (flags_facts bytes plen (Z.of_nat j) ltac:(lia)) as (F1 & _). cbn [the_pkt k_flags]. rewrite F1, PS. apply the_slice; [lia|]. apply npackets_lt; lia.
  - intros -> ND k Hk. rewrite app_nil_r in PM. rewrite sent_arrived, map_map. cbn [fst]. pose proof (filter_perm (fun p => k_frame p =? k) _ _ PM) as PM'. rewrite filter_replay in PM' by lia.
    rewrite PM'. replace ((0 <=? k) && (k <? n)) with true by (symmetry; apply andb_true_iff; lia). rewrite keep_all by (intros p; apply ND). rewrite frame_eq by lia. rewrite map_map, PF.
    unfold zseq. erewrite map_ext_in; [reflexivity|]. intros i Hi. apply in_seq in Hi. cbn [the_pkt k_flags]. destruct (flags_facts bytes plen (Z.of_nat i) ltac:(lia)) as (F1 & _). exact F1.
Qed.

(** Every image pushed by the process plugin is the simulated image with the regions of some packets zeroed, among them those
    that did not arrive.
    Missing: see c28_loop_partial. *)
Theorem c30_simulated_partial : forall c mem ops s w h plen n drop lost k out, cfg_ok c -> in_i32 (w * h) = true -> 0 < plen < 2 * (w * h) ->
  psize c = plen -> ppf c = npackets (2 * (w * h)) plen -> n < 2 ^ 31 ->
  yrun c mem ops s -> network w h plen n drop lost (y_trace s) -> (starts ops <= 1)%nat -> no_late (y_trace s) -> writes ops = 0%nat ->
  In (k, out) (y_out s) -> Z.of_nat (length out) = 2 * (w * h) ->
  exists got, subseq got (map fst (sent k (y_trace s))) /\ out = picture pixel_byte (2 * (w * h)) plen got.
Proof.
  intros c mem ops s w h plen n drop lost k out CK I P PS PF NL R NW K LA WR IO LO.
  destruct (network_facts w h plen n drop lost (y_trace s) c CK I P PS PF NL NW) as (W & IF & ND & SL & _). rewrite <- PS, <- LO.
  apply (c30_image_partial c mem ops s k out pixel_byte (2 * (w * h))); auto; try lia. exact (SL k).
Qed.

(** No frame dropped, the frame handed over once and not being received any more: exactly the regions of the packets that did
    not arrive are zeroed; if all arrived it is the simulated image. *)
Theorem c30_end_to_end_partial : forall c mem ops s w h plen n drop lost k out, cfg_ok c -> in_i32 (w * h) = true -> 0 < plen < 2 * (w * h) ->
  psize c = plen -> ppf c = npackets (2 * (w * h)) plen -> n < 2 ^ 31 ->
  yrun c mem ops s -> network w h plen n drop lost (y_trace s) -> (starts ops <= 1)%nat -> no_late (y_trace s) -> writes ops = 0%nat ->
  no_reset (y_trace s) -> Z.of_nat (length (y_trace s)) < 2 ^ 32 -> f_dropped (y_dec s) = 0 ->
  In (k, out) (y_out s) -> Z.of_nat (length out) = 2 * (w * h) -> length (handed k (y_trace s)) = 1%nat -> zm_get (d_map (y_dec s)) (i32 k) = None ->
  out = picture pixel_byte (2 * (w * h)) plen (map fst (sent k (y_trace s))) /\
  (lost = [] -> (forall f p, drop f p = false) -> 0 <= k < n -> out = map (fun m => pixel_byte (Z.of_nat m)) (seq 0 (length out))).
Proof.
  intros c mem ops s w h plen n drop lost k out CK I P PS PF NL R NW K LA WR NR LEN FD IO LO HL NG.
  destruct (network_facts w h plen n drop lost (y_trace s) c CK I P PS PF NL NW) as (W & IF & ND & SL & FU).
  assert (NP : 0 < ppf c) by (rewrite PF; apply npackets_lt; lia). split.
  - rewrite <- PS, <- LO. apply (c30_exactly_lost_partial c mem ops s k out pixel_byte (2 * (w * h))); auto; try lia. exact (SL k).
  - intros NOLOST NODROP Hk. apply (c30_complete_partial c mem ops s k out pixel_byte (2 * (w * h))); auto; try lia. exact (SL k).
Qed.

(** The hypotheses are met: a 3x1 image in two packets of 4 bytes, two frames; packet 1 of frame 0 lost, frame 1 out of order. *)
Definition c2 : cfg := Cfg 2 4 1 2.
Definition demo : list yop :=
  [YStart; YMsg; YConfig; YPacket 1 (1 + 2 ^ 30) [2; 0] 0; YPacket 0 (2 ^ 31) [0; 0; 1; 0] 0; YPacket 1 (2 ^ 31) [0; 0; 1; 0] 0; YMonitor 3000000; YReceive 1; YReceive 1; YProcess 0 3 1; YProcess 1 3 1].
Example c30_end_to_end_case : let s := yafter c2 demo in yrun c2 (fun _ => blank) demo s /\ cfg_ok c2 /\ ppf c2 = npackets (2 * (3 * 1)) 4 /\
  network 3 1 4 2 (fun _ _ => false) [Pkt 0 (1 + 2 ^ 30) [2; 0]] (y_trace s) /\ no_late (y_trace s) /\ f_dropped (y_dec s) = 0 /\ d_map (y_dec s) = [] /\
  y_out s = [(1, [0; 0; 1; 0; 2; 0]); (0, [0; 0; 1; 0; 0; 0])].
Proof.
  split; [apply yafter_run; vm_compute; exact I|]. split; [cbv; intuition discriminate|]. split; [reflexivity|]. split.
  - eexists. split; [vm_compute; reflexivity|]. assert (E : arrived (y_trace (yafter c2 demo)) = [Pkt 1 (1 + 2 ^ 30) [2; 0]; Pkt 0 (2 ^ 31) [0; 0; 1; 0]; Pkt 1 (2 ^ 31) [0; 0; 1; 0]]) by (vm_compute; reflexivity).
    rewrite E. vm_compute. set (a := Pkt 1 _ [2; 0]). set (b := Pkt 0 _ [0; 0; 1; 0]). set (d := Pkt 1 _ [0; 0; 1; 0]). set (e := Pkt 0 _ [2; 0]).
    transitivity [b; a; d; e]; [apply perm_swap|apply perm_skip]. transitivity [e; a; d]; [|apply perm_skip, perm_swap].
    change [a; d; e] with ([a; d] ++ [e]). change [e; a; d] with ([e] ++ [a; d]). apply Permutation_app_comm.
  - split; [apply (late_check_ok _ None []); vm_compute; reflexivity|]. repeat split; vm_compute; reflexivity.
Qed.

Print Assumptions c30_simulator.
Print Assumptions c30_single_packet_refuted.
Print Assumptions c30_simulated_partial.
Print Assumptions c30_end_to_end_partial.
