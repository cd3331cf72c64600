(** C65: what the simulator replays, and to which ports. *)
From Coq Require Import String Ascii.
From Verif Require Import Base StrOrder FrameModel JsonModel JsonSpec JsonProofs GapSpec LiveModel LiveSpec ListText PortModel PortSpec PortProps SimModel SimProps ReplayModel ReplaySpec ReplayProofs.
Local Open Scope string_scope.
Local Open Scope list_scope.
Local Open Scope Z_scope.

Lemma no_source f : source [] f = [].
Proof. unfold source. cbn [List.length]. destruct (Nat.modulo f 0); reflexivity. Qed.
Lemma stream_eq port o fs : stream port o fs = flat_map (fun f => map (pair (port f)) (kept_of o fs f)) (seq 0 (asked o fs)).
Proof. unfold stream. rewrite !flat_map_concat_map. f_equal. apply map_ext. intros f. rewrite to_send_eq. reflexivity. Qed.
Lemma flat_total {A} (g : nat -> list A) l : List.length (flat_map g l) = fold_right (fun i a => (List.length (g i) + a)%nat) O l.
Proof. induction l as [|x l IH]; [reflexivity|]. cbn. rewrite app_length, IH. reflexivity. Qed.
Lemma left_out_eq o fs f : (left_out (fun p => unlucky o f p || listed o p) (source fs f) + List.length (kept_of o fs f) = List.length (source fs f))%nat.
Proof.
  unfold left_out, kept_of. pose proof (keep_count (dropped o f) (source fs f) 0) as K. replace (filter (fun p => unlucky o f p || listed o p) _) with (filter (dropped o f) (seq 0 (List.length (source fs f)))); [lia|].
  apply filter_ext. intros p. apply dropped_eq.
Qed.
Lemma left_total o fs l : (fold_right (fun f a => (left_out (fun p => unlucky o f p || listed o p) (source fs f) + a)%nat) O l + List.length (flat_map (kept_of o fs) l) = List.length (flat_map (source fs) l))%nat.
Proof. induction l as [|f l IH]; [reflexivity|]. cbn. rewrite !app_length. pose proof (left_out_eq o fs f). lia. Qed.

(** ** What is sent *)
(** When replaying is over, each frame of the circle that was asked for has been sent, in order, without its packets left out, as a whole to
    one of the ports; the counters in the log are the numbers of packets sent and left out and the bytes sendto reported. *)
Theorem c65_sent : forall o result fs t s, replay_frames o result fs = Ret (t, s) ->
  (exists port, (forall f, (f < asked o fs)%nat -> to_send o fs f <> [] -> In (port f) (o_ports o)) /\ s_sent s = stream port o fs) /\
  t_sent t = Z.of_nat (List.length (s_sent s)) /\
  t_dropped t = Z.of_nat (total (fun f => left_out (fun p => unlucky o f p || listed o p) (source fs f)) (asked o fs)) /\
  t_bytes t = bytes result (List.length (s_sent s)).
Proof.
  intros o result fs t s H. unfold replay_frames in H. destruct fs as [|u0 fs0].
  - injection H as <- <-. assert (N : forall f, to_send o [] f = []) by (intros f; unfold to_send; rewrite no_source; reflexivity). split.
    + exists (fun _ => 0). split; [intros f _ X; rewrite N in X; congruence|]. unfold stream. cbn [s_sent sender_init]. induction (seq 0 (asked o [])) as [|f l IH]; [reflexivity|]. cbn. rewrite N. exact IH.
    + cbn. repeat split. unfold total. induction (seq 0 (asked o [])) as [|f l IH]; [reflexivity|]. cbn. rewrite no_source. exact IH.
  - set (fs := u0 :: fs0) in *. fold (asked o fs) in H. destruct (send_frames_ret _ _ _ _ (seq_NoDup _ _) _ _ _ _ H) as (ET & port & PI & PS). cbn [sender_init s_sent app] in ET, PS.
    assert (LS : List.length (s_sent s) = List.length (flat_map (kept_of o fs) (seq 0 (asked o fs)))).
    { rewrite PS. rewrite !flat_total. clear. induction (seq 0 (asked o fs)) as [|f l IH]; [reflexivity|]. cbn. rewrite map_length, IH. reflexivity. }
    split; [|split; [|split]].
    + exists port. split; [intros f Hf NE; apply PI; [apply in_seq; lia|rewrite <- to_send_eq; exact NE]|]. rewrite PS, stream_eq. reflexivity.
    + rewrite ET. unfold sums. cbn. rewrite LS. reflexivity.
    + rewrite ET. unfold sums, total. cbn. pose proof (left_total o fs (seq 0 (asked o fs))). lia.
    + rewrite ET, LS. reflexivity.
Qed.

(** Two frames of two packets, replayed three times; packet 1 is dropped. *)
Definition pk (f n : Z) : pkt := Pkt f n [f; n].
Definition two : list uframe := [UFrame 0 [pk 0 0; pk 0 1] [0] [0]; UFrame 1 [pk 1 0; pk 1 1] [1] [1]].
Definition three : opts := setup (Some "9000,9001") (Some 3) None (Some "1") None.
Example c65_sent_case : exists t s, replay_frames three (fun _ => 10) two = Ret (t, s) /\
  s_sent s = [(9000, pk 0 0); (9001, pk 1 0); (9000, pk 0 0)] /\ t = Tally 3 3 30.
Proof. eexists _, _. split; [vm_compute; reflexivity|]. split; reflexivity. Qed.

(** ** Ports in turn *)
(** At least two frames are stored and no frame loses all its packets: the frames go to the ports in turn. *)
Theorem c65_ports_partial : forall o result fs t s, replay_frames o result fs = Ret (t, s) ->
  (2 <= List.length fs)%nat -> (forall f, (f < asked o fs)%nat -> to_send o fs f <> []) ->
  s_sent s = stream (fun f => nth (Nat.modulo f (List.length (o_ports o))) (o_ports o) 0) o fs.
Proof.
  intros o result fs t s H L NE. unfold replay_frames in H. destruct fs as [|u0 fs0]; [cbn in L; lia|]. set (fs := u0 :: fs0) in *. fold (asked o fs) in H. rewrite stream_eq.
  destruct (Nat.eq_dec (asked o fs) 0) as [A0|A0]; [rewrite A0 in *; cbn in H; injection H as <- <-; reflexivity|].
  assert (HP : (0 < List.length (o_ports o))%nat).
  { destruct (send_frames_ret _ _ _ _ (seq_NoDup _ _) _ _ _ _ H) as (_ & port & PI & _). specialize (PI 0%nat ltac:(apply in_seq; lia)). rewrite <- to_send_eq in PI. specialize (PI (NE 0%nat ltac:(lia))). destruct (o_ports o); [contradiction|cbn; lia]. }
  rewrite (send_frames_turn o result fs (asked o fs) L HP 0 zero_tally sender_init t s ltac:(intros f Hf; rewrite <- to_send_eq; apply NE; lia) (or_introl (conj eq_refl (conj eq_refl eq_refl))) H). reflexivity.
Qed.
Example c65_ports_case : (2 <= List.length two)%nat /\ (forall f, (f < asked three two)%nat -> to_send three two f <> []) /\ o_ports three = [9000; 9001].
Proof. split; [cbn; lia|]. split; [|reflexivity]. intros f H. change (asked three two) with 3%nat in H. destruct f as [|[|[|]]]; [| | |lia]; vm_compute; discriminate. Qed.

(** One frame stored, replayed three times: all to the first port. *)
Theorem c65_single_refuted : exists fs t s, let o := setup (Some "9000,9001") (Some 3) None None None in
  replay_frames o (fun _ => 10) fs = Ret (t, s) /\ (forall f, (f < asked o fs)%nat -> to_send o fs f <> []) /\
  s_sent s <> stream (fun f => nth (Nat.modulo f (List.length (o_ports o))) (o_ports o) 0) o fs /\ Forall (fun x => fst x = 9000) (s_sent s).
Proof.
  exists [UFrame 0 [pk 0 0] [0] [0]]. eexists _, _. cbn zeta. split; [vm_compute; reflexivity|]. split; [|split; [vm_compute; discriminate|repeat constructor]].
  intros f H. cbn in H. change (Pos.to_nat 3) with 3%nat in H. destruct f as [|[|[|]]]; [| | |lia]; vm_compute; discriminate.
Qed.
(** Packet 0 is dropped, which is all there is of the second of three frames: the third goes to the second port, not the third. *)
Theorem c65_dropped_frame_refuted : exists fs t s, let o := setup (Some "9000,9001,9002") (Some 3) None (Some "0") None in
  replay_frames o (fun _ => 10) fs = Ret (t, s) /\ (2 <= List.length fs)%nat /\
  s_sent s <> stream (fun f => nth (Nat.modulo f (List.length (o_ports o))) (o_ports o) 0) o fs /\ In (9001, pk 2 1) (s_sent s).
Proof.
  exists [UFrame 0 [pk 0 0; pk 0 1] [0] [0]; UFrame 1 [pk 1 0] [1] [1]; UFrame 2 [pk 2 0; pk 2 1] [2] [2]]. eexists _, _. cbn zeta. split; [vm_compute; reflexivity|]. split; [cbn; lia|]. split; [vm_compute; discriminate|right; left; reflexivity].
Qed.

(** ** Replaying comes to its end *)
(** There is a port and a frame, packet-gap is not 0, and the packets and the bytes sendto may report stay below 2^31. *)
Theorem c65_returns_partial : forall o result fs M, o_gap o <> Some 0 -> o_ports o <> [] -> (forall k, -1 <= result k <= M) ->
  Z.of_nat (total (fun f => List.length (source fs f)) (asked o fs)) * Z.max M 1 < 2 ^ 31 ->
  exists t s, replay_frames o result fs = Ret (t, s).
Proof.
  intros o result fs M G P RB B. unfold replay_frames. destruct fs as [|u0 fs0]; [eauto|]. set (fs := u0 :: fs0) in *. fold (asked o fs).
  assert (E : total (fun f => List.length (source fs f)) (asked o fs) = List.length (flat_map (source fs) (seq 0 (asked o fs)))) by (unfold total; rewrite flat_total; reflexivity).
  rewrite E in B. assert (HP : (0 < List.length (o_ports o))%nat) by (destruct (o_ports o); [congruence|cbn; lia]).
  apply (send_frames_returns o result fs (Z.max M 1) (seq 0 (asked o fs)) G ltac:(lia) ltac:(intros k; specialize (RB k); lia) HP ltac:(discriminate)); cbn [zero_tally sender_init t_sent t_dropped t_bytes s_index]; nia.
Qed.
Example c65_returns_case : o_gap three <> Some 0 /\ o_ports three <> [] /\ (forall k : nat, -1 <= (fun _ => 10) k <= 10) /\ Z.of_nat (total (fun f => List.length (source two f)) (asked three two)) * Z.max 10 1 < 2 ^ 31.
Proof. split; [discriminate|]. split; [discriminate|]. split; [intros; lia|vm_compute; reflexivity]. Qed.

(** packet-gap 0: the remainder of a division by zero, after the first packet. *)
Theorem c65_gap_refuted : forall o result u fs p l, o_gap o = Some 0 -> (0 < asked o (u :: fs))%nat -> u_pkts u = p :: l -> dropped o 0 0 = false -> replay_frames o result (u :: fs) = Undef.
Proof.
  intros o result u fs p l G A U D. unfold replay_frames. fold (asked o (u :: fs)). destruct (asked o (u :: fs)) as [|n]; [lia|]. cbn [seq send_frames]. rewrite Nat.mod_0_l by (cbn; lia). cbn [nth_error].
  rewrite U. cbn [send_frame]. rewrite D, G. destruct (send_packet _ _ _ _) as [s'|e|] eqn:SP; [|unfold send_packet in SP; destruct (nth_error _ _); discriminate|reflexivity].
  destruct (add_tally _ _) eqn:T; [reflexivity|exfalso; exact (add_tally_nothrow _ _ _ T)|reflexivity].
Qed.
Example c65_gap_case : o_gap (setup None None None None (Some 0)) = Some 0 /\ (0 < asked (setup None None None None (Some 0%Z)) two)%nat /\ dropped (setup None None None None (Some 0)) 0 0 = false.
Proof. split; [reflexivity|]. split; [cbn; lia|reflexivity]. Qed.

Lemma map_nth_seq {A} (d : A) l : forall k, map (fun i => nth (i - k) l d) (seq k (List.length l)) = l.
Proof.
  induction l as [|x l IH]; intros k; [reflexivity|]. cbn [List.length seq map]. rewrite Nat.sub_diag. cbn [nth]. f_equal. rewrite <- (IH (S k)) at 2. apply map_ext_in. intros i Hi. apply in_seq in Hi. replace (i - k)%nat with (S (i - S k)) by lia. reflexivity.
Qed.
Lemma once_around (fs : list uframe) : flat_map (source fs) (seq 0 (List.length fs)) = flat_map u_pkts fs.
Proof.
  rewrite !flat_map_concat_map. f_equal. rewrite <- (map_nth_seq (UFrame 0 [] [] []) fs 0) at 3. rewrite map_map. apply map_ext_in. intros f Hf. apply in_seq in Hf. unfold source. rewrite Nat.mod_small, Nat.sub_0_r by lia. reflexivity.
Qed.
Lemma keep_all {A} d (l : list A) : (forall p, d p = false) -> forall p, keep d p l = l.
Proof. intros H. induction l as [|x l IH]; intros p; cbn; [reflexivity|]. rewrite H, IH. reflexivity. Qed.
Lemma bytes_sum {A} (g : A -> Z) d (l : list A) result : (forall k, result k = g (nth k l d)) -> bytes result (List.length l) = fold_right (fun x a => g x + a) 0 l.
Proof.
  intros H. rewrite <- (map_nth_seq d l 0) at 2. unfold bytes. generalize (seq 0 (List.length l)). intros q. induction q as [|i q IH]; [reflexivity|]. cbn [fold_right map]. rewrite IH, H, Nat.sub_0_r. reflexivity.
Qed.
Lemma sum_app {A} (g : A -> Z) l l' : fold_right (fun x a => g x + a) 0 (l ++ l') = fold_right (fun x a => g x + a) 0 l + fold_right (fun x a => g x + a) 0 l'.
Proof. induction l as [|x l IH]; [reflexivity|]. cbn [fold_right app]. rewrite IH. lia. Qed.

Lemma frame_bytes plen bts f : 0 < plen -> npackets bts plen < 2 ^ 32 - 1 ->
  fold_right (fun p a => 8 + Z.of_nat (List.length (k_data p)) + a) 0 (frame_packets plen bts f) =
  fold_right (fun i a => 8 + Z.min plen (bts - plen * Z.of_nat i) + a) 0 (seq 0 (Z.to_nat (npackets bts plen))).
Proof.
  intros P NB. rewrite frame_eq by assumption. assert (B : forall i, In i (seq 0 (Z.to_nat (npackets bts plen))) -> plen * Z.of_nat i < bts) by (intros i Hi; apply in_seq in Hi; apply npackets_lt; [exact P|lia]).
  revert B. generalize (seq 0 (Z.to_nat (npackets bts plen))). intros r B. induction r as [|i r IR]; [reflexivity|].
  cbn [map fold_right]. rewrite IR by (intros j Hj; apply B; right; exact Hj). do 2 f_equal. cbn [the_pkt k_data]. rewrite map_length, seq_length. pose proof (B i (or_introl eq_refl)). lia.
Qed.

(** The default options: 1000 frames of 1400 by 1024 pixels in packets of 8000 bytes behind a header of 8, all of them sent completely: 2870072000
    bytes.  This does not fit the counter. *)
Theorem c65_bytes_refuted : forall result fs, create_frames 1400 1024 8000 1000 = Ret fs ->
  (forall k, result k = 8 + Z.of_nat (List.length (k_data (nth k (flat_map u_pkts fs) (Pkt 0 0 []))))) ->
  replay_frames (setup None None None None None) result fs = Undef.
Proof.
  intros result fs C RK. rewrite created in C by (try reflexivity; try lia; vm_compute; discriminate). set (plen := 8000) in *. set (bts := 2 * (1400 * 1024)) in *.
  assert (LF : List.length fs = Z.to_nat 1000) by (assert (E : fs = map (the_frame plen bts) (seq 0 (Z.to_nat 1000))) by congruence; rewrite E, map_length, seq_length; reflexivity).
  assert (ND : fs <> []) by (intros ->; cbn in LF; lia). set (o := setup None None None None None).
  destruct (replay_frames o result fs) as [[t s]|e|] eqn:R; [exfalso|exfalso|reflexivity].
  - destruct (c65_sent _ _ _ _ _ R) as ((port & _ & PS) & _ & _ & TB).
    assert (L : List.length (s_sent s) = List.length (flat_map u_pkts fs)).
    { rewrite PS, stream_eq, <- once_around, LF. change (asked o fs) with (Z.to_nat 1000). generalize (seq 0 (Z.to_nat 1000)). intros q. rewrite !flat_total. induction q as [|f q IH]; [reflexivity|]. cbn [fold_right].
      rewrite IH, map_length. unfold kept_of. rewrite keep_all by reflexivity. reflexivity. }
    rewrite L, (bytes_sum (fun p => 8 + Z.of_nat (List.length (k_data p))) (Pkt 0 0 [])) in TB by exact RK.
    assert (S : forall q, fold_right (fun p a => 8 + Z.of_nat (List.length (k_data p)) + a) 0 (flat_map u_pkts (map (the_frame plen bts) q)) = 2870072 * Z.of_nat (List.length q)).
    { induction q as [|f q IH]; [reflexivity|]. cbn [map flat_map]. rewrite (sum_app (fun p => 8 + Z.of_nat (List.length (k_data p)))), IH. cbn [the_frame u_pkts List.length]. rewrite frame_bytes by (try reflexivity; vm_compute; reflexivity).
      replace (fold_right (fun i a => 8 + Z.min plen (bts - plen * Z.of_nat i) + a) 0 (seq 0 (Z.to_nat (npackets bts plen)))) with 2870072 by (vm_compute; reflexivity). lia. }
    assert (TB' : t_bytes t = 2870072 * Z.of_nat (Z.to_nat 1000)). { rewrite TB. assert (E : fs = map (the_frame plen bts) (seq 0 (Z.to_nat 1000))) by congruence. rewrite E, S, seq_length. reflexivity. }
    assert (RT : range_tally t) by (unfold replay_frames in R; destruct fs as [|u0 fs0]; [congruence|]; eapply send_frames_range; [|exact R]; unfold range_tally; cbn; auto).
    destruct RT as (_ & _ & X). rewrite TB' in X. unfold in_i32 in X. lia.
  - unfold replay_frames in R. destruct fs as [|u0 fs0]; [congruence|]. exact (send_frames_nothrow _ _ _ _ _ _ _ R).
Qed.
Example c65_bytes_case : exists fs, create_frames 1400 1024 8000 1000 = Ret fs.
Proof. eexists. apply created; [reflexivity|lia|vm_compute; discriminate]. Qed.

(** ** All frames *)
(** --frames -1 is said to send all frames.  It sends none. *)
Theorem c65_all_refuted : forall ports frac drops gap result fs, replay_frames (setup ports (Some (-1)) frac drops gap) result fs = Ret (zero_tally, sender_init).
Proof. intros. unfold replay_frames. destruct fs; reflexivity. Qed.
Example c65_all_case : List.length two = 2%nat /\ replay_frames (setup None (Some (-1)) None None None) (fun _ => 0) two = Ret (zero_tally, sender_init).
Proof. split; reflexivity. Qed.

(** ** The texts of the options *)
(** Numbers written in decimal with commas between them: the packets with these numbers are left out, no others. *)
Theorem c65_listed : forall ports frames frac gap ns p, ns <> [] -> Forall (fun n => 0 <= n) ns ->
  listed (setup ports frames frac (Some (joined "," (map decimal ns))) gap) p = true <-> In (Z.of_nat p) ns.
Proof.
  intros ports frames frac gap ns p NE F. rewrite Forall_forall in F. unfold listed. cbn [setup o_list option_map].
  rewrite list_option_eq.
  - destruct (in_dec string_dec _ _) as [I|N].
    + split; [intros _|reflexivity]. apply in_map_iff in I as (n & E & I). apply decimal_inj in E; [subst n; exact I|apply F, I|lia].
    + split; [discriminate|]. intros I. exfalso. apply N. apply in_map, I.
  - destruct ns; [congruence|discriminate].
  - apply Forall_forall. intros x Hx. apply in_map_iff in Hx as (n & <- & Hn). apply decimal_plain, F, Hn.
  - apply Forall_forall. intros x Hx. apply in_map_iff in Hx as (n & <- & Hn). apply decimal_plain, F, Hn.
Qed.
Example c65_listed_case : joined "," (map decimal [0; 12]) = "0,12" /\ [0; 12] <> [] /\ Forall (fun n => 0 <= n) [0; 12].
Proof. split; [reflexivity|]. split; [discriminate|]. repeat constructor; lia. Qed.
(** Without the option nothing is listed; without a drop fraction nothing is left out by chance. *)
Theorem c65_nothing_dropped : forall ports frames frac gap p, listed (setup ports frames frac None gap) p = false /\ forall f drops, unlucky (setup ports frames None drops gap) f p = false.
Proof. intros. split; reflexivity. Qed.
(** Other ways of writing a number do not count. *)
Theorem c65_text_refuted : exists o, o = setup None None None (Some "07, 8") None /\ forall p, listed o p = false.
Proof.
  eexists. split; [reflexivity|]. intros p. unfold listed. cbn [setup o_list option_map]. destruct (in_dec _ _ _) as [I|]; [|reflexivity]. exfalso.
  assert (D : forall z, 0 <= z -> decimal z <> "07" /\ decimal z <> " 8").
  { intros z Hz. destruct (Z.eq_dec z 0) as [->|NZ]; [split; discriminate|]. destruct (number_row _ _ (decimal_number z ltac:(lia))) as (A & _ & c & r & E & V). split; intros X; rewrite X in *.
    - cbn in E. injection E as <- <-. unfold value_of in V. cbn in V. lia.
    - cbn in A. inversion A as [|? ? (d & D0 & DE) _]; subst. change (Z.of_nat (nat_of_ascii " ")) with 32 in DE. lia. }
  destruct (D (Z.of_nat p) ltac:(lia)) as (D1 & D2). change (set_list_option "07, 8") with ["07"; " 8"] in I. destruct I as [I|[I|[]]]; congruence.
Qed.

(** Port numbers written in decimal with commas between them. *)
Theorem c65_port_list : forall ports ps frames frac drops gap, ps <> [] -> Forall (fun p => 0 < p < 2 ^ 16) ps -> ports = joined "," (map decimal ps) ->
  o_ports (setup (Some ports) frames frac drops gap) = ps.
Proof.
  intros ports ps frames frac drops gap NE F ->. cbn [setup o_ports]. unfold dest_ports. rewrite Forall_forall in F. rewrite list_option_eq.
  - rewrite map_map. rewrite <- (map_id ps) at 2. apply map_ext_in. intros p Hp. specialize (F p Hp). rewrite (atoi_number _ p); [apply Z.mod_small; lia|apply decimal_number; lia|lia].
  - destruct ps; [congruence|discriminate].
  - apply Forall_forall. intros x Hx. apply in_map_iff in Hx as (n & <- & Hn). apply decimal_plain. specialize (F n Hn). lia.
  - apply Forall_forall. intros x Hx. apply in_map_iff in Hx as (n & <- & Hn). apply decimal_plain. specialize (F n Hn). lia.
Qed.
Example c65_port_list_case : joined "," (map decimal [8000; 65535]) = "8000,65535" /\ Forall (fun p => 0 < p < 2 ^ 16) [8000; 65535].
Proof. split; [reflexivity|repeat constructor; lia]. Qed.
(** Defaults: 1000 frames to port 9999. *)
Theorem c65_defaults : forall frac drops gap fs, asked (setup None None frac drops gap) fs = 1000%nat /\ o_ports (setup None None frac drops gap) = [9999].
Proof. intros. split; reflexivity. Qed.
(** What is not a port number is taken for one. *)
Theorem c65_no_port_refuted : o_ports (setup (Some "9000:9001") None None None None) = [9000] /\ o_ports (setup (Some "udp") None None None None) = [0] /\ o_ports (setup (Some "75536") None None None None) = [10000].
Proof. repeat split; vm_compute; reflexivity. Qed.

(** ** Captured packets *)
(** A capture of the packets [ps], in Ethernet frames with IP headers of any length, none cut short: the frames stored are those of the packets. *)
Theorem c65_capture_partial : forall l ps, Forall2 captures l ps -> Forall (fun p => 0 <= k_frame p < 2 ^ 32 /\ 0 <= k_flags p < 2 ^ 32) ps -> read_capture l [] = extract_all ps [].
Proof. intros l ps F W. apply read_capture_eq; assumption. Qed.
(** A capture of a simulated run is stored as the frames of the run. *)
Theorem c65_recorded_partial : forall w h plen n l fs, in_i32 (w * h) = true -> 0 < plen < 2 * (w * h) -> npackets (2 * (w * h)) plen <= 2 ^ 30 -> 0 <= n < 2 ^ 32 ->
  create_frames w h plen n = Ret fs -> Forall2 captures l (flat_map u_pkts fs) -> read_capture l [] = Ret fs.
Proof.
  intros w h plen n l fs I P NB N C F. pose proof C as C'. rewrite created in C by assumption. set (bts := 2 * (w * h)) in *. assert (E : fs = map (the_frame plen bts) (seq 0 (Z.to_nat n))) by congruence.
  assert (E2 : flat_map u_pkts fs = flat_map (fun f => frame_packets plen bts (Z.of_nat f)) (seq 0 (Z.to_nat n))) by (rewrite E, !flat_map_concat_map, map_map; reflexivity).
  rewrite E2 in F. rewrite (read_capture_eq _ _ F).
  - rewrite extract_frames by (auto; lia). rewrite E. reflexivity.
  - apply Forall_forall. intros p Hp. apply in_flat_map in Hp as (f & Hf & Hp). apply in_seq in Hf. rewrite frame_eq in Hp by lia. apply in_map_iff in Hp as (i & <- & Hi). apply in_seq in Hi. cbn [the_pkt k_frame k_flags].
    split; [lia|]. exact (proj1 (proj2 (flags_facts bts plen (Z.of_nat i) ltac:(lia)))).
Qed.
(** An IP header of 20 bytes; what follows the datagram is not read. *)
Definition wire (p : pkt) : list Z * Z := let f := repeat 0 14 ++ (5 + 16 * 4) :: repeat 0 19 ++ repeat 0 8 ++ datagram p in (f ++ [1; 2], Z.of_nat (List.length f)).
Lemma wire_captures p : captures (wire p) p.
Proof. exists (repeat 0 14), (5 + 16 * 4), (repeat 0 19), (repeat 0 8), [1; 2]. repeat split. Qed.
Example c65_recorded_case : exists fs l, create_frames 3 1 4 2 = Ret fs /\ List.length fs = 2%nat /\ Forall2 captures l (flat_map u_pkts fs) /\ read_capture l [] = Ret fs.
Proof.
  eexists _, _. split; [vm_compute; reflexivity|]. split; [reflexivity|]. split; [cbn [flat_map u_pkts app]; repeat (constructor; [apply wire_captures|]); constructor|vm_compute; reflexivity].
Qed.
(** A capture that keeps only the beginning of each packet: reading beyond its end. *)
Theorem c65_snap_refuted : forall p n l fs, (n < List.length (fst (wire p)) - 2)%nat -> read_capture ((firstn n (fst (wire p)), snd (wire p)) :: l) fs = Undef.
Proof.
  intros p n l fs H. cbn [read_capture]. unfold capture_packet. destruct (nth_error _ 14); [|reflexivity]. cbn [wire fst snd] in *. rewrite firstn_length. cbn [fst] in H. rewrite app_length in *. cbn [List.length] in *.
  set (m := List.length (repeat 0 14 ++ _)) in *. replace (Z.of_nat (Nat.min n (m + 2)) <? Z.of_nat m) with true by (symmetry; apply Z.ltb_lt; lia). reflexivity.
Qed.
Example c65_snap_case : (60 < List.length (fst (wire (Pkt 0 0 (repeat 0%Z 100)))) - 2)%nat.
Proof. cbn. lia. Qed.

Print Assumptions c65_sent.
Print Assumptions c65_ports_partial.
Print Assumptions c65_single_refuted.
Print Assumptions c65_dropped_frame_refuted.
Print Assumptions c65_returns_partial.
Print Assumptions c65_gap_refuted.
Print Assumptions c65_bytes_refuted.
Print Assumptions c65_all_refuted.
Print Assumptions c65_listed.
Print Assumptions c65_nothing_dropped.
Print Assumptions c65_text_refuted.
Print Assumptions c65_port_list.
Print Assumptions c65_defaults.
Print Assumptions c65_no_port_refuted.
Print Assumptions c65_capture_partial.
Print Assumptions c65_recorded_partial.
Print Assumptions c65_snap_refuted.

(** Several commas count as one. *)
Lemma joined_cons a l : l <> [] -> joined "," (a :: l) = append a (append "," (joined "," l)).
Proof. destruct l; [congruence|reflexivity]. Qed.
Lemma app_string_assoc a b c : append (append a b) c = append a (append b c). Proof. induction a; cbn; congruence. Qed.
Lemma spread_joined l z : spread l z = joined "," (flat_map (fun p => fst p :: repeat ""%string (snd p)) l ++ [z]).
Proof.
  induction l as [|(s, n) l IH]; [reflexivity|]. cbn [spread flat_map fst snd]. rewrite IH. set (r := flat_map _ l ++ [z]) in *. assert (NR : r <> []) by (unfold r; destruct (flat_map _ l); discriminate).
  rewrite <- app_assoc. fold r. cbn [app]. rewrite joined_cons by (destruct n; [exact NR|discriminate]). f_equal.
  change (String.concat "" (repeat "," (S n))) with (String.concat "" ("," :: repeat "," n)).
  assert (C : forall m, String.concat "" ("," :: repeat "," m) = append "," (String.concat "" (repeat "," m))) by (intros [|m]; reflexivity). rewrite C, app_string_assoc. f_equal.
  induction n as [|n IHn]; [reflexivity|]. cbn [repeat app]. rewrite joined_cons by (destruct n; [exact NR|discriminate]). cbn [append]. change (repeat "," (S n)) with ("," :: repeat "," n). rewrite C. cbn [append]. f_equal. exact IHn.
Qed.
Theorem c65_commas : forall ports frames frac gap drops l z, Forall (fun p => fst p <> ""%string /\ no_comma (fst p)) l -> z <> ""%string -> no_comma z ->
  o_ports (setup (Some (spread l z)) frames frac drops gap) = o_ports (setup (Some (joined "," (map fst l ++ [z]))) frames frac drops gap) /\
  forall p, listed (setup ports frames frac (Some (spread l z)) gap) p = listed (setup ports frames frac (Some (joined "," (map fst l ++ [z]))) gap) p.
Proof.
  intros ports frames frac gap drops l z F NZ CZ.
  assert (E : set_list_option (spread l z) = set_list_option (joined "," (map fst l ++ [z]))).
  { rewrite spread_joined. destruct l as [|(a, n) l]; [reflexivity|]. inversion F as [|? ? (NA & CA) F']; subst. cbn [flat_map map fst snd app] in *.
    assert (FL : filter (fun s => negb (is_empty s)) (repeat ""%string n ++ flat_map (fun p => fst p :: repeat ""%string (snd p)) l) = map fst l).
    { assert (R0 : forall n, filter (fun s => negb (is_empty s)) (repeat ""%string n) = []) by (induction n0; cbn; auto). rewrite filter_app, R0. cbn [app]. clear F NA CA. induction F' as [|(b, m) l' (NB & CB) F' IH']; [reflexivity|]. cbn [flat_map map fst snd app filter]. cbn [fst] in NB. destruct b; [congruence|]. cbn [is_empty negb]. f_equal. rewrite filter_app, R0. exact IH'. }
    assert (F1 : Forall no_comma (repeat ""%string n ++ flat_map (fun p => fst p :: repeat ""%string (snd p)) l)).
    { assert (R0 : forall n, Forall no_comma (repeat ""%string n)) by (induction n0; constructor; [intros []|assumption]). apply Forall_app. split; [apply R0|]. clear FL F NA CA. induction F' as [|(b, m) l' (NB & CB) F' IH']; [constructor|]. cbn [flat_map fst snd app]. constructor; [exact CB|]. apply Forall_app. split; [apply R0|exact IH']. }
    rewrite (list_option_squeezed a _ z NA NZ), FL.
    - symmetry. apply list_option_eq; [discriminate|constructor; [exact CA|]; apply Forall_app; split; [|constructor; [exact CZ|constructor]]|constructor; [exact NA|]; apply Forall_app; split; [|constructor; [exact NZ|constructor]]]; (apply Forall_map; eapply Forall_impl; [|exact F']; cbn; tauto).
    - constructor; [exact CA|]. apply Forall_app. split; [exact F1|constructor; [exact CZ|constructor]]. }
  split; [cbn [setup o_ports]; unfold dest_ports; rewrite E; reflexivity|]. intros p. unfold listed. cbn [setup o_list option_map]. rewrite E. reflexivity.
Qed.
Example c65_commas_case : spread [("1", 0%nat); ("2", 2%nat)] "3" = "1,2,,,3" /\ Forall (fun p => fst p <> ""%string /\ no_comma (fst p)) [("1", 0%nat); ("2", 2%nat)].
Proof. split; [reflexivity|]. repeat constructor; try discriminate; unfold no_comma; cbn; intuition discriminate. Qed.
Print Assumptions c65_commas.
