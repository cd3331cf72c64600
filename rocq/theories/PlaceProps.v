(** Properties C01, C02, C03, C04, C06: where frames go. *)
From Verif Require Import Base PlaceModel PlaceSpec PlaceProofs.
Local Open Scope N_scope.

(** C01.  Of the P processes exactly one accepts a frame, the one whose rank is block number modulo P. *)
Theorem c01_exactly_one_writer : forall P F B off, 1 <= P -> 1 <= F ->
  exists r, r < P /\ rank_test (Geom P r F B) off = Ret true /\
    (forall r', r' < P -> r' <> r -> rank_test (Geom P r' F B) off = Ret false) /\
    r = block_of F off mod P.
Proof. exact exactly_one_writer. Qed.
Print Assumptions c01_exactly_one_writer.

Example c01_case : 1 <= 4 /\ 1 <= 10 /\ rank_test (Geom 4 2 10 3) 65 = Ret true
  /\ rank_test (Geom 4 1 10 3) 65 = Ret false.
Proof. repeat split; discriminate. Qed.

(** C02.  Process r puts frame [off] in slot s of file i exactly when i is one of its files, the slot exists and
    [off] is the frame that belongs there: the placement is a bijection. *)
Theorem c02_placement_bijection : forall P F B r off i s, 1 <= P -> 1 <= F -> 1 <= B -> r < P ->
  (rank_test (Geom P r F B) off = Ret true /\
   file_index (Geom P r F B) off = Ret i /\
   offset_in_file (Geom P r F B) off = Ret s)
  <-> (i mod P = r /\ s < B * F /\ off = frame_at P F B i s).
Proof. exact placement_iff. Qed.
Print Assumptions c02_placement_bijection.

(** C02, every frame has a place (no undefined behaviour). *)
Theorem c02_placement_total : forall P F B r off, 1 <= P -> 1 <= F -> 1 <= B ->
  exists i s, file_index (Geom P r F B) off = Ret i /\ offset_in_file (Geom P r F B) off = Ret s.
Proof. exact placement_total. Qed.
Print Assumptions c02_placement_total.

(** C02 for one file per process (blocks per file = 0). *)
Theorem c02_placement_bijection_single : forall P F r off s, 1 <= P -> 1 <= F -> r < P ->
  (rank_test (Geom P r F 0) off = Ret true /\ offset_in_file (Geom P r F 0) off = Ret s)
  <-> off = frame_at_single P F r s.
Proof. exact placement_single_iff. Qed.
Print Assumptions c02_placement_bijection_single.

Example c02_case : frame_at 4 10 3 6 25 = 225 /\ file_index (Geom 4 2 10 3) 225 = Ret 6
  /\ offset_in_file (Geom 4 2 10 3) 225 = Ret 25 /\ rank_test (Geom 4 2 10 3) 225 = Ret true.
Proof. vm_compute. auto. Qed.

(** C03.  Of two frames of one process, the later one goes to a later file, or to a later slot of the same file. *)
Theorem c03_order : forall P F B r a b ia ib sa sb, 1 <= P -> 1 <= F -> 1 <= B -> r < P ->
  let g := Geom P r F B in
  rank_test g a = Ret true -> rank_test g b = Ret true ->
  file_index g a = Ret ia -> file_index g b = Ret ib ->
  offset_in_file g a = Ret sa -> offset_in_file g b = Ret sb ->
  a < b -> ia < ib \/ (ia = ib /\ sa < sb).
Proof. exact place_order. Qed.
Print Assumptions c03_order.

Example c03_case : let g := Geom 2 1 2 2 in
  rank_test g 3 = Ret true /\ rank_test g 6 = Ret true /\ 3 < 6 /\ offset_in_file g 3 = Ret 1 /\ offset_in_file g 6 = Ret 2
  /\ file_index g 3 = Ret 1 /\ file_index g 6 = Ret 1.
Proof. vm_compute. auto 10. Qed.

(** C04.  The expected count of a process is the number of frames below T it accepts ... *)
Theorem c04_expected_count : forall P F B r T, 1 <= P -> 1 <= F -> r < P ->
  calc_num_frames (Geom P r F B) (N.of_nat T)
  = Ret (N.of_nat (count_below T (fun off => match rank_test (Geom P r F B) off with Ret b => b | _ => false end))).
Proof. exact calc_counts. Qed.
Print Assumptions c04_expected_count.

(** ... and the counts of all processes add up to T. *)
Theorem c04_counts_add_up : forall (P : nat) F B (T : nat), (1 <= P)%nat -> 1 <= F ->
  sum_below P (fun r => match calc_num_frames (Geom (N.of_nat P) (N.of_nat r) F B) (N.of_nat T) with
                        | Ret n => N.to_nat n | _ => 0%nat end) = T.
Proof. exact calc_sum. Qed.
Print Assumptions c04_counts_add_up.

Example c04_case : calc_num_frames (Geom 3 1 4 0) 29 = Ret 9 /\ calc_num_frames (Geom 3 2 4 0) 29 = Ret 8
  /\ calc_num_frames (Geom 3 0 4 0) 29 = Ret 12.
Proof. vm_compute. auto. Qed.

(** C06.  Below 2^31 the adjusted offset is the exact sum, refused exactly when negative. *)
Theorem c06_adjust_exact_partial : forall frame_no adj, frame_no < 2^31 -> (- 2^63 <= adj < 2^63 - 2^31)%Z ->
  adjust_frame_offset frame_no adj =
  if (Z.of_N frame_no + adj <? 0)%Z then Throw NegativeOffset
  else Ret (Z.to_N (Z.of_N frame_no + adj)).
Proof. exact adjust_exact. Qed.
Print Assumptions c06_adjust_exact_partial.

(** C06 (any frame number): a returned offset is the exact sum, so a negative sum is never returned. *)
Theorem c06_adjust_sound : forall frame_no adj off, 
  adjust_frame_offset frame_no adj = Ret off -> (Z.of_N frame_no + adj < 2^64)%Z ->
  Z.of_N off = (Z.of_N frame_no + adj)%Z.
Proof. exact adjust_sound. Qed.
Print Assumptions c06_adjust_sound.

(** C06 fails for large frame numbers: frame 2^31 with no adjustment is refused. *)
Theorem c06_adjust_exact_refuted : exists frame_no adj, frame_no < 2^64 /\ adj = 0%Z /\
  (0 <= Z.of_N frame_no + adj)%Z /\ adjust_frame_offset frame_no adj = Throw NegativeOffset.
Proof. exists (2^31), 0%Z. vm_compute. repeat split; discriminate. Qed.
Print Assumptions c06_adjust_exact_refuted.

Example c06_case : 7 < 2^31 /\ adjust_frame_offset 7 (-3) = Ret 4 /\ adjust_frame_offset 7 (-8) = Throw NegativeOffset.
Proof. vm_compute. auto. Qed.
