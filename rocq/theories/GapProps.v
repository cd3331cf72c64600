(** C36: gap filling. *)
From Coq Require Import String.
From Verif Require Import Base FrameModel GapModel GapSpec GapProofs.
Local Open Scope list_scope.
Local Open Scope Z_scope.

Definition nonneg (l : list Z) : Prop := Forall (fun z => 0 <= z) l.

(** Every pixel of the source is at its place in the new image, every other pixel is black; nothing outside of the two images is read
    or written (else the outcome would be [Undef]); all else about the frame is kept. *)
Theorem c36_fill_partial mem g f gy gx cy cx es :
  let w := gx * cx in let H := gy * cy + total (gp_y g) in let W := w + total (gp_x g) in
  gp_grid g = [gy; gx] -> gp_chip g = [cy; cx] -> 0 < gy < 2 ^ 31 - 1 -> 0 < gx < 2 ^ 31 - 1 -> 0 < cy -> 0 < cx -> nonneg (gp_y g) -> nonneg (gp_x g) ->
  Z.of_nat (List.length (gp_y g)) = gy + 1 -> Z.of_nat (List.length (gp_x g)) = gx + 1 ->
  md_dims (fr_meta f) = [gy * cy; w] -> bytes_of (md_type (fr_meta f)) es -> md_compr (fr_meta f) <> unknown_compression ->
  0 <= fr_image_offset f -> fr_image_offset f + gy * cy * w * es <= Z.of_nat (List.length (fr_mem f)) ->
  H * W * es < 2 ^ 31 -> H * W * es <= mem ->
  exists f', gap_process mem g f = Ret ([f'], false) /\ fr_meta f' = set_dims [H; W] (fr_meta f) /\ fr_data_size f' = H * W * es /\ fr_image_size f' = H * W * es /\
    Z.of_nat (List.length (image f')) = H * W * es /\
    (forall r c, 0 <= r < gy * cy -> 0 <= c < w -> pixel es W (image f') (placed cy (gp_y g) r) (placed cx (gp_x g) c) = pixel es w (image f) r c) /\
    (forall y x, 0 <= y < H -> 0 <= x < W -> (forall r c, 0 <= r < gy * cy -> 0 <= c < w -> ~ (y = placed cy (gp_y g) r /\ x = placed cx (gp_x g) c)) -> pixel es W (image f') y x = black es).
Proof.
  intros w H W GG GC [GY GY1] [GX GX1] CY CX NY NX LY LX DM BY CO IO SR BIG MEM. assert (ES : 0 < es /\ get_size_from_enum (md_type (fr_meta f)) = Ret es /\ md_type (fr_meta f) <> 0) by (inversion BY; repeat split; try lia; discriminate). destruct ES as (ES & GS & TY).
  destruct (fill g f gy gx cy cx es GY GX CY CX ES NY NX LY LX BIG IO SR) as (st & E & I).
  destruct (bounds g f gy gx cy cx es GY GX CY CX ES NY NX BIG) as (B1 & B2 & B3 & B4 & B5 & B6 & B7 & B8 & B9).
  fold w in B2, B6, B7, B9, E, I. fold H in B5, B7, B8, E, I. fold W in B6, B7, B9, E, I.
  assert (GYB : gy <= gy * cy) by nia. assert (GXB : gx <= w) by (unfold w; nia). assert (HWE : 0 <= H * W * es) by (apply l_pos; [apply l_pos; lia|lia]).
  assert (V : configuration_valid g f = Ret true).
  { unfold configuration_valid. rewrite DM, GG, GC. cbn [at_ List.length Z.of_nat Z.leb Z.ltb andb nth Z.to_nat obind]. change (at_ [gy * cy; w] 0) with (@Ret fexc Z (gy * cy)). change (at_ [gy; gx] 0) with (@Ret fexc Z gy). change (at_ [cy; cx] 0) with (@Ret fexc Z cy). cbn [obind].
    rewrite int_ok by lia. cbn [obind]. rewrite u64_ok by lia. rewrite Z.eqb_refl. cbn [negb].
    change (at_ [gy * cy; w] 1) with (@Ret fexc Z w). change (at_ [gy; gx] 1) with (@Ret fexc Z gx). change (at_ [cy; cx] 1) with (@Ret fexc Z cx). cbn [obind]. fold w. rewrite int_ok by lia. cbn [obind]. rewrite u64_ok by lia. rewrite Z.eqb_refl. cbn [negb].
    rewrite (int_ok (gx + 1)), (int_ok (gy + 1)) by lia. cbn [obind]. rewrite !u64_ok by lia. rewrite LX, LY. rewrite !Z.gtb_ltb, !Z.ltb_irrefl. reflexivity. }
  unfold gap_process. rewrite V. cbn [obind]. unfold insert_gaps. rewrite GG, GC, DM. change (at_ [gy; gx] 0) with (@Ret fexc Z gy). change (at_ [cy; cx] 0) with (@Ret fexc Z cy). change (at_ [gy * cy; w] 1) with (@Ret fexc Z w). change (at_ [gy; gx] 1) with (@Ret fexc Z gx). change (at_ [cy; cx] 1) with (@Ret fexc Z cx). cbn [obind]. fold w.
  rewrite int_ok by lia. cbn [obind]. replace (Z.to_nat (gx + 1)) with (List.length (gp_x g)) by lia. rewrite (sum_gaps (gp_x g) w NX) by (unfold W in *; lia). fold W. cbn [obind].
  rewrite int_ok by lia. cbn [obind]. replace (Z.to_nat (gy + 1)) with (List.length (gp_y g)) by lia. rewrite (sum_gaps (gp_y g) (gy * cy) NY) by (unfold H in *; lia). fold H. cbn [obind]. rewrite GS. cbn [obind]. rewrite (Z.mul_comm W H). rewrite int_ok by (split; [apply l_pos; lia|lia]). cbn [obind].
  rewrite u64_ok by lia. unfold zeros. destruct (Z.leb_spec (H * W * es) mem); [|lia]. cbn [obind]. rewrite E. cbn [obind]. rewrite !u64_ok by lia. set (m' := set_dims [H; W] (fr_meta f)).
  unfold push. assert (VA : is_valid (new_frame m' (snd st) (H * W * es) 0) = true).
  { unfold is_valid. cbn. unfold raw_unknown, unknown_compression in *. apply Z.eqb_neq in TY, CO. rewrite TY, CO. reflexivity. }
  rewrite VA. cbn [obind]. eexists. split; [reflexivity|]. pose proof (i_len _ _ _ _ _ _ _ _ _ I) as IL. fold w in IL. fold H in IL. fold W in IL. cbn [fr_meta fr_data_size fr_image_size fr_mem fr_image_offset new_frame image].
  split; [reflexivity|]. split; [reflexivity|]. split; [rewrite Z.sub_0_r; apply i32_ok; lia|].
  assert (IM : image (new_frame m' (snd st) (H * W * es) 0) = snd st) by (unfold image; cbn [new_frame fr_image_offset fr_mem skipn Z.to_nat]; apply firstn_all2; lia). rewrite IM. split; [exact IL|]. split.
  - intros r c R C. unfold pixel, image. rewrite skip_skip.
    pose proof (placed_range cy (gp_y g) CY NY _ r R) as PY. pose proof (placed_range cx (gp_x g) CX NX _ c C) as PX. fold H in PY. fold w in PX. fold W in PX.
    pose proof (l_row (placed cy (gp_y g) r) H W ltac:(lia) ltac:(lia)) as A1. pose proof (l_mul _ (H * W) es (ltac:(lia) : placed cy (gp_y g) r * W + placed cx (gp_x g) c + 1 <= H * W) ltac:(lia)) as A2. rewrite Z.mul_add_distr_r in A2. pose proof (l_pos (placed cy (gp_y g) r) W ltac:(lia) ltac:(lia)) as A3. pose proof (l_pos (placed cy (gp_y g) r * W + placed cx (gp_x g) c) es ltac:(lia) ltac:(lia)) as A4.
    pose proof (l_row r (gy * cy) w ltac:(lia) ltac:(lia)) as D1. pose proof (l_mul _ (gy * cy * w) es (ltac:(lia) : r * w + c + 1 <= gy * cy * w) ltac:(lia)) as D2. rewrite Z.mul_add_distr_r in D2. pose proof (l_pos r w ltac:(lia) ltac:(lia)) as D3. pose proof (l_pos (r * w + c) es ltac:(lia) ltac:(lia)) as D4.
    apply slice_ext; [lia|lia|]. intros k K. pose proof (i_done _ _ _ _ _ _ _ _ _ I r c (Z.of_nat k) R C ltac:(lia) Logic.I) as Q. unfold znth in Q. fold w in Q. fold W in Q.
    replace (Z.to_nat ((placed cy (gp_y g) r * W + placed cx (gp_x g) c) * es) + k)%nat with (Z.to_nat ((placed cy (gp_y g) r * W + placed cx (gp_x g) c) * es + Z.of_nat k)) by lia. rewrite Q. f_equal. lia.
  - intros y x HY HX ND. unfold pixel, black. pose proof (l_row y H W ltac:(lia) ltac:(lia)) as A1. pose proof (l_mul _ (H * W) es (ltac:(lia) : y * W + x + 1 <= H * W) ltac:(lia)) as A2. rewrite Z.mul_add_distr_r in A2. pose proof (l_pos y W ltac:(lia) ltac:(lia)) as A3. pose proof (l_pos (y * W + x) es ltac:(lia) ltac:(lia)) as A4.
    apply (nth_ext _ _ 0 0); [rewrite firstn_length, skipn_length, repeat_length; lia|]. intros k K. rewrite firstn_length, skipn_length in K. rewrite nth_first, nth_skip by lia. rewrite nth_repeat.
    pose proof (i_zero _ _ _ _ _ _ _ _ _ I y x (Z.of_nat k) HY HX ltac:(lia)) as Q. unfold znth in Q. fold w in Q. fold W in Q. rewrite <- Q at 2; [f_equal; lia|]. intros r c R C _. apply ND; auto.
Qed.

(** No two pixels of the source have the same place, and all places are in the image. *)
Theorem c36_once chip gaps n r r' : 0 < chip -> nonneg gaps -> 0 <= r < n -> 0 <= r' < n -> r <> r' ->
  placed chip gaps r <> placed chip gaps r' /\ 0 <= placed chip gaps r < n + total gaps.
Proof. intros C F R R' N. split; [intros E; apply placed_inj in E; auto; lia|apply placed_range; auto]. Qed.

(** Which geometries are accepted; a frame that is not gives an error and is not passed on. *)
Theorem c36_accepts_partial mem g f gy gx cy cx d0 d1 dr :
  gp_grid g = [gy; gx] -> gp_chip g = [cy; cx] -> 0 <= gy < 2 ^ 31 - 1 -> 0 <= gx < 2 ^ 31 - 1 -> 0 <= cy -> 0 <= cx -> gy * cy < 2 ^ 31 -> gx * cx < 2 ^ 31 -> md_dims (fr_meta f) = d0 :: d1 :: dr ->
  let consistent := d0 = gy * cy /\ d1 = gx * cx /\ Z.of_nat (List.length (gp_x g)) = gx + 1 /\ Z.of_nat (List.length (gp_y g)) = gy + 1 in
  (configuration_valid g f = Ret true <-> consistent) /\ (~ consistent -> gap_process mem g f = Ret ([], true)).
Proof.
  intros GG GC GY GX CY CX P0 P1 DM consistent. assert (V : exists b, configuration_valid g f = Ret b /\ (b = true <-> consistent)).
  { unfold configuration_valid. rewrite DM, GG, GC. change (at_ [gy; gx] 0) with (@Ret fexc Z gy). change (at_ [cy; cx] 0) with (@Ret fexc Z cy). change (at_ [gy; gx] 1) with (@Ret fexc Z gx). change (at_ [cy; cx] 1) with (@Ret fexc Z cx).
    rewrite !at_ok by (cbn [List.length]; lia). change (znth (d0 :: d1 :: dr) 0) with d0. change (znth (d0 :: d1 :: dr) 1) with d1. cbn [obind]. pose proof (l_pos gy cy ltac:(lia) CY). pose proof (l_pos gx cx ltac:(lia) CX). rewrite int_ok by lia. cbn [obind]. rewrite u64_ok by lia.
    destruct (Z.eqb_spec d0 (gy * cy)) as [->|N]; cbn [negb]; [|exists false; split; [reflexivity|]; split; [discriminate|unfold consistent; intuition congruence]].
    rewrite int_ok by lia. cbn [obind]. rewrite u64_ok by lia. destruct (Z.eqb_spec d1 (gx * cx)) as [->|N]; cbn [negb]; [|exists false; split; [reflexivity|]; split; [discriminate|unfold consistent; intuition congruence]].
    rewrite !int_ok by lia. cbn [obind]. rewrite !u64_ok by lia. eexists. split; [reflexivity|]. rewrite !andb_true_iff, !negb_true_iff, !Z.gtb_ltb, !Z.ltb_ge. unfold consistent. lia. }
  destruct V as (b & V & B). split; [rewrite V; rewrite <- B; split; [intros E; injection E as ->; reflexivity|intros ->; reflexivity]|].
  intros NC. unfold gap_process. rewrite V. cbn [obind]. destruct b; [|reflexivity]. destruct NC. apply B. reflexivity.
Qed.

Definition a_meta dims := Meta 0 "data" raw_16bit "acq" dims no_compression [] 0.
Definition a_frame := Frame (a_meta [2; 2]) [1; 2; 3; 4; 5; 6; 7; 8] 8 0 8 1.
Definition a_gap := Gap [1; 2] [2; 1] [0; 2; 1] [1; 0].
(** Two chips of 2 x 1 pixels; a gap of two columns between them, one to the right, one row above. *)
Example c36_case : exists f', gap_process (2 ^ 30) a_gap a_frame = Ret ([f'], false) /\ md_dims (fr_meta f') = [3; 5] /\
  fr_mem f' = [0; 0; 0; 0; 0; 0; 0; 0; 0; 0;  1; 2; 0; 0; 0; 0; 3; 4; 0; 0;  5; 6; 0; 0; 0; 0; 7; 8; 0; 0].
Proof. eexists. split; [vm_compute; reflexivity|]. split; reflexivity. Qed.
Example c36_case_hypotheses : nonneg (gp_x a_gap) /\ nonneg (gp_y a_gap) /\ bytes_of (md_type (fr_meta a_frame)) 2 /\ placed 1 (gp_x a_gap) 1 = 3.
Proof. split; [repeat constructor; lia|]. split; [repeat constructor; lia|]. split; [constructor|reflexivity]. Qed.

(** A grid of -1 with chips of negative size is accepted: the image is replaced by a black one. *)
Theorem c36_negative_grid_refuted : exists f', gap_process (2 ^ 30) (Gap [-1; 1] [-2; 2] [0; 0] []) a_frame = Ret ([f'], false) /\ md_dims (fr_meta f') = [2; 2] /\ fr_mem f' = [0; 0; 0; 0; 0; 0; 0; 0].
Proof. eexists. split; [vm_compute; reflexivity|]. split; reflexivity. Qed.
(** Negative gaps are accepted and write outside of the image. *)
Theorem c36_negative_gap_refuted : configuration_valid (Gap [1; 1] [2; 2] [0; 0] [-1; 0]) a_frame = Ret true /\ gap_process (2 ^ 30) (Gap [1; 1] [2; 2] [0; 0] [-1; 0]) a_frame = Undef.
Proof. split; vm_compute; reflexivity. Qed.
(** Before it is configured the plugin reads outside of empty vectors; so it does with a frame of one dimension. *)
Theorem c36_unset_refuted : gap_process (2 ^ 30) (Gap [] [] [] []) a_frame = Undef /\ gap_process (2 ^ 30) (Gap [1; 1] [2; 2] [0; 0] [0; 0]) (with_meta (a_meta [2]) a_frame) = Undef.
Proof. split; vm_compute; reflexivity. Qed.
(** A frame with less data than its dimensions say is read beyond its end. *)
Theorem c36_short_frame_refuted : gap_process (2 ^ 30) (Gap [1; 1] [2; 2] [0; 0] [0; 0]) (Frame (a_meta [2; 2]) [1; 2; 3; 4; 5; 6] 6 0 6 1) = Undef.
Proof. vm_compute; reflexivity. Qed.
(** A third dimension is dropped, and with it all but the first of its planes. *)
Theorem c36_planes_refuted : exists f', gap_process (2 ^ 30) (Gap [1; 1] [1; 2] [0; 0] [0; 0]) (with_meta (a_meta [1; 2; 2]) a_frame) = Ret ([f'], false) /\ fr_mem f' = [1; 2; 3; 4].
Proof. eexists. split; [vm_compute; reflexivity|]. reflexivity. Qed.

Print Assumptions c36_fill_partial.
Print Assumptions c36_once.
Print Assumptions c36_accepts_partial.
Print Assumptions c36_negative_grid_refuted.
Print Assumptions c36_negative_gap_refuted.
Print Assumptions c36_unset_refuted.
Print Assumptions c36_short_frame_refuted.
Print Assumptions c36_planes_refuted.
