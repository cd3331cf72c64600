(** Proofs for GapModel. *)
From Verif Require Import Base FrameModel GapModel GapSpec.
Local Open Scope Z_scope.

Definition znth (l : list Z) (i : Z) : Z := nth (Z.to_nat i) l 0.

Lemma loop_inv {S} (P : Z -> S -> Prop) body (lo : Z) n s : P lo s ->
  (forall i s, lo <= i < lo + Z.of_nat n -> P i s -> exists s', body i s = Ret s' /\ P (i + 1) s') ->
  exists s', loop lo n body s = Ret s' /\ P (lo + Z.of_nat n) s'.
Proof.
  revert lo s. induction n as [|n IH]; intros lo s I B; cbn [loop].
  - exists s. split; [reflexivity|]. replace (lo + Z.of_nat 0) with lo by lia. exact I.
  - destruct (B lo s ltac:(lia) I) as (s1 & E & I1). rewrite E. cbn [obind]. destruct (IH (lo + 1) s1 I1) as (s2 & E2 & I2).
    + intros i s' H I'. apply B; [lia|exact I'].
    + exists s2. split; [exact E2|]. replace (lo + Z.of_nat (Datatypes.S n)) with (lo + 1 + Z.of_nat n) by lia. exact I2.
Qed.

Lemma nth_skip {A} (d : A) n l i : nth i (skipn n l) d = nth (n + i) l d.
Proof. revert l. induction n as [|n IH]; intros [|a l]; cbn; auto. destruct i; reflexivity. Qed.
Lemma skip_skip {A} n m (l : list A) : skipn n (skipn m l) = skipn (m + n) l.
Proof. revert l. induction m as [|m IH]; intros [|a l]; cbn; auto. destruct n; reflexivity. Qed.
Lemma nth_first {A} (d : A) n l i : (i < n)%nat -> nth i (firstn n l) d = nth i l d.
Proof. revert l i. induction n as [|n IH]; intros [|a l] [|i] L; cbn; auto; try lia. apply IH. lia. Qed.
Lemma blit_length dst off src : 0 <= off -> off + Z.of_nat (length src) <= Z.of_nat (length dst) -> length (blit dst off src) = length dst.
Proof. intros A B. unfold blit. rewrite !app_length, firstn_length, skipn_length. lia. Qed.
Lemma blit_nth dst off src i : 0 <= off -> off + Z.of_nat (length src) <= Z.of_nat (length dst) -> 0 <= i ->
  znth (blit dst off src) i = if (off <=? i) && (i <? off + Z.of_nat (length src)) then znth src (i - off) else znth dst i.
Proof.
  intros A B C. unfold blit, znth. destruct (Z.leb_spec off i); cbn [andb].
  - rewrite app_nth2 by (rewrite firstn_length; lia). rewrite firstn_length. destruct (Z.ltb_spec i (off + Z.of_nat (length src))).
    + rewrite app_nth1 by lia. f_equal. lia.
    + rewrite app_nth2 by lia. rewrite nth_skip. f_equal. lia.
  - rewrite app_nth1 by (rewrite firstn_length; lia). apply nth_first. lia.
Qed.

Lemma total_app a b : total (a ++ b) = total a + total b.
Proof. unfold total; induction a; cbn in *; lia. Qed.
Lemma total_nonneg l : Forall (fun z => 0 <= z) l -> 0 <= total l.
Proof. unfold total; induction 1; cbn in *; lia. Qed.
Lemma firstn_nonneg n l : Forall (fun z => 0 <= z) l -> Forall (fun z => 0 <= z) (firstn n l).
Proof. intros F. rewrite <- (firstn_skipn n l) in F. apply Forall_app in F. tauto. Qed.
Lemma total_firstn_le n l : Forall (fun z => 0 <= z) l -> total (firstn n l) <= total l.
Proof. intros F. rewrite <- (firstn_skipn n l) in F |- * at 2. rewrite total_app. apply Forall_app in F as (_ & F). pose proof (total_nonneg _ F). lia. Qed.
Lemma total_firstn_S n l : total (firstn (S n) l) = total (firstn n l) + nth n l 0.
Proof. revert l. induction n as [|n IH]; intros [|a l]; try reflexivity. - unfold total; cbn; lia. - change (a + total (firstn (S n) l) = a + total (firstn n l) + nth n l 0). rewrite IH. lia. Qed.
Lemma total_firstn_mono n m l : Forall (fun z => 0 <= z) l -> (n <= m)%nat -> total (firstn n l) <= total (firstn m l).
Proof. intros F L. replace n with (Nat.min n m) by lia. rewrite <- firstn_firstn. apply total_firstn_le, firstn_nonneg, F. Qed.

Section Place.
  Variables (c : Z) (gaps : list Z).
  Hypotheses (C : 0 < c) (F : Forall (fun z => 0 <= z) gaps).
  Lemma placed_mono r r' : 0 <= r < r' -> placed c gaps r < placed c gaps r'.
  Proof.
    intros H. unfold placed. assert (total (firstn (S (Z.to_nat (r / c))) gaps) <= total (firstn (S (Z.to_nat (r' / c))) gaps)).
    { apply total_firstn_mono; [exact F|]. assert (r / c <= r' / c) by (apply Z.div_le_mono; lia). assert (0 <= r / c) by (apply Z.div_pos; lia). lia. }
    lia.
  Qed.
  Lemma placed_inj r r' : 0 <= r -> 0 <= r' -> placed c gaps r = placed c gaps r' -> r = r'.
  Proof. intros A B E. destruct (Z.lt_trichotomy r r') as [H|[H|H]]; [|exact H|]; [pose proof (placed_mono r r' ltac:(lia))|pose proof (placed_mono r' r ltac:(lia))]; lia. Qed.
  Lemma placed_range n r : 0 <= r < n -> 0 <= placed c gaps r < n + total gaps.
  Proof. intros H. unfold placed. pose proof (total_firstn_le (S (Z.to_nat (r / c))) gaps F). pose proof (total_nonneg _ (firstn_nonneg (S (Z.to_nat (r / c))) gaps F)). lia. Qed.
  Lemma placed_chip i j : 0 <= i -> 0 <= j < c -> placed c gaps (i * c + j) = i * c + j + total (firstn (S (Z.to_nat i)) gaps).
  Proof. intros I J. unfold placed. replace ((i * c + j) / c) with i; [reflexivity|]. rewrite Z.add_comm, Z.div_add by lia. rewrite (Z.div_small j c) by lia. lia. Qed.
End Place.

Lemma at_ok l i : 0 <= i < Z.of_nat (length l) -> at_ l i = Ret (znth l i).
Proof. intros H. unfold at_. destruct (Z.leb_spec 0 i); [|lia]. destruct (Z.ltb_spec i (Z.of_nat (length l))); [|lia]. reflexivity. Qed.
Lemma int_ok z : 0 <= z < 2 ^ 31 -> int_ z = Ret z.
Proof. intros H. unfold int_, in_i32. destruct (Z.leb_spec (- 2 ^ 31) z); [|lia]. destruct (Z.ltb_spec z (2 ^ 31)); [|lia]. reflexivity. Qed.
Lemma i32_ok z : 0 <= z < 2 ^ 31 -> i32 z = z.
Proof. intros H. unfold i32. rewrite Z.mod_small by lia. lia. Qed.
Lemma u64_ok z : 0 <= z < 2 ^ 64 -> to_u64 z = z.
Proof. intros H. apply Z.mod_small, H. Qed.

(** The index of a byte of a pixel in a row of pixels *)
Lemma pixel_index W es y x k y' x0 n : 0 < es -> 0 <= k < es -> 0 <= x < W -> 0 <= x0 -> 0 <= n -> x0 + n <= W ->
  (y' * W + x0) * es <= (y * W + x) * es + k < (y' * W + x0) * es + n * es <-> y = y' /\ x0 <= x < x0 + n.
Proof.
  intros E K X X0 N B. split.
  - intros (A & D). assert (A1 : y' * W + x0 <= y * W + x) by nia. assert (D1 : y * W + x < y' * W + x0 + n) by nia.
    assert (y = y') by nia. subst. lia.
  - intros (-> & H). split; nia.
Qed.

Lemma sum_gaps l z : Forall (fun z => 0 <= z) l -> 0 <= z -> z + total l < 2 ^ 31 -> loop 0 (length l) (add_gap l) z = Ret (z + total l).
Proof.
  intros F Z0 B. destruct (loop_inv (fun i s => s = z + total (firstn (Z.to_nat i) l)) (add_gap l) 0 (length l) z) as (s & E & P).
  - cbn. lia.
  - intros i s I ->. unfold add_gap. rewrite at_ok by lia. cbn [obind]. replace (Z.to_nat (i + 1)) with (S (Z.to_nat i)) by lia. rewrite total_firstn_S. fold (znth l i).
    eexists. split; [|reflexivity]. rewrite int_ok; [f_equal; unfold znth; lia|].
    pose proof (total_firstn_le (S (Z.to_nat i)) l F) as T. pose proof (total_nonneg _ (firstn_nonneg (S (Z.to_nat i)) l F)) as T2. rewrite total_firstn_S in T, T2. unfold znth. lia.
  - rewrite E, P. replace (Z.to_nat (0 + Z.of_nat (length l))) with (length l) by lia. rewrite firstn_all. reflexivity.
Qed.

Lemma l_row r h w : r < h -> 0 <= w -> r * w + w <= h * w. Proof. nia. Qed.
Lemma l_mul a b e : a <= b -> 0 <= e -> a * e <= b * e. Proof. nia. Qed.
Lemma l_pos a b : 0 <= a -> 0 <= b -> 0 <= a * b. Proof. nia. Qed.
Lemma l_pos' a b : 0 < a -> 0 < b -> 0 < a * b. Proof. nia. Qed.
Lemma l_two a b c d : 0 <= a <= b -> 0 <= c <= d -> a * c <= b * d. Proof. nia. Qed.

Section Fill.
  Variables (g : gap) (f : frame) (gy gx cy cx es : Z).
  Notation h := (gy * cy). Notation w := (gx * cx).
  Notation HH := (h + total (gp_y g)). Notation W := (w + total (gp_x g)).
  Notation Y := (placed cy (gp_y g)). Notation X := (placed cx (gp_x g)).
  Hypotheses (GY : 0 < gy) (GX : 0 < gx) (CY : 0 < cy) (CX : 0 < cx) (ES : 0 < es)
    (NY : Forall (fun z => 0 <= z) (gp_y g)) (NX : Forall (fun z => 0 <= z) (gp_x g))
    (LY : Z.of_nat (length (gp_y g)) = gy + 1) (LX : Z.of_nat (length (gp_x g)) = gx + 1)
    (BIG : HH * W * es < 2 ^ 31) (IO : 0 <= fr_image_offset f)
    (SRC : fr_image_offset f + h * w * es <= Z.of_nat (length (fr_mem f))).
  Notation byte i := (znth (fr_mem f) (fr_image_offset f + i)).

  Record Inv (D : Z -> Z -> Prop) (img : list Z) : Prop := {
    i_len : Z.of_nat (length img) = HH * W * es;
    i_done : forall r c k, 0 <= r < h -> 0 <= c < w -> 0 <= k < es -> D r c -> znth img ((Y r * W + X c) * es + k) = byte ((r * w + c) * es + k);
    i_zero : forall y x k, 0 <= y < HH -> 0 <= x < W -> 0 <= k < es -> (forall r c, 0 <= r < h -> 0 <= c < w -> D r c -> ~ (y = Y r /\ x = X c)) -> znth img ((y * W + x) * es + k) = 0 }.

  Lemma bounds : 0 < h /\ 0 < w /\ 0 <= total (gp_y g) /\ 0 <= total (gp_x g) /\ h <= HH /\ w <= W /\ HH * W < 2 ^ 31 /\ HH < 2 ^ 31 /\ W < 2 ^ 31.
  Proof. pose proof (total_nonneg _ NY). pose proof (total_nonneg _ NX). assert (0 < h) by nia. assert (0 < w) by nia. assert (HH * W <= HH * W * es) by nia. assert (HH <= HH * W) by nia. assert (W <= HH * W) by nia. lia. Qed.

  (** One row of one chip. *)
  Lemma step_copy r x img D : Inv D img -> 0 <= r < h -> 0 <= x < gx ->
    let st := (total (firstn (Z.to_nat x) (gp_x g)), img) in
    exists img', copy_row g f es W w cx r (Y r) x st = Ret (total (firstn (S (Z.to_nat x)) (gp_x g)), img') /\ Inv (fun r' c' => D r' c' \/ r' = r /\ x * cx <= c' < (x + 1) * cx) img'.
  Proof.
    intros I R XR st. destruct bounds as (B1 & B2 & B3 & B4 & B5 & B6 & B7 & B8 & B9). unfold copy_row, st. clear st.
    set (o := total (firstn (S (Z.to_nat x)) (gp_x g))). assert (O : 0 <= o <= total (gp_x g)) by (split; [apply total_nonneg, firstn_nonneg, NX|apply total_firstn_le, NX]).
    rewrite at_ok by lia. cbn [obind]. assert (EO : total (firstn (Z.to_nat x) (gp_x g)) + znth (gp_x g) x = o) by (unfold o; rewrite total_firstn_S; reflexivity). rewrite EO.
    pose proof (l_pos x cx ltac:(lia) ltac:(lia)) as XC0. pose proof (l_row x gx cx ltac:(lia) ltac:(lia)) as XC. rewrite int_ok by lia. cbn [obind]. rewrite int_ok by lia. cbn [obind].
    pose proof (placed_range cy (gp_y g) CY NY h r R) as YR. pose proof (l_row (Y r) HH W ltac:(lia) ltac:(lia)) as YW. pose proof (l_pos (Y r) W ltac:(lia) ltac:(lia)) as YW0.
    rewrite (int_ok (Y r * W)) by lia. cbn [obind]. rewrite (int_ok (Y r * W + o)) by lia. cbn [obind]. rewrite (int_ok (Y r * W + o + x * cx)) by lia. cbn [obind].
    pose proof (l_row r h w ltac:(lia) ltac:(lia)) as RW. pose proof (l_pos r w ltac:(lia) ltac:(lia)) as RW0. pose proof (l_two h HH w W ltac:(lia) ltac:(lia)) as HW.
    pose proof (l_mul (r * w + x * cx + cx) (h * w) es ltac:(lia) ltac:(lia)) as RWE0. rewrite (Z.mul_add_distr_r (r * w + x * cx) cx es) in RWE0. rename RWE0 into RWE. pose proof (l_mul (h * w) (HH * W) es HW ltac:(lia)) as HWE.
    assert (CE : 0 < cx * es) by (apply l_pos'; lia).
    assert (S1 : 0 <= r * w + x * cx < 2 ^ 31) by lia. rewrite (i32_ok (r * w + x * cx) S1). assert (S2 : 0 <= (r * w + x * cx) * es < 2 ^ 31) by (split; [apply l_pos; lia|lia]). rewrite (i32_ok _ S2).
    assert (XX : forall j, 0 <= j < cx -> X (x * cx + j) = x * cx + j + o) by (intros j J; apply placed_chip; lia).
    set (x0 := o + x * cx). assert (X0 : x0 + cx <= W) by (unfold x0; lia). assert (X00 : 0 <= x0) by (unfold x0; lia).
    replace (Y r * W + o + x * cx) with (Y r * W + x0) by (unfold x0; lia).
    pose proof (l_mul (Y r * W + x0 + cx) (HH * W) es ltac:(lia) ltac:(lia)) as DE. rewrite (Z.mul_add_distr_r (Y r * W + x0) cx es) in DE. assert (S3 : 0 <= (Y r * W + x0) * es < 2 ^ 31) by (split; [apply l_pos; lia|lia]). rewrite (i32_ok _ S3).
    assert (CE2 : cx * es < 2 ^ 31) by lia. rewrite u64_ok by lia. unfold read_image.
    set (s0 := (r * w + x * cx) * es) in *. set (d0 := (Y r * W + x0) * es) in *. set (n := cx * es) in *.
    destruct (Z.leb_spec 0 n); [|lia]. destruct (Z.leb_spec 0 (fr_image_offset f + s0)); [|lia]. destruct (Z.leb_spec (fr_image_offset f + s0 + n) (Z.of_nat (length (fr_mem f)))); [|lia]. cbn [andb obind].
    set (row := firstn (Z.to_nat n) (skipn (Z.to_nat (fr_image_offset f + s0)) (fr_mem f))). assert (RL : Z.of_nat (length row) = n) by (unfold row; rewrite firstn_length, skipn_length; lia).
    unfold write_at. rewrite RL. rewrite (i_len _ _ I). destruct (Z.leb_spec 0 d0); [|lia]. destruct (Z.leb_spec (d0 + n) (HH * W * es)); [|lia]. cbn [andb obind]. eexists. split; [reflexivity|].
    assert (ROW : forall i, 0 <= i < n -> znth row i = byte (s0 + i)).
    { intros i Hi. unfold row, znth. rewrite nth_first by lia. rewrite nth_skip. f_equal. lia. }
    pose proof (i_len _ _ I) as IL.
    assert (BN : forall i, 0 <= i -> znth (blit img d0 row) i = if (d0 <=? i) && (i <? d0 + n) then znth row (i - d0) else znth img i) by (intros i Hi; rewrite blit_nth by lia; rewrite RL; reflexivity).
    split.
    - rewrite blit_length by lia. exact IL.
    - intros r' c' k R' C' K DD. pose proof (placed_range cy (gp_y g) CY NY h r' R') as YR'. pose proof (placed_range cx (gp_x g) CX NX w c' C') as XR'.
      rewrite BN by (pose proof (l_pos (Y r') W ltac:(lia) ltac:(lia)); pose proof (l_pos (Y r' * W + X c') es ltac:(lia) ltac:(lia)); lia). pose proof (pixel_index W es (Y r') (X c') k (Y r) x0 cx ES K XR' X00 ltac:(lia) X0) as PI. fold d0 n in PI.
      destruct ((d0 <=? (Y r' * W + X c') * es + k) && ((Y r' * W + X c') * es + k <? d0 + n)) eqn:E.
      + rewrite andb_true_iff, Z.leb_le, Z.ltb_lt in E. apply PI in E as (EY & EX). apply placed_inj in EY; [|exact CY|exact NY|lia|lia]. subst r'.
        assert (CC : x * cx <= c' < x * cx + cx).
        { destruct (Z.lt_ge_cases c' (x * cx)) as [L|L].
          - pose proof (placed_mono cx (gp_x g) CX NX c' (x * cx + 0) ltac:(lia)) as PM. rewrite XX in PM by lia. unfold x0 in EX. lia.
          - destruct (Z.lt_ge_cases c' (x * cx + cx)) as [L2|L2]; [lia|]. pose proof (placed_mono cx (gp_x g) CX NX (x * cx + (cx - 1)) c' ltac:(lia)) as PM. rewrite XX in PM by lia. unfold x0 in EX. lia. }
        replace c' with (x * cx + (c' - x * cx)) at 1 by lia. rewrite XX by lia. assert (Q : (Y r * W + (x * cx + (c' - x * cx) + o)) * es + k - d0 = (c' - x * cx) * es + k) by (unfold d0, x0; ring). rewrite Q.
        pose proof (l_row (c' - x * cx) cx es ltac:(lia) ltac:(lia)). pose proof (l_pos (c' - x * cx) es ltac:(lia) ltac:(lia)). rewrite ROW by (unfold n; lia). f_equal. unfold s0. ring.
      + assert (NE : ~ (Y r' = Y r /\ x0 <= X c' < x0 + cx)) by (intros A; apply PI in A; rewrite andb_false_iff, Z.leb_gt, Z.ltb_ge in E; lia).
        apply (i_done _ _ I); auto. destruct DD as [DD|(-> & CC)]; [exact DD|]. exfalso. apply NE. split; [reflexivity|]. replace c' with (x * cx + (c' - x * cx)) by lia. rewrite XX by lia. unfold x0. lia.
    - intros y x' k YH XW K ND. rewrite BN by (pose proof (l_pos y W ltac:(lia) ltac:(lia)); pose proof (l_pos (y * W + x') es ltac:(lia) ltac:(lia)); lia). pose proof (pixel_index W es y x' k (Y r) x0 cx ES K XW X00 ltac:(lia) X0) as PI. fold d0 n in PI.
      destruct ((d0 <=? (y * W + x') * es + k) && ((y * W + x') * es + k <? d0 + n)) eqn:E.
      + exfalso. rewrite andb_true_iff, Z.leb_le, Z.ltb_lt in E. apply PI in E as (-> & EX). unfold x0 in EX. apply (ND r (x * cx + (x' - x0)) R); [unfold x0; lia|right; split; [reflexivity|unfold x0; lia]|]. split; [reflexivity|]. rewrite XX by (unfold x0; lia). unfold x0. lia.
      + apply (i_zero _ _ I); auto.
  Qed.

  Lemma Inv_ext D D' img : (forall r c, 0 <= r < h -> 0 <= c < w -> D r c <-> D' r c) -> Inv D img -> Inv D' img.
  Proof. intros E [A B C]. split; [exact A| |]. - intros r c k R CC K HD. apply B; auto. apply E; auto. - intros y x k Hy Hx K N. apply C; auto. intros r c R CC HD. apply N; auto. apply E; auto. Qed.

  Lemma step_row y row img : 0 <= y < gy -> 0 <= row < cy -> Inv (fun r _ => r < y * cy + row) img ->
    exists img', copy_chip_row g f es W w cy cx gx (total (firstn (S (Z.to_nat y)) (gp_y g))) y row img = Ret img' /\ Inv (fun r _ => r < y * cy + (row + 1)) img'.
  Proof.
    intros YY RR I. destruct bounds as (B1 & B2 & B3 & B4 & B5 & B6 & B7 & B8 & B9). unfold copy_chip_row.
    pose proof (l_row y gy cy ltac:(lia) ltac:(lia)) as A. pose proof (l_pos y cy ltac:(lia) ltac:(lia)) as A0. assert (R : 0 <= y * cy + row < h) by lia. rewrite int_ok by lia. cbn [obind]. rewrite int_ok by lia. cbn [obind].
    pose proof (placed_range cy (gp_y g) CY NY h _ R) as YR. pose proof (placed_chip cy (gp_y g) CY y row ltac:(lia) RR) as E. rewrite <- E. rewrite int_ok by lia. cbn [obind].
    destruct (loop_inv (fun x st => fst st = total (firstn (Z.to_nat x) (gp_x g)) /\ Inv (fun r c => r < y * cy + row \/ r = y * cy + row /\ c < x * cx) (snd st)) (copy_row g f es W w cx (y * cy + row) (Y (y * cy + row))) 0 (Z.to_nat gx) (0, img)) as ((o & img') & E' & P).
    - split; [reflexivity|]. cbn [snd]. eapply Inv_ext; [|exact I]. cbn beta. intros r c HR HC. lia.
    - intros x [o im] HX (EO & IM). cbn [fst snd] in EO, IM. subst o. destruct (step_copy (y * cy + row) x im _ IM R ltac:(lia)) as (im' & EC & IM'). eexists. split; [exact EC|]. cbn [fst snd]. split; [f_equal; f_equal; lia|].
      eapply Inv_ext; [|exact IM']. cbn beta. intros r c HR HC. rewrite Z.mul_add_distr_r. lia.
    - rewrite E'. cbn [obind snd] in *. exists img'. split; [reflexivity|]. destruct P as (_ & P). eapply Inv_ext; [|exact P]. cbn beta. intros r c HR HC. replace (0 + Z.of_nat (Z.to_nat gx)) with gx by lia. lia.
  Qed.

  Lemma step_chips y img : 0 <= y < gy -> Inv (fun r _ => r < y * cy) img ->
    exists img', copy_chips g f es W w cy cx gx y (total (firstn (Z.to_nat y) (gp_y g)), img) = Ret (total (firstn (S (Z.to_nat y)) (gp_y g)), img') /\ Inv (fun r _ => r < (y + 1) * cy) img'.
  Proof.
    intros YY I. destruct bounds as (B1 & B2 & B3 & B4 & B5 & B6 & B7 & B8 & B9). unfold copy_chips. rewrite at_ok by lia. cbn [obind].
    assert (EO : total (firstn (Z.to_nat y) (gp_y g)) + znth (gp_y g) y = total (firstn (S (Z.to_nat y)) (gp_y g))) by (rewrite total_firstn_S; reflexivity). rewrite EO.
    pose proof (total_firstn_le (S (Z.to_nat y)) _ NY). pose proof (total_nonneg _ (firstn_nonneg (S (Z.to_nat y)) _ NY)). rewrite int_ok by lia. cbn [obind].
    destruct (loop_inv (fun row im => Inv (fun r _ => r < y * cy + row) im) (copy_chip_row g f es W w cy cx gx (total (firstn (S (Z.to_nat y)) (gp_y g))) y) 0 (Z.to_nat cy) img) as (img' & E' & P).
    - eapply Inv_ext; [|exact I]. cbn beta. intros. lia.
    - intros row im HR IM. apply step_row; auto; lia.
    - rewrite E'. cbn [obind]. exists img'. split; [reflexivity|]. eapply Inv_ext; [|exact P]. cbn beta. intros. replace (0 + Z.of_nat (Z.to_nat cy)) with cy by lia. rewrite Z.mul_add_distr_r. lia.
  Qed.

  Lemma fill : exists st, loop 0 (Z.to_nat gy) (copy_chips g f es W w cy cx gx) (0, repeat 0 (Z.to_nat (HH * W * es))) = Ret st /\ Inv (fun _ _ => True) (snd st).
  Proof.
    destruct bounds as (B1 & B2 & B3 & B4 & B5 & B6 & B7 & B8 & B9). assert (HWE : 0 <= HH * W * es) by nia.
    destruct (loop_inv (fun y st => fst st = total (firstn (Z.to_nat y) (gp_y g)) /\ Inv (fun r _ => r < y * cy) (snd st)) (copy_chips g f es W w cy cx gx) 0 (Z.to_nat gy) (0, repeat 0 (Z.to_nat (HH * W * es)))) as ((o & img) & E & P).
    - split; [reflexivity|]. cbn [snd]. split; [rewrite repeat_length; lia|intros; lia|]. intros y x k A B C _. unfold znth. apply nth_repeat.
    - intros y [o im] HY (EO & IM). cbn [fst snd] in EO, IM. subst o. destruct (step_chips y im ltac:(lia) IM) as (im' & EC & IM'). eexists. split; [exact EC|]. cbn [fst snd]. split; [f_equal; f_equal; lia|exact IM'].
    - exists (o, img). split; [exact E|]. destruct P as (_ & P). eapply Inv_ext; [|exact P]. cbn beta. intros. replace (0 + Z.of_nat (Z.to_nat gy)) with gy by lia. split; [auto|intros _; lia].
  Qed.
End Fill.

Lemma slice_ext a b n i j : (i + n <= length a)%nat -> (j + n <= length b)%nat -> (forall k, (k < n)%nat -> nth (i + k) a 0 = nth (j + k) b 0) -> firstn n (skipn i a) = firstn n (skipn j b).
Proof.
  intros A B E. apply (nth_ext _ _ 0 0); [rewrite !firstn_length, !skipn_length; lia|]. intros k K. rewrite firstn_length, skipn_length in K.
  rewrite !nth_first, !nth_skip by lia. apply E. lia.
Qed.
