(** Operations on doubles round to nearest: from Flocq. *)
From Coq Require Import String Ascii Reals Lra SpecFloat.
From Flocq Require Import Core IEEE754.BinarySingleNaN.
From Verif Require Import Base JsonModel JsonReadModel JsonTextSpec JsonReadSpec JsonReadProofs JsonNearSpec.
Local Open Scope list_scope.
Local Open Scope char_scope.

Lemma P53 : Prec_gt_0 53%Z. Proof. reflexivity. Qed.
Lemma P1024 : Prec_lt_emax 53%Z 1024%Z. Proof. reflexivity. Qed.
Local Existing Instance P53.
Local Existing Instance P1024.
Notation bin := (binary_float 53 1024).
Notation fe := (SpecFloat.fexp 53 1024).
Notation near := (round radix2 fe ZnearestE).

Lemma round_aux_eq sx mx ex lx : SpecFloat.binary_round_aux 53 1024 sx mx ex lx = BinarySingleNaN.binary_round_aux 53 1024 mode_NE sx mx ex lx.
Proof.
  assert (RE : forall s m l, round_nearest_even m l = choice_mode mode_NE s m l) by (intros s m [|[]]; [reflexivity| |reflexivity|reflexivity]; cbn; unfold Round.cond_incr; destruct (Z.even m); reflexivity).
  unfold SpecFloat.binary_round_aux, BinarySingleNaN.binary_round_aux. destruct (shr_fexp _ _ _ _ _) as (m & e). cbn. rewrite (RE sx). reflexivity.
Qed.
Lemma round_eq s m e : SpecFloat.binary_round 53 1024 s m e = BinarySingleNaN.binary_round 53 1024 mode_NE s m e.
Proof. unfold SpecFloat.binary_round, BinarySingleNaN.binary_round, BinarySingleNaN.shl_align_fexp. destruct (shl_align _ _ _). apply round_aux_eq. Qed.
Lemma dbl_eq z : dbl z = B2SF (BinarySingleNaN.binary_normalize 53 1024 P53 P1024 mode_NE z 0 false).
Proof. destruct z; cbn -[SpecFloat.binary_round BinarySingleNaN.binary_round]; [reflexivity| |]; rewrite B2SF_SF2B; apply round_eq. Qed.
Lemma dmul_eq (x y : bin) : dmul (B2SF x) (B2SF y) = B2SF (Bmult mode_NE x y).
Proof. unfold dmul. destruct x as [sx|sx| |sx mx ex Bx], y as [sy|sy| |sy my ey By]; try reflexivity. cbn -[SpecFloat.binary_round_aux BinarySingleNaN.binary_round_aux]. rewrite B2SF_SF2B. apply round_aux_eq. Qed.
Lemma ddiv_eq (x y : bin) : ddiv (B2SF x) (B2SF y) = B2SF (Bdiv mode_NE x y).
Proof.
  unfold ddiv. destruct x as [sx|sx| |sx mx ex Bx], y as [sy|sy| |sy my ey By]; try reflexivity. cbn -[SpecFloat.binary_round_aux BinarySingleNaN.binary_round_aux SFdiv_core_binary]. rewrite B2SF_SF2B. destruct (SFdiv_core_binary _ _ _ _ _ _) as [[m e] l]. apply round_aux_eq.
Qed.
(** Integers that are doubles *)
Lemma int_exact m k : (0 <= m < 2 ^ 53)%Z -> (0 <= k <= 900)%Z -> exists x : bin, dbl (m * 2 ^ k) = B2SF x /\ B2R x = IZR (m * 2 ^ k) /\ is_finite x = true /\ Bsign x = false.
Proof.
  intros M K. set (z := (m * 2 ^ k)%Z). assert (Z0 : (0 <= z)%Z) by (unfold z; apply Z.mul_nonneg_nonneg; [lia|apply Z.pow_nonneg; lia]).
  exists (BinarySingleNaN.binary_normalize 53 1024 P53 P1024 mode_NE z 0 false). split; [apply dbl_eq|].
  assert (F0 : F2R (Float radix2 z 0) = IZR z) by (unfold F2R; cbn; lra).
  assert (FK : IZR z = F2R (Float radix2 m k)). { unfold F2R, z. cbn. rewrite mult_IZR. f_equal. rewrite <- IZR_Zpower by lia. reflexivity. }
  assert (G : generic_format radix2 fe (IZR z)). { apply generic_format_FLT. exists (Float radix2 m k); [exact FK|cbn -[Z.pow]; lia|cbn; lia]. }
  pose proof (binary_normalize_correct 53 1024 P53 P1024 mode_NE z 0 false) as C. cbv zeta in C. rewrite F0 in C. cbn [round_mode] in C. rewrite round_generic in C by (exact G || typeclasses eauto).
  assert (LT : (Rabs (IZR z) < bpow radix2 1024)%R).
  { rewrite Rabs_pos_eq by (apply IZR_le; exact Z0). rewrite <- (IZR_Zpower radix2) by lia. apply IZR_lt. unfold z. apply Z.lt_le_trans with (2 ^ 53 * 2 ^ k)%Z; [apply Z.mul_lt_mono_pos_r; [apply Z.pow_pos_nonneg; lia|lia]|]. rewrite <- Z.pow_add_r by lia. change (radix_val radix2) with 2%Z. apply Z.pow_le_mono_r; lia. }
  rewrite Rlt_bool_true in C by exact LT. destruct C as (C1 & C2 & C3). split; [exact C1|]. split; [exact C2|]. rewrite C3. destruct (Rcompare_spec (IZR z) 0) as [L| |]; try reflexivity. apply IZR_le in Z0. lra.
Qed.
Lemma pow10_exact k : (0 <= k <= 22)%Z -> exists x : bin, pow10 k = B2SF x /\ B2R x = IZR (10 ^ k) /\ is_finite x = true /\ Bsign x = false.
Proof.
  intros K. unfold pow10. replace (10 ^ k)%Z with (5 ^ k * 2 ^ k)%Z by (rewrite <- Z.pow_mul_l; reflexivity). apply int_exact; [|lia]. split; [apply Z.pow_nonneg; lia|]. apply Z.le_lt_trans with (5 ^ 22)%Z; [apply Z.pow_le_mono_r; lia|reflexivity].
Qed.
Lemma ten_pos k : (0 <= k)%Z -> ten k = IZR (10 ^ k).
Proof. intros K. unfold ten. destruct k as [|k|k]; [reflexivity| |lia]. cbn -[Z.pow pow]. rewrite <- (positive_nat_Z k). rewrite <- pow_IZR. reflexivity. Qed.
Lemma ten_neg k : (0 <= k)%Z -> ten (- k) = (/ IZR (10 ^ k))%R.
Proof. intros K. rewrite <- ten_pos by exact K. unfold ten. rewrite powerRZ_neg by lra. rewrite powerRZ_inv by lra. reflexivity. Qed.
(** One rounding *)
Lemma strtod_near d p : (0 <= d < 2 ^ 53)%Z -> (-22 <= p <= 22)%Z -> exists x : bin, strtod (dbl d) p = B2SF x /\ B2R x = near (IZR d * ten p) /\ is_finite x = true /\ Bsign x = false.
Proof.
  intros D P. destruct (int_exact d 0 D ltac:(lia)) as (x & EX & RX & FX & SX). rewrite Z.mul_1_r in EX, RX. unfold strtod. destruct (Z.ltb_spec p (-308)); [lia|]. unfold fast_path. destruct (Z.ltb_spec p (-308)); [lia|]. clear H H0.
  assert (B : forall u, (0 <= u <= IZR (2 ^ 53 * 10 ^ 22))%R -> (Rabs (near u) < bpow radix2 1024)%R).
  { intros u (U0 & U1). apply Rle_lt_trans with (bpow radix2 200); [|apply bpow_lt; lia]. apply abs_round_le_generic; [typeclasses eauto|typeclasses eauto|apply generic_format_bpow; cbn; lia|]. rewrite Rabs_pos_eq by exact U0. eapply Rle_trans; [exact U1|]. rewrite <- (IZR_Zpower radix2) by lia. apply IZR_le. vm_compute. discriminate. }
  destruct (Z.leb_spec 0 p) as [P0|P0].
  - destruct (pow10_exact p ltac:(lia)) as (y & EY & RY & FY & SY). rewrite EX, EY, dmul_eq. exists (Bmult mode_NE x y). split; [reflexivity|].
    pose proof (Bmult_correct 53 1024 P53 P1024 mode_NE x y) as C. rewrite RX, RY, FX, FY, SX, SY, <- ten_pos in C by lia. cbn [round_mode xorb andb] in C.
    rewrite Rlt_bool_true in C; [|apply B; rewrite ten_pos by lia; rewrite <- mult_IZR; split; apply IZR_le; [apply Z.mul_nonneg_nonneg; [lia|apply Z.pow_nonneg; lia]|apply Z.mul_le_mono_nonneg; [lia|lia|apply Z.pow_nonneg; lia|apply Z.pow_le_mono_r; lia]]].
    destruct C as (C1 & C2 & C3). split; [exact C1|]. split; [exact C2|]. apply C3. destruct (Bmult mode_NE x y); try reflexivity. discriminate C2.
  - destruct (pow10_exact (- p) ltac:(lia)) as (y & EY & RY & FY & SY). rewrite EX, EY, ddiv_eq. exists (Bdiv mode_NE x y). split; [reflexivity|].
    assert (T1 : (1 <= 10 ^ - p)%Z) by (pose proof (Z.pow_pos_nonneg 10 (- p)); lia). assert (TR : (1 <= IZR (10 ^ - p))%R) by (apply IZR_le; exact T1).
    pose proof (Bdiv_correct 53 1024 P53 P1024 mode_NE x y) as C. rewrite RX, RY, FX, SX, SY in C. specialize (C ltac:(lra)). unfold Rdiv in C. rewrite <- ten_neg in C by lia. rewrite Z.opp_involutive in C. cbn [round_mode xorb] in C.
    assert (T0 : ten p = (/ IZR (10 ^ - p))%R) by (rewrite <- ten_neg by lia; f_equal; lia).
    assert (IN : (0 < / IZR (10 ^ - p) <= 1)%R) by (split; [apply Rinv_0_lt_compat; lra|rewrite <- Rinv_1; apply Rinv_le; lra]).
    assert (D0 : (0 <= IZR d <= IZR (2 ^ 53))%R) by (split; apply IZR_le; lia).
    rewrite Rlt_bool_true in C; [|apply B; rewrite T0; split; [apply Rmult_le_pos; lra|]; apply Rle_trans with (IZR d * 1)%R; [apply Rmult_le_compat_l; lra|]; apply Rle_trans with (IZR (2 ^ 53)); [lra|apply IZR_le; vm_compute; discriminate]].
    destruct C as (C1 & C2 & C3). split; [exact C1|]. split; [exact C2|]. apply C3. destruct (Bdiv mode_NE x y); try reflexivity. discriminate C2.
Qed.
