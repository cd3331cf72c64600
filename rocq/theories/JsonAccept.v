(** Numbers that the reader accepts: those of the grammar whose digits and exponent are not too many. *)
From Coq Require Import String Ascii SpecFloat.
From Verif Require Import Base JsonModel JsonTextModel JsonTextSpec JsonTextProofs JsonReadModel JsonReadSpec JsonReadProofs.
Local Open Scope list_scope.
Local Open Scope char_scope.
Local Open Scope Z_scope.

(** ** The size of a double *)
(** A nonnegative double of at most 2^S *)
Definition small (S : Z) (d : double) : Prop := match d with S754_zero _ => True | S754_finite false m e => -1074 <= e /\ Z.pos m * 2 ^ (e + 3000) <= 2 ^ (S + 3000) | _ => False end.
Lemma iter_pos_m p : forall r, 0 <= shr_m r -> shr_m (SpecFloat.iter_pos shr_1 p r) = shr_m r / 2 ^ Z.pos p.
Proof.
  assert (ONE : forall r, 0 <= shr_m r -> shr_m (shr_1 r) = shr_m r / 2).
  { intros [m a b]. cbn [shr_m shr_1]. destruct m as [|q|q]; intros H; [reflexivity| |lia]. destruct q as [q|q|]; cbn [shr_m]; [|  |reflexivity].
    - rewrite (Pos2Z.inj_xI q). apply (Z.div_unique _ _ _ 1); lia.
    - rewrite (Pos2Z.inj_xO q). apply (Z.div_unique _ _ _ 0); lia. }
  assert (POS : forall p a, 0 <= a -> 0 <= a / 2 ^ Z.pos p) by (intros q a A; apply Z.div_pos; [exact A|apply Z.pow_pos_nonneg; lia]).
  assert (DD : forall a n k, 0 <= n -> 0 <= k -> a / 2 ^ n / 2 ^ k = a / 2 ^ (n + k)) by (intros a n k N K; rewrite Z.div_div by (try apply Z.pow_nonzero; try apply Z.pow_pos_nonneg; lia); rewrite <- Z.pow_add_r by lia; reflexivity).
  induction p as [p IH|p IH|]; intros r H; cbn [SpecFloat.iter_pos].
  - assert (H1 : 0 <= shr_m (shr_1 r)) by (rewrite ONE by exact H; apply Z.div_pos; lia). rewrite IH, IH, ONE; [|exact H|exact H1|rewrite IH by exact H1; apply POS, H1]. change 2 with (2 ^ 1) at 1. rewrite !DD by lia. f_equal. f_equal. lia.
  - rewrite IH, IH; [|exact H|rewrite IH by exact H; apply POS, H]. rewrite !DD by lia. f_equal. f_equal. lia.
  - rewrite ONE by exact H. reflexivity.
Qed.
Lemma digits2_bound p : 2 ^ (Z.pos (digits2_pos p) - 1) <= Z.pos p.
Proof.
  induction p as [p IH|p IH|]; cbn [digits2_pos]; [| |cbn; lia]; rewrite Pos2Z.inj_succ; replace (Z.succ (Z.pos (digits2_pos p)) - 1) with (Z.succ (Z.pos (digits2_pos p) - 1)) by lia; rewrite Z.pow_succ_r by lia; lia.
Qed.
Lemma pow_le2 a b : 0 <= b -> 2 ^ a <= 2 ^ b -> a <= b. Proof. intros B H. destruct (Z.lt_ge_cases a 0); [lia|]. apply Z.pow_le_mono_r_iff in H; lia. Qed.
Lemma digits_value m e S : 0 < m -> -3000 <= e -> 0 <= S -> m * 2 ^ (e + 3000) <= 2 ^ (S + 3000) -> Zdigits2 m + e <= S + 1.
Proof.
  intros M E S0 H. destruct m as [|p|]; [lia| |lia]. cbn [Zdigits2]. pose proof (digits2_bound p) as B. assert (X : 2 ^ (Z.pos (digits2_pos p) - 1 + (e + 3000)) <= 2 ^ (S + 3000)).
  { rewrite Z.pow_add_r by lia. eapply Z.le_trans; [|exact H]. apply Z.mul_le_mono_nonneg_r; [apply Z.pow_nonneg; lia|exact B]. }
  apply pow_le2 in X; lia.
Qed.
Lemma shift_value m e n : 0 <= m -> 0 <= n -> -3000 <= e -> (m / 2 ^ n) * 2 ^ (e + n + 3000) <= m * 2 ^ (e + 3000).
Proof.
  intros M N E. replace (e + n + 3000) with (n + (e + 3000)) by lia. rewrite Z.pow_add_r by lia. rewrite Z.mul_assoc. apply Z.mul_le_mono_nonneg_r; [apply Z.pow_nonneg; lia|]. rewrite Z.mul_comm. apply Z.mul_div_le. apply Z.pow_pos_nonneg; lia.
Qed.
Lemma shr_value m e S : 0 <= m -> -3000 <= e -> 0 <= S -> m * 2 ^ (e + 3000) <= 2 ^ (S + 3000) ->
  let '(r, e') := shr_fexp prec emax m e loc_Exact in
  0 <= shr_m r /\ e <= e' /\ -1074 <= e' /\ shr_m r * 2 ^ (e' + 3000) <= 2 ^ (S + 3000) /\ (e' = e /\ r = Build_shr_record m false false \/ e' <= S).
Proof.
  intros M E S0 H. unfold shr_fexp, shr. cbn [shr_record_of_loc]. set (n := fexp prec emax (Zdigits2 m + e) - e). assert (NV : n = Z.max (Zdigits2 m + e - 53) (-1074) - e) by reflexivity. destruct n as [|p|p] eqn:EN.
  - cbn [shr_m]. repeat (split; [first [lia|exact H]|]). left. auto.
  - rewrite iter_pos_m by exact M. cbn [shr_m]. split; [apply Z.div_pos; [exact M|apply Z.pow_pos_nonneg; lia]|]. split; [lia|]. split; [lia|]. split; [eapply Z.le_trans; [apply shift_value; lia|exact H]|]. right.
    destruct (Z.eq_dec m 0) as [->|NZ]; [cbn [Zdigits2] in NV; destruct (Z.lt_ge_cases (e - 53) (-1074)); lia|]. pose proof (digits_value m e S ltac:(lia) E S0 H). lia.
  - cbn [shr_m]. repeat (split; [first [lia|exact H]|]). left. auto.
Qed.
Lemma round_aux_small m e S : 0 <= m -> -3000 <= e -> 0 <= S <= 900 -> m * 2 ^ (e + 3000) <= 2 ^ (S + 3000) -> small (S + 1) (binary_round_aux prec emax false m e loc_Exact).
Proof.
  intros M E S0 H. unfold binary_round_aux. pose proof (shr_value m e S M E ltac:(lia) H) as A. destruct (shr_fexp prec emax m e loc_Exact) as [r e1]. destruct A as (A1 & A2 & A3 & A4 & A5). set (m1 := round_nearest_even _ _).
  assert (B : 0 <= m1 /\ m1 * 2 ^ (e1 + 3000) <= 2 ^ (S + 1 + 3000)).
  { assert (GROW : 2 ^ (S + 3000) <= 2 ^ (S + 1 + 3000)) by (apply Z.pow_le_mono_r; lia). assert (X : m1 = shr_m r \/ m1 = shr_m r + 1 /\ e1 <= S).
    { destruct A5 as [(_ & ->)|L]; [left; reflexivity|]. subst m1. destruct r as [a [|] [|]]; cbn [loc_of_shr_record round_nearest_even shr_m]; [right; auto| |left; reflexivity|left; reflexivity]. destruct (Z.even a); [left; reflexivity|right; auto]. }
    destruct X as [->|(-> & L)]; [split; [exact A1|lia]|]. split; [lia|]. rewrite Z.mul_add_distr_r, Z.mul_1_l. replace (S + 1 + 3000) with (Z.succ (S + 3000)) by lia. rewrite Z.pow_succ_r by lia. assert (2 ^ (e1 + 3000) <= 2 ^ (S + 3000)) by (apply Z.pow_le_mono_r; lia). lia. }
  destruct B as (B1 & B2). pose proof (shr_value m1 e1 (S + 1) B1 ltac:(lia) ltac:(lia) B2) as C. destruct (shr_fexp prec emax m1 e1 loc_Exact) as [r2 e2]. destruct C as (C1 & C2 & C3 & C4 & _). destruct (shr_m r2) as [|p|p]; [exact Logic.I| |lia].
  assert (L : e2 <= S + 1). { assert (X : 2 ^ (e2 + 3000) <= 2 ^ (S + 1 + 3000)) by (assert (0 <= 2 ^ (e2 + 3000)) by (apply Z.pow_nonneg; lia); nia). apply pow_le2 in X; lia. }
  change (Zle_bool e2 (1024 - 53)) with (e2 <=? 971). destruct (Z.leb_spec e2 971); [|lia]. cbn [small]. split; [exact C3|exact C4].
Qed.
Lemma shift_pos_val d m : Z.pos (shift_pos d m) = Z.pos m * 2 ^ Z.pos d.
Proof. rewrite shift_pos_correct. apply Z.mul_comm. Qed.
Lemma align_value m e e' : -3000 <= e -> -3000 <= e' -> let '(m', e1) := shl_align m e e' in Z.pos m' * 2 ^ (e1 + 3000) = Z.pos m * 2 ^ (e + 3000) /\ Z.min e e' <= e1 <= e.
Proof.
  intros E E'. unfold shl_align. destruct (e' - e) as [|d|d] eqn:D; [split; [reflexivity|lia]|split; [reflexivity|lia]|]. rewrite shift_pos_val. split; [|lia]. rewrite <- Z.mul_assoc, <- Z.pow_add_r by lia. f_equal. f_equal. lia.
Qed.
Lemma align_to m e e' : -3000 <= e' -> e' <= e -> Z.pos (fst (shl_align m e e')) * 2 ^ (e' + 3000) = Z.pos m * 2 ^ (e + 3000).
Proof.
  intros E L. unfold shl_align. destruct (e' - e) as [|d|d] eqn:D; cbn [fst]; [do 2 f_equal; lia|lia|]. rewrite shift_pos_val, <- Z.mul_assoc, <- Z.pow_add_r by lia. f_equal. f_equal. lia.
Qed.
Lemma normalize_small z e S : 0 <= z -> -1074 <= e -> 0 <= S <= 900 -> z * 2 ^ (e + 3000) <= 2 ^ (S + 3000) -> small (S + 1) (binary_normalize prec emax z e false).
Proof.
  intros Z0 E S0 H. destruct z as [|p|p]; [exact Logic.I| |lia]. cbn [binary_normalize]. unfold binary_round. assert (F : -1074 <= fexp prec emax (Z.pos (digits2_pos p) + e)) by (change (-1074 <= Z.max (Z.pos (digits2_pos p) + e - 53) (-1074)); lia).
  set (fe := fexp _ _ _) in *. pose proof (align_value p e fe ltac:(lia) ltac:(lia)) as A. destruct (shl_align p e fe) as [m' e1]. destruct A as (A1 & A2). apply round_aux_small; [lia|lia|exact S0|lia].
Qed.
Lemma dbl_small z S : 0 <= z <= 2 ^ S -> 0 <= S <= 900 -> small (S + 1) (dbl z).
Proof. intros H S0. unfold dbl. apply normalize_small; [lia|lia|exact S0|]. rewrite (Z.pow_add_r 2 S) by lia. change (0 + 3000) with 3000. apply Z.mul_le_mono_nonneg_r; [apply Z.pow_nonneg; lia|lia]. Qed.
Lemma mul10_small d S : small S d -> 0 <= S <= 890 -> small (S + 5) (dmul d (dbl 10)).
Proof.
  intros H S0. assert (T : dbl 10 = S754_finite false 5629499534213120 (-49)) by (vm_compute; reflexivity). unfold dmul. rewrite T. destruct d as [s|s| |[|] m e]; try contradiction; [exact Logic.I|]. destruct H as (E & H). cbn [SFmul xorb].
  replace (S + 5) with (S + 4 + 1) by lia. apply round_aux_small; [lia|lia|lia|]. rewrite Pos2Z.inj_mul. replace (S + 4 + 3000) with (S + 3000 + 4) by lia. rewrite (Z.pow_add_r 2 (S + 3000) 4) by lia.
  assert (X : 5629499534213120 * 2 ^ (e + -49 + 3000) <= 2 ^ 4 * 2 ^ (e + 3000)). { replace (e + 3000) with (49 + (e + -49 + 3000)) by lia. rewrite (Z.pow_add_r 2 49) by lia. rewrite Z.mul_assoc. apply Z.mul_le_mono_nonneg_r; [apply Z.pow_nonneg; lia|]. apply Z.leb_le. vm_compute. reflexivity. }
  rewrite <- Z.mul_assoc. eapply Z.le_trans; [apply Z.mul_le_mono_nonneg_l; [lia|exact X]|]. rewrite Z.mul_assoc, (Z.mul_comm (Z.pos m)), <- Z.mul_assoc, (Z.mul_comm (2 ^ (S + 3000))). apply Z.mul_le_mono_nonneg_l; [lia|exact H].
Qed.
Lemma small_mono d S T : small S d -> S <= T -> 0 <= S -> small T d.
Proof. intros H L S0. destruct d as [s|s| |[|] m e]; try contradiction; [exact Logic.I|]. destruct H as (E & H). split; [exact E|]. eapply Z.le_trans; [exact H|]. apply Z.pow_le_mono_r; lia. Qed.
Lemma add_small a b S : small S a -> small S b -> 0 <= S <= 890 -> small (S + 2) (dadd a b).
Proof.
  intros A B S0. unfold dadd. destruct a as [s|s| |[|] m e]; try contradiction; destruct b as [t|t| |[|] k f]; try contradiction; cbn [SFadd]; try (eapply small_mono; [eassumption|lia|lia]).
  - destruct (Bool.eqb s t); exact Logic.I.
  - destruct A as (EA & A), B as (EB & B). replace (S + 2) with (S + 1 + 1) by lia. unfold cond_Zopp. apply normalize_small; [lia|lia|lia|]. rewrite Z.mul_add_distr_r, !align_to by lia. replace (S + 1 + 3000) with (Z.succ (S + 3000)) by lia. rewrite Z.pow_succ_r by lia. lia.
Qed.
Lemma small_below d S : small S d -> 0 <= S <= 967 -> SFleb max_tenth d = false.
Proof.
  intros H S0. unfold SFleb, max_tenth. destruct d as [s|s| |[|] m e]; try contradiction; [reflexivity|]. destruct H as (E & H). cbn [SFcompare]. assert (L : e <= S). { assert (X : 2 ^ (e + 3000) <= 2 ^ (S + 3000)) by (assert (0 <= 2 ^ (e + 3000)) by (apply Z.pow_nonneg; lia); nia). apply pow_le2 in X; lia. }
  replace (968 ?= e) with Gt; [reflexivity|]. symmetry. apply Z.compare_gt_iff. lia.
Qed.
Lemma big_accepts q s : no_digit q -> digits s -> forall d S, small S d -> 0 <= S -> S + 10 * Z.of_nat (List.length s) <= 890 -> exists d' r, big d (s ++ q) = Some (d', r).
Proof.
  intros N. induction s as [|c s IH]; intros DS d S H S0 L; cbn [app big]; [destruct q as [|c q]; cbn in N |- *; [|rewrite N]; eauto|]. cbn [List.length] in L. inversion DS as [|? ? C DS']; subst. rewrite digit_is by exact C. rewrite (small_below d S H) by lia. apply (IH DS' _ (S + 10)); [|lia|lia].
  replace (S + 10) with (S + 8 + 2) by lia. apply add_small; [eapply small_mono; [apply mul10_small; [exact H|lia]|lia|lia]| |lia]. eapply small_mono; [apply (dbl_small _ 4)|lia|lia]; [change (2 ^ 4) with 16; lia|lia].
Qed.

(** ** Acceptance *)
Lemma digits_prefix a : forall q r r2, digits q -> digits a -> no_digit r -> q ++ r = a ++ r2 -> exists d, q = a ++ d /\ r2 = d ++ r.
Proof.
  induction a as [|c a IH]; intros q r r2 Q A N E; [exists q; auto|]. inversion A as [|? ? C A']; subst. destruct q as [|c' q].
  - cbn [app] in E. subst r. cbn in N. rewrite digit_is in N by exact C. discriminate.
  - cbn [app] in E. injection E as -> E. inversion Q; subst. destruct (IH q r r2) as (d & -> & ->); auto. exists d. auto.
Qed.
Lemma int_accepts minus t r : natural t -> no_digit r -> (List.length t <= 60)%nat -> exists v, int_part minus (t ++ r) = Some (v, r).
Proof.
  intros N ND L. assert (GO : forall v r', int_part minus (t ++ r) = Some (v, r') -> r' = r).
  { intros v r' P. apply int_part_shape in P as (t' & E & N' & K & _). destruct (natural_span _ _ _ _ N N' ND K E) as (_ & <-). reflexivity. }
  assert (X : exists v r', int_part minus (t ++ r) = Some (v, r')); [|destruct X as (v & r' & X); exists v; rewrite X, (GO _ _ X); reflexivity].
  clear GO. destruct N as [->|(c & q & -> & C & D)]; [eexists; eexists; reflexivity|]. cbn [app int_part]. rewrite digit_is by lia. destruct (num c - 48) as [|k|k] eqn:EK; try lia. rewrite <- EK.
  destruct (if minus then stage 214748364 8 (q ++ r) (num c - 48) 0 else stage 429496729 5 (q ++ r) (num c - 48) 0) as [[[i n] r1] over] eqn:S1. destruct over; [|eauto].
  assert (A : exists ds, q ++ r = ds ++ r1 /\ digits ds /\ 0 <= i <= 4294967295).
  { destruct minus; apply stage_spec in S1; try lia; destruct S1 as (ds & E & DS & _ & B & _); exists ds; (split; [exact E|split; [exact DS|lia]]). }
  destruct A as (ds1 & E1 & DS1 & I1). destruct (if minus then stage 922337203685477580 8 r1 i n else stage 1844674407370955161 5 r1 i n) as [[[i2 n2] r2] over] eqn:S2. destruct over; [|eauto].
  assert (A : exists ds, r1 = ds ++ r2 /\ digits ds /\ 0 <= i2 <= 2 ^ 64).
  { destruct minus; apply stage_spec in S2; try lia; destruct S2 as (ds & E & DS & _ & B & _); exists ds; (split; [exact E|split; [exact DS|lia]]). }
  destruct A as (ds2 & -> & DS2 & I2).
  assert (B : exists d3 r3, big (dbl i2) r2 = Some (d3, r3)); [|destruct B as (d3 & r3 & ->); eauto].
  assert (E : q ++ r = (ds1 ++ ds2) ++ r2) by (rewrite <- app_assoc; exact E1). apply digits_prefix in E as (d & EQ & ->); [|exact D|apply Forall_app; split; assumption|exact ND]. subst q. cbn [List.length] in L. rewrite !app_length in L.
  apply big_accepts with (S := 65); [exact ND|apply Forall_app in D; apply D|apply dbl_small with (S := 64); lia|lia|lia].
Qed.
Lemma frac_int_ef s : forall i ef n i' ef' n' r, frac_int i ef n s = (i', ef', n', r) -> ef' <= ef.
Proof. induction s as [|c s IH]; intros i ef n i' ef' n' r H; cbn [frac_int] in H; [injection H as _ <- _ _; lia|]. destruct (digit c); [|injection H as _ <- _ _; lia]. destruct (_ <? i); [injection H as _ <- _ _; lia|]. apply IH in H. lia. Qed.
Lemma frac_dbl_ef s : forall d ef n d' ef' r, frac_dbl d ef n s = (d', ef', r) -> ef' <= ef.
Proof. induction s as [|c s IH]; intros d ef n d' ef' r H; cbn [frac_dbl] in H; [injection H as _ <- _; lia|]. destruct (digit c); [|injection H as _ <- _; lia]. destruct (n <? 17); apply IH in H; lia. Qed.
Lemma frac_accepts v f r : fraction f -> no_digit r -> (f = [] -> consume "." r = None) -> exists v' ef, frac_part v (f ++ r) = Some (v', ef, r) /\ ef <= 0 /\ (f = [] -> v' = v).
Proof.
  intros F N NC. destruct F as [->|(t & -> & NE & D)]; [cbn [app]; unfold frac_part; rewrite NC by reflexivity; exists v, 0; auto with zarith|].
  cbn [app]. unfold frac_part. rewrite consume_hd. destruct t as [|c t]; [congruence|]. cbn [app]. rewrite digit_is by (inversion D; assumption). remember (c :: t ++ r) as s eqn:ES.
  destruct (match v with Whole i n => _ | Real d n => _ end) as [[[d0 ef0] n0] r1] eqn:M.
  assert (EF : ef0 <= 0 /\ exists ds, s = ds ++ r1 /\ digits ds).
  { destruct v as [i n|d n]; [destruct (frac_int i 0 n s) as [[[a b] e] g] eqn:FI; injection M as _ <- _ <-; split; [apply frac_int_ef in FI; exact FI|eapply frac_int_shape, FI]|injection M as _ <- _ <-; split; [lia|exists []; split; [reflexivity|apply Forall_nil]]]. }
  destruct EF as (EF & ds & E1 & D1). destruct (frac_dbl d0 ef0 n0 r1) as [[d1 ef1] r2] eqn:FD. pose proof (frac_dbl_ef _ _ _ _ _ _ _ FD) as L. apply frac_dbl_shape in FD as (ds2 & E2 & D2 & N2). exists (Real d1 n0), ef1.
  assert (E : (c :: t) ++ r = (ds ++ ds2) ++ r2) by (rewrite <- app_assoc, <- E2, <- E1; symmetry; exact ES). apply digits_span in E as (_ & <-); [|exact D|apply Forall_app; split; assumption|exact N|exact N2]. split; [reflexivity|]. split; [lia|discriminate].
Qed.
(** The exponent that a text states *)
Definition exponent_small (t : list ascii) : Prop := forall e s r, t = e :: s ++ r -> (s = [] \/ s = ["+"]) -> digits r -> decimal r <= 308.
Lemma exp_pos_accepts q s lim : no_digit q -> digits s -> 308 <= lim -> forall e, 0 <= e -> decimal_from e s <= 308 -> exp_pos lim e (s ++ q) = Some (decimal_from e s, q).
Proof.
  intros N. induction s as [|c s IH]; intros D L e E B; cbn [app exp_pos]; [destruct q as [|c q]; cbn in N |- *; [|rewrite N]; reflexivity|]. inversion D as [|? ? C D']; subst. rewrite digit_is by exact C. change (decimal_from e (c :: s)) with (decimal_from (e * 10 + (num c - 48)) s) in *.
  assert (G : e * 10 + (num c - 48) <= decimal_from (e * 10 + (num c - 48)) s) by (apply decimal_from_ge; first [exact D'|lia]). destruct (Z.ltb_spec lim (e * 10 + (num c - 48))); [lia|]. apply IH; [exact D'|exact L|lia|exact B].
Qed.
Lemma exp_accepts v ef t r : exponent_text t -> exponent_small t -> ef <= 0 -> ends r -> exists v' e, exp_part v ef (t ++ r) = Some (v', e, r) /\ (t = [] -> v' = v).
Proof.
  intros T SM L E. assert (N : no_digit r) by (apply ends_no_digit, E). destruct T as [->|(e & s & d & -> & CE & CS & NE & D)].
  - cbn [app]. unfold exp_part. destruct r as [|c r]; [eauto|]. destruct (Ascii.eqb_spec c "e") as [->|_]; [discriminate E|]. destruct (Ascii.eqb_spec c "E") as [->|_]; [discriminate E|]. cbn [orb]. eauto.
  - cbn [app]. unfold exp_part. assert (EE : (Ascii.eqb e "e" || Ascii.eqb e "E")%bool = true) by (destruct CE as [->| ->]; reflexivity). rewrite EE. destruct d as [|c d]; [congruence|]. pose proof D as D0. inversion D as [|? ? C D']; subst.
    assert (NP : c <> "+" /\ c <> "-") by (split; intros ->; cbn in C; lia). destruct NP as (NP & NM).
    assert (POS : (s = [] \/ s = ["+"]) -> exp_pos (308 - ef) (num c - 48) (d ++ r) = Some (decimal_from (num c - 48) d, r)).
    { intros CS'. pose proof (SM e s (c :: d) eq_refl CS' D0) as B. unfold decimal in B. cbn [fold_left] in B. apply exp_pos_accepts; [exact N|exact D'|lia|lia|exact B]. }
    destruct CS as [->|[->| ->]]; cbn [app].
    + rewrite (consume_ne "+" c) by congruence. rewrite (consume_ne "-" c) by congruence. rewrite digit_is by exact C. rewrite POS by auto. do 2 eexists. split; [reflexivity|discriminate].
    + rewrite consume_hd, digit_is by exact C. rewrite POS by auto. do 2 eexists. split; [reflexivity|discriminate].
    + rewrite (consume_ne "+" "-") by discriminate. rewrite consume_hd, digit_is by exact C. destruct (exp_neg (num c - 48) (d ++ r)) as [x r3] eqn:EN. apply exp_neg_shape in EN as (ds & E3 & D3 & N3). apply digits_span in E3 as (_ & <-); auto. do 2 eexists. split; [reflexivity|discriminate].
Qed.
Lemma number_accepts minus n f e : natural n -> fraction f -> exponent_text e -> (List.length n <= 60)%nat -> exponent_small e -> exists x, parse_number (minus_text minus ++ n ++ f ++ e) = Some (x, []).
Proof.
  intros N F E L SM. unfold parse_number. assert (ND : no_digit (f ++ e)).
  { destruct F as [->|(t & -> & _)]; [|reflexivity]. destruct E as [->|(c & s & r & -> & [->| ->] & _)]; reflexivity || exact Logic.I. }
  assert (NE : no_digit e) by (destruct E as [->|(c & s & r & -> & [->| ->] & _)]; reflexivity || exact Logic.I).
  assert (M : (match consume "-" (minus_text minus ++ n ++ f ++ e) with Some r => (true, r) | None => (false, minus_text minus ++ n ++ f ++ e) end) = (minus, n ++ f ++ e)).
  { destruct minus; [reflexivity|]. cbn [minus_text app]. apply natural_first in N as (c & r & -> & C & _). cbn [app]. rewrite consume_ne; [reflexivity|]. intros <-. cbn in C. lia. }
  rewrite M. destruct (int_accepts minus n (f ++ e) N ND L) as (v & ->). destruct (frac_accepts v f e F NE) as (v2 & ef & -> & LE & _); [intros ->; destruct E as [->|(c & s & r & -> & [->| ->] & _)]; reflexivity|].
  destruct (exp_accepts v2 ef e [] E SM LE Logic.I) as (v3 & x & X & _). rewrite app_nil_r in X. rewrite X. destruct v3; eauto.
Qed.
