(** What the writer makes of a finite double is a number with a fraction or an exponent, and the reader accepts it. *)
From Coq Require Import String Ascii SpecFloat.
From Verif Require Import Base JsonModel JsonTextModel JsonTextSpec JsonTextProofs JsonReadModel JsonReadSpec JsonReadProofs JsonDoubleModel JsonAccept JsonReadValue.
Local Open Scope list_scope.
Local Open Scope char_scope.
Local Open Scope Z_scope.

Lemma w64_id z : 0 <= z < 2 ^ 64 -> w64 z = z. Proof. apply Z.mod_small. Qed.
(** Decimal digits, the first of them not zero *)
Definition good (ds : list Z) : Prop := exists d r, ds = d :: r /\ 1 <= d <= 9 /\ Forall (fun d => 0 <= d <= 9) r.
Lemma good_app ds d : good ds -> 0 <= d <= 9 -> good (ds ++ [d]).
Proof. intros (a & r & -> & A & R) D. exists a, (r ++ [d]). split; [reflexivity|]. split; [exact A|]. apply Forall_app. split; [exact R|]. apply Forall_cons; [exact D|apply Forall_nil]. Qed.
Lemma round_spec n : forall d delta rest ten wp, 0 <= rest <= delta -> delta < 2 ^ 64 -> 0 < ten -> exists j, grisu_round n d delta rest ten wp = d - j /\ 0 <= j /\ rest + j * ten <= delta.
Proof.
  induction n as [|n IH]; intros d delta rest ten wp R D T; cbn [grisu_round]; [exists 0; lia|]. rewrite (w64_id (delta - rest)) by lia. destruct (Z.leb_spec ten (delta - rest)); [|rewrite andb_false_r; cbn [andb]; exists 0; lia]. rewrite (w64_id (rest + ten)) by lia.
  destruct (_ && _)%bool; [|exists 0; lia]. destruct (IH (d - 1) delta (rest + ten) ten wp ltac:(lia) D T) as (j & -> & J & L). exists (j + 1). lia.
Qed.
Lemma round_last_spec a d delta rest ten wp : round_last (a ++ [d]) delta rest ten wp = a ++ [grisu_round 10 d delta rest ten wp].
Proof. unfold round_last. rewrite rev_app_distr. cbn [rev app]. rewrite rev_involutive. reflexivity. Qed.
Lemma push_good b d : good b -> push b d = b ++ [d]. Proof. intros (a & r & -> & _). reflexivity. Qed.
Lemma below_spec n e wp : 0 < e <= 60 -> forall p2 delta i buffer, good buffer -> 0 <= p2 < 2 ^ e -> 0 <= delta <= p2 ->
  let '(ds, k) := digits_below n e p2 delta wp i buffer in good ds /\ Z.of_nat (List.length ds) + k = Z.of_nat (List.length buffer) - i.
Proof.
  intros E. assert (PE : 0 < 2 ^ e) by (apply Z.pow_pos_nonneg; lia). assert (PL : 2 ^ e <= 2 ^ 60) by (apply Z.pow_le_mono_r; lia). change (2 ^ 60) with 1152921504606846976 in PL.
  induction n as [|n IH]; intros p2 delta i buffer G P D; cbn [digits_below]; [split; [exact G|lia]|]. rewrite (w64_id (p2 * 10)), (w64_id (delta * 10)) by (change (2 ^ 64) with 18446744073709551616; lia).
  set (d := p2 * 10 / 2 ^ e). assert (DM : p2 * 10 = 2 ^ e * d + (p2 * 10) mod 2 ^ e) by (apply Z.div_mod; lia). pose proof (Z.mod_pos_bound (p2 * 10) (2 ^ e) PE) as MB. set (q := (p2 * 10) mod 2 ^ e) in *. assert (DB : 0 <= d <= 9) by (clearbody d q; nia).
  rewrite push_good by exact G. destruct (Z.ltb_spec q (delta * 10)) as [LT|GE].
  - rewrite round_last_spec. destruct (round_spec 10 d (delta * 10) q (2 ^ e) (w64 (wp * (if i + 1 <? 9 then 10 ^ (i + 1) else 0)))) as (j & -> & J & L); [lia|change (2 ^ 64) with 18446744073709551616; lia|exact PE|]. assert (JD : j <= d) by (clearbody d q; nia). split; [apply good_app; [exact G|lia]|]. rewrite app_length. cbn [List.length]. lia.
  - specialize (IH q (delta * 10) (i + 1) (buffer ++ [d]) (good_app _ _ G DB) MB ltac:(lia)). destruct (digits_below n e q (delta * 10) wp (i + 1) (buffer ++ [d])) as [ds k]. destruct IH as (IH1 & IH2). split; [exact IH1|]. rewrite app_length in IH2. cbn [List.length] in IH2. lia.
Qed.
(** One round of the first loop *)
Lemma above_step kappa e p1 p2 delta : 0 < e <= 60 -> 0 <= p1 < 10 ^ (Z.of_nat kappa + 1) -> 0 <= p2 < 2 ^ e -> 0 <= delta < 2 ^ 64 -> delta < p1 * 2 ^ e + p2 -> 10 ^ Z.of_nat kappa * 2 ^ e < 2 ^ 64 ->
  let d := p1 / 10 ^ Z.of_nat kappa in let p := p1 mod 10 ^ Z.of_nat kappa in
  0 <= d <= 9 /\ 0 <= p < 10 ^ Z.of_nat kappa /\ w64 (p * 2 ^ e + p2) = p * 2 ^ e + p2 /\ w64 (10 ^ Z.of_nat kappa * 2 ^ e) = 10 ^ Z.of_nat kappa * 2 ^ e /\
  (p * 2 ^ e + p2 <= delta -> forall wp, exists j, grisu_round 10 d delta (p * 2 ^ e + p2) (10 ^ Z.of_nat kappa * 2 ^ e) wp = d - j /\ 0 <= j < d).
Proof.
  intros E P1 P2 D L O. cbn zeta. assert (PE : 0 < 2 ^ e) by (apply Z.pow_pos_nonneg; lia). assert (PT : 0 < 10 ^ Z.of_nat kappa) by (apply Z.pow_pos_nonneg; lia). rewrite Z.pow_add_r in P1 by lia. change (10 ^ 1) with 10 in P1.
  set (t := 10 ^ Z.of_nat kappa) in *. set (u := 2 ^ e) in *. assert (DM : p1 = t * (p1 / t) + p1 mod t) by (apply Z.div_mod; lia). pose proof (Z.mod_pos_bound p1 t PT) as MB. set (d := p1 / t) in *. set (p := p1 mod t) in *. clearbody t u d p.
  assert (TU : 0 < t * u) by nia. assert (PU : p * u + p2 < t * u) by nia. assert (PU0 : 0 <= p * u) by nia. split; [nia|]. split; [exact MB|]. split; [apply w64_id; lia|]. split; [apply w64_id; lia|]. intros LE wp.
  destruct (round_spec 10 d delta (p * u + p2) (t * u) wp) as (j & -> & J & B); [lia|lia|exact TU|]. exists j. split; [reflexivity|]. split; [exact J|]. nia.
Qed.
Lemma above_spec kappa e p2 delta wp : 0 < e <= 60 -> 0 <= p2 < 2 ^ e -> 0 <= delta < 2 ^ 64 -> forall p1 buffer, good buffer -> 0 <= p1 < 10 ^ Z.of_nat kappa -> delta < p1 * 2 ^ e + p2 -> 10 ^ Z.of_nat kappa * 2 ^ e < 2 ^ 64 ->
  let '(ds, k) := digits_above kappa e p1 p2 delta wp buffer in good ds /\ Z.of_nat (List.length ds) + k = Z.of_nat (List.length buffer) + Z.of_nat kappa.
Proof.
  intros E P2 D. induction kappa as [|kappa IH]; intros p1 buffer G P1 L O.
  - cbn [digits_above]. change (10 ^ Z.of_nat 0) with 1 in P1. assert (p1 = 0) as -> by lia. pose proof (below_spec 20 e wp E p2 delta 0 buffer G P2 ltac:(lia)) as B. destruct (digits_below 20 e p2 delta wp 0 buffer) as [ds k]. destruct B as (B1 & B2). split; [exact B1|lia].
  - cbn [digits_above]. replace (Z.of_nat (S kappa)) with (Z.of_nat kappa + 1) in * by lia. assert (O' : 10 ^ Z.of_nat kappa * 2 ^ e < 2 ^ 64). { rewrite Z.pow_add_r in O by lia. assert (0 < 2 ^ e) by (apply Z.pow_pos_nonneg; lia). assert (0 < 10 ^ Z.of_nat kappa) by (apply Z.pow_pos_nonneg; lia). nia. }
    destruct (above_step kappa e p1 p2 delta E P1 P2 D L O') as (DB & PB & W1 & W2 & R). cbn zeta in DB, PB, W1, W2, R. rewrite W1, W2, push_good by exact G. destruct (Z.leb_spec ((p1 mod 10 ^ Z.of_nat kappa) * 2 ^ e + p2) delta) as [LE|GT].
    + rewrite round_last_spec. destruct (R LE wp) as (j & -> & J). split; [apply good_app; [exact G|lia]|]. rewrite app_length. cbn [List.length]. lia.
    + specialize (IH (p1 mod 10 ^ Z.of_nat kappa) (buffer ++ [p1 / 10 ^ Z.of_nat kappa]) (good_app _ _ G DB) PB GT O'). destruct (digits_above kappa e (p1 mod 10 ^ Z.of_nat kappa) p2 delta wp (buffer ++ [p1 / 10 ^ Z.of_nat kappa])) as [ds k]. destruct IH as (IH1 & IH2). split; [exact IH1|]. rewrite app_length in IH2. cbn [List.length] in IH2. lia.
Qed.
Lemma above_first kappa e p1 p2 delta wp : 0 < e <= 60 -> 0 <= p2 < 2 ^ e -> 0 <= delta < 2 ^ 64 -> 10 ^ Z.of_nat kappa <= p1 < 10 ^ (Z.of_nat kappa + 1) -> p1 * 2 ^ e < 2 ^ 64 -> delta < p1 * 2 ^ e + p2 ->
  let '(ds, k) := digits_above (S kappa) e p1 p2 delta wp [] in good ds /\ Z.of_nat (List.length ds) + k = Z.of_nat kappa + 1.
Proof.
  intros E P2 D P1 O L. cbn [digits_above]. assert (PE : 0 < 2 ^ e) by (apply Z.pow_pos_nonneg; lia). assert (PT : 0 < 10 ^ Z.of_nat kappa) by (apply Z.pow_pos_nonneg; lia). assert (O' : 10 ^ Z.of_nat kappa * 2 ^ e < 2 ^ 64) by nia.
  destruct (above_step kappa e p1 p2 delta E ltac:(lia) P2 D L O') as (DB & PB & W1 & W2 & R). cbn zeta in DB, PB, W1, W2, R. rewrite W1, W2. assert (D1 : 1 <= p1 / 10 ^ Z.of_nat kappa) by (apply Z.div_le_lower_bound; lia).
  unfold push. destruct (Z.eqb_spec (p1 / 10 ^ Z.of_nat kappa) 0); [lia|]. assert (G : forall d, 1 <= d <= 9 -> good [d]) by (intros d H; exists d, []; split; [reflexivity|split; [exact H|apply Forall_nil]]).
  destruct (Z.leb_spec ((p1 mod 10 ^ Z.of_nat kappa) * 2 ^ e + p2) delta) as [LE|GT].
  - change ([p1 / 10 ^ Z.of_nat kappa]) with ([] ++ [p1 / 10 ^ Z.of_nat kappa]). rewrite round_last_spec. destruct (R LE wp) as (j & -> & J). cbn [app List.length]. split; [apply G; lia|lia].
  - pose proof (above_spec kappa e p2 delta wp E P2 D (p1 mod 10 ^ Z.of_nat kappa) [p1 / 10 ^ Z.of_nat kappa] (G (p1 / 10 ^ Z.of_nat kappa) ltac:(lia)) PB GT O') as A. destruct (digits_above kappa e (p1 mod 10 ^ Z.of_nat kappa) p2 delta wp [p1 / 10 ^ Z.of_nat kappa]) as [ds k]. destruct A as (A1 & A2). split; [exact A1|]. cbn [List.length] in A2. lia.
Qed.
Lemma count_spec n : 1 <= n < 10 ^ 9 -> exists kappa, count_digits n = S kappa /\ 10 ^ Z.of_nat kappa <= n < 10 ^ (Z.of_nat kappa + 1) /\ Z.of_nat kappa <= 8.
Proof.
  intros H. unfold count_digits. change (10 ^ 9) with 1000000000 in H. repeat match goal with |- context [n <? ?a] => destruct (Z.ltb_spec n a) end; eexists; (split; [reflexivity|]); cbn; lia.
Qed.

(** ** The cached powers.  All the exponents that occur. *)
Definition fits_table (e : Z) : bool :=
  let '((cf, ce), k) := cached_power e in
  let x := - (e + ce + 64) in
  (2 ^ 63 <=? cf) && (cf <? 2 ^ 64) && (32 <=? x) && (x <=? 60) && (cf / 2 ^ x <? 10 ^ 9) && (k + Z.of_nat (count_digits (cf / 2 ^ x)) <=? 309).
Lemma table_all : forallb (fun i => fits_table (Z.of_nat i - 1137)) (seq 0 2098) = true. Proof. vm_compute. reflexivity. Qed.
Lemma table e : -1137 <= e <= 960 -> fits_table e = true.
Proof.
  intros E. replace e with (Z.of_nat (Z.to_nat (e + 1137)) - 1137) by lia. apply (proj1 (forallb_forall _ _) table_all). apply in_seq. lia.
Qed.
Lemma count_mono a b : 1 <= a <= b -> b < 10 ^ 9 -> (count_digits a <= count_digits b)%nat.
Proof.
  intros H L. unfold count_digits. repeat match goal with |- context [?n <? ?a] => destruct (Z.ltb_spec n a) end; lia.
Qed.
Lemma mul_bounds f e cf ce : 0 <= f < 2 ^ 64 -> 0 <= cf < 2 ^ 64 ->
  snd (diy_mul (f, e) (cf, ce)) = e + ce + 64 /\ f * cf / 2 ^ 64 <= fst (diy_mul (f, e) (cf, ce)) <= f * cf / 2 ^ 64 + 1 /\ fst (diy_mul (f, e) (cf, ce)) <= cf.
Proof.
  intros F C. unfold diy_mul. cbn [fst snd]. split; [reflexivity|]. assert (Q : 0 <= f * cf / 2 ^ 64) by (apply Z.div_pos; nia). assert (B : 0 < cf -> f * cf / 2 ^ 64 <= cf - 1) by (intros P; assert (f * cf / 2 ^ 64 < cf) by (apply Z.div_lt_upper_bound; nia); lia).
  destruct (Z.eq_dec cf 0) as [->|NZ]; [rewrite Z.mul_0_r; cbn; lia|]. destruct (Z.testbit (f * cf) 63); rewrite w64_id; lia.
Qed.
Lemma boundaries_spec f e : 0 < f < 2 ^ 53 -> exists mf pl x, boundaries (f, e) = ((mf, x), (pl, x)) /\ 2 ^ 63 <= pl < 2 ^ 64 /\ 1 <= mf /\ mf + 2 ^ 10 <= pl /\ e - 63 <= x <= e - 11.
Proof.
  intros F. unfold boundaries, normalize_boundary. cbn [fst snd].
  rewrite (w64_id (f * 2 + 1)) by lia. set (L := Z.log2 (f * 2 + 1)). assert (LB : 2 ^ L <= f * 2 + 1 < 2 ^ (L + 1)) by (apply Z.log2_spec; lia). assert (L1 : 1 <= L) by (change 1 with (Z.log2 2); apply Z.log2_le_mono; lia). assert (L2 : L <= 53) by (change 53 with (Z.log2 (2 ^ 53 * 2 - 1)); apply Z.log2_le_mono; lia).
  clearbody L. replace (53 - L + 10) with (63 - L) by lia. replace (e - 1 - (53 - L) - 10) with (e - 64 + L) by lia. rewrite (Z.shiftl_mul_pow2 (f * 2 + 1)) by lia. set (u := 2 ^ (63 - L)).
  assert (U1 : 2 ^ L * u = 2 ^ 63) by (unfold u; rewrite <- Z.pow_add_r by lia; f_equal; lia). assert (U2 : 2 ^ (L + 1) * u = 2 ^ 64) by (unfold u; rewrite <- Z.pow_add_r by lia; f_equal; lia). assert (U3 : 2 ^ 10 <= u) by (apply Z.pow_le_mono_r; lia).
  set (pl := (f * 2 + 1) * u). assert (PL : 2 ^ 63 <= pl < 2 ^ 64) by (unfold pl; nia). rewrite (w64_id pl) by lia.
  destruct (Z.eqb_spec f (2 ^ 52)) as [EF|NF].
  - assert (L = 53) as -> by (assert (53 <= L) by (apply Z.lt_succ_r, (Z.pow_lt_mono_r_iff 2); [lia|lia|]; replace (Z.succ L) with (L + 1) by lia; lia); lia). rewrite (w64_id (f * 4 - 1)) by lia. rewrite Z.shiftl_mul_pow2 by lia. replace (e - 2 - (e - 64 + 53)) with 9 by lia. do 3 eexists. split; [reflexivity|]. split; [exact PL|]. unfold pl, u in *. change (2 ^ (63 - 53)) with 1024 in *. change (2 ^ 9) with 512. change (2 ^ 10) with 1024. rewrite w64_id by lia. lia.
  - rewrite (w64_id (f * 2 - 1)) by lia. rewrite Z.shiftl_mul_pow2 by lia. replace (e - 1 - (e - 64 + L)) with (63 - L) by lia. fold u. do 3 eexists. split; [reflexivity|]. split; [exact PL|]. unfold pl in *. rewrite w64_id by nia. split; [nia|]. split; [nia|]. lia.
Qed.
Lemma grisu_good b : 0 < b < 2047 * 2 ^ 52 -> let '(ds, k) := grisu2 b in good ds /\ Z.of_nat (List.length ds) + k <= 309.
Proof.
  intros B. assert (V : let '(f, e) := diy_of b in 0 < f < 2 ^ 53 /\ -1074 <= e <= 971).
  { unfold diy_of, exponent, significand. pose proof (Z.mod_pos_bound b (2 ^ 52) ltac:(lia)) as M. pose proof (Z.div_mod b (2 ^ 52) ltac:(lia)) as DM. assert (Q : 0 <= b / 2 ^ 52 < 2047) by (split; [apply Z.div_pos; lia|apply Z.div_lt_upper_bound; lia]). rewrite (Z.mod_small (b / 2 ^ 52)) by lia. destruct (Z.eqb_spec (b / 2 ^ 52) 0); lia. }
  unfold grisu2. destruct (diy_of b) as [f e]. destruct V as (F & E). destruct (boundaries_spec f e F) as (mf & pl & x & -> & PL & MI1 & MI2 & X0). assert (X : -1137 <= x <= 960) by lia.
  pose proof (table x X) as T. unfold fits_table in T. cbn [snd]. destruct (cached_power x) as [[cf ce] k]. rewrite !andb_true_iff, !Z.leb_le, !Z.ltb_lt in T. destruct T as (((((T1 & T2) & T3) & T4) & T5) & T6).
  destruct (mul_bounds pl x cf ce ltac:(lia) ltac:(lia)) as (S1 & P1 & P2). destruct (mul_bounds mf x cf ce ltac:(lia) ltac:(lia)) as (_ & M1 & _).
  set (w := diy_mul (normalize (f, e)) (cf, ce)). destruct (diy_mul (pl, x) (cf, ce)) as [p pe]. destruct (diy_mul (mf, x) (cf, ce)) as [m me]. cbn [fst snd] in *. subst pe.
  assert (LOW : 2 ^ 62 <= p) by (assert (2 ^ 62 <= pl * cf / 2 ^ 64) by (apply Z.div_le_lower_bound; nia); lia).
  assert (DIFF : m + 4 <= p). { assert (mf * cf / 2 ^ 64 + 5 <= pl * cf / 2 ^ 64); [|lia]. apply Z.div_le_lower_bound; [lia|]. pose proof (Z.mul_div_le (mf * cf) (2 ^ 64) ltac:(lia)). nia. }
  assert (M0 : 0 <= m) by (assert (0 <= mf * cf / 2 ^ 64) by (apply Z.div_pos; nia); lia).
  cbv zeta. cbn [fst snd]. rewrite (w64_id (p - 1)), (w64_id (m + 1)), (w64_id (p - 1 - (m + 1))) by lia. unfold digit_gen. cbn [fst snd]. set (y := - (x + ce + 64)) in *. assert (Y : 32 <= y <= 60) by lia. clearbody y.
  assert (PY : 0 < 2 ^ y) by (apply Z.pow_pos_nonneg; lia). assert (PY2 : 2 ^ y <= 2 ^ 60) by (apply Z.pow_le_mono_r; lia).
  assert (Q1 : 1 <= (p - 1) / 2 ^ y) by (apply Z.div_le_lower_bound; lia). assert (Q2 : (p - 1) / 2 ^ y <= cf / 2 ^ y) by (apply Z.div_le_mono; lia). rewrite (Z.mod_small ((p - 1) / 2 ^ y)) by lia. set (p1 := (p - 1) / 2 ^ y) in *. pose proof (Z.mod_pos_bound (p - 1) (2 ^ y) PY) as RB. assert (DM : p - 1 = 2 ^ y * p1 + (p - 1) mod 2 ^ y) by (apply Z.div_mod; lia). set (p2 := (p - 1) mod 2 ^ y) in *.
  destruct (count_spec p1 ltac:(lia)) as (kappa & EC & KB & KL). pose proof (count_mono p1 (cf / 2 ^ y) ltac:(lia) T5) as CM. rewrite EC in CM |- *.
  pose proof (above_first kappa y p1 p2 (p - 1 - (m + 1)) (w64 (p - 1 - fst w)) ltac:(lia) RB ltac:(lia) KB ltac:(nia) ltac:(lia)) as A. destruct (digits_above (S kappa) y p1 p2 (p - 1 - (m + 1)) (w64 (p - 1 - fst w)) []) as [ds dk]. destruct A as (A1 & A2). split; [exact A1|]. lia.
Qed.

(** ** Prettify *)
Lemma chr_code d : 0 <= d <= 9 -> nat_of_ascii (chr d) = Z.to_nat (48 + d).
Proof. intros H. unfold chr. apply nat_ascii_embedding. lia. Qed.
Lemma chr_num d : 0 <= d <= 9 -> num (chr d) - 48 = d. Proof. intros H. rewrite chr_code by exact H. lia. Qed.
Lemma chr_digit d : 0 <= d <= 9 -> (48 <= nat_of_ascii (chr d) <= 57)%nat. Proof. intros H. rewrite chr_code by exact H. lia. Qed.
Lemma chr_digits ds : Forall (fun d => 0 <= d <= 9) ds -> digits (map chr ds).
Proof. intros H. apply Forall_map. eapply Forall_impl; [|exact H]. intros d D. apply chr_digit, D. Qed.
Lemma zeros_digits n : digits (zeros n).
Proof. unfold zeros. induction (Z.to_nat n) as [|k IH]; cbn [repeat]; [apply Forall_nil|apply Forall_cons; [cbn; lia|exact IH]]. Qed.
Lemma exponent_written k : -999 <= k <= 999 ->
  exists s r, write_exponent k = s ++ r /\ (s = [] \/ s = ["-"]) /\ (s = [] -> 0 <= k) /\ r <> [] /\ digits r /\ decimal r = Z.abs k.
Proof.
  intros K. unfold write_exponent. set (a := Z.abs k). assert (A : 0 <= a <= 999) by lia. exists (if k <? 0 then ["-"] else []). eexists. split; [reflexivity|]. split; [destruct (k <? 0); auto|]. split; [destruct (Z.ltb_spec k 0); [discriminate|lia]|].
  pose proof (Z.div_mod a 100 ltac:(lia)). pose proof (Z.mod_pos_bound a 100 ltac:(lia)). pose proof (Z.div_mod (a mod 100) 10 ltac:(lia)). pose proof (Z.mod_pos_bound (a mod 100) 10 ltac:(lia)). pose proof (Z.div_mod a 10 ltac:(lia)). pose proof (Z.mod_pos_bound a 10 ltac:(lia)).
  destruct (Z.leb_spec 100 a); [|destruct (Z.leb_spec 10 a)]; (split; [discriminate|]); unfold decimal; cbn [fold_left].
  - split; [repeat (apply Forall_cons; [apply chr_digit; lia|]); apply Forall_nil|]. rewrite !chr_num by lia. lia.
  - split; [repeat (apply Forall_cons; [apply chr_digit; lia|]); apply Forall_nil|]. rewrite !chr_num by lia. lia.
  - split; [repeat (apply Forall_cons; [apply chr_digit; lia|]); apply Forall_nil|]. rewrite !chr_num by lia. lia.
Qed.
Lemma prefix_sign (e e' : ascii) s s' r r' : e :: s ++ r = e' :: s' ++ r' -> (s = [] \/ s = ["-"]) -> (s' = [] \/ s' = ["+"]) -> digits r -> digits r' -> r <> [] -> r' <> [] -> s = [] /\ (s' = [] -> r = r').
Proof.
  intros E S S' D D' N N'. injection E as _ E. destruct S as [->| ->].
  - split; [reflexivity|]. intros ->. exact E.
  - exfalso. destruct S' as [->| ->]; cbn [app] in E; [|discriminate]. subst r'. inversion D' as [|? ? C _]; subst. cbn in C. lia.
Qed.
Lemma exponent_ok k c : c = "e" \/ c = "E" -> -999 <= k <= 308 -> exponent_text (c :: write_exponent k) /\ exponent_small (c :: write_exponent k).
Proof.
  intros C K. destruct (exponent_written k ltac:(lia)) as (s & r & -> & S & SK & NE & D & V). split.
  - right. exists c, s, r. split; [reflexivity|]. split; [exact C|]. split; [destruct S as [->| ->]; auto|]. auto.
  - intros e s' r' E S' D'. destruct r' as [|c' r'].
    + unfold decimal. cbn. lia.
    + destruct (prefix_sign _ _ _ _ _ _ E S S' D D' NE ltac:(discriminate)) as (-> & X). destruct S' as [->| ->].
      * rewrite <- (X eq_refl), V. specialize (SK eq_refl). lia.
      * cbn [app] in E. injection E as _ E. subst r. inversion D as [|? ? CC _]; subst. cbn in CC. lia.
Qed.
(** A number that is not an integer of the document, and that the reader takes *)
Definition real_form (t : list ascii) : Prop := exists n f e, t = n ++ f ++ e /\ natural n /\ fraction f /\ exponent_text e /\ (f <> [] \/ e <> []) /\ (List.length n <= 60)%nat /\ exponent_small e.
Lemma no_exponent : exponent_text [] /\ exponent_small []. Proof. split; [left; reflexivity|]. intros e s r E. discriminate. Qed.
Lemma prettify_form ds k : good ds -> Z.of_nat (List.length ds) + k <= 309 -> real_form (prettify ds k).
Proof.
  intros (d & r & -> & D & R) L. unfold prettify. set (kk := Z.of_nat (List.length (d :: r)) + k) in *. cbn [map]. assert (DR : digits (map chr r)) by (apply chr_digits, R). assert (DC : (49 <= nat_of_ascii (chr d) <= 57)%nat) by (rewrite chr_code by lia; lia). assert (DD : (48 <= nat_of_ascii (chr d) <= 57)%nat) by lia. destruct no_exponent as (X1 & X2).
  assert (LM : List.length (map chr r) = List.length r) by apply map_length. cbn [List.length] in kk.
  destruct (Z.leb_spec 0 k) as [K0|K0]; [destruct (Z.leb_spec kk 21) as [K1|K1]|]; cbn [andb].
  - exists (chr d :: map chr r ++ zeros k), ["."; "0"], []. split; [cbn [app]; rewrite <- app_assoc; reflexivity|]. split; [right; exists (chr d), (map chr r ++ zeros k); split; [reflexivity|split; [exact DC|apply Forall_app; split; [exact DR|apply zeros_digits]]]|].
    split; [right; exists ["0"]; split; [reflexivity|split; [discriminate|apply Forall_cons; [cbn; lia|apply Forall_nil]]]|]. split; [exact X1|]. split; [left; discriminate|]. split; [|exact X2]. cbn [List.length]. rewrite app_length, map_length. unfold zeros. rewrite repeat_length. lia.
  - rewrite andb_false_r. destruct (Z.leb_spec kk 0); [lia|]. rewrite andb_false_r. destruct (Z.ltb_spec kk (-324)); [lia|]. destruct (exponent_ok (kk - 1) "e" (or_introl eq_refl) ltac:(lia)) as (E1 & E2).
    destruct (map chr r) as [|c q] eqn:MR.
    + exists [chr d], [], ("e" :: write_exponent (kk - 1)). split; [reflexivity|]. split; [right; exists (chr d), []; split; [reflexivity|split; [exact DC|apply Forall_nil]]|]. split; [left; reflexivity|]. split; [exact E1|]. split; [right; discriminate|]. split; [cbn; lia|exact E2].
    + exists [chr d], ("." :: c :: q), ("e" :: write_exponent (kk - 1)). split; [reflexivity|]. split; [right; exists (chr d), []; split; [reflexivity|split; [exact DC|apply Forall_nil]]|]. split; [right; exists (c :: q); split; [reflexivity|split; [discriminate|exact DR]]|]. split; [exact E1|]. split; [right; discriminate|]. split; [cbn; lia|exact E2].
  - destruct (Z.ltb_spec 0 kk) as [K1|K1].
    + destruct (Z.leb_spec kk 21) as [K2|K2]; cbn [andb].
      * assert (EK : exists n, Z.to_nat kk = S n /\ (n < List.length r)%nat /\ (n <= 20)%nat) by (exists (Z.to_nat (kk - 1)); lia). destruct EK as (n & -> & NL & N20). cbn [firstn skipn]. exists (chr d :: firstn n (map chr r)), ("." :: skipn n (map chr r)), []. split; [cbn [app]; rewrite app_nil_r; reflexivity|].
        rewrite <- (firstn_skipn n (map chr r)) in DR. apply Forall_app in DR as (DR1 & DR2). split; [right; do 2 eexists; split; [reflexivity|split; [exact DC|exact DR1]]|]. split; [right; eexists; split; [reflexivity|split; [|exact DR2]]; intros E; apply (f_equal (@List.length _)) in E; rewrite skipn_length, LM in E; cbn in E; lia|].
        split; [exact X1|]. split; [left; discriminate|]. split; [|exact X2]. cbn [List.length]. rewrite firstn_length. lia.
      * destruct (Z.leb_spec kk 0); [lia|]. rewrite andb_false_r. destruct (Z.ltb_spec kk (-324)); [lia|]. destruct (exponent_ok (kk - 1) "e" (or_introl eq_refl) ltac:(lia)) as (E1 & E2).
        destruct (map chr r) as [|c q] eqn:MR.
        -- exists [chr d], [], ("e" :: write_exponent (kk - 1)). split; [reflexivity|]. split; [right; exists (chr d), []; split; [reflexivity|split; [exact DC|apply Forall_nil]]|]. split; [left; reflexivity|]. split; [exact E1|]. split; [right; discriminate|]. split; [cbn; lia|exact E2].
        -- exists [chr d], ("." :: c :: q), ("e" :: write_exponent (kk - 1)). split; [reflexivity|]. split; [right; exists (chr d), []; split; [reflexivity|split; [exact DC|apply Forall_nil]]|]. split; [right; exists (c :: q); split; [reflexivity|split; [discriminate|exact DR]]|]. split; [exact E1|]. split; [right; discriminate|]. split; [cbn; lia|exact E2].
    + cbn [andb]. destruct (Z.leb_spec kk 0); [|lia]. destruct (Z.ltb_spec (-6) kk) as [K2|K2]; cbn [andb].
      * exists ["0"], ("." :: zeros (- kk) ++ chr d :: map chr r), []. split; [cbn [app]; rewrite app_nil_r; reflexivity|]. split; [left; reflexivity|]. split; [right; eexists; split; [reflexivity|split; [destruct (zeros (- kk)); discriminate|apply Forall_app; split; [apply zeros_digits|apply Forall_cons; [exact DD|exact DR]]]]|]. split; [exact X1|]. split; [left; discriminate|]. split; [cbn; lia|exact X2].
      * destruct (Z.ltb_spec kk (-324)) as [K3|K3].
        -- exists ["0"], ["."; "0"], []. split; [reflexivity|]. split; [left; reflexivity|]. split; [right; exists ["0"]; split; [reflexivity|split; [discriminate|apply Forall_cons; [cbn; lia|apply Forall_nil]]]|]. split; [exact X1|]. split; [left; discriminate|]. split; [cbn; lia|exact X2].
        -- destruct (exponent_ok (kk - 1) "e" (or_introl eq_refl) ltac:(lia)) as (E1 & E2). destruct (map chr r) as [|c q] eqn:MR.
           ++ exists [chr d], [], ("e" :: write_exponent (kk - 1)). split; [reflexivity|]. split; [right; exists (chr d), []; split; [reflexivity|split; [exact DC|apply Forall_nil]]|]. split; [left; reflexivity|]. split; [exact E1|]. split; [right; discriminate|]. split; [cbn; lia|exact E2].
           ++ exists [chr d], ("." :: c :: q), ("e" :: write_exponent (kk - 1)). split; [reflexivity|]. split; [right; exists (chr d), []; split; [reflexivity|split; [exact DC|apply Forall_nil]]|]. split; [right; exists (c :: q); split; [reflexivity|split; [discriminate|exact DR]]|]. split; [exact E1|]. split; [right; discriminate|]. split; [cbn; lia|exact E2].
Qed.
Lemma zero_form : real_form ["0"; "."; "0"].
Proof. destruct no_exponent as (X1 & X2). exists ["0"], ["."; "0"], []. split; [reflexivity|]. split; [left; reflexivity|]. split; [right; exists ["0"]; split; [reflexivity|split; [discriminate|apply Forall_cons; [cbn; lia|apply Forall_nil]]]|]. split; [exact X1|]. split; [left; discriminate|]. split; [cbn; lia|exact X2]. Qed.
Lemma dtoa_form b : 0 <= b < 2 ^ 64 -> finite b = true -> exists minus t, dtoa b = minus_text minus ++ t /\ real_form t.
Proof.
  intros B F. unfold dtoa. exists (sign_bit b). destruct (Z.eqb_spec (b mod 2 ^ 63) 0) as [Z0|NZ].
  - exists ["0"; "."; "0"]. split; [destruct (sign_bit b); reflexivity|apply zero_form].
  - pose proof (Z.mod_pos_bound b (2 ^ 63) ltac:(lia)) as MB. assert (R : 0 < b mod 2 ^ 63 < 2047 * 2 ^ 52).
    { split; [lia|]. unfold finite, exponent in F. apply negb_true_iff, Z.eqb_neq in F. assert (Q : (b / 2 ^ 52) mod 2 ^ 11 = b mod 2 ^ 63 / 2 ^ 52).
      { pose proof (Z.div_mod b (2 ^ 63) ltac:(lia)) as DM. rewrite DM at 1. change (2 ^ 63 * (b / 2 ^ 63) + b mod 2 ^ 63) with (2 ^ 63 * (b / 2 ^ 63) + b mod 2 ^ 63). replace (2 ^ 63 * (b / 2 ^ 63) + b mod 2 ^ 63) with (2 ^ 11 * (b / 2 ^ 63) * 2 ^ 52 + b mod 2 ^ 63) by lia. rewrite Z.div_add_l by lia. rewrite Z.add_comm, Z.mul_comm, Z.mod_add by lia. apply Z.mod_small. split; [apply Z.div_pos; lia|apply Z.div_lt_upper_bound; lia]. }
      rewrite Q in F. assert (b mod 2 ^ 63 / 2 ^ 52 < 2 ^ 11) by (apply Z.div_lt_upper_bound; lia). assert (b mod 2 ^ 63 / 2 ^ 52 <= 2046) by lia. pose proof (Z.div_mod (b mod 2 ^ 63) (2 ^ 52) ltac:(lia)). pose proof (Z.mod_pos_bound (b mod 2 ^ 63) (2 ^ 52) ltac:(lia)). lia. }
    pose proof (grisu_good _ R) as G. destruct (grisu2 (b mod 2 ^ 63)) as [ds k]. destruct G as (G1 & G2). exists (prettify ds k). split; [destruct (sign_bit b); reflexivity|apply prettify_form; assumption].
Qed.
Lemma whole_unique minus n f e z : natural n -> fraction f -> exponent_text e -> whole_text z (minus_text minus ++ n ++ f ++ e) -> f = [] /\ e = [].
Proof.
  intros N F E (minus' & n' & EQ & N' & _). assert (D' : digits n') by (apply natural_digits, N'). assert (A : n ++ f ++ e = n').
  { apply natural_first in N as (c & r & -> & C & _). apply natural_first in N' as (c' & r' & -> & C' & _). destruct minus, minus'; cbn [minus_text app] in EQ; [injection EQ as -> E2; rewrite <- E2; reflexivity|injection EQ as EQ _; subst; cbn in C'; lia|injection EQ as EQ _; subst; cbn in C; lia|exact EQ]. }
  rewrite <- A in D'. apply Forall_app in D' as (_ & D'). apply Forall_app in D' as (D1 & D2). split.
  - destruct F as [->|(t & -> & _)]; [reflexivity|]. inversion D1 as [|? ? C _]; subst. cbn in C. lia.
  - destruct E as [->|(c & s & r & -> & [->| ->] & _)]; [reflexivity| |]; inversion D2 as [|? ? C _]; subst; cbn in C; lia.
Qed.
Lemma dtoa_real b : 0 <= b < 2 ^ 64 -> finite b = true -> real_text (dtoa b) /\ exists b', to_double (dtoa b) = Some b'.
Proof.
  intros B F. destruct (dtoa_form b B F) as (minus & t & -> & (n & f & e & -> & N & FR & E & NE & L & SM)). assert (R : real_text (minus_text minus ++ n ++ f ++ e)).
  { split; [exists minus, n, f, e; auto|]. intros (z & W & _). destruct (whole_unique _ _ _ _ _ N FR E W) as (-> & ->). destruct NE; congruence. }
  split; [exact R|]. destruct (number_accepts minus n f e N FR E L SM) as (x & P). unfold to_double. rewrite P. destruct (number_sound _ _ _ P) as (t & EQ & _ & [(z & -> & W & FZ)|(b' & ->)]); [|eauto]. rewrite app_nil_r in EQ. subst t. destruct R as (_ & R). destruct R. eauto.
Qed.
