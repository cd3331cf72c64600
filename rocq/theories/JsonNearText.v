(** From the text of a number to the operations on doubles, and from doubles to their bits *)
From Coq Require Import String Ascii Reals Lra SpecFloat.
From Flocq Require Import Core IEEE754.BinarySingleNaN.
From Verif Require Import Base JsonModel JsonReadModel JsonTextSpec JsonReadSpec JsonReadProofs JsonNearSpec JsonNear.
Local Open Scope list_scope.
Local Open Scope char_scope.
Local Existing Instance P53.
Local Existing Instance P1024.

Lemma frac_int_exact ds : forall r i ef n, digits ds -> no_digit r -> (0 <= i)%Z -> (decimal_from i ds < 2 ^ 53)%Z -> exists n', frac_int i ef n (ds ++ r) = (decimal_from i ds, ef - Z.of_nat (List.length ds), n', r)%Z.
Proof.
  induction ds as [|c ds IH]; intros r i ef n D N I L.
  - exists n. cbn [app List.length decimal_from fold_left]. rewrite Z.sub_0_r. destruct r as [|c r]; [reflexivity|]. cbn in N |- *. rewrite N. reflexivity.
  - inversion D as [|? ? C D']; subst. change (decimal_from i (c :: ds)) with (decimal_from (i * 10 + (num c - 48))%Z ds) in *. pose proof (decimal_from_ge ds (i * 10 + (num c - 48))%Z D' ltac:(lia)) as G.
    cbn [app frac_int]. rewrite (digit_is c C). destruct (Z.ltb_spec (2 ^ 53 - 1) i); [lia|]. destruct (IH r (i * 10 + (num c - 48))%Z (ef - 1)%Z (if (i * 10 + (num c - 48) =? 0)%Z then n else (n + 1)%Z) D' N ltac:(lia) L) as (n' & E). exists n'. rewrite E. f_equal. f_equal. f_equal. cbn [List.length]. lia.
Qed.
Lemma frac_dbl_none d ef n r : no_digit r -> frac_dbl d ef n r = (d, ef, r). Proof. destruct r as [|c r]; [reflexivity|]. cbn. intros ->. reflexivity. Qed.
Lemma exp_neg_exact ds : forall e, digits ds -> (0 <= e)%Z -> (decimal_from e ds < 214748364)%Z -> exp_neg e ds = (decimal_from e ds, []).
Proof.
  induction ds as [|c ds IH]; intros e D E L; [reflexivity|]. inversion D as [|? ? C D']; subst. change (decimal_from e (c :: ds)) with (decimal_from (e * 10 + (num c - 48))%Z ds) in *. pose proof (decimal_from_ge ds (e * 10 + (num c - 48))%Z D' ltac:(lia)) as G.
  cbn [exp_neg]. rewrite (digit_is c C). cbv zeta. destruct (Z.leb_spec 214748364 (e * 10 + (num c - 48))); [lia|]. apply IH; [exact D'|lia|exact L].
Qed.
Lemma exp_pos_exact lim ds : forall e, digits ds -> (0 <= e)%Z -> (decimal_from e ds <= lim)%Z -> exp_pos lim e ds = Some (decimal_from e ds, []).
Proof.
  induction ds as [|c ds IH]; intros e D E L; [reflexivity|]. inversion D as [|? ? C D']; subst. change (decimal_from e (c :: ds)) with (decimal_from (e * 10 + (num c - 48))%Z ds) in *. pose proof (decimal_from_ge ds (e * 10 + (num c - 48))%Z D' ltac:(lia)) as G.
  cbn [exp_pos]. rewrite (digit_is c C). cbv zeta. destruct (Z.ltb_spec lim (e * 10 + (num c - 48))); [lia|]. apply IH; [exact D'|lia|exact L].
Qed.
Lemma decimal_cons c r : 48 <= nat_of_ascii c <= 57 -> decimal (c :: r) = decimal_from (num c - 48) r. Proof. intros C. unfold decimal, decimal_from. cbn [fold_left]. f_equal. Qed.
Lemma exponent_no_digit e z : exponent_is e z -> no_digit e. Proof. intros [|c s r [-> | ->] ? ? ?|c r [-> | ->] ? ?]; cbn; auto. Qed.
Lemma exp_part_exact d n ef e z : exponent_is e z -> (z <= 308 - ef)%Z -> (-300 <= z)%Z -> exp_part (Real d n) ef e = Some (Real d n, z, []).
Proof.
  intros X HI LO. destruct X as [|c s r CE S NE D|c r CE NE D].
  - reflexivity.
  - assert (CB : (Ascii.eqb c "e" || Ascii.eqb c "E")%bool = true) by (destruct CE as [-> | ->]; reflexivity). cbn [exp_part]. rewrite CB. destruct r as [|k r]; [congruence|]. inversion D as [|? ? C D']; subst.
    assert (H : (match consume "+" (s ++ k :: r) with Some r1 => (false, r1) | None => match consume "-" (s ++ k :: r) with Some r1 => (true, r1) | None => (false, s ++ k :: r) end end) = (false, k :: r)).
    { destruct S as [-> | ->]; cbn [app]; [|rewrite consume_hd; reflexivity]. rewrite !consume_ne; [reflexivity| |]; intros <-; cbn in C; lia. }
    rewrite H. rewrite (digit_is k C). rewrite decimal_cons in * by exact C. rewrite exp_pos_exact; [reflexivity|exact D'|lia|exact HI].
  - assert (CB : (Ascii.eqb c "e" || Ascii.eqb c "E")%bool = true) by (destruct CE as [-> | ->]; reflexivity). cbn [exp_part]. rewrite CB. destruct r as [|k r]; [congruence|]. inversion D as [|? ? C D']; subst.
    rewrite (consume_ne "+" "-") by discriminate. rewrite consume_hd. rewrite (digit_is k C). rewrite decimal_cons in * by exact C. rewrite exp_neg_exact; [reflexivity|exact D'|lia|lia].
Qed.
Lemma whole_exp i n ef e z : exponent_is e z -> e <> [] -> exp_part (Whole i n) ef e = exp_part (Real (dbl i) n) ef e. Proof. intros [|c s r [-> | ->] ? ? ?|c r [-> | ->] ? ?] NE; [congruence| | | |]; reflexivity. Qed.

Lemma digits_app a b : digits a -> digits b -> digits (a ++ b). Proof. intros A B. apply Forall_app. split; assumption. Qed.
Lemma text_steps minus n f e z : natural n -> fraction f -> exponent_is e z -> f <> [] \/ e <> [] -> (decimal (n ++ tl f) < 2 ^ 53)%Z -> (-22 <= z - Z.of_nat (List.length (tl f)) <= 22)%Z ->
  parse_number (minus_text minus ++ n ++ f ++ e) = Some (JDouble (bits_of ((if minus then SFopp else fun d => d) (strtod (dbl (decimal (n ++ tl f))) (z - Z.of_nat (List.length (tl f)))))), []).
Proof.
  intros N F X NW L P. assert (DF : digits (tl f)) by (destruct F as [->|(r & -> & _ & R)]; [apply Forall_nil|exact R]). pose proof (natural_digits n N) as DN.
  assert (DE : decimal (n ++ tl f) = decimal_from (decimal n) (tl f)) by apply decimal_from_app.
  assert (N0 : (0 <= decimal n)%Z) by (apply (decimal_from_ge n 0 DN); lia). pose proof (decimal_from_ge (tl f) (decimal n) DF N0) as G.
  assert (ND : no_digit (f ++ e)) by (destruct F as [->|(r & -> & _ & _)]; [eapply exponent_no_digit, X|reflexivity]).
  unfold parse_number. assert (M : match consume "-" (minus_text minus ++ n ++ f ++ e) with Some r => (true, r) | None => (false, minus_text minus ++ n ++ f ++ e) end = (minus, n ++ f ++ e)).
  { destruct minus; cbn [minus_text app]; [rewrite consume_hd; reflexivity|]. destruct (natural_first n N) as (c & r & -> & C & _). cbn [app]. rewrite consume_ne; [reflexivity|]. intros <-. cbn in C. lia. }
  rewrite M. clear M. destruct (int_part_whole minus n (f ++ e) N ltac:(unfold limit; destruct minus; lia) ND) as (k & ->).
  assert (ZL : (z <= 308 + Z.of_nat (List.length (tl f)))%Z) by lia.
  assert (END : forall (d : spec_float) (m p : Z), (z - Z.of_nat (List.length (tl f)))%Z = p ->
    match Some (Real d m, z, []) with None => None | Some (Whole i _, _, s4) => Some (JInt (if minus : bool then - i else i)%Z, s4) | Some (Real d _, e0, s4) => let d := strtod d (e0 + (- Z.of_nat (List.length (tl f))))%Z in Some (JDouble (bits_of (if minus : bool then SFopp d else d)), s4) end = Some (JDouble (bits_of ((if minus then SFopp else fun d => d) (strtod d p))), @nil ascii)).
  { intros d m p <-. cbv zeta. replace (z + - Z.of_nat (List.length (tl f)))%Z with (z - Z.of_nat (List.length (tl f)))%Z by lia. destruct minus; reflexivity. }
  destruct F as [->|(r & -> & NE & R)].
  - cbn [app tl List.length] in *. assert (NEE : e <> []) by (destruct NW; congruence). assert (FP : frac_part (Whole (decimal n) k) e = Some (Whole (decimal n) k, 0%Z, e)).
    { unfold frac_part. destruct X as [|c s r [-> | ->] ? ? ?|c r [-> | ->] ? ?]; reflexivity. }
    rewrite FP, (whole_exp _ _ _ _ z) by assumption. rewrite (exp_part_exact _ _ _ _ z X) by lia. rewrite app_nil_r in *. exact (END _ k _ eq_refl).
  - cbn [tl] in *. unfold frac_part. cbn [app]. rewrite consume_hd. destruct r as [|c r]; [congruence|]. cbn [app]. inversion R as [|? ? C R']; subst. rewrite (digit_is c C). change (c :: r ++ e) with ((c :: r) ++ e).
    destruct (frac_int_exact (c :: r) e (decimal n) 0 k R (exponent_no_digit e z X) N0 ltac:(rewrite <- DE; exact L)) as (k' & ->). rewrite frac_dbl_none by (eapply exponent_no_digit, X). rewrite (exp_part_exact _ _ _ _ z X) by lia. rewrite Z.sub_0_l. rewrite DE. exact (END _ k' _ eq_refl).
Qed.

(** Bits *)
Lemma two_bpow e : powerRZ 2 e = bpow radix2 e. Proof. destruct e; cbn -[pow Z.pow_pos]; [reflexivity| |]; rewrite <- ?pow_IZR, ?Zpower_pos_nat, ?Zpower_nat_Z; try reflexivity; rewrite ?Z.pow_pos_fold; rewrite pow_IZR, positive_nat_Z; reflexivity. Qed.
Lemma bits_parts (s : bool) E F : (0 <= E < 2048)%Z -> (0 <= F < 2 ^ 52)%Z -> let b := ((if s then 2 ^ 63 else 0) + (E * 2 ^ 52 + F))%Z in exponent_bits b = E /\ fraction_bits b = F /\ sign_bit b = s /\ (0 <= b < 2 ^ 64)%Z.
Proof.
  intros HE HF b. assert (U : ((if s then 2 ^ 63 else 0) = (if s then 2048 else 0) * 2 ^ 52)%Z) by (destruct s; reflexivity).
  assert (B : (b = ((if s then 2048 else 0) + E) * 2 ^ 52 + F)%Z) by (unfold b; rewrite U; ring).
  assert (Q : (b / 2 ^ 52 = (if s then 2048 else 0) + E)%Z) by (rewrite B, Z.div_add_l by lia; rewrite (Z.div_small F) by lia; lia).
  split; [|split; [|split]].
  - unfold exponent_bits. rewrite Q. change (2 ^ 11)%Z with 2048%Z. destruct s; [rewrite Z.add_comm; change 2048%Z with (1 * 2048)%Z at 1; rewrite Z_mod_plus_full|]; apply Z.mod_small; lia.
  - unfold fraction_bits. rewrite B, Z.add_comm, Z_mod_plus_full. apply Z.mod_small. lia.
  - unfold sign_bit. rewrite B. destruct s; [apply Z.leb_le|apply Z.leb_gt]; lia.
  - rewrite B. destruct s; lia.
Qed.
Lemma bounded_cases m e : SpecFloat.bounded 53 1024 m e = true -> (Z.pos m < 2 ^ 52 /\ e = -1074 \/ 2 ^ 52 <= Z.pos m < 2 ^ 53 /\ -1074 <= e <= 971)%Z.
Proof.
  unfold SpecFloat.bounded, canonical_mantissa. intros H. apply andb_prop in H. destruct H as (C & L). apply Zeq_bool_eq in C. apply Zle_bool_imp_le in L. rewrite Zpos_digits2_pos in C. pose proof (Zdigits_correct radix2 (Z.pos m)) as D. rewrite Z.abs_eq in D by lia. change (radix_val radix2) with 2%Z in D. unfold SpecFloat.fexp, SpecFloat.emin in C.
  set (k := Zdigits radix2 (Z.pos m)) in *. destruct (Z.lt_ge_cases (Z.pos m) (2 ^ 52)) as [LT|GE].
  - left. split; [exact LT|]. assert (k <= 52)%Z by (apply Zdigits_le_Zpower; rewrite Z.abs_eq by lia; exact LT). lia.
  - right. assert (52 < k)%Z by (apply Zdigits_gt_Zpower; rewrite Z.abs_eq by lia; exact GE). assert (k = 53)%Z by lia. split; [split; [exact GE|]|lia]. rewrite H0 in D. apply D.
Qed.
Lemma signed_F2R s m e : F2R (Float radix2 (cond_Zopp s (Z.pos m)) e) = signed s (IZR (Z.pos m) * bpow radix2 e). Proof. unfold F2R, signed. destruct s; cbn [cond_Zopp Fnum Fexp]; [|reflexivity]. rewrite opp_IZR. ring. Qed.
Lemma bits_value (x : bin) : is_finite x = true -> let b := bits_of (B2SF x) in
  finite_bits b /\ value b = B2R x /\ sign_bit b = Bsign x /\ match x with B754_finite _ m _ _ => Z.even (fraction_bits b) = Z.even (Z.pos m) | _ => fraction_bits b = 0%Z end.
Proof.
  destruct x as [s|s| |s m e B]; intros FI; try discriminate FI.
  - cbn -[Z.pow value finite_bits]. destruct (bits_parts s 0 0 ltac:(lia) ltac:(lia)) as (P1 & P2 & P3 & P4). rewrite !Z.add_0_r in *. unfold finite_bits, value. rewrite P1, P2, P3. repeat split; try lia. unfold signed. cbn [Z.eqb]. destruct s; ring.
  - cbv zeta. cbn [B2SF bits_of Bsign B2R is_finite] in *. rewrite signed_F2R. destruct (bounded_cases m e B) as [(M & ->)|(M & E)].
    + destruct (Z.ltb_spec (Z.pos m) (2 ^ 52)); [|lia]. destruct (bits_parts s 0 (Z.pos m) ltac:(lia) ltac:(lia)) as (P1 & P2 & P3 & P4). change (0 * 2 ^ 52 + Z.pos m)%Z with (Z.pos m) in *. unfold finite_bits, value. rewrite P1, P2, P3. repeat split; try lia. cbn [Z.eqb]. rewrite two_bpow. reflexivity.
    + destruct (Z.ltb_spec (Z.pos m) (2 ^ 52)); [lia|]. destruct (bits_parts s (e + 1075) (Z.pos m - 2 ^ 52) ltac:(lia) ltac:(lia)) as (P1 & P2 & P3 & P4). unfold finite_bits, value. rewrite P1, P2, P3. repeat split; try lia.
      * destruct (Z.eqb_spec (e + 1075) 0); [lia|]. rewrite two_bpow. f_equal. f_equal; [f_equal; lia|f_equal; lia].
      * rewrite Z.even_sub. destruct (Z.even (Z.pos m)); reflexivity.
Qed.
Lemma value_format b : finite_bits b -> generic_format radix2 (SpecFloat.fexp 53 1024) (value b).
Proof.
  intros (R & E). assert (F : (0 <= fraction_bits b < 2 ^ 52)%Z) by (apply Z.mod_pos_bound; reflexivity). assert (E0 : (0 <= exponent_bits b)%Z) by (apply Z.mod_pos_bound; reflexivity).
  assert (S : forall u, generic_format radix2 (SpecFloat.fexp 53 1024) u -> generic_format radix2 (SpecFloat.fexp 53 1024) (signed (sign_bit b) u)) by (intros u U; unfold signed; destruct (sign_bit b); [apply generic_format_opp|]; exact U).
  apply S. destruct (Z.eqb_spec (exponent_bits b) 0) as [Z0|NZ]; rewrite two_bpow; apply generic_format_FLT.
  - exists (Float radix2 (fraction_bits b) (-1074)); [reflexivity|cbn -[Z.pow]; rewrite Z.abs_eq; lia|cbn; lia].
  - exists (Float radix2 (2 ^ 52 + fraction_bits b) (exponent_bits b - 1075)); [reflexivity|cbn -[Z.pow]; rewrite Z.abs_eq; lia|cbn; lia].
Qed.
Lemma nearest_of (x : bin) u : is_finite x = true -> B2R x = round radix2 (SpecFloat.fexp 53 1024) ZnearestE u -> nearest u (bits_of (B2SF x)).
Proof.
  intros FI RX. destruct (bits_value x FI) as (FB & V & _ & EV). set (b := bits_of (B2SF x)) in *. assert (NE : Exists_NE radix2 (SpecFloat.fexp 53 1024)) by (apply exists_NE_FLT; right; lia).
  destruct (round_NE_pt radix2 (SpecFloat.fexp 53 1024) u) as ((_ & N) & TIE). rewrite <- RX in N, TIE. split; [exact FB|]. rewrite V. split; [intros b' FB'; apply N, value_format, FB'|].
  intros b' FB' EQ DIFF. destruct TIE as [(g & G1 & G2 & G3)|U].
  - destruct x as [s|s| |s m e B]; try discriminate FI; [rewrite EV; reflexivity|]. rewrite EV. cbn [B2R] in G1. apply (canonical_unique radix2 (SpecFloat.fexp 53 1024)) in G1; [|apply canonical_bounded, B|exact G2]. subst g. cbn [Fnum] in G3. destruct s; cbn [cond_Zopp] in G3; [rewrite Z.even_opp in G3|]; exact G3.
  - destruct DIFF. apply U. split; [apply value_format, FB'|]. intros g FG. rewrite EQ. apply N, FG.
Qed.
