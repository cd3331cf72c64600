(** C54: whatever the text, the numbers read fit into the 64 bits of a double, or are integers of int64_t or uint64_t. *)
From Coq Require Import String Ascii SpecFloat.
From Verif Require Import Base JsonModel JsonTextSpec JsonTextProofs JsonReadModel JsonReadSpec JsonReadProofs JsonReadStr JsonReadValue JsonAccept JsonRoundSpec JsonReadProps.
Local Open Scope list_scope.
Local Open Scope Z_scope.

(** Doubles in the format *)
Definition fine (d : double) : Prop := match d with S754_finite _ m e => Z.pos m < 2 ^ 53 /\ -1074 <= e <= 971 | _ => True end.
Lemma fine_bits d : fine d -> 0 <= bits_of d < 2 ^ 64.
Proof.
  destruct d as [s|s| |s m e]; cbn [fine bits_of]; try (intros _; try destruct s; lia). intros (M & E). destruct (Z.ltb_spec (Z.pos m) (2 ^ 52)); [destruct s; lia|].
  assert (0 <= (e + 1075) * 2 ^ 52 <= 2046 * 2 ^ 52) by nia. destruct s; lia.
Qed.
Lemma fine_opp d : fine d -> fine (SFopp d). Proof. destruct d; auto. Qed.
Lemma digits_lt z : 0 <= z -> z < 2 ^ Zdigits2 z.
Proof.
  assert (D : forall p, Z.pos p < 2 ^ Z.pos (digits2_pos p)).
  { induction p as [p IH|p IH|]; cbn [digits2_pos]; [| |reflexivity]; rewrite Pos2Z.inj_succ, Z.pow_succ_r by lia; lia. }
  destruct z; cbn [Zdigits2]; intros H; [reflexivity|apply D|lia].
Qed.
Lemma shr_fine mrs e : 0 <= shr_m mrs -> let '(r, e') := SpecFloat.shr mrs e (fexp prec emax (Zdigits2 (shr_m mrs) + e) - e) in 0 <= shr_m r < 2 ^ 53 /\ -1074 <= e'.
Proof.
  intros M. set (d := Zdigits2 (shr_m mrs)). pose proof (digits_lt _ M) as D. fold d in D. assert (D0 : 0 <= d) by (unfold d; destruct (shr_m mrs); cbn; lia).
  assert (F : fexp prec emax (d + e) = Z.max (d + e - 53) (-1074)) by reflexivity. rewrite F. set (k := Z.max (d + e - 53) (-1074) - e). unfold SpecFloat.shr. destruct k as [|p|p] eqn:K; unfold k in K; cbn zeta.
  - split; [|lia]. split; [exact M|]. eapply Z.lt_le_trans; [exact D|]. apply Z.pow_le_mono_r; lia.
  - rewrite iter_pos_m by exact M. split; [|lia]. split; [apply Z.div_pos; [exact M|apply Z.pow_pos_nonneg; lia]|]. apply Z.div_lt_upper_bound; [apply Z.pow_pos_nonneg; lia|]. rewrite <- Z.pow_add_r by lia. eapply Z.lt_le_trans; [exact D|]. apply Z.pow_le_mono_r; lia.
  - split; [|lia]. split; [exact M|]. eapply Z.lt_le_trans; [exact D|]. apply Z.pow_le_mono_r; lia.
Qed.
Lemma record_m z l : 0 <= z -> shr_m (shr_record_of_loc z l) = z. Proof. destruct l as [|[| |]]; reflexivity. Qed.
Lemma round_even_nonneg z l : 0 <= z -> 0 <= round_nearest_even z l. Proof. destruct l as [|[| |]]; cbn; intros; try lia. destruct (Z.even z); lia. Qed.
Lemma round_aux_fine s z e l : 0 <= z -> fine (binary_round_aux prec emax s z e l).
Proof.
  intros Z0. unfold binary_round_aux, shr_fexp. pose proof (shr_fine (shr_record_of_loc z l) e) as A. rewrite (record_m z l Z0) in A. specialize (A Z0).
  destruct (SpecFloat.shr (shr_record_of_loc z l) e _) as (r, e1). destruct A as ((A1 & _) & _).
  set (z2 := round_nearest_even (shr_m r) (loc_of_shr_record r)). assert (Z2 : 0 <= z2) by (apply round_even_nonneg, A1). pose proof (shr_fine (shr_record_of_loc z2 loc_Exact) e1) as A2. rewrite (record_m z2 loc_Exact Z2) in A2. specialize (A2 Z2).
  destruct (SpecFloat.shr (shr_record_of_loc z2 loc_Exact) e1 _) as (r2, e2). destruct A2 as ((B1 & B2) & B3). destruct (shr_m r2); cbn [fine]; [exact Logic.I| |exact Logic.I]. destruct (Z.leb_spec e2 (emax - prec)); cbn [fine]; [lia|exact Logic.I].
Qed.
Lemma round_fine s m e : fine (binary_round prec emax s m e).
Proof. unfold binary_round. match goal with |- context [let (_, _) := ?x in _] => destruct x end. apply round_aux_fine. lia. Qed.
Lemma normalize_fine z e s : fine (binary_normalize prec emax z e s).
Proof. unfold binary_normalize. destruct z; [exact Logic.I|apply round_fine..]. Qed.
Lemma dbl_fine z : fine (dbl z). Proof. apply normalize_fine. Qed.
Lemma dmul_fine a b : fine (dmul a b).
Proof. destruct a, b; cbn; try exact Logic.I. apply round_aux_fine. lia. Qed.
Lemma ddiv_fine a b : fine (ddiv a b).
Proof.
  destruct a as [s|s| |s m e], b as [s'|s'| |s' m' e']; try exact Logic.I. unfold ddiv, SFdiv. unfold SFdiv_core_binary.
  set (d := fexp _ _ _). set (k := Z.min d (e - e')). set (w := match e - e' - k with 0 => Z.pos m | Z.pos _ => Z.shiftl (Z.pos m) (e - e' - k) | Z.neg _ => 0 end).
  assert (W : 0 <= w) by (unfold w; destruct (e - e' - k) eqn:K; [lia|apply Z.shiftl_nonneg; lia|lia]). pose proof (Z.div_pos w (Z.pos m') W ltac:(lia)) as Q. unfold Z.div in Q. cbv zeta. fold d. fold k. fold w. destruct (Z.div_eucl w (Z.pos m')) as (q, r). apply round_aux_fine, Q.
Qed.
Lemma fast_fine d e : fine (fast_path d e). Proof. unfold fast_path. destruct (e <? -308); [exact Logic.I|]. destruct (0 <=? e); [apply dmul_fine|apply ddiv_fine]. Qed.
Lemma strtod_fine d p : fine (strtod d p). Proof. unfold strtod. destruct (p <? -308); apply fast_fine. Qed.
Lemma number_fine s x r : parse_number s = Some (x, r) -> forall b, x = JDouble b -> 0 <= b < 2 ^ 64.
Proof.
  unfold parse_number. destruct (match consume "-" s with Some r => (true, r) | None => (false, s) end) as (minus, s1). destruct (int_part minus s1) as [(w, s2)|]; [|discriminate]. destruct (frac_part w s2) as [((w2, ef), s3)|]; [|discriminate]. destruct (exp_part w2 ef s3) as [(([i n|d n], e), s4)|]; [| |discriminate]; intros H b ->; inversion H; subst.
  apply fine_bits. destruct minus; [apply fine_opp|]; apply strtod_fine.
Qed.
Lemma to_double_fine t b : to_double t = Some b -> 0 <= b < 2 ^ 64.
Proof. unfold to_double. destruct (parse_number t) as [(x, r)|] eqn:E; [|discriminate]. destruct x; try discriminate. destruct r; [|discriminate]. intros H. inversion H; subst. eapply number_fine; [exact E|reflexivity]. Qed.
Lemma machine_leaf x : (forall l, x <> JArr l) -> (forall l, x <> JObj l) -> (forall b, x = JDouble b -> 0 <= b < 2 ^ 64) -> (forall z, x = JInt z -> - 2 ^ 63 <= z < 2 ^ 64) -> machine x.
Proof. intros A O D I y H. inversion H; subst; [split; assumption|destruct (A l eq_refl)|destruct (O l eq_refl)]. Qed.
Lemma machine_arr l : Forall machine l -> machine (JArr l).
Proof. intros F y H. inversion H; subst; [split; discriminate|]. rewrite Forall_forall in F. eapply F; eassumption. Qed.
Lemma machine_obj l : Forall (fun e => machine (snd e)) l -> machine (JObj l).
Proof. intros F y H. inversion H; subst; [split; discriminate|]. rewrite Forall_forall in F. match goal with H : In (?n, ?z) l |- _ => exact (F (n, z) H y ltac:(assumption)) end. Qed.
Lemma cut_no_zero t : ~ In Ascii.zero (cut t).
Proof. induction t as [|c t IH]; cbn; [auto|]. destruct (Ascii.eqb_spec c Ascii.zero); cbn; [auto|]. intros [H|H]; [congruence|auto]. Qed.
Lemma cut_cut t : cut (cut t) = cut t.
Proof. induction t as [|c t IH]; cbn; [reflexivity|]. destruct (Ascii.eqb c Ascii.zero) eqn:E; cbn; [reflexivity|]. rewrite E, IH. reflexivity. Qed.
Lemma parse_cut t : parse (cut t) = parse t. Proof. unfold parse. rewrite cut_cut. reflexivity. Qed.
Theorem c54_machine t x : parse t = Some x -> machine x.
Proof.
  intros H. rewrite <- parse_cut in H. apply (parse_document x (cut t) (cut_no_zero t)) in H. destruct H as (w & u & w' & _ & _ & R & _). revert x u R.
  apply (rtext_m to_double (fun x _ => machine x) (fun l _ => Forall machine l) (fun l _ => Forall (fun e => machine (snd e)) l)); intros; try (apply machine_leaf; try discriminate; fail); try (apply machine_arr; auto; fail); try (apply machine_obj; auto; fail); auto.
  - apply machine_leaf; try discriminate. intros y E. inversion E; subst. assumption.
  - apply machine_leaf; try discriminate. intros y E. inversion E; subst. eapply to_double_fine. eassumption.
Qed.
Example c54_machine_largest : parse (list_ascii_of_string "[18446744073709551615, -9223372036854775808, -1.7976931348623157e308]") = Some (JArr [JInt 18446744073709551615; JInt (-9223372036854775808); JDouble 18442240474082181119]).
Proof. vm_compute. reflexivity. Qed.
Print Assumptions c54_machine.
