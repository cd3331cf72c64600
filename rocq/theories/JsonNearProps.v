(** C54: numbers that are doubles become the nearest double. *)
From Coq Require Import String Ascii Reals Lra SpecFloat.
From Flocq Require Import Core IEEE754.BinarySingleNaN.
From Verif Require Import Base JsonModel JsonReadModel JsonTextSpec JsonReadSpec JsonReadProofs JsonReadProps JsonNearSpec JsonNear JsonNearText.
Local Open Scope list_scope.
Local Open Scope char_scope.
Local Existing Instance P53.
Local Existing Instance P1024.

Lemma exponent_is_text e z : exponent_is e z -> exponent_text e.
Proof. intros [|c s r CE S NE D|c r CE NE D]; [left; reflexivity| |]; right; [exists c, s, r; intuition|exists c, ["-"], r; intuition]. Qed.
(** A number that is not an integer text, with digits that are together less than 2^53 and a power of ten from -22 to 22, becomes the nearest double, with its sign.
    Missing: other numbers.  They are rounded more than once; the next theorem shows that it matters. *)
Theorem c54_nearest_partial t minus d p : stands t minus d p -> (d < 2 ^ 53)%Z -> (-22 <= p <= 22)%Z -> ~ (exists z, whole_text z t) ->
  exists b, parse t = Some (JDouble b) /\ nearest (number minus d p) b /\ sign_bit b = minus.
Proof.
  intros S. destruct S as [minus n f e z N F X]. intros D P NW.
  assert (NE : f <> [] \/ e <> []). { destruct f as [|c f]; [|left; discriminate]. destruct e as [|c e]; [|right; discriminate]. destruct NW. eexists. exists minus, n. rewrite !app_nil_r. eauto. }
  assert (D0 : (0 <= decimal (n ++ tl f))%Z). { apply (decimal_from_ge (n ++ tl f) 0); [|lia]. apply digits_app; [apply natural_digits, N|]. destruct F as [->|(r & -> & _ & R)]; [apply Forall_nil|exact R]. }
  set (u := decimal (n ++ tl f)) in *. set (q := (z - Z.of_nat (List.length (tl f)))%Z) in *.
  destruct (strtod_near u q ltac:(lia) P) as (x & EX & RX & FX & SX).
  assert (NT : number_text (minus_text minus ++ n ++ f ++ e)) by (exists minus, n, f, e; eauto using exponent_is_text).
  rewrite (parse_real _ NT), (text_steps minus n f e z N F X NE D P). fold u q. rewrite EX.
  set (y := if minus then Bopp x else x). assert (EY : (if minus then SFopp else fun d : spec_float => d) (B2SF x) = B2SF y) by (unfold y; destruct minus; [destruct x|]; reflexivity).
  assert (FY : is_finite y = true) by (unfold y; destruct minus; [rewrite is_finite_Bopp|]; exact FX).
  rewrite EY. exists (bits_of (B2SF y)). split; [reflexivity|]. split.
  - apply nearest_of; [exact FY|]. unfold y, number, signed. destruct minus; [rewrite B2R_Bopp, RX, round_NE_opp; reflexivity|exact RX].
  - destruct (bits_value y FY) as (_ & _ & SB & _). rewrite SB. unfold y. destruct minus; [|exact SX]. rewrite Bsign_Bopp by (destruct x; try discriminate FX; reflexivity). rewrite SX. reflexivity.
Qed.
Lemma big_value b k : sign_bit b = false -> (0 <= k)%Z -> exponent_bits b = (1075 + k)%Z -> value b = IZR ((2 ^ 52 + fraction_bits b) * 2 ^ k).
Proof.
  intros S K E. unfold value, signed. rewrite S, E. destruct (Z.eqb_spec (1075 + k) 0); [lia|]. rewrite mult_IZR. f_equal. rewrite two_bpow. replace (1075 + k - 1075)%Z with k by lia. rewrite <- (IZR_Zpower radix2) by exact K. reflexivity.
Qed.
(** 3e23 becomes a double that is not the nearest. *)
Theorem c54_nearest_refuted : exists t minus d p b, stands t minus d p /\ (0 < d < 10)%Z /\ (p = 23)%Z /\ parse t = Some (JDouble b) /\ ~ nearest (number minus d p) b.
Proof.
  exists (list_ascii_of_string "3e23"), false, 3%Z, 23%Z, 4958396687196483697%Z. split; [|split; [lia|split; [reflexivity|split; [vm_compute; reflexivity|]]]].
  - apply (st_text false ["3"] [] ["e"; "2"; "3"] 23); [right; exists "3", []; split; [reflexivity|split; [cbn; lia|apply Forall_nil]]|left; reflexivity|]. apply (ex_plus "e" [] ["2"; "3"]); [auto|auto|discriminate|]. repeat (apply Forall_cons; [cbn; lia|]). apply Forall_nil.
  - intros (_ & N & _). assert (FB : finite_bits 4958396687196483698) by (split; [split; [discriminate|reflexivity]|reflexivity]). specialize (N _ FB). revert N.
    unfold number, signed. rewrite ten_pos by lia. rewrite <- mult_IZR. rewrite (big_value 4958396687196483697 25), (big_value 4958396687196483698 25) by (lia || reflexivity). rewrite <- !minus_IZR, <- !abs_IZR. intros L. apply le_IZR in L. revert L. vm_compute. congruence.
Qed.
(** -2.5e1 *)
Example c54_nearest_case : exists t b, stands t true 25 0 /\ ~ (exists z, whole_text z t) /\ parse t = Some (JDouble b) /\ nearest (number true 25 0) b /\ b = 13851102128954671104%Z.
Proof.
  set (t := list_ascii_of_string "-2.5e1"). assert (S : stands t true 25 0).
  { apply (st_text true ["2"] ["."; "5"] ["e"; "1"] 1); [right; exists "2", []; split; [reflexivity|split; [cbn; lia|apply Forall_nil]]|right; exists ["5"]; split; [reflexivity|split; [discriminate|apply Forall_cons; [cbn; lia|apply Forall_nil]]]|]. apply (ex_plus "e" [] ["1"]); [auto|auto|discriminate|]. apply Forall_cons; [cbn; lia|apply Forall_nil]. }
  assert (W : ~ (exists z, whole_text z t)).
  { intros (z & m & n & E & N & _). destruct m; cbn in E; [|destruct (natural_first n N) as (c & r & -> & C & _); injection E as <-; cbn in C; lia]. injection E as E. apply natural_digits in N. rewrite <- E in N. inversion N as [|? ? _ N2]; subst. inversion N2 as [|? ? C _]; subst. cbn in C. lia. }
  destruct (c54_nearest_partial t true 25 0 S ltac:(lia) ltac:(lia) W) as (b & P & NB & _). exists t, b. repeat split; auto; try apply NB. assert (Q : parse t = Some (JDouble 13851102128954671104)) by (vm_compute; reflexivity). congruence.
Qed.
Print Assumptions c54_nearest_partial.
Print Assumptions c54_nearest_refuted.
