(** C50, continued: signs, hexadecimal and large numbers in port lists. *)
From Coq Require Import String Ascii.
From Verif Require Import Base JsonSpec GapSpec LiveModel LiveSpec ListText PortModel PortSpec PortProps PortSignSpec.
Local Open Scope string_scope.
Local Open Scope list_scope.
Local Open Scope Z_scope.

Lemma one_entry stale s : (forall s, stale s = s) -> no_comma s -> tokenize_port_list stale s = filter (fun p => negb (p =? 0)) [strtol0 s mod 2 ^ 16].
Proof.
  intros ST NC. unfold tokenize_port_list. change s with (joined "," [s]) at 1. rewrite split_unique; [|discriminate|constructor; [exact NC|constructor]].
  cbn [map]. rewrite ST. reflexivity.
Qed.
Lemma blank_ends b : all_blank b -> ends b.
Proof. intros B c r E d. apply blank_no_digit. unfold all_blank in B. rewrite E in B. inversion B; assumption. Qed.
Lemma number_text t v b : number (chars t) v -> ends b -> unsigned_text (append t b) = v /\ 1 <= v.
Proof.
  intros N B. destruct (number_row _ _ N) as (AD & RV & c & r & E & V). split; [rewrite (unsigned_row t b c r E AD V B); exact RV|].
  clear - N. induction N as [c d D L|l v c d N IH (D & _)]; lia.
Qed.
Lemma signed a g t b v : all_blank a -> number (chars t) v -> ends b ->
  (g = "+"%char -> strtol0 (append a (String g (append t b))) = clamp v) /\ (g = "-"%char -> strtol0 (append a (String g (append t b))) = clamp (- v)).
Proof.
  intros A N B. unfold strtol0. rewrite (trim_left_blank a _ A). destruct (number_text t v b N B) as (E & _).
  split; intros ->; cbn [trim_left]; change (blank "+") with false; change (blank "-") with false; cbv iota.
  - change (Ascii.eqb "+" "-") with false. change (Ascii.eqb "+" "+") with true. cbv iota. rewrite E. reflexivity.
  - change (Ascii.eqb "-" "-") with true. cbv iota. rewrite E. reflexivity.
Qed.

(** C50, partial: a plus sign before a port number does not matter.  Missing: the text of a destroyed string is read, as in [c50_parse_partial]. *)
Theorem c50_plus_partial stale a t b v : (forall s, stale s = s) -> all_blank a -> number (chars t) v -> all_blank b -> 1 <= v <= 65535 ->
  no_comma (append a (String "+" (append t b))) -> tokenize_port_list stale (append a (String "+" (append t b))) = [v].
Proof.
  intros ST A N B R NC. rewrite one_entry by assumption. rewrite (proj1 (signed a "+" t b v A N (blank_ends b B)) eq_refl).
  unfold clamp. rewrite Z.min_r, Z.max_r by lia. rewrite Z.mod_small by lia. cbn [filter]. destruct (Z.eqb_spec v 0); [lia|reflexivity].
Qed.
Print Assumptions c50_plus_partial.

Lemma hex_digit c d : In (c, d) hex_table -> digit_of c = Some d /\ (d <? 16) = true /\ 0 <= d.
Proof. unfold hex_table. cbn [In]. intros H. repeat (destruct H as [H|H]; [injection H as <- <-; split; [reflexivity|split; [reflexivity|lia]]|]). destruct H. Qed.
Lemma hex_digits s l v : hex_number l v -> forall r, chars s = l ++ chars r -> digits 16 0 s = digits 16 v r.
Proof.
  intros H. induction H as [c d D|l v c d N IH D]; intros r E.
  - destruct s as [|c0 s]; [discriminate|]. cbn in E. injection E as -> E.
    assert (s = r). { clear - E. revert r E. induction s as [|x s IH]; intros [|y r] E; try discriminate; [reflexivity|]. cbn in E. injection E as -> E. f_equal. apply IH, E. }
    subst s. cbn [digits]. destruct (hex_digit c d D) as (-> & -> & _). f_equal.
  - rewrite (IH (String c r)). 2:{ rewrite E, <- app_assoc. reflexivity. }
    cbn [digits]. destruct (hex_digit c d D) as (-> & -> & _). f_equal. lia.
Qed.
Lemma chars_append a b : chars (append a b) = chars a ++ chars b.
Proof. induction a as [|c a IH]; [reflexivity|]. cbn. f_equal. exact IH. Qed.
Lemma blank_digit c : is_blank c -> digit_of c = None.
Proof.
  unfold is_blank, digit_of. cbv zeta. intros [->|H]; [reflexivity|].
  destruct (Z.leb_spec 48 (Z.of_nat (nat_of_ascii c))); [lia|]. destruct (Z.leb_spec 97 (Z.of_nat (nat_of_ascii c))); [lia|].
  destruct (Z.leb_spec 65 (Z.of_nat (nat_of_ascii c))); [lia|reflexivity].
Qed.

(** C50, partial: a port number may be written in hexadecimal after 0x. *)
Theorem c50_hex_partial stale a h b v : (forall s, stale s = s) -> all_blank a -> hex_number (chars h) v -> all_blank b -> 1 <= v <= 65535 ->
  no_comma (append a (append "0x" (append h b))) -> tokenize_port_list stale (append a (append "0x" (append h b))) = [v].
Proof.
  intros ST A H B R NC. rewrite one_entry by assumption. unfold strtol0. rewrite (trim_left_blank a _ A).
  assert (D : digits 16 0 (append h b) = v).
  { rewrite (hex_digits (append h b) (chars h) v H b (chars_append h b)). destruct b as [|c b]; [reflexivity|]. cbn [digits].
    unfold all_blank in B. inversion B as [|? ? B1 B2]; subst. rewrite (blank_digit c B1). reflexivity. }
  assert (X : is_hex (append h b) = true).
  { assert (F : exists c r d, h = String c r /\ In (c, d) hex_table).
    { assert (G : forall l v, hex_number l v -> exists c r d, l = c :: r /\ In (c, d) hex_table).
      { clear. induction 1 as [c d D|l v c d N (c0 & r & d0 & -> & I) D]; [exists c, [], d; auto|]. exists c0, (r ++ [c]), d0. auto. }
      destruct (G _ _ H) as (c & r & d & E & I). destruct h as [|c0 h]; [discriminate|]. injection E as -> E. exists c, h, d. auto. }
    destruct F as (c & r & d & -> & I). cbn [append is_hex]. destruct (hex_digit c d I) as (-> & -> & _). reflexivity. }
  cbn [append trim_left]. change (blank "0") with false. cbv iota. change (Ascii.eqb "0" "-") with false. change (Ascii.eqb "0" "+") with false. cbv iota.
  cbn [unsigned_text]. change (Ascii.eqb "x" "x") with true. cbn [orb andb]. rewrite X, D.
  unfold clamp. rewrite Z.min_r, Z.max_r by lia. rewrite Z.mod_small by lia. cbn [filter]. destruct (Z.eqb_spec v 0); [lia|reflexivity].
Qed.
Print Assumptions c50_hex_partial.

(** C50, refuted: that a number too large for a port is refused.  From 2^63 on every number is port 65535; negative ones from there are dropped. *)
Theorem c50_large_refuted stale t v : (forall s, stale s = s) -> number (chars t) v -> 2 ^ 63 <= v -> no_comma t ->
  tokenize_port_list stale (String "+" t) = [65535] /\ (no_comma (String "-" t) -> tokenize_port_list stale (String "-" t) = []).
Proof.
  intros ST N L NC. assert (E : append t "" = t) by (clear; induction t as [|c t IH]; [reflexivity|cbn; f_equal; exact IH]).
  assert (EB : ends "") by (intros c r X; discriminate).
  assert (AB : all_blank "") by constructor.
  destruct (signed "" "+" t "" v AB N EB) as (P & _). destruct (signed "" "-" t "" v AB N EB) as (_ & M).
  specialize (P eq_refl). specialize (M eq_refl). rewrite E in P, M. cbn [append] in P, M. split.
  - rewrite one_entry; [|exact ST|]. 2:{ intros [X|X]; [discriminate|exact (NC X)]. }
    rewrite P. unfold clamp. rewrite Z.min_l, Z.max_r by lia. reflexivity.
  - intros NC2. rewrite one_entry by assumption. rewrite M. unfold clamp. rewrite Z.min_r by lia.
    rewrite Z.max_l by lia. reflexivity.
Qed.
Print Assumptions c50_large_refuted.

Example c50_sign_case : tokenize_port_list (fun s => s) " +5000, 0x1F90 ,99999999999999999999,-99999999999999999999" = [5000; 8080; 65535]
  /\ hex_number (chars "1F90") 8080.
Proof.
  split; [vm_compute; reflexivity|]. change 8080 with (16 * (16 * (16 * 1 + 15) + 9) + 0). change (chars "1F90") with (((["1"%char] ++ ["F"%char]) ++ ["9"%char]) ++ ["0"%char]).
  repeat apply hx_more; [apply hx_first|..]; cbn; tauto.
Qed.
