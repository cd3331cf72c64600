(** Property C05: names of the files of an acquisition. *)
From Verif Require Import Base NameModel NameSpec NameProofs.
Local Open Scope N_scope.

(** C05.  With file numbers in use and numbers below 10^6, different files have different names. *)
Theorem c05_names_distinct_partial : forall c i j,
  n_use_numbers c = true -> i + n_start c < 10 ^ 6 -> j + n_start c < 10 ^ 6 ->
  generate_filename c i <> ""%string ->
  generate_filename c i = generate_filename c j -> i = j.
Proof. exact filename_inj. Qed.
Print Assumptions c05_names_distinct_partial.

(** C05.  A name is produced exactly when a file name or an acquisition id is configured. *)
Theorem c05_name_exists : forall c i,
  generate_filename c i = ""%string <-> (n_filename c = ""%string /\ n_acqid c = ""%string).
Proof. exact filename_nonempty. Qed.
Print Assumptions c05_name_exists.

(** C05 fails from file number 10^6 on: the number is cut to six characters. *)
Theorem c05_names_distinct_refuted : exists c i j, i <> j /\ n_use_numbers c = true /\
  generate_filename c i <> ""%string /\ generate_filename c i = generate_filename c j.
Proof.
  exists (Naming "run" "" "" ".h5" true 0), 100000, 1000003. vm_compute.
  split; [discriminate|]. split; [reflexivity|]. split; [discriminate|reflexivity].
Qed.
Print Assumptions c05_names_distinct_refuted.

(** C05 fails when file numbers are switched off: all files of the acquisition share one name. *)
Theorem c05_no_numbers_refuted : forall c i j, n_use_numbers c = false ->
  generate_filename c i = generate_filename c j.
Proof. intros c i j H. unfold generate_filename. rewrite H. reflexivity. Qed.
Print Assumptions c05_no_numbers_refuted.

Lemma numeral_digits : forall l acc, Forall (fun d => d < 10) l ->
  numeral acc (map digit_char (rev l)) = Some (acc * 10 ^ N.of_nat (List.length l) + val_le l).
Proof.
  assert (A : forall l r acc, numeral acc (l ++ r) = match numeral acc l with Some v => numeral v r | None => None end).
  { induction l as [|c l IH]; intros r acc; [reflexivity|]. cbn [app numeral]. cbv zeta. destruct (_ && _); [apply IH|reflexivity]. }
  induction l as [|d l IH]; intros acc H; [cbn; f_equal; lia|]. inversion H as [|? ? H1 H2]; subst.
  cbn [rev]. rewrite map_app, A, IH by assumption. cbn [map numeral]. cbv zeta. unfold digit_char. rewrite N_ascii_embedding by lia.
  destruct (N.leb_spec 48 (48 + d)); [|lia]. destruct (N.leb_spec (48 + d) 57); [|lia]. cbn [andb].
  f_equal. cbn [List.length val_le]. rewrite Nat2N.inj_succ, N.pow_succ_r'. lia.
Qed.

(** C05, partial: below file number 10^6 a name is the file name (or else the acquisition id), the postfix, an underscore, the
    number in six digits counted from the starting number, and the extension.  Missing: larger numbers, see above. *)
Theorem c05_shape_partial : forall c i, n_use_numbers c = true -> i + n_start c < 10 ^ 6 -> generate_filename c i <> ""%string ->
  exists number, generate_filename c i
    = ((if String.eqb (n_filename c) "" then n_acqid c else n_filename c) ++ n_postfix c ++ "_" ++ number ++ n_ext c)%string
  /\ String.length number = 6%nat /\ numeral 0 (list_ascii_of_string number) = Some (i + n_start c).
Proof.
  intros c i U B NE. exists (number_string (i + n_start c)). set (n := i + n_start c) in *.
  assert (D : (List.length (digits_le 20 n) <= 6)%nat) by (apply digits_length; [lia|exact B]).
  set (full := digits_le 20 n ++ repeat 0 (6 - List.length (digits_le 20 n))).
  assert (F : List.length full = 6%nat) by (unfold full; rewrite app_length, repeat_length; lia).
  assert (E : firstn 6 (pad6 (dec n)) = map digit_char (rev full)).
  { rewrite pad6_dec. fold full. apply firstn_all2. rewrite map_length, rev_length. lia. }
  assert (A : forall x y z : string, ((x ++ y) ++ z = x ++ (y ++ z))%string).
  { induction x as [|a x IH]; intros y z; [reflexivity|]. cbn. f_equal. apply IH. }
  split; [|split].
  - unfold generate_filename in *. fold n in NE |- *. cbv zeta in NE |- *. rewrite U in NE |- *.
    destruct (String.eqb_spec (n_filename c) "") as [E1|E1]; cbn [negb] in NE |- *.
    + destruct (String.eqb_spec (n_acqid c) "") as [E2|E2]; cbn [negb] in NE |- *; [exfalso; apply NE; reflexivity|].
      destruct (String.eqb _ ""); [exfalso; apply NE; reflexivity|]. rewrite !A. reflexivity.
    + destruct (String.eqb _ ""); [exfalso; apply NE; reflexivity|]. rewrite !A. reflexivity.
  - unfold number_string. rewrite E.
    assert (L : forall l, String.length (string_of_list_ascii l) = List.length l) by (induction l; cbn; congruence).
    rewrite L, map_length, rev_length. exact F.
  - unfold number_string. rewrite E, list_ascii_of_string_of_list_ascii, numeral_digits.
    + f_equal. unfold full. rewrite val_le_zeros, digits_val; [lia|]. eapply N.lt_le_trans; [exact B|]. vm_compute. discriminate.
    + unfold full. apply Forall_app. split; [apply digits_small|]. apply Forall_forall. intros x X. apply repeat_spec in X. subst. reflexivity.
Qed.
Print Assumptions c05_shape_partial.

(** C05: an extension begins with one dot, added if it is missing; no extension stays none. *)
Theorem c05_extension : forall e,
  (e = ""%string -> sanitise_ext e = ""%string)
  /\ (forall r, e = String "."%char r -> sanitise_ext e = e)
  /\ (forall a r, e = String a r -> a <> "."%char -> sanitise_ext e = String "."%char e).
Proof.
  intros e. split; [intros ->; reflexivity|]. split; [intros r ->; reflexivity|].
  intros a r -> N. cbn. destruct (Ascii.eqb_spec a "."%char); [contradiction|reflexivity].
Qed.
Print Assumptions c05_extension.

Example c05_case : generate_filename (Naming "run" "id" "_A" ".h5" true 1) 41 = "run_A_000042.h5"%string
  /\ generate_filename (Naming "" "id" "" (sanitise_ext "h5") true 0) 123456 = "id_123456.h5"%string.
Proof. vm_compute. auto. Qed.
