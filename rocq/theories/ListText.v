(** Lists in text: splitting and trimming. *)
From Coq Require Import String Ascii.
From Verif Require Import Base StrOrder FrameModel JsonModel JsonSpec JsonProofs LiveModel LiveSpec.
Local Open Scope string_scope.
Local Open Scope list_scope.

Lemma chars_app s t : chars (append s t) = chars s ++ chars t. Proof. induction s; cbn; [reflexivity|]. f_equal. exact IHs. Qed.
Lemma chars_inj s t : chars s = chars t -> s = t. Proof. revert t. induction s; intros [|]; cbn; intros H; try congruence. injection H as <- H. f_equal. apply IHs, H. Qed.
Lemma append_nil_r s : append s "" = s. Proof. induction s; cbn; congruence. Qed.
Lemma append_assoc s t u : append (append s t) u = append s (append t u). Proof. induction s; cbn; congruence. Qed.

Lemma split_joined s : joined "," (split_on "," s) = s /\ split_on "," s <> [] /\ Forall no_comma (split_on "," s).
Proof.
  induction s as [|c s (IH & NE & F)]; cbn; [split; [reflexivity|split; [discriminate|constructor; [intros []|constructor]]]|]. destruct (Ascii.eqb_spec c ",") as [->|N].
  - split; [|split; [discriminate|constructor; [intros []|exact F]]]. cbn [joined]. destruct (split_on "," s); [congruence|]. cbn [append]. f_equal. exact IH.
  - destruct (split_on "," s) as [|p t]; [congruence|]. split; [|split; [discriminate|]].
    + cbn [joined] in *. destruct t; [f_equal; exact IH|]. cbn [append]. f_equal. exact IH.
    + inversion F; subst. constructor; [|assumption]. unfold no_comma in *. cbn. intros [E|I]; [congruence|contradiction].
Qed.
Lemma split_unique parts : parts <> [] -> Forall no_comma parts -> split_on "," (joined "," parts) = parts.
Proof.
  induction parts as [|p parts IH]; [congruence|]. intros _ F. inversion F as [|? ? NP F']; subst.
  assert (A : forall r, split_on "," (append p (append "," r)) = p :: split_on "," r).
  { clear - NP. intros r. unfold no_comma in NP. induction p as [|c p IH]; [reflexivity|]. cbn in *. destruct (Ascii.eqb_spec c ","); [tauto|]. rewrite IH by tauto. reflexivity. }
  destruct parts as [|q parts].
  - cbn [joined]. clear - NP. unfold no_comma in NP. induction p as [|c p IH]; [reflexivity|]. cbn in *. destruct (Ascii.eqb_spec c ","); [tauto|]. rewrite IH by tauto. reflexivity.
  - change (joined "," (p :: q :: parts)) with (append p (append "," (joined "," (q :: parts)))). rewrite A. f_equal. apply IH; [discriminate|exact F'].
Qed.

Lemma blank_spec c : blank c = true <-> is_blank c.
Proof.
  unfold blank, is_blank. rewrite orb_true_iff, andb_true_iff, Nat.eqb_eq, !Nat.leb_le. split; intros [H|H]; auto; left.
  - rewrite <- (ascii_nat_embedding c), H. reflexivity.
  - rewrite H. reflexivity.
Qed.
Lemma not_blank c : blank c = false <-> ~ is_blank c. Proof. rewrite <- blank_spec. destruct (blank c); split; congruence. Qed.
Lemma trim_left_spec s : exists a, s = append a (trim_left s) /\ all_blank a /\ (forall c r, chars (trim_left s) = c :: r -> ~ is_blank c).
Proof.
  induction s as [|c s (a & E & A & H)]; cbn [trim_left]; [exists ""; split; [reflexivity|]; split; [constructor|discriminate]|]. destruct (blank c) eqn:B.
  - exists (String c a). split; [cbn; f_equal; exact E|]. split; [constructor; [apply blank_spec, B|exact A]|exact H].
  - exists "". split; [reflexivity|]. split; [constructor|]. intros c' r X. injection X as <- _. apply not_blank, B.
Qed.
Lemma trim_right_spec s : exists b, s = append (trim_right s) b /\ all_blank b /\ (forall c r, chars (trim_right s) = r ++ [c] -> ~ is_blank c).
Proof.
  induction s as [|c s (b & E & A & H)]; cbn [trim_right]; [exists ""; split; [reflexivity|]; split; [constructor|intros ? [|] X; discriminate]|].
  destruct (trim_right s) as [|d t] eqn:T.
  - cbn [append] in E. subst b. destruct (blank c) eqn:B.
    + exists (String c s). split; [reflexivity|]. split; [constructor; [apply blank_spec, B|exact A]|intros ? [|] X; discriminate].
    + exists s. split; [reflexivity|]. split; [exact A|]. intros c' [|x [|]] X; cbn in X; try discriminate. injection X as <-. apply not_blank, B.
  - exists b. split; [cbn; cbn in E; f_equal; exact E|]. split; [exact A|]. intros c' [|x r] X; cbn in X; injection X as X1 X2; [discriminate|]. apply (H c' r). cbn. exact X2.
Qed.
Lemma trim_trimmed s : trimmed s (trim s).
Proof.
  destruct (trim_right_spec s) as (b & E & B & HB). destruct (trim_left_spec (trim_right s)) as (a & E2 & A & HA). exists a, b. unfold trim. split; [rewrite E at 1; rewrite E2 at 1; apply append_assoc|]. split; [exact A|]. split; [exact B|]. split; [exact HA|].
  intros c r X. apply (HB c (chars a ++ r)). rewrite E2, chars_app, X. apply app_assoc.
Qed.
Lemma prefix_unique (a a' u u' : list ascii) : Forall is_blank a -> Forall is_blank a' -> a ++ u = a' ++ u' -> (forall c r, u = c :: r -> ~ is_blank c) -> (forall c r, u' = c :: r -> ~ is_blank c) -> u <> [] -> u' <> [] -> u = u'.
Proof.
  revert a'. induction a as [|x a IH]; intros [|x' a'] A A' E H H' N N'; cbn in E.
  - exact E.
  - exfalso. inversion A'; subst. eapply H; [reflexivity|assumption].
  - exfalso. inversion A; subst. eapply H'; [reflexivity|assumption].
  - injection E as <- E. inversion A; inversion A'; subst. eapply IH; eassumption.
Qed.
Lemma trimmed_unique s t t' : trimmed s t -> trimmed s t' -> t = t'.
Proof.
  intros (a & b & E & A & B & H1 & H2) (a' & b' & E' & A' & B' & H1' & H2'). apply chars_inj. rewrite E in E'. apply (f_equal chars) in E'. rewrite !chars_app in E'. unfold all_blank in *.
  assert (Z : forall a b t a' b' t' : list ascii, Forall is_blank a -> Forall is_blank b -> (forall c r, t' = c :: r -> ~ is_blank c) -> t = [] -> a ++ t ++ b = a' ++ t' ++ b' -> t' = []).
  { clear. intros a b t a' b' t' A B H -> E. destruct t' as [|c r]; [reflexivity|]. exfalso. apply (H c r eq_refl). assert (F : Forall is_blank (a ++ [] ++ b)) by (apply Forall_app; split; assumption). rewrite E in F. apply Forall_app in F as (_ & F). inversion F. assumption. }
  destruct (chars t) as [|c r] eqn:T; [symmetry; exact (Z _ _ [] _ _ _ A B H1' eq_refl E')|]. destruct (chars t') as [|c' r'] eqn:T'; [exfalso; pose proof (Z _ _ [] _ _ _ A' B' H1 eq_refl (eq_sym E')); discriminate|].
  assert (S : (c :: r) ++ chars b = (c' :: r') ++ chars b').
  { apply (prefix_unique (chars a) (chars a')); auto; try discriminate; intros x y X; injection X as <- _; [apply (H1 c r eq_refl)|apply (H1' c' r' eq_refl)]. }
  apply (f_equal (@rev ascii)) in S. rewrite !rev_app_distr in S. assert (R : rev (c :: r) = rev (c' :: r')).
  { apply (prefix_unique (rev (chars b)) (rev (chars b'))); try (apply Forall_rev; assumption); try exact S.
    - intros x y X. apply (H2 x (rev y)). rewrite <- (rev_involutive (c :: r)), X. reflexivity.
    - intros x y X. apply (H2' x (rev y)). rewrite <- (rev_involutive (c' :: r')), X. reflexivity.
    - intros X. apply (f_equal (@List.length ascii)) in X. rewrite rev_length in X. discriminate.
    - intros X. apply (f_equal (@List.length ascii)) in X. rewrite rev_length in X. discriminate. }
  rewrite <- (rev_involutive (c :: r)), R. apply rev_involutive.
Qed.
