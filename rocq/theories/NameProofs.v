From Verif Require Import Base NameModel.
Local Open Scope N_scope.

Fixpoint val_le (l : list N) : N := match l with [] => 0 | d :: t => d + 10 * val_le t end.

Lemma digits_val fuel n : n < 10 ^ N.of_nat fuel -> val_le (digits_le fuel n) = n.
Proof.
  revert n; induction fuel as [|k IH]; intros n H.
  - cbn in *. lia.
  - cbn [digits_le]. destruct (N.ltb_spec n 10) as [Hl|Hl].
    + cbn. lia.
    + cbn [val_le]. rewrite IH.
      * pose proof (N.div_mod n 10). lia.
      * apply N.div_lt_upper_bound; [lia|]. rewrite Nat2N.inj_succ, N.pow_succ_r' in H. exact H.
Qed.

Lemma digits_length fuel n k : (0 < k)%nat -> n < 10 ^ N.of_nat k -> (List.length (digits_le fuel n) <= k)%nat.
Proof.
  revert n k; induction fuel as [|f IH]; intros n k Hk Hn; cbn [digits_le]; [cbn; lia|].
  destruct (N.ltb_spec n 10) as [Hl|Hl]; [cbn; lia|]. cbn [List.length].
  destruct k as [|k]; [lia|]. destruct k as [|k].
  - cbn in Hn. lia.
  - assert (List.length (digits_le f (n / 10)) <= S k)%nat; [|lia].
    apply IH; [lia|]. apply N.div_lt_upper_bound; [lia|].
    rewrite Nat2N.inj_succ, N.pow_succ_r' in Hn. exact Hn.
Qed.

Lemma digits_small fuel n : Forall (fun d => d < 10) (digits_le fuel n).
Proof.
  revert n; induction fuel as [|f IH]; intros n; cbn [digits_le]; [constructor|].
  destruct (N.ltb_spec n 10); constructor; auto using N.mod_lt.
  apply N.mod_lt. lia.
Qed.

Lemma digit_char_inj a b : a < 10 -> b < 10 -> digit_char a = digit_char b -> a = b.
Proof.
  intros Ha Hb H. unfold digit_char in H. apply (f_equal N_of_ascii) in H.
  rewrite !N_ascii_embedding in H by lia. lia.
Qed.

Lemma map_digit_inj l1 l2 : Forall (fun d => d < 10) l1 -> Forall (fun d => d < 10) l2 ->
  map digit_char l1 = map digit_char l2 -> l1 = l2.
Proof.
  revert l2; induction l1 as [|a l1 IH]; intros [|b l2] H1 H2 H; try discriminate; [reflexivity|].
  inversion H1; inversion H2; subst. cbn in H. injection H as Hc Hl.
  f_equal; [apply digit_char_inj|apply IH]; assumption.
Qed.

Lemma val_le_zeros l k : val_le (l ++ repeat 0 k) = val_le l.
Proof.
  induction l as [|d l IH]; cbn.
  - induction k as [|k IHk]; cbn; [reflexivity|]. rewrite IHk. reflexivity.
  - rewrite IH. reflexivity.
Qed.

Lemma pad6_dec n : pad6 (dec n) = map digit_char (rev (digits_le 20 n ++ repeat 0 (6 - List.length (digits_le 20 n)))).
Proof.
  unfold pad6, dec. rewrite rev_app_distr, map_app, map_length, rev_length.
  f_equal. rewrite <- (rev_involutive (repeat _ _)) at 1.
  generalize (6 - List.length (digits_le 20 n))%nat as k. intros k.
  induction k as [|k IH]; [reflexivity|].
  cbn [repeat rev]. rewrite map_app, <- IH. rewrite rev_app_distr. cbn [rev app map].
  rewrite rev_involutive. change (digit_char 0) with "0"%char.
  clear. induction k as [|k IH]; cbn; [reflexivity|]. f_equal. exact IH.
Qed.

Lemma number_string_inj a b : a < 10 ^ 6 -> b < 10 ^ 6 -> number_string a = number_string b -> a = b.
Proof.
  intros Ha Hb H. unfold number_string in H.
  apply (f_equal list_ascii_of_string) in H. rewrite !list_ascii_of_string_of_list_ascii in H.
  rewrite !pad6_dec in H.
  pose proof (digits_length 20 a 6 ltac:(lia) ltac:(exact Ha)) as La.
  pose proof (digits_length 20 b 6 ltac:(lia) ltac:(exact Hb)) as Lb.
  rewrite !firstn_all2 in H by (rewrite map_length, rev_length, app_length, repeat_length; lia).
  assert (Hz : forall k, Forall (fun d => d < 10) (repeat 0 k)).
  { intros k. apply Forall_forall. intros x Hx. apply repeat_spec in Hx. lia. }
  assert (HF : forall n, Forall (fun d => d < 10) (rev (digits_le 20 n ++ repeat 0 (6 - List.length (digits_le 20 n))))).
  { intros n. apply Forall_rev. apply Forall_app. split; [apply digits_small|apply Hz]. }
  apply map_digit_inj in H; [|apply HF..].
  apply (f_equal (@rev N)) in H. rewrite !rev_involutive in H.
  apply (f_equal val_le) in H. rewrite !val_le_zeros in H.
  rewrite !digits_val in H; [exact H| |]; eapply N.lt_le_trans; eauto; apply N.pow_le_mono_r; lia.
Qed.

Lemma number_string_length n : n < 10 ^ 6 -> String.length (number_string n) = 6%nat.
Proof.
  intros Hn. unfold number_string. rewrite pad6_dec.
  pose proof (digits_length 20 n 6 ltac:(lia) ltac:(exact Hn)) as La.
  set (l := map _ _). assert (List.length l = 6)%nat as Hl.
  { unfold l. rewrite map_length, rev_length, app_length, repeat_length. lia. }
  rewrite firstn_all2 by lia. clearbody l. rewrite <- Hl. clear.
  induction l as [|c l IH]; cbn; [reflexivity|]. f_equal. exact IH.
Qed.

Lemma app_inj_l s a b : (s ++ a = s ++ b)%string -> a = b.
Proof. induction s as [|c s IH]; cbn; intros H; [exact H|]. injection H as H. exact (IH H). Qed.

Lemma app_inj_len a b s t : String.length a = String.length b -> (a ++ s = b ++ t)%string -> a = b.
Proof.
  revert b; induction a as [|c a IH]; intros [|d b] Hl H; cbn in *; try discriminate; [reflexivity|].
  injection H as -> H. f_equal. apply IH; [lia|exact H].
Qed.

Lemma filename_inj c i j :
  n_use_numbers c = true -> i + n_start c < 10 ^ 6 -> j + n_start c < 10 ^ 6 ->
  generate_filename c i <> ""%string ->
  generate_filename c i = generate_filename c j -> i = j.
Proof.
  intros Hu Hi Hj Hne H. unfold generate_filename in *. rewrite Hu in *.
  set (stem := if negb (String.eqb (n_filename c) "") then _ else _) in *.
  destruct (String.eqb stem ""); [congruence|].
  apply app_inj_l in H. apply app_inj_l in H.
  apply app_inj_len in H; [|rewrite !number_string_length by assumption; reflexivity].
  apply number_string_inj in H; [lia|assumption..].
Qed.

Lemma filename_nonempty c i :
  generate_filename c i = ""%string <-> (n_filename c = ""%string /\ n_acqid c = ""%string)
   .
Proof.
  unfold generate_filename. split.
  - destruct (String.eqb_spec (n_filename c) "") as [->|Hf]; cbn [negb].
    + destruct (String.eqb_spec (n_acqid c) "") as [->|Ha]; cbn [negb]; [auto|].
      destruct (n_acqid c) as [|ch s]; [congruence|]. cbn. destruct (n_use_numbers c); discriminate.
    + destruct (n_filename c) as [|ch s]; [congruence|]. cbn. destruct (n_use_numbers c); discriminate.
  - intros [-> ->]. reflexivity.
Qed.

