(** Proofs for C77. *)
From Coq Require Import String Ascii.
From Verif Require Import Base OptModel OptSpec.
Local Open Scope string_scope.
Local Open Scope list_scope.

Definition table (ds : list odesc) : Prop := ds = receiver_options \/ ds = processor_options.
Definition ty_of (o : opt) : oty := match o with Debug | Io => OUnsigned | _ => OString end.

Lemma begins_nil s : begins "" s.
Proof. exists s. reflexivity. Qed.

Ltac begins_in := match goal with |- begins _ _ => eexists; cbn; reflexivity end.
Ltac enum_prefix p Hp :=
  repeat (destruct p as [|? p]; [cbn in Hp | cbn in Hp; first [discriminate Hp | injection Hp; clear Hp; intros Hp ?; subst]]).

Lemma names_find ds p o : table ds -> names p o -> exists d, find_nothrow ds true p = Some (Some d) /\ o_long d = long_name o /\ o_ty d = ty_of o.
Proof.
  intros Ht (Hne & (r & Hp) & Hu).
  assert (U : forall s, In s long_names -> String.prefix p s = true -> s = long_name o).
  { intros s Hs Hpre. apply Hu; [exact Hs|]. clear -Hpre. revert s Hpre. induction p as [|c p IH]; intros s H; [apply begins_nil|].
    destruct s as [|c' s]; [discriminate H|]. cbn in H. destruct (ascii_dec c c'); [|discriminate H]. subst. destruct (IH s H) as (r & ->). exists r. reflexivity. }
  clear Hu.
  destruct o; cbn in Hp.
  all: repeat (destruct p as [|? p]; [solve [exfalso; apply Hne; reflexivity] || (clear Hne) | cbn in Hp; first [discriminate Hp | injection Hp as Hp0 Hp; subst]]).
  all: try solve [destruct Ht as [-> | ->]; eexists; repeat split; cbn; reflexivity].
  all: exfalso.
  all: first [ discriminate (U "help" ltac:(cbn; tauto) eq_refl) | discriminate (U "version" ltac:(cbn; tauto) eq_refl) | discriminate (U "debug-level" ltac:(cbn; tauto) eq_refl)
     | discriminate (U "log-config" ltac:(cbn; tauto) eq_refl) | discriminate (U "io-threads" ltac:(cbn; tauto) eq_refl) | discriminate (U "ctrl" ltac:(cbn; tauto) eq_refl) | discriminate (U "config" ltac:(cbn; tauto) eq_refl)].
Qed.

Lemma no_equals_prefix p o : names p o -> no_equals p.
Proof.
  intros (_ & (r & Hp) & _). destruct o; cbn in Hp.
  all: repeat (destruct p as [|? p]; [cbn; repeat split; discriminate | cbn in Hp; first [discriminate Hp | injection Hp as Hp0 Hp; subst]]).
Qed.
Lemma split_none p : no_equals p -> split_eq p = None.
Proof.
  induction p as [|c p IH]; [reflexivity|]. intros (Hc & Hp). cbn. destruct (Ascii.eqb_spec c "="); [contradiction|]. rewrite (IH Hp). reflexivity.
Qed.
Lemma split_app p w : no_equals p -> split_eq (p ++ "=" ++ w) = Some (p, w).
Proof.
  induction p as [|c p IH]; [reflexivity|]. intros (Hc & Hp). cbn. destruct (Ascii.eqb_spec c "="); [contradiction|]. cbn in IH. rewrite (IH Hp). reflexivity.
Qed.
Lemma split_inv s a b : split_eq s = Some (a, b) -> no_equals a /\ s = (a ++ "=" ++ b)%string.
Proof.
  revert a b. induction s as [|c s IH]; intros a b; [discriminate|]. cbn. destruct (Ascii.eqb_spec c "=").
  - intros [= <- <-]. subst. split; reflexivity.
  - destruct (split_eq s) as [[a' b']|]; [|discriminate]. intros [= <- <-]. destruct (IH a' b' eq_refl) as (H1 & ->). split; [split; assumption|reflexivity].
Qed.

Definition odash (c : ascii) : string := String "-" (String c "").
Lemma find_short ds c : table ds -> exists r, find_nothrow ds false (odash c) = Some r.
Proof.
  intros [-> | ->]; unfold find_nothrow, odash, receiver_options, processor_options; cbn [filter]; unfold full_match; cbn [o_long o_short String.eqb].
  all: change (Ascii.eqb "h" "-") with false; change (Ascii.eqb "v" "-") with false; change (Ascii.eqb "d" "-") with false; change (Ascii.eqb "l" "-") with false; change (Ascii.eqb "c" "-") with false; change (Ascii.eqb "i" "-") with false; change (Ascii.eqb "-" "-") with true; cbn [orb].
  all: destruct (Ascii.eqb_spec "h" c) as [<-|]; [eexists; reflexivity|]; destruct (Ascii.eqb_spec "v" c) as [<-|]; [eexists; reflexivity|];
    destruct (Ascii.eqb_spec "d" c) as [<-|]; [eexists; reflexivity|]; destruct (Ascii.eqb_spec "l" c) as [<-|]; [eexists; reflexivity|];
    destruct (Ascii.eqb_spec "c" c) as [<-|]; eexists; reflexivity.
Qed.
Lemma short_total ds tok c adj : table ds -> exists l, short_group ds tok c adj = Some l.
Proof.
  intros Ht. revert c. induction adj as [|c' adj IH]; intros c; cbn [short_group]; destruct (find_short ds c Ht) as (r & Hr); unfold odash in Hr; rewrite Hr.
  - eexists; reflexivity.
  - destruct r as [d|]; [|eexists; reflexivity]. destruct (takes d); [eexists; reflexivity|]. destruct (IH c') as (l & ->). eexists; reflexivity.
Qed.
Lemma find_dashed ds r : table ds -> ~ In (String "-" r) short_words -> find_nothrow ds true (String "-" r) = Some None.
Proof.
  intros Ht Hn. cbn in Hn.
  assert (F : forall c, In (String "-" (String c "")) short_words -> String.eqb (String c "") r = false).
  { intros c Hc. destruct (String.eqb_spec (String c "") r) as [E|]; [|reflexivity]. subst. exfalso. apply Hn. exact Hc. }
  pose proof (F "h"%char ltac:(cbn; tauto)) as F1. pose proof (F "v"%char ltac:(cbn; tauto)) as F2. pose proof (F "d"%char ltac:(cbn; tauto)) as F3.
  pose proof (F "l"%char ltac:(cbn; tauto)) as F4. pose proof (F "c"%char ltac:(cbn; tauto)) as F5.
  destruct Ht as [-> | ->]; unfold find_nothrow, receiver_options, processor_options; cbn [filter]; unfold full_match; cbn [o_long o_short].
  all: cbn [String.eqb].
  all: change (Ascii.eqb "h" "-") with false; change (Ascii.eqb "v" "-") with false; change (Ascii.eqb "d" "-") with false; change (Ascii.eqb "l" "-") with false; change (Ascii.eqb "c" "-") with false; change (Ascii.eqb "i" "-") with false; change (Ascii.eqb "-" "-") with true; cbn [orb].
  all: cbn [String.eqb] in F1, F2, F3, F4, F5; rewrite ?F1, ?F2, ?F3, ?F4, ?F5; reflexivity.
Qed.

(** A value in an argument of its own is taken. *)
Lemma own_word_ok ds w : table ds -> own_word w ->
  match syntactic ds w with None => false | Some false => true | Some true => match find_nothrow ds true w with Some None => true | _ => false end end = true.
Proof.
  intros Ht (Hs & He). unfold syntactic, kind_of. destruct w as [|a [|b r]]; [reflexivity|reflexivity|].
  destruct (Ascii.eqb_spec a "-"); [subst|reflexivity].
  destruct (Ascii.eqb_spec b "-").
  - subst. destruct r as [|c r]; [reflexivity|]. unfold parse_long. destruct (split_eq (String c r)) as [[x y]|] eqn:E.
    + destruct y as [|y0 y].
      * exfalso. destruct (split_inv _ _ _ E) as (H1 & H2). apply He. exists x. split; [exact H1|]. rewrite H2. reflexivity.
      * rewrite (find_dashed ds _ Ht Hs). reflexivity.
    + rewrite (find_dashed ds _ Ht Hs). reflexivity.
  - destruct (short_total ds (String "-" (String b r)) b r Ht) as (l & ->). rewrite (find_dashed ds _ Ht Hs). reflexivity.
Qed.

(** The parsed options of an item *)
Definition key_of (i : item) : string := match i with Give o _ _ => long_name o | Ask v _ => if v then "version" else "help" | Stray _ => "" end.
Definition value_of (i : item) : list string := match i with Give _ _ w => [w] | Ask _ _ => [] | Stray w => [w] end.
Definition is_of (i : item) (p : popt) : Prop := p_key p = key_of i /\ p_value p = value_of i /\ p_unreg p = false.

Lemma letter_find ds o : table ds -> short_name o <> None -> exists c d, letter o = String c "" /\ c <> "-"%char /\ find_nothrow ds false (odash c) = Some (Some d) /\
  find_nothrow ds true (odash c) = Some (Some d) /\ o_long d = long_name o /\ o_ty d = ty_of o.
Proof.
  intros [-> | ->] H; destruct o; try (exfalso; apply H; reflexivity); eexists; eexists; (split; [reflexivity|split; [discriminate|repeat split; reflexivity]]).
Qed.
Lemma takes_ty d o : o_ty d = ty_of o -> takes d = true.
Proof. unfold takes. intros ->. destruct o; reflexivity. Qed.

Lemma step_item ds f i rest : table ds -> proper i -> exists p, is_of i p /\
  run (S f) ds false (words i ++ rest) = match run f ds false rest with Some l => Some (p :: l) | None => None end.
Proof.
  intros Ht Hi. destruct i as [o [q|q| |] w|v s|w]; cbn [proper] in Hi; cbn [words].
  - destruct Hi as (Hn & Hw). destruct (names_find ds q o Ht Hn) as (d & Hf & Hl & Hty).
    exists (P (long_name o) [w] [("--" ++ q)%string; w] false). split; [repeat split|].
    pose proof (no_equals_prefix q o Hn) as Hne. destruct q as [|c q]; [destruct Hn as (X & _); exfalso; apply X; reflexivity|].
    cbn [run app]. unfold kind_of. cbn [String.append]. cbn [Ascii.eqb Bool.eqb]. unfold parse_long. rewrite (split_none _ Hne).
    cbn [finish_all]. unfold finish. cbn [p_key p_value p_orig]. cbn [String.eqb]. rewrite Hf, (takes_ty _ _ Hty). cbn [app].
    rewrite (own_word_ok ds w Ht Hw), Hl. reflexivity.
  - destruct Hi as (Hn & Hw). destruct (names_find ds q o Ht Hn) as (d & Hf & Hl & Hty).
    exists (P (long_name o) [w] [("--" ++ q ++ "=" ++ w)%string] false). split; [repeat split|].
    pose proof (no_equals_prefix q o Hn) as Hne. destruct q as [|c q]; [destruct Hn as (X & _); exfalso; apply X; reflexivity|].
    cbn [run app]. unfold kind_of. cbn [String.append]. cbn [Ascii.eqb Bool.eqb]. unfold parse_long.
    pose proof (split_app _ w Hne) as E. cbn [String.append] in E. rewrite E. destruct w as [|c0 w]; [exfalso; apply Hw; reflexivity|].
    cbn [finish_all]. unfold finish. cbn [p_key p_value p_orig]. cbn [String.eqb]. rewrite Hf, (takes_ty _ _ Hty), Hl. reflexivity.
  - destruct Hi as (Hn & Hw). destruct (letter_find ds o Ht Hn) as (c & d & Hc & Hd & Hf & Hf' & Hl & Hty). rewrite Hc.
    exists (P (long_name o) [w] [odash c; w] false). split; [repeat split|].
    cbn [run app]. unfold kind_of. cbn [String.append]. destruct (Ascii.eqb_spec c "-"); [contradiction|]. cbn [Ascii.eqb Bool.eqb].
    cbn [short_group]. unfold odash in Hf, Hf'. rewrite Hf. cbn [finish_all]. unfold finish. cbn [p_key p_value p_orig]. cbn [String.eqb]. rewrite Hf', (takes_ty _ _ Hty).
    rewrite (own_word_ok ds w Ht Hw), Hl. reflexivity.
  - destruct Hi as (Hn & Hw). destruct (letter_find ds o Ht Hn) as (c & d & Hc & Hd & Hf & Hf' & Hl & Hty). rewrite Hc.
    exists (P (long_name o) [w] [("-" ++ String c "" ++ w)%string] false). split; [repeat split|].
    cbn [run app]. unfold kind_of. cbn [String.append]. destruct (Ascii.eqb_spec c "-"); [contradiction|]. cbn [Ascii.eqb Bool.eqb].
    destruct w as [|c0 w]; [exfalso; apply Hw; reflexivity|].
    cbn [short_group]. unfold odash in Hf, Hf'. rewrite Hf, (takes_ty _ _ Hty). cbn [finish_all]. unfold finish. cbn [p_key p_value p_orig]. cbn [String.eqb]. rewrite Hf', (takes_ty _ _ Hty), Hl. reflexivity.
  - exists (P (key_of (Ask v s)) [] (words (Ask v s)) false). split; [repeat split|]. destruct Ht as [-> | ->]; destruct v, s; reflexivity.
  - exists (positional w). split; [repeat split|]. cbn [run app].
    assert (K : kind_of w = KPos). { destruct w as [|a [|b r]]; [reflexivity|reflexivity|]. unfold kind_of. destruct (Ascii.eqb_spec a "-"); [|reflexivity]. subst. exfalso.
      destruct Hi as [Hi|Hi]; [discriminate|]. apply Hi. exists (String b r). reflexivity. }
    rewrite K. reflexivity.
Qed.

Lemma run_line ds l : table ds -> Forall proper l -> forall fuel rest, (List.length (line l ++ rest) <= fuel)%nat ->
  exists f ps, (List.length rest <= f)%nat /\ Forall2 is_of l ps /\
    run fuel ds false (line l ++ rest) = match run f ds false rest with Some l' => Some (ps ++ l') | None => None end.
Proof.
  intros Ht. induction l as [|i l IH]; intros Hp fuel rest Hf.
  - exists fuel, []. split; [exact Hf|]. split; [constructor|]. cbn. destruct (run fuel ds false rest); reflexivity.
  - inversion Hp as [|? ? Hi Hp']; subst; clear Hp; rename Hp' into Hp. unfold line in *. cbn [List.map List.concat] in *. rewrite <- app_assoc in *. rewrite app_length in Hf.
    assert (1 <= List.length (words i))%nat by (destruct i as [? []| |]; cbn; lia).
    destruct fuel as [|fuel]; [lia|].
    destruct (IH Hp fuel rest ltac:(lia)) as (f & ps & Hfl & Hfa & E). destruct (step_item ds fuel i (List.concat (List.map words l) ++ rest) Ht Hi) as (p & Hof & E').
    exists f, (p :: ps). split; [exact Hfl|]. split; [constructor; assumption|]. rewrite E', E. destruct (run f ds false rest); reflexivity.
Qed.

(** ** Numbers *)

Lemma app_nil_s s : (s ++ "")%string = s.
Proof. induction s as [|c s IH]; [reflexivity|]. cbn. rewrite IH. reflexivity. Qed.
Lemma app_assoc_s a b c : ((a ++ b) ++ c)%string = (a ++ (b ++ c))%string.
Proof. induction a as [|x a IH]; [reflexivity|]. cbn. rewrite IH. reflexivity. Qed.
Lemma digit_code k : (k < 10)%nat -> nat_of_ascii (digit_char k) = (48 + k)%nat.
Proof. intros H. unfold digit_char. apply nat_ascii_embedding. lia. Qed.
Lemma digits_one acc k r : (k < 10)%nat -> digits acc (String (digit_char k) r) = digits (10 * acc + Z.of_nat k) r.
Proof.
  intros H. cbn [digits]. rewrite (digit_code k H). destruct (Z.leb_spec 48 (Z.of_nat (48 + k))); [|lia]. destruct (Z.leb_spec (Z.of_nat (48 + k)) 57); [|lia].
  cbn [andb]. f_equal. lia.
Qed.
Lemma digits_app acc s t : digits acc (s ++ t) = match digits acc s with Some n => digits n t | None => None end.
Proof.
  revert acc. induction s as [|c s IH]; intros acc; [reflexivity|]. cbn [String.append digits]. destruct (_ && _)%bool; [apply IH|reflexivity].
Qed.
Lemma decimal_digits s n : decimal s n -> digits 0 s = Some n /\ exists k r, (k < 10)%nat /\ s = String (digit_char k) r.
Proof.
  induction 1 as [k H|s n k _ (IH & k0 & r & Hk0 & ->) H].
  - split; [rewrite digits_one by exact H; reflexivity|]. exists k, "". split; [exact H|reflexivity].
  - split; [rewrite digits_app, IH, digits_one by exact H; reflexivity|]. exists k0, (r ++ String (digit_char k) "")%string. split; [exact Hk0|reflexivity].
Qed.
Lemma char_digit c : (48 <= nat_of_ascii c <= 57)%nat -> exists k, (k < 10)%nat /\ c = digit_char k /\ nat_of_ascii c = (48 + k)%nat.
Proof.
  intros H. exists (nat_of_ascii c - 48)%nat. split; [lia|]. split; [|lia]. unfold digit_char. replace (48 + (nat_of_ascii c - 48))%nat with (nat_of_ascii c) by lia.
  symmetry. apply ascii_nat_embedding.
Qed.
Lemma digits_step acc c r n : digits acc (String c r) = Some n -> exists k, (k < 10)%nat /\ c = digit_char k /\ digits (10 * acc + Z.of_nat k) r = Some n.
Proof.
  cbn [digits]. destruct (Z.leb_spec 48 (Z.of_nat (nat_of_ascii c))); [|discriminate]. destruct (Z.leb_spec (Z.of_nat (nat_of_ascii c)) 57); [|discriminate].
  cbn [andb]. intros E. destruct (char_digit c ltac:(lia)) as (k & Hk & -> & Hc). exists k. split; [exact Hk|]. split; [reflexivity|]. rewrite <- E. f_equal. lia.
Qed.
Lemma digits_decimal s : forall t acc n, decimal t acc -> digits acc s = Some n -> decimal (t ++ s) n.
Proof.
  induction s as [|c s IH]; intros t acc n Ht E.
  - injection E as <-. rewrite app_nil_s. exact Ht.
  - destruct (digits_step _ _ _ _ E) as (k & Hk & -> & E'). replace (t ++ String (digit_char k) s)%string with ((t ++ String (digit_char k) "") ++ s)%string by (rewrite app_assoc_s; reflexivity).
    exact (IH _ _ _ (dec_more _ _ _ Ht Hk) E').
Qed.
Lemma number_decimal s n : number s = Some n <-> decimal s n.
Proof.
  split.
  - destruct s as [|c s]; [discriminate|]. unfold number. intros E. destruct (digits_step _ _ _ _ E) as (k & Hk & -> & E').
    replace (10 * 0 + Z.of_nat k)%Z with (Z.of_nat k) in E' by lia. exact (digits_decimal s (String (digit_char k) "") _ _ (dec_one k Hk) E').
  - intros H. destruct (decimal_digits s n H) as (E & k & r & Hk & ->). exact E.
Qed.
Lemma decimal_nosign s n r : decimal s n -> s <> String "-" r /\ s <> String "+" r.
Proof.
  intros H. destruct (decimal_digits s n H) as (_ & k & r' & Hk & ->). pose proof (digit_code k Hk) as Hc.
  split; intros [= E1 E2]; rewrite E1 in Hc; cbn in Hc; lia.
Qed.
Lemma cast_iff s n : cast_unsigned s = Some n <-> unsigned s n.
Proof.
  split.
  - unfold cast_unsigned. destruct s as [|c r]; [discriminate|]. destruct (Ascii.eqb_spec c "-"); [subst|destruct (Ascii.eqb_spec c "+"); [subst|]].
    + destruct (number r) as [m|] eqn:E; [|discriminate]. destruct (Z.ltb_spec m (2 ^ 32)); [|discriminate]. intros [= <-]. apply (un_minus r m); [apply number_decimal; exact E|assumption].
    + destruct (number r) as [m|] eqn:E; [|discriminate]. destruct (Z.ltb_spec m (2 ^ 32)); [|discriminate]. intros [= <-]. apply (un_plus r m); [apply number_decimal; exact E|assumption].
    + destruct (number (String c r)) as [m|] eqn:E; [|discriminate]. destruct (Z.ltb_spec m (2 ^ 32)); [|discriminate]. intros [= <-]. apply un_plain; [apply number_decimal; exact E|assumption].
  - intros [t m H L|t m H L|t m H L].
    + destruct t as [|c r]; [destruct (decimal_digits _ _ H) as (_ & ? & ? & ? & ?); discriminate|]. unfold cast_unsigned.
      destruct (decimal_nosign _ _ r H) as (N1 & N2).
      destruct (Ascii.eqb_spec c "-"); [subst; contradiction|]. destruct (Ascii.eqb_spec c "+"); [subst; contradiction|].
      rewrite (proj2 (number_decimal _ _) H). destruct (Z.ltb_spec m (2 ^ 32)); [reflexivity|lia].
    + cbn [String.append]. unfold cast_unsigned. cbn [Ascii.eqb Bool.eqb]. rewrite (proj2 (number_decimal _ _) H). destruct (Z.ltb_spec m (2 ^ 32)); [reflexivity|lia].
    + cbn [String.append]. unfold cast_unsigned. cbn [Ascii.eqb Bool.eqb]. rewrite (proj2 (number_decimal _ _) H). destruct (Z.ltb_spec m (2 ^ 32)); [reflexivity|lia].
Qed.

(** ** Storing *)

Lemma key_find ds i : table ds -> key_of i <> "" -> exists d, find_nothrow ds false (key_of i) = Some (Some d) /\ o_ty d = match i with Give o _ _ => ty_of o | _ => OFlag end.
Proof.
  intros Ht Hk. destruct i as [o h w|v s|w]; [| |exfalso; apply Hk; reflexivity].
  - destruct Ht as [-> | ->]; destruct o; eexists; split; reflexivity.
  - destruct Ht as [-> | ->]; destruct v; eexists; split; reflexivity.
Qed.
(** What is stored for an item, if it can be *)
Definition val_of (i : item) : option oval :=
  match i with
  | Give o _ w => match o with Debug | Io => option_map VNum (cast_unsigned w) | _ => Some (VStr w) end
  | Ask _ _ => Some VFlag
  | Stray _ => None
  end.
Lemma validate_item i d : o_ty d = match i with Give o _ _ => ty_of o | _ => OFlag end -> key_of i <> "" -> validate (o_ty d) (value_of i) = val_of i.
Proof. intros -> Hk. destruct i as [o h w|v s|w]; [destruct o; reflexivity|reflexivity|exfalso; apply Hk; reflexivity]. Qed.

Lemma store_true ds l ps : table ds -> Forall2 is_of l ps -> forall m m', store ds (fun _ => false) ps m = (m', true) ->
  NoDup (subjects l) /\
  (forall i, In i l -> key_of i <> "" -> m (key_of i) = None /\ val_of i <> None /\ m' (key_of i) = val_of i) /\
  (forall k, (forall i, In i l -> key_of i <> k \/ k = "") -> m' k = m k).
Proof.
  intros Ht H2. induction H2 as [|i p l ps Hip H2 IH]; intros m m' E.
  - injection E as <-. split; [constructor|]. split; [intros ? []|reflexivity].
  - cbn [store] in E. destruct Hip as (Hk & Hv & Hu). rewrite Hk, Hu, Hv in E. rewrite !orb_false_r in E.
    destruct (String.eqb_spec (key_of i) "") as [K|K].
    + destruct (IH m m' E) as (I1 & I2 & I3). destruct i as [o h w|v s|w]; [destruct o; discriminate|destruct v; discriminate|].
      split; [exact I1|]. split.
      * intros j [<-|Hj]; [intros X; contradiction|apply I2; exact Hj].
      * intros k Hall. apply I3. intros j Hj. apply Hall. right. exact Hj.
    + destruct (key_find ds i Ht K) as (d & Hf & Hd). rewrite Hf, (validate_item i d Hd K) in E.
      destruct (m (key_of i)) eqn:Em; [discriminate E|]. destruct (val_of i) as [v|] eqn:Ev; [|discriminate E].
      destruct (IH _ m' E) as (I1 & I2 & I3).
      assert (Fresh : forall j, In j l -> key_of j <> "" -> key_of j <> key_of i).
      { intros j Hj Kj Hjk. destruct (I2 j Hj Kj) as (X & _). unfold vset in X. rewrite Hjk, String.eqb_refl in X. discriminate. }
      assert (Mi : m' (key_of i) = Some v).
      { rewrite I3; [unfold vset; rewrite String.eqb_refl; reflexivity|]. intros j Hj. left. intros X. destruct (String.eqb_spec (key_of j) "") as [Z0|Z0]; [rewrite Z0 in X; symmetry in X; contradiction|].
        exact (Fresh j Hj Z0 X). }
      split; [|split].
      * unfold subjects in *. cbn [List.map List.concat]. destruct i as [o h w|b s|w]; [| |exfalso; apply K; reflexivity].
        -- constructor; [|exact I1]. intros X. apply in_concat in X as (y & Hy & HX). apply in_map_iff in Hy as (j & <- & Hj).
           destruct j as [o' h' w'|b' s'|w']; cbn in HX; [| |destruct HX]; destruct HX as [HX|[]]; [injection HX as ->|discriminate]. apply (Fresh _ Hj); [destruct o; discriminate|reflexivity].
        -- constructor; [|exact I1]. intros X. apply in_concat in X as (y & Hy & HX). apply in_map_iff in Hy as (j & <- & Hj).
           destruct j as [o' h' w'|b' s'|w']; cbn in HX; [| |destruct HX]; destruct HX as [HX|[]]; [discriminate|injection HX as ->]. apply (Fresh _ Hj); [destruct b; discriminate|reflexivity].
      * intros j [<-|Hj] Kj; [rewrite Em, Ev; repeat split; [discriminate|exact Mi]|].
        destruct (I2 j Hj Kj) as (X & Y & Z0). split; [|split; [exact Y|exact Z0]]. unfold vset in X. destruct (String.eqb_spec (key_of j) (key_of i)) as [Q|Q]; [discriminate|exact X].
      * intros k Hall. rewrite I3; [|intros j Hj; apply Hall; right; exact Hj]. unfold vset. destruct (String.eqb_spec k (key_of i)) as [->|]; [|reflexivity].
        destruct (Hall i (or_introl eq_refl)) as [X|X]; [exfalso; apply X; reflexivity|contradiction].
Qed.

Lemma store_fine ds l ps : table ds -> Forall2 is_of l ps -> NoDup (subjects l) -> (forall i, In i l -> key_of i <> "" -> val_of i <> None) ->
  forall m, (forall i, In i l -> key_of i <> "" -> m (key_of i) = None) -> exists m', store ds (fun _ => false) ps m = (m', true).
Proof.
  intros Ht H2. induction H2 as [|i p l ps Hip H2 IH]; intros Hnd Hval m Hm; [eexists; reflexivity|].
  cbn [store]. destruct Hip as (Hk & Hv & Hu). rewrite Hk, Hu, Hv, !orb_false_r.
  destruct (String.eqb_spec (key_of i) "") as [K|K].
  - apply IH; [destruct i as [o h w|v s|w]; [destruct o; discriminate|destruct v; discriminate|exact Hnd]|intros j Hj; apply Hval; right; exact Hj|intros j Hj; apply Hm; right; exact Hj].
  - destruct (key_find ds i Ht K) as (d & Hf & Hd). rewrite Hf, (validate_item i d Hd K), (Hm i (or_introl eq_refl) K).
    destruct (val_of i) as [v|] eqn:Ev; [|exfalso; exact (Hval i (or_introl eq_refl) K Ev)].
    unfold subjects in Hnd. cbn [List.map List.concat] in Hnd.
    apply IH; [|intros j Hj; apply Hval; right; exact Hj|].
    + destruct i as [o h w|b s|w]; [inversion Hnd; assumption|inversion Hnd; assumption|exfalso; apply K; reflexivity].
    + intros j Hj Kj. unfold vset. destruct (String.eqb_spec (key_of j) (key_of i)) as [Q|Q]; [|apply Hm; [right; exact Hj|exact Kj]].
      exfalso. destruct i as [o h w|b s|w]; [| |apply K; reflexivity].
      * inversion Hnd as [|? ? X _]. apply X. apply in_concat. exists [Option_ o]. split; [|left; reflexivity]. apply in_map_iff. exists j. split; [|exact Hj].
        destruct j as [o' h' w'|b' s'|w']; [|destruct b', o; discriminate|exfalso; apply Kj; reflexivity]. destruct o, o'; try discriminate; reflexivity.
      * inversion Hnd as [|? ? X _]. apply X. apply in_concat. exists [Request b]. split; [|left; reflexivity]. apply in_map_iff. exists j. split; [|exact Hj].
        destruct j as [o' h' w'|b' s'|w']; [destruct b, o'; discriminate| |exfalso; apply Kj; reflexivity]. destruct b, b'; try discriminate; reflexivity.
Qed.
