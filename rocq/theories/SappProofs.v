(** Proofs for C78. *)
From Coq Require Import String Ascii.
From Verif Require Import Base OptModel OptSpec OptProofs OptMain SappModel SappSpec.
Local Open Scope string_scope.
Local Open Scope list_scope.

(** ** Words in the two passes *)

Definition own (n : string) : bool := existsb (String.eqb n) own_names.
Definition all_names : list string := own_names ++ text_names ++ integer_names.
Ltac each_name H := cbn in H; repeat (destruct H as [<-|H]; [|]); [..|destruct H].

Lemma name_shape n : In n all_names -> n <> "" /\ no_equals n.
Proof. intros H. each_name H; (split; [discriminate|cbn; repeat split; discriminate]). Qed.
Lemma generic_own n : In n all_names -> own n = true -> exists d, find_nothrow generic_options true n = Some (Some d) /\ o_long d = n /\ takes d = true.
Proof. intros H E. each_name H; try discriminate E; (eexists; split; [reflexivity|split; reflexivity]). Qed.
Lemma generic_other n : In n all_names -> own n = false -> find_nothrow generic_options true n = Some None.
Proof. intros H E. each_name H; try discriminate E; reflexivity. Qed.
Lemma dummy_other n : In n all_names -> own n = false -> exists d, find_nothrow dummy_options true n = Some (Some d) /\ o_long d = n /\ takes d = true.
Proof. intros H E. each_name H; try discriminate E; (eexists; split; [reflexivity|split; reflexivity]). Qed.

Lemma dashed_generic r : find_nothrow generic_options true (String "-" r) = Some None.
Proof. reflexivity. Qed.
Lemma dashed_dummy r : find_nothrow dummy_options true (String "-" r) = Some None.
Proof. reflexivity. Qed.
Definition plain_table (ds : list odesc) : Prop := (forall r b, find_nothrow ds b (String "-" r) = Some None).
Lemma plain_generic : plain_table generic_options.
Proof. intros r []; reflexivity. Qed.
Lemma plain_dummy : plain_table dummy_options.
Proof. intros r []; reflexivity. Qed.

(** A word that may be a value: what it is on its own *)
Lemma value_kind w : ~ begins "--" w -> kind_of w = KPos \/ exists c adj, kind_of w = KShort c adj /\ w = String "-" (String c adj).
Proof.
  intros H. destruct w as [|a [|b r]]; [left; reflexivity|left; reflexivity|]. unfold kind_of. destruct (Ascii.eqb_spec a "-"); [subst|left; reflexivity].
  destruct (Ascii.eqb_spec b "-"); [subst; exfalso; apply H; exists r; reflexivity|]. right. exists b, r. split; reflexivity.
Qed.
Lemma plain_short ds tok c adj : plain_table ds -> short_group ds tok c adj = Some [P (odash c) (match adj with "" => [] | _ => [adj] end) [tok] false].
Proof. intros H. unfold odash. destruct adj; cbn [short_group]; rewrite H; reflexivity. Qed.
Lemma value_taken ds w : plain_table ds -> ~ begins "--" w ->
  match syntactic ds w with None => false | Some false => true | Some true => match find_nothrow ds true w with Some None => true | _ => false end end = true.
Proof.
  intros Hp Hw. unfold syntactic. destruct (value_kind w Hw) as [->|(c & adj & -> & E)]; [reflexivity|]. rewrite (plain_short ds w c adj Hp). rewrite E, Hp. reflexivity.
Qed.
(** A value that follows an unknown option *)
Definition loose (w : string) : popt := match kind_of w with KShort c adj => P (odash c) (match adj with "" => [] | _ => [adj] end) [w] true | _ => positional w end.

Lemma step_known ds unreg f g rest d : plain_table ds -> gproper g -> find_nothrow ds true (g_name g) = Some (Some d) -> o_long d = g_name g -> takes d = true ->
  run (S f) ds unreg (gwords g ++ rest) = match run f ds unreg rest with Some l => Some (P (g_name g) [g_value g] (gwords g) false :: l) | None => None end.
Proof.
  intros Hp (Hn & Hv) Hf Hl Ht. destruct g as [n j w]. cbn [g_name g_joined g_value] in *. unfold gwords. cbn [g_name g_joined g_value]. destruct (name_shape n Hn) as (Hne & He).
  destruct n as [|a n]; [contradiction|]. destruct j.
  - cbn [run app]. unfold kind_of. cbn [String.append]. cbn [Ascii.eqb Bool.eqb]. unfold parse_long. pose proof (split_app _ w He) as E. cbn [String.append] in E. rewrite E.
    destruct w as [|b w]; [contradiction|]. cbn [finish_all]. unfold finish. cbn [p_key p_value p_orig String.eqb]. rewrite Hf, Ht, Hl. reflexivity.
  - cbn [run app]. unfold kind_of. cbn [String.append]. cbn [Ascii.eqb Bool.eqb]. unfold parse_long. rewrite (split_none _ He).
    cbn [finish_all]. unfold finish. cbn [p_key p_value p_orig String.eqb]. rewrite Hf, Ht, Hl, (value_taken ds w Hp Hv). reflexivity.
Qed.

Definition firsts (g : given) : list popt :=
  if own (g_name g) then [P (g_name g) [g_value g] (gwords g) false]
  else if g_joined g then [P (g_name g) [g_value g] (gwords g) true]
  else [P (g_name g) [] [("--" ++ g_name g)%string] true; loose (g_value g)].

Lemma run_more ds unreg : forall f args, (List.length args <= f)%nat -> run f ds unreg args = run (List.length args) ds unreg args.
Proof.
  assert (FR : forall l rest l' r, finish_all ds unreg l rest = Some (l', r) -> (List.length r <= List.length rest)%nat).
  { assert (F1 : forall o rest o' r, finish ds unreg o rest = Some (o', r) -> (List.length r <= List.length rest)%nat).
    { intros o rest o' r. unfold finish. destruct (String.eqb (p_key o) ""); [intros [= _ <-]; lia|]. destruct (find_nothrow ds true (p_key o)) as [[d|]|]; [| |discriminate].
      - destruct (p_value o) as [|v vs], (takes d); try discriminate.
        + destruct rest as [|t rest]; [discriminate|]. destruct (match syntactic ds t with Some true => _ | Some false => _ | None => _ end); [|discriminate]. intros [= _ <-]. cbn. lia.
        + intros [= _ <-]. lia.
        + intros [= _ <-]. lia.
      - destruct unreg; [intros [= _ <-]; lia|discriminate]. }
    induction l as [|o l IH]; intros rest l' r; [intros [= _ <-]; lia|]. cbn [finish_all]. destruct l as [|o2 l].
    - destruct (finish ds unreg o rest) as [[o' r']|] eqn:E; [|discriminate]. intros [= _ <-]. exact (F1 _ _ _ _ E).
    - destruct (finish ds unreg o []) as [[o' r']|]; [|discriminate]. destruct (finish_all ds unreg (o2 :: l) rest) as [[t' r2]|] eqn:E; [|discriminate]. intros [= _ <-]. exact (IH _ _ _ E). }
  assert (G : forall n f args, (List.length args <= n)%nat -> (List.length args <= f)%nat -> run f ds unreg args = run (List.length args) ds unreg args).
  { induction n as [|n IH]; intros f args Hn Hf; destruct args as [|t rest]; [destruct f; reflexivity|cbn in Hn; lia|destruct f; reflexivity|].
    destruct f as [|f]; [cbn in Hf; lia|]. cbn [List.length] in *. cbn [run].
    destruct (match kind_of t with KLong b => _ | KShort c adj => _ | KEnd => _ | KPos => _ end) as [[l r]|] eqn:E; [|reflexivity].
    assert (L : (List.length r <= List.length rest)%nat).
    { destruct (kind_of t) as [b|c adj| |].
      - destruct (parse_long t b); [exact (FR _ _ _ _ E)|discriminate].
      - destruct (short_group ds t c adj); [exact (FR _ _ _ _ E)|discriminate].
      - injection E as _ <-. cbn. lia.
      - injection E as _ <-. lia. }
    rewrite (IH f r ltac:(lia) ltac:(lia)), (IH (List.length rest) r ltac:(lia) L). reflexivity. }
  intros f args Hf. exact (G _ f args (Nat.le_refl _) Hf).
Qed.

Lemma first_step g rest f : gproper g -> (List.length (gwords g ++ rest) <= f)%nat ->
  run f generic_options true (gwords g ++ rest) = match run f generic_options true rest with Some l => Some (firsts g ++ l) | None => None end.
Proof.
  intros Hg Hf. pose proof Hg as (Hn & Hv). unfold firsts. rewrite app_length in Hf.
  assert (L : (1 <= List.length (gwords g))%nat) by (unfold gwords; destruct (g_joined g); cbn; lia).
  destruct f as [|f]; [lia|]. destruct (own (g_name g)) eqn:E.
  - destruct (generic_own _ Hn E) as (d & H1 & H2 & H3). rewrite (step_known generic_options true f g rest d plain_generic Hg H1 H2 H3).
    rewrite (run_more _ _ (S f) rest ltac:(lia)), (run_more _ _ f rest ltac:(lia)). reflexivity.
  - pose proof (generic_other _ Hn E) as F. destruct g as [n j w]. cbn [g_name g_joined g_value] in *. unfold gwords in *. cbn [g_name g_joined g_value] in *. destruct (name_shape n Hn) as (Hne & He).
    destruct n as [|a n]; [contradiction|]. destruct j.
    + cbn [run app]. unfold kind_of. cbn [String.append]. cbn [Ascii.eqb Bool.eqb]. unfold parse_long. pose proof (split_app _ w He) as E'. cbn [String.append] in E'. rewrite E'.
      destruct w as [|b w]; [contradiction|]. cbn [finish_all]. unfold finish. cbn [p_key p_value p_orig String.eqb]. rewrite F.
      rewrite (run_more _ _ f rest) by (cbn in Hf; lia). pose proof (run_more generic_options true (S f) rest ltac:(cbn in Hf; lia)) as R. cbn [run] in R. rewrite <- R. reflexivity.
    + cbn [List.length] in Hf. destruct f as [|f]; [lia|].
      assert (V : run (S f) generic_options true (w :: rest) = match run f generic_options true rest with Some l => Some (loose w :: l) | None => None end).
      { cbn [run]. unfold loose. destruct (value_kind w Hv) as [->|(c & adj & -> & Ew)]; [reflexivity|]. rewrite (plain_short _ w c adj plain_generic).
        cbn [finish_all]. unfold finish. cbn [p_key p_value p_orig]. change (String.eqb (odash c) "") with false. cbv iota. rewrite (plain_generic (String c "") true : find_nothrow generic_options true (odash c) = Some None). reflexivity. }
      change (match run (S (S f)) generic_options true (("--" ++ String a n)%string :: w :: rest) with x => x end = match run (S (S f)) generic_options true rest with Some l => Some ([P (String a n) [] [("--" ++ String a n)%string] true; loose w] ++ l) | None => None end).
      assert (U : run (S (S f)) generic_options true (("--" ++ String a n)%string :: w :: rest) = match run (S f) generic_options true (w :: rest) with Some l => Some (P (String a n) [] [("--" ++ String a n)%string] true :: l) | None => None end).
      { cbn [run]. unfold kind_of. cbn [String.append]. cbn [Ascii.eqb Bool.eqb]. unfold parse_long. rewrite (split_none _ He).
        cbn [finish_all]. unfold finish. cbn [p_key p_value p_orig String.eqb]. rewrite F. reflexivity. }
      rewrite U, V. rewrite (run_more _ _ f rest) by lia. rewrite (run_more _ _ (S (S f)) rest) by lia. destruct (run (List.length rest) generic_options true rest); reflexivity.
Qed.

Lemma first_line l : Forall gproper l -> forall f, (List.length (gline l) <= f)%nat -> run f generic_options true (gline l) = Some (List.concat (List.map firsts l)).
Proof.
  induction l as [|g l IH]; intros Hp f Hf; [destruct f; reflexivity|].
  inversion Hp as [|? ? Hg Hp']; subst. unfold gline in *. cbn [List.map List.concat] in *. rewrite (first_step g _ f Hg Hf). rewrite app_length in Hf.
  rewrite (IH Hp' f ltac:(lia)). reflexivity.
Qed.
Lemma start_line ds unreg det args f : no_dash det -> (List.length (det :: args) <= f)%nat ->
  run f ds unreg (det :: args) = match run f ds unreg args with Some l => Some (positional det :: l) | None => None end.
Proof.
  intros Hd Hf. cbn [List.length] in Hf. destruct f as [|f]; [lia|]. rewrite (run_more ds unreg (S f) args) by lia. cbn [run].
  assert (K : kind_of det = KPos). { destruct det as [|a [|b r]]; [reflexivity|reflexivity|]. unfold kind_of. destruct (Ascii.eqb_spec a "-"); [|reflexivity]. subst. exfalso.
    destruct Hd as [Hd|Hd]; [discriminate|]. apply Hd. exists (String b r). reflexivity. }
  rewrite K, (run_more ds unreg f args) by lia. reflexivity.
Qed.

(** ** What goes to the plugin *)

Definition theirs (l : list given) : list given := filter (fun g => negb (own (g_name g))) l.
Definition ours (l : list given) : list given := filter (fun g => own (g_name g)) l.
Lemma loose_orig w : p_orig (loose w) = [w] /\ (p_unreg (loose w) || String.eqb (p_key (loose w)) "") = true.
Proof. unfold loose. destruct (kind_of w); split; reflexivity. Qed.
Lemma unrecognized_app a b : unrecognized (a ++ b) = unrecognized a ++ unrecognized b.
Proof. unfold unrecognized. rewrite map_app, concat_app. reflexivity. Qed.
Lemma unrecognized_line l : Forall gproper l -> unrecognized (List.concat (List.map firsts l)) = gline (theirs l).
Proof.
  induction l as [|g l IH]; intros Hp; [reflexivity|]. inversion Hp as [|? ? Hg Hp']; subst. cbn [List.map List.concat]. rewrite unrecognized_app, (IH Hp').
  unfold theirs. cbn [filter]. unfold firsts. destruct (own (g_name g)) eqn:E.
  - cbn [negb]. unfold unrecognized. cbn [List.map List.concat p_unreg p_key p_orig]. destruct Hg as (Hn & _). destruct (name_shape _ Hn) as (Hne & _).
    destruct (String.eqb_spec (g_name g) ""); [contradiction|]. reflexivity.
  - cbn [negb]. change (gline (g :: filter (fun g0 => negb (own (g_name g0))) l)) with (gwords g ++ gline (filter (fun g0 => negb (own (g_name g0))) l)). f_equal.
    destruct (g_joined g) eqn:J.
    + unfold unrecognized. cbn. rewrite app_nil_r. reflexivity.
    + unfold unrecognized. cbn [List.map List.concat p_unreg p_key p_orig orb]. destruct (loose_orig (g_value g)) as (-> & ->). unfold gwords. rewrite J. reflexivity.
Qed.

(** The first pass keeps the detector and our options. *)
Definition asopt (g : given) : popt := P (g_name g) [g_value g] (gwords g) false.
Definition kept (o : popt) : bool := negb (String.eqb (p_key o) "" || p_unreg o).
Lemma store_skip ds fin l m : store ds fin l m = store ds fin (filter kept l) m.
Proof.
  revert m. induction l as [|o l IH]; intros m; [reflexivity|]. cbn [filter]. unfold kept at 1. cbn [store]. destruct (String.eqb (p_key o) "" || p_unreg o) eqn:E; cbn [orb negb]; [apply IH|].
  cbn [store]. rewrite E. cbn [orb]. destruct (fin (p_key o)); [apply IH|]. destruct (find_nothrow ds false (p_key o)) as [[d|]|]; [|reflexivity|reflexivity].
  destruct (m (p_key o)); [reflexivity|]. destruct (validate (o_ty d) (p_value o)); [apply IH|reflexivity].
Qed.
Lemma positional_tail l : Forall gproper l ->
  filter kept (filter (fun o => negb (String.eqb (p_key o) "subargs")) (name_positional false (List.concat (List.map firsts l)))) = List.map asopt (ours l).
Proof.
  assert (A : forall b a c, name_positional false (a ++ b ++ c) = name_positional false a ++ name_positional false (b ++ c)).
  { intros b a c. induction a as [|o a IHa]; [reflexivity|]. cbn. destruct (String.eqb (p_key o) ""); cbn; rewrite IHa; reflexivity. }
  induction l as [|g l IH]; intros Hp; [reflexivity|]. inversion Hp as [|? ? Hg Hp']; subst. cbn [List.map List.concat].
  pose proof (A [] (firsts g) (List.concat (List.map firsts l))) as A'. cbn [app] in A'. rewrite A', !filter_app, (IH Hp'). clear A'.
  unfold ours. cbn [filter]. pose proof Hg as (Hn & _). destruct (name_shape _ Hn) as (Hne & _). unfold firsts. destruct (own (g_name g)) eqn:E.
  - cbn [name_positional p_key]. destruct (String.eqb_spec (g_name g) ""); [contradiction|]. cbn [filter p_key].
    destruct (String.eqb_spec (g_name g) "subargs") as [X|X]; [rewrite X in E; discriminate|]. cbn [negb filter]. unfold kept. cbn [p_key p_unreg]. destruct (String.eqb_spec (g_name g) ""); [contradiction|]. reflexivity.
  - destruct (g_joined g).
    + cbn [name_positional p_key]. destruct (String.eqb_spec (g_name g) ""); [contradiction|]. cbn [filter p_key]. destruct (negb _); [|reflexivity]. cbn [filter]. unfold kept. cbn [p_key p_unreg].
      rewrite orb_true_r. reflexivity.
    + assert (Q : forall w, filter kept (filter (fun o => negb (String.eqb (p_key o) "subargs")) (name_positional false [loose w])) = []).
      { intros w. unfold loose. destruct (kind_of w); reflexivity. }
      specialize (Q (g_value g)). cbn [name_positional p_key]. cbn [name_positional] in Q. destruct (String.eqb_spec (g_name g) ""); [contradiction|]. cbn [filter p_key].
      destruct (negb (String.eqb (g_name g) "subargs")).
      * cbn [filter]. unfold kept at 1. cbn [p_key p_unreg]. rewrite orb_true_r. cbn [negb]. cbn [filter] in Q. rewrite Q. reflexivity.
      * cbn [filter] in Q. rewrite Q. reflexivity.
Qed.

(** ** Storing *)

Lemma store_all ds fin kv : NoDup (List.map (fun x => p_key (fst x)) kv) ->
  (forall o v, In (o, v) kv -> p_key o <> "" /\ p_unreg o = false /\ fin (p_key o) = false /\ exists d, find_nothrow ds false (p_key o) = Some (Some d) /\ validate (o_ty d) (p_value o) = Some v) ->
  forall m, (forall o v, In (o, v) kv -> m (p_key o) = None) ->
  exists m', store ds fin (List.map fst kv) m = (m', true) /\ (forall o v, In (o, v) kv -> m' (p_key o) = Some v) /\ (forall k, (forall o v, In (o, v) kv -> p_key o <> k) -> m' k = m k).
Proof.
  induction kv as [|[o v] kv IH]; intros Hnd Hall m Hm.
  - exists m. split; [reflexivity|]. split; [intros ? ? []|reflexivity].
  - cbn [List.map fst] in *. inversion Hnd as [|? ? Hx Hnd']; subst. destruct (Hall o v (or_introl eq_refl)) as (H1 & H2 & H3 & d & H4 & H5).
    cbn [store]. rewrite H2, H3, !orb_false_r. destruct (String.eqb_spec (p_key o) ""); [contradiction|]. rewrite H4, (Hm o v (or_introl eq_refl)), H5.
    assert (Fr : forall o' v', In (o', v') kv -> p_key o' <> p_key o). { intros o' v' Hi X. apply Hx. rewrite <- X. apply in_map_iff. exists (o', v'). split; [reflexivity|exact Hi]. }
    destruct (IH Hnd' (fun o' v' Hi => Hall o' v' (or_intror Hi)) (vset m (p_key o) v)) as (m' & E & I1 & I2).
    { intros o' v' Hi. unfold vset. destruct (String.eqb_spec (p_key o') (p_key o)) as [X|X]; [exfalso; exact (Fr _ _ Hi X)|apply (Hm o' v'); right; exact Hi]. }
    exists m'. split; [exact E|]. split.
    + intros o' v' [[= <- <-]|Hi]; [|exact (I1 _ _ Hi)]. rewrite I2; [unfold vset; rewrite String.eqb_refl; reflexivity|]. intros o' v' Hi. exact (Fr _ _ Hi).
    + intros k Hk. rewrite I2; [|intros o' v' Hi; apply (Hk o' v'); right; exact Hi]. unfold vset. destruct (String.eqb_spec k (p_key o)) as [X|]; [|reflexivity].
      exfalso. apply (Hk o v); [left; reflexivity|symmetry; exact X].
Qed.

Lemma decimal_nonneg s n : decimal s n -> (0 <= n)%Z.
Proof. induction 1; lia. Qed.
Lemma cast_int_iff s n : cast_int s = Some n <-> integer s n.
Proof.
  split.
  - unfold cast_int. destruct s as [|c r]; [discriminate|]. destruct (Ascii.eqb_spec c "-"); [subst|destruct (Ascii.eqb_spec c "+"); [subst|]].
    + destruct (number r) as [m|] eqn:E; [|discriminate]. destruct (Z.leb_spec (- 2 ^ 31) (- m)); [|discriminate]. destruct (Z.ltb_spec (- m) (2 ^ 31)); [|discriminate].
      cbn [andb]. intros [= <-]. apply (int_minus r m); [apply number_decimal; exact E|lia].
    + destruct (number r) as [m|] eqn:E; [|discriminate]. destruct (Z.leb_spec (- 2 ^ 31) m); [|discriminate]. destruct (Z.ltb_spec m (2 ^ 31)); [|discriminate].
      cbn [andb]. intros [= <-]. apply (int_plus r m); [apply number_decimal; exact E|assumption].
    + destruct (number (String c r)) as [m|] eqn:E; [|discriminate]. destruct (Z.leb_spec (- 2 ^ 31) m); [|discriminate]. destruct (Z.ltb_spec m (2 ^ 31)); [|discriminate].
      cbn [andb]. intros [= <-]. apply int_plain; [apply number_decimal; exact E|assumption].
  - intros [t m H L|t m H L|t m H L]; pose proof (decimal_nonneg _ _ H) as P0; apply number_decimal in H as E.
    + destruct t as [|c r]; [discriminate E|]. unfold cast_int. destruct (decimal_nosign _ _ r H) as (N1 & N2).
      destruct (Ascii.eqb_spec c "-"); [subst; contradiction|]. destruct (Ascii.eqb_spec c "+"); [subst; contradiction|].
      rewrite E. destruct (Z.leb_spec (- 2 ^ 31) m); [|lia]. destruct (Z.ltb_spec m (2 ^ 31)); [reflexivity|lia].
    + cbn [String.append]. unfold cast_int. cbn [Ascii.eqb Bool.eqb]. rewrite E. destruct (Z.leb_spec (- 2 ^ 31) m); [|lia]. destruct (Z.ltb_spec m (2 ^ 31)); [reflexivity|lia].
    + cbn [String.append]. unfold cast_int. cbn [Ascii.eqb Bool.eqb]. rewrite E. destruct (Z.leb_spec (- 2 ^ 31) (- m)); [|lia]. destruct (Z.ltb_spec (- m) (2 ^ 31)); [reflexivity|lia].
Qed.

(** ** The whole line *)

Definition gval (n w : string) : option oval :=
  if existsb (String.eqb n) integer_names then option_map VNum (cast_int w) else if String.eqb n "debug-level" then option_map VNum (cast_unsigned w) else Some (VStr w).
Definition gv (g : given) : oval := match gval (g_name g) (g_value g) with Some v => v | None => VFlag end.
Lemma readable_val l g : readable l -> In g l -> gval (g_name g) (g_value g) = Some (gv g).
Proof.
  intros (R1 & R2) Hg. unfold gv. destruct (gval (g_name g) (g_value g)) as [v|] eqn:E; [reflexivity|]. exfalso. unfold gval in E.
  destruct (existsb (String.eqb (g_name g)) integer_names) eqn:B.
  - apply existsb_exists in B as (x & Hx & Q). apply String.eqb_eq in Q. subst x. destruct (R2 (g_name g) (g_value g) Hx) as (z & Hz).
    + exists (g_joined g). destruct g. exact Hg.
    + apply cast_int_iff in Hz. rewrite Hz in E. discriminate E.
  - destruct (String.eqb_spec (g_name g) "debug-level") as [Q|Q]; [|discriminate E]. destruct (R1 (g_value g)) as (z & Hz).
    + exists (g_joined g). destruct g as [n j w]. cbn in *. subst. exact Hg.
    + apply cast_iff in Hz. rewrite Hz in E. discriminate E.
Qed.
Lemma own_stored g : In (g_name g) all_names -> own (g_name g) = true -> exists d, find_nothrow generic_options false (g_name g) = Some (Some d) /\ validate (o_ty d) [g_value g] = gval (g_name g) (g_value g).
Proof. destruct g as [n j w]. cbn [g_name g_value]. intros H E. each_name H; try discriminate E; (eexists; split; [reflexivity|reflexivity]). Qed.
Lemma their_stored g : In (g_name g) all_names -> own (g_name g) = false -> exists d, find_nothrow dummy_options false (g_name g) = Some (Some d) /\ validate (o_ty d) [g_value g] = gval (g_name g) (g_value g).
Proof. destruct g as [n j w]. cbn [g_name g_value]. intros H E. each_name H; try discriminate E; (eexists; split; [reflexivity|reflexivity]). Qed.

Lemma second_line l : Forall gproper l -> (forall g, In g l -> own (g_name g) = false) -> forall f, (List.length (gline l) <= f)%nat -> run f dummy_options false (gline l) = Some (List.map asopt l).
Proof.
  induction l as [|g l IH]; intros Hp Ho f Hf; [destruct f; reflexivity|]. inversion Hp as [|? ? Hg Hp']; subst. unfold gline in *. cbn [List.map List.concat] in *. rewrite app_length in Hf.
  assert (L : (1 <= List.length (gwords g))%nat) by (unfold gwords; destruct (g_joined g); cbn; lia). destruct f as [|f]; [lia|].
  pose proof Hg as (Hn & _). destruct (dummy_other _ Hn (Ho g (or_introl eq_refl))) as (d & H1 & H2 & H3). rewrite (step_known dummy_options false f g _ d plain_dummy Hg H1 H2 H3).
  rewrite (IH Hp' (fun x Hx => Ho x (or_intror Hx)) f ltac:(lia)). reflexivity.
Qed.

Lemma nodup_filter (f : given -> bool) l : NoDup (List.map g_name l) -> NoDup (List.map g_name (filter f l)).
Proof.
  induction l as [|g l IH]; intros H; [constructor|]. inversion H as [|? ? H1 H2]; subst. cbn [filter]. destruct (f g); [|exact (IH H2)]. cbn. constructor; [|exact (IH H2)].
  intros X. apply H1. apply in_map_iff in X as (y & E & Hy). apply filter_In in Hy as (Hy & _). rewrite <- E. apply in_map. exact Hy.
Qed.
Lemma kv_fst (l : list given) : List.map fst (List.map (fun g => (asopt g, gv g)) l) = List.map asopt l.
Proof. rewrite map_map. reflexivity. Qed.
Lemma kv_keys (l : list given) : List.map (fun x => p_key (fst x)) (List.map (fun g => (asopt g, gv g)) l) = List.map g_name l.
Proof. rewrite map_map. reflexivity. Qed.
Lemma kept_asopt l : Forall gproper l -> filter kept (List.map asopt l) = List.map asopt l.
Proof.
  induction l as [|g l IH]; intros Hp; [reflexivity|]. inversion Hp as [|? ? Hg Hp']; subst. cbn [List.map filter]. destruct Hg as (Hn & _). destruct (name_shape _ Hn) as (Hne & _).
  unfold kept. cbn [p_key p_unreg asopt]. destruct (String.eqb_spec (g_name g) ""); [contradiction|]. cbn [orb negb]. f_equal. exact (IH Hp').
Qed.

Record told (det : string) (l : list given) (m : vmap) : Prop := {
  to_det : m "detector" = Some (VStr det);
  to_in : forall g, In g l -> m (g_name g) = Some (gv g);
  to_out : forall k, k <> "detector" -> (forall g, In g l -> g_name g <> k) -> m k = None }.

Lemma first_store det l : Forall gproper l -> NoDup (List.map g_name l) -> readable l -> exists m,
  store generic_options (fun _ => false) (filter (fun o => negb (String.eqb (p_key o) "subargs")) (name_positional true (positional det :: List.concat (List.map firsts l)))) vempty = (m, true) /\
  told det (ours l) m.
Proof.
  intros Hp Hnd Hr. rewrite store_skip. cbn [name_positional positional p_key]. change (String.eqb "" "") with true. cbv iota. cbn [p_value p_orig p_unreg filter p_key].
  change (negb (String.eqb "detector" "subargs")) with true. cbv iota. cbn [filter]. change (kept _) with true at 1. cbv iota. rewrite (positional_tail l Hp).
  set (o := P "detector" [det] [det] false). rewrite <- (kv_fst (ours l)).
  change (o :: List.map fst (List.map (fun g => (asopt g, gv g)) (ours l))) with (List.map fst ((o, VStr det) :: List.map (fun g => (asopt g, gv g)) (ours l))).
  assert (Own : forall g, In g (ours l) -> In g l /\ own (g_name g) = true /\ In (g_name g) all_names).
  { intros g Hg. apply filter_In in Hg as (Hg & Ho). split; [exact Hg|]. split; [exact Ho|]. rewrite Forall_forall in Hp. exact (proj1 (Hp g Hg)). }
  destruct (store_all generic_options (fun _ => false) ((o, VStr det) :: List.map (fun g => (asopt g, gv g)) (ours l))) with (m := vempty) as (m & E & I1 & I2).
  - cbn [List.map fst p_key o]. rewrite kv_keys. constructor; [|apply nodup_filter; exact Hnd]. intros X. apply in_map_iff in X as (g & Eg & Hg). destruct (Own g Hg) as (_ & Ho & _). rewrite Eg in Ho. discriminate Ho.
  - intros o' v' [[= <- <-]|Hi].
    + split; [discriminate|]. split; [reflexivity|]. split; [reflexivity|]. eexists. split; reflexivity.
    + apply in_map_iff in Hi as (g & [= <- <-] & Hg). destruct (Own g Hg) as (Hl & Ho & Hn). split; [exact (proj1 (name_shape _ Hn))|]. split; [reflexivity|]. split; [reflexivity|].
      destruct (own_stored g Hn Ho) as (d & D1 & D2). exists d. split; [exact D1|]. cbn [asopt p_value]. rewrite D2. exact (readable_val l g Hr Hl).
  - reflexivity.
  - exists m. split; [exact E|]. constructor.
    + exact (I1 o (VStr det) (or_introl eq_refl)).
    + intros g Hg. apply (I1 (asopt g) (gv g)). right. apply in_map_iff. exists g. split; [reflexivity|exact Hg].
    + intros k Hk Hall. rewrite I2; [reflexivity|]. intros o' v' [[= <- <-]|Hi]; [cbn; intros X; apply Hk; symmetry; exact X|]. apply in_map_iff in Hi as (g & [= <- <-] & Hg). exact (Hall g Hg).
Qed.
Lemma second_store det l m : Forall gproper l -> NoDup (List.map g_name l) -> readable l -> told det (ours l) m -> exists m2,
  store dummy_options (fun k => is_some (m k)) (positional det :: List.map asopt (theirs l)) m = (m2, true) /\ told det l m2.
Proof.
  intros Hp Hnd Hr Hm.
  assert (Th : forall g, In g (theirs l) -> In g l /\ own (g_name g) = false /\ In (g_name g) all_names).
  { intros g Hg. apply filter_In in Hg as (Hg & Ho). split; [exact Hg|]. split; [destruct (own (g_name g)); [discriminate|reflexivity]|]. rewrite Forall_forall in Hp. exact (proj1 (Hp g Hg)). }
  assert (No : forall g, In g (theirs l) -> m (g_name g) = None).
  { intros g Hg. destruct (Th g Hg) as (_ & Ho & Hn). apply (to_out _ _ _ Hm).
    - intros X. rewrite X in Hn. cbn in Hn. intuition discriminate.
    - intros g' Hg' X. apply filter_In in Hg' as (_ & Ho'). rewrite X, Ho in Ho'. discriminate. }
  cbn [store positional p_key]. change (String.eqb "" "") with true. cbn [orb]. rewrite <- (kv_fst (theirs l)).
  destruct (store_all dummy_options (fun k => is_some (m k)) (List.map (fun g => (asopt g, gv g)) (theirs l))) with (m := m) as (m2 & E & I1 & I2).
  - rewrite kv_keys. apply nodup_filter. exact Hnd.
  - intros o' v' Hi. apply in_map_iff in Hi as (g & [= <- <-] & Hg). destruct (Th g Hg) as (Hl & Ho & Hn). split; [exact (proj1 (name_shape _ Hn))|]. split; [reflexivity|].
    split; [cbn [asopt p_key]; rewrite (No g Hg); reflexivity|]. destruct (their_stored g Hn Ho) as (d & D1 & D2). exists d. split; [exact D1|]. cbn [asopt p_value]. rewrite D2. exact (readable_val l g Hr Hl).
  - intros o' v' Hi. apply in_map_iff in Hi as (g & [= <- <-] & Hg). exact (No g Hg).
  - exists m2. split; [exact E|]. constructor.
    + rewrite I2; [exact (to_det _ _ _ Hm)|]. intros o' v' Hi. apply in_map_iff in Hi as (g & [= <- <-] & Hg). cbn [asopt p_key]. intros X. destruct (Th g Hg) as (_ & _ & Hn). rewrite X in Hn. cbn in Hn. intuition discriminate.
    + intros g Hg. destruct (own (g_name g)) eqn:O.
      * rewrite I2; [apply (to_in _ _ _ Hm); apply filter_In; split; assumption|]. intros o' v' Hi. apply in_map_iff in Hi as (g' & [= <- <-] & Hg'). cbn [asopt p_key]. intros X.
        destruct (Th g' Hg') as (_ & Ho & _). rewrite X, O in Ho. discriminate.
      * apply (I1 (asopt g) (gv g)). apply in_map_iff. exists g. split; [reflexivity|]. apply filter_In. split; [exact Hg|rewrite O; reflexivity].
    + intros k Hk Hall. rewrite I2.
      * apply (to_out _ _ _ Hm); [exact Hk|]. intros g Hg. apply filter_In in Hg as (Hg & _). exact (Hall g Hg).
      * intros o' v' Hi. apply in_map_iff in Hi as (g & [= <- <-] & Hg). destruct (Th g Hg) as (Hl & _ & _). exact (Hall g Hl).
Qed.

Lemma theirs_ok l : Forall gproper l -> Forall gproper (theirs l) /\ forall g, In g (theirs l) -> own (g_name g) = false.
Proof.
  intros H. split.
  - apply Forall_forall. intros g Hg. apply filter_In in Hg as (Hg & _). rewrite Forall_forall in H. exact (H g Hg).
  - intros g Hg. apply filter_In in Hg as (_ & Ho). destruct (own (g_name g)); [discriminate|reflexivity].
Qed.

Lemma tells_in l n w : tells l n w -> exists g, In g l /\ g_name g = n /\ g_value g = w.
Proof. intros (j & H). exists (Given n j w). repeat split. exact H. Qed.
Lemma in_tells l g : In g l -> tells l (g_name g) (g_value g).
Proof. intros H. exists (g_joined g). destruct g. exact H. Qed.
Lemma tells_dec l n : (exists w, tells l n w) \/ forall w, ~ tells l n w.
Proof.
  induction l as [|g l IH]; [right; intros w (j & [])|]. destruct (String.eqb_spec (g_name g) n) as [<-|N]; [left; exists (g_value g); apply in_tells; left; reflexivity|].
  destruct IH as [(w & j & H)|H]; [left; exists w, j; right; exact H|]. right. intros w (j & [->|X]); [apply N; reflexivity|exact (H w (ex_intro _ j X))].
Qed.
Lemma tells_unique l n w w' : NoDup (List.map g_name l) -> tells l n w -> tells l n w' -> w = w'.
Proof.
  induction l as [|g l IH]; intros Hnd (j & H) (j' & H'); [destruct H|]. inversion Hnd as [|? ? H1 H2]; subst. cbn in H1.
  destruct H as [->|H], H' as [E|H'].
  - injection E as _ <-. reflexivity.
  - exfalso. apply H1. apply in_map_iff. exists (Given n j' w'). split; [reflexivity|exact H'].
  - subst. exfalso. apply H1. apply in_map_iff. exists (Given n j w). split; [reflexivity|exact H].
  - exact (IH H2 (ex_intro _ j H) (ex_intro _ j' H')).
Qed.

(** Lines with a plugin: the variables setup gets *)
Lemma simulator_line load log_ok det l lib : no_dash det -> Forall gproper l -> NoDup (List.map g_name l) -> readable l -> tells l "lib-path" lib ->
  (forall b f, tells l "log-config" f -> log_ok b f = true) -> load (det ++ "FrameSimulatorPlugin")%string (library lib det) = Some dummy_options ->
  exists m, simulator load log_ok (det :: gline l) = Sets (defaults dummy_options m) /\ told det l m.
Proof.
  intros Hd Hp Hnd Hr Hlib Hlog Hload. unfold simulator. rewrite (start_line _ _ _ _ _ Hd (Nat.le_refl _)).
  rewrite (first_line l Hp) by (cbn; lia). destruct (first_store det l Hp Hnd Hr) as (m & E & Hm). rewrite E.
  assert (Tm : forall n w, tells l n w -> own n = true -> gval n w = m n).
  { intros n w H Ho. destruct (tells_in l n w H) as (g & Hg & <- & <-). rewrite (readable_val l g Hr Hg). symmetry. apply (to_in _ _ _ Hm). apply filter_In. split; assumption. }
  assert (Log : is_some (m "log-config") && negb (log_ok (has_suffix (str m "log-config") ".xml") (str m "log-config")) = false).
  { destruct (tells_dec l "log-config") as [(f & Hf)|Hf].
    - pose proof (Tm _ _ Hf eq_refl) as X. unfold str. rewrite <- X. cbn [gval existsb integer_names]. cbv iota. rewrite (Hlog _ f Hf). reflexivity.
    - assert (N : m "log-config" = None). { apply (to_out _ _ _ Hm); [discriminate|]. intros g Hg X. apply filter_In in Hg as (Hg & _). apply (Hf (g_value g)). rewrite <- X. apply in_tells. exact Hg. }
      rewrite N. reflexivity. }
  rewrite Log. assert (Det : str m "detector" = det) by (unfold str; rewrite (to_det _ _ _ Hm); reflexivity). rewrite (to_det _ _ _ Hm). cbn [is_some].
  assert (Lp : m "lib-path" = Some (VStr lib)) by (rewrite <- (Tm _ _ Hlib eq_refl); reflexivity). rewrite Lp. cbn [is_some negb].
  assert (Lp' : str m "lib-path" = lib) by (unfold str; rewrite Lp; reflexivity). rewrite Det, Lp', Hload. cbn [is_some].
  assert (U : unrecognized (positional det :: List.concat (List.map firsts l)) = det :: gline (theirs l)).
  { rewrite <- (unrecognized_line l Hp). reflexivity. }
  rewrite U. destruct (theirs_ok l Hp) as (T1 & T2). rewrite (start_line _ _ _ _ _ Hd (Nat.le_refl _)), (second_line (theirs l) T1 T2) by (cbn; lia).
  destruct (second_store det l m Hp Hnd Hr Hm) as (m2 & E2 & Hm2). rewrite E2.
  assert (Q : m "help" = None /\ m "version" = None).
  { split; apply (to_out _ _ _ Hm); try discriminate; intros g Hg X; apply filter_In in Hg as (_ & Ho); rewrite X in Ho; discriminate. }
  destruct Q as (-> & ->). cbn [is_some]. exists m2. split; [reflexivity|exact Hm2].
Qed.

Lemma told_at det l m n w : told det l m -> readable l -> tells l n w -> m n = gval n w.
Proof. intros Hm Hr H. destruct (tells_in l n w H) as (g & Hg & <- & <-). rewrite (readable_val l g Hr Hg). exact (to_in _ _ _ Hm g Hg). Qed.
Lemma told_none det l m n : told det l m -> n <> "detector" -> (forall w, ~ tells l n w) -> m n = None.
Proof. intros Hm Hn H. apply (to_out _ _ _ Hm _ Hn). intros g Hg X. apply (H (g_value g)). rewrite <- X. apply in_tells. exact Hg. Qed.

Lemma int_setting det l m n dflt d : told det l m -> readable l -> In n integer_names -> (dlookup dummy_options n = None /\ d = dflt \/ dlookup dummy_options n = Some (VNum dflt)) ->
  int_is l n dflt (or_num (opt_num (defaults dummy_options m) n) d).
Proof.
  intros Hm Hr Hn Hd. unfold opt_num. rewrite defaults_at. destruct (tells_dec l n) as [(w & Hw)|Hw].
  - left. exists w. split; [exact Hw|]. destruct (proj2 Hr n w Hn Hw) as (z & Hz). rewrite (told_at det l m n w Hm Hr Hw). unfold gval.
    assert (B : existsb (String.eqb n) integer_names = true) by (apply existsb_exists; exists n; split; [exact Hn|apply String.eqb_refl]).
    rewrite B. apply cast_int_iff in Hz as Hc. rewrite Hc. cbn. exact Hz.
  - right. split; [exact Hw|]. rewrite (told_none det l m n Hm); [|intros ->; cbn in Hn; intuition discriminate|exact Hw]. destruct Hd as [(-> & ->) | ->]; reflexivity.
Qed.
Lemma int_maybe det l m n : told det l m -> readable l -> NoDup (List.map g_name l) -> In n integer_names -> dlookup dummy_options n = None -> maybe_int l n (opt_num (defaults dummy_options m) n).
Proof.
  intros Hm Hr Hnd Hn Hd z. unfold opt_num. rewrite defaults_at, Hd.
  assert (B : existsb (String.eqb n) integer_names = true) by (apply existsb_exists; exists n; split; [exact Hn|apply String.eqb_refl]).
  destruct (tells_dec l n) as [(w & Hw)|Hw].
  - destruct (proj2 Hr n w Hn Hw) as (z0 & Hz). rewrite (told_at det l m n w Hm Hr Hw). unfold gval. rewrite B. apply cast_int_iff in Hz as Hc. rewrite Hc. cbn. split.
    + intros [= <-]. exists w. split; assumption.
    + intros (w' & Hw' & Hz'). rewrite (tells_unique l n w' w Hnd Hw' Hw) in Hz'. apply cast_int_iff in Hz'. rewrite Hc in Hz'. exact Hz'.
  - rewrite (told_none det l m n Hm); [|intros ->; cbn in Hn; intuition discriminate|exact Hw]. split; [discriminate|]. intros (w & H & _). exfalso. exact (Hw w H).
Qed.
Lemma text_val n w : In n text_names -> gval n w = Some (VStr w).
Proof. intros H. each_name H; reflexivity. Qed.
Lemma text_maybe det l m n : told det l m -> readable l -> NoDup (List.map g_name l) -> In n text_names -> dlookup dummy_options n = None -> maybe_text l n (opt_str (defaults dummy_options m) n).
Proof.
  intros Hm Hr Hnd Hn Hd w. unfold opt_str. rewrite defaults_at, Hd. destruct (tells_dec l n) as [(w0 & Hw)|Hw].
  - rewrite (told_at det l m n w0 Hm Hr Hw), (text_val n w0 Hn). split; [intros [= <-]; exact Hw|]. intros H. rewrite (tells_unique l n w w0 Hnd H Hw). reflexivity.
  - rewrite (told_none det l m n Hm); [|intros ->; cbn in Hn; intuition discriminate|exact Hw]. split; [discriminate|]. intros H. exfalso. exact (Hw w H).
Qed.
