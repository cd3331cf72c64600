(** Consequences of the invariant, in the vocabulary of AcqSpec. *)
From Verif Require Import Base PlaceModel PlaceSpec PlaceProofs NameModel NameProofs AcqModel AcqSpec AcqProofs AcqInv.
Local Open Scope N_scope.

Section Thms.
Context (g : geom) (nm : naming) (dir master : string) (total towrite : N) (defs : list dsdef) (K : N) (dk : disk).
Context (OK : setup_ok g nm defs K).

Let a0 := configured g nm dir master total towrite defs.
Let KR := N.to_nat K.

Lemma th_P : 1 <= g_procs (a_geom a0). Proof. apply (so_procs _ _ _ _ OK). Qed.
Lemma th_r : g_rank (a_geom a0) < g_procs (a_geom a0). Proof. apply (so_rank _ _ _ _ OK). Qed.
Lemma th_F : 1 <= g_fpb (a_geom a0). Proof. apply (so_fpb _ _ _ _ OK). Qed.
Lemma th_nd : NoDup (map d_name (a_defs a0)). Proof. apply (so_names _ _ _ _ OK). Qed.

Lemma th_idx k : idx a0 k = N.of_nat k * g_procs g + g_rank g. Proof. reflexivity. Qed.
Lemma th_pth k : pth a0 k = path_of dir nm (N.of_nat k * g_procs g + g_rank g). Proof. reflexivity. Qed.

Lemma th_stem i : generate_filename nm i <> ""%string.
Proof.
  intros H. apply filename_nonempty in H. destruct (so_stem _ _ _ _ OK) as [H1|H1]; destruct H; congruence.
Qed.

Lemma th_inj k k' : (k <= KR)%nat -> (k' <= KR)%nat -> pth a0 k = pth a0 k' -> k = k'.
Proof.
  intros Hk Hk' H. rewrite !th_pth in H. unfold path_of in H. apply app_inj_l in H. apply app_inj_l in H.
  pose proof (so_procs _ _ _ _ OK). pose proof (so_digits _ _ _ _ OK).
  apply filename_inj in H; [|apply (so_numbers _ _ _ _ OK)|unfold KR in *; nia|unfold KR in *; nia|apply th_stem].
  nia.
Qed.

Lemma th_chunks d : In d (a_defs a0) -> d_chunks d <> [].
Proof. intros Hin E. pose proof (so_length _ _ _ _ OK d Hin) as HL. rewrite E in HL. discriminate. Qed.

Lemma th_rows_val k d c0 : (k <= KR)%nat -> In d defs -> hd_error (d_chunks d) = Some c0 ->
  dataset_rows a0 d (idx a0 k) = Ret (expected_rows (g_fpb g) (g_bpf g) towrite c0 (N.of_nat k)).
Proof.
  intros Hk Hin Hc. unfold dataset_rows. destruct (d_chunks d) as [|c ct] eqn:E; [discriminate|].
  injection Hc as ->. pose proof (so_procs _ _ _ _ OK) as HP.
  pose proof (so_int _ _ _ _ OK d c0 Hin) as Hint. rewrite E in Hint. specialize (Hint eq_refl).
  pose proof (so_digits _ _ _ _ OK) as Hdig.
  change (a_geom a0) with g. change (a_towrite a0) with towrite.
  destruct (N.eqb_spec (g_procs g) 0); [lia|].
  rewrite th_idx, dma by apply (so_rank _ _ _ _ OK).
  set (W := g_bpf g * g_fpb g * c0) in *.
  assert (HkK : N.of_nat k <= K) by (unfold KR in Hk; lia).
  assert (N.of_nat k < 10 ^ 6) by nia.
  assert (W < 2 ^ 31) by nia. assert ((N.of_nat k + 1) * W < 2 ^ 31) by nia.
  cbv zeta.
  rewrite (i32_small (Z.of_N (N.of_nat k + 1))) by lia. rewrite (i32_small (Z.of_N W)) by lia.
  unfold expected_rows. fold W.
  destruct (N.leb_spec W 1).
  - destruct (Z.ltb_spec 1 (Z.of_N W)); [lia|reflexivity].
  - destruct (Z.ltb_spec 1 (Z.of_N W)); [|lia].
    assert (Z.of_N (N.of_nat k + 1) * Z.of_N W = Z.of_N ((N.of_nat k + 1) * W))%Z as -> by lia.
    assert (in_i32 (Z.of_N ((N.of_nat k + 1) * W)) = true) as -> by (unfold in_i32; lia).
    cbn [negb]. unfold u64. rewrite Z.mod_small by lia. rewrite !N2Z.id.
    destruct (towrite <? (N.of_nat k + 1) * W); reflexivity.
Qed.

Lemma hd_chunks d : In d defs -> exists c0, hd_error (d_chunks d) = Some c0 /\ c0 <> 0.
Proof.
  intros Hin. pose proof (th_chunks d Hin) as Hne. destruct (d_chunks d) as [|c0 t] eqn:E; [congruence|].
  exists c0. split; [reflexivity|]. apply (so_chunks _ _ _ _ OK d c0 Hin). rewrite E. left. reflexivity.
Qed.

Lemma th_rows k d : (k <= KR)%nat -> In d (a_defs a0) -> dataset_rows a0 d (idx a0 k) <> Undef.
Proof.
  intros Hk Hin. destruct (hd_chunks d Hin) as (c0 & Hc & _). rewrite (th_rows_val k d c0 Hk Hin Hc). discriminate.
Qed.

Lemma adjust_def f : number_ok g K f -> adjust_frame_offset (f_number f) (f_adj f) <> Undef.
Proof.
  intros (H1 & H2 & H3 & H4). unfold adjust_frame_offset.
  pose proof (i32_range (Z.of_N (f_number f))).
  assert (in_i64 (i32 (Z.of_N (f_number f)) + f_adj f) = true) as -> by (unfold in_i64; lia). cbn [negb].
  destruct (_ <? 0)%Z; discriminate.
Qed.

Lemma adjust_val f off : number_ok g K f -> adjust_frame_offset (f_number f) (f_adj f) = Ret off ->
  adjusted f = Z.of_N off /\ (krow a0 off <= KR)%nat.
Proof.
  intros (H1 & H2 & H3 & H4) H. apply adjust_sound in H; [|exact H3]. unfold adjusted in *. split; [congruence|].
  unfold krow, KR. change (a_geom a0) with g. rewrite <- H, N2Z.id in H4. lia.
Qed.

Lemma adjust_small f : number_ok g K f -> number_small f ->
  adjust_frame_offset (f_number f) (f_adj f) =
  if (adjusted f <? 0)%Z then Throw NegativeOffset else Ret (Z.to_N (adjusted f)).
Proof. intros (H1 & H2 & H3 & H4) Hs. unfold adjusted. apply adjust_exact; [exact Hs|lia]. Qed.

(** Placement in terms of [frame_in]. *)
Lemma place_iff off k s : mine a0 off = true -> slot_exists (g_fpb g) (g_bpf g) (N.of_nat k) s ->
  (krow a0 off = k /\ kslot a0 off = s <-> off = frame_in (g_procs g) (g_fpb g) (g_bpf g) (g_rank g) (N.of_nat k) s).
Proof.
  intros Hmine Hs. pose proof th_P as HP. pose proof th_F as HF. pose proof th_r as Hr.
  change (a_geom a0) with g in *.
  assert (Hrt : rank_test g off = Ret true).
  { rewrite rank_test_true by assumption. unfold mine in Hmine. change (a_geom a0) with g in Hmine. rewrite Hmine. reflexivity. }
  assert (Hof : offset_in_file g off = Ret (kslot a0 off)) by (exact (offset_kslot a0 th_P th_r th_F a0 off (same_cfg_refl _))).
  unfold frame_in. destruct (N.eqb_spec (g_bpf g) 0) as [HB|HB].
  - assert (krow a0 off = O) as Hk0.
    { unfold krow, row_of. change (a_geom a0) with g. rewrite HB. reflexivity. }
    destruct Hs as [(_ & Hk)|(Hne & _)]; [|congruence]. assert (k = O) as -> by lia.
    pose proof (placement_single_iff (g_procs g) (g_fpb g) (g_rank g) off s HP HF Hr) as Hp.
    destruct g as [P r F B]. cbn [g_procs g_fpb g_bpf g_rank] in *. subst B.
    split.
    + intros (_ & <-). apply Hp. split; assumption.
    + intros E. split; [exact Hk0|]. apply Hp in E. destruct E as (_ & E). congruence.
  - assert (Hfi : file_index g off = Ret (idx a0 (krow a0 off))).
    { apply (file_index_krow a0 KR th_P th_r th_inj th_rows th_F a0 off (same_cfg_refl _)). change (a_geom a0) with g. lia. }
    assert (Hslot : s < g_bpf g * g_fpb g) by (destruct Hs as [(? & _)|(_ & ?)]; [congruence|assumption]).
    pose proof (placement_iff (g_procs g) (g_fpb g) (g_bpf g) (g_rank g) off
                 (N.of_nat k * g_procs g + g_rank g) s HP HF ltac:(lia) Hr) as Hp.
    assert (Hg : Geom (g_procs g) (g_rank g) (g_fpb g) (g_bpf g) = g) by (destruct g; reflexivity).
    rewrite Hg in Hp. split.
    + intros (Hk & <-). apply Hp. split; [exact Hrt|]. split; [|exact Hof]. rewrite Hfi, Hk. reflexivity.
    + intros E. destruct Hp as (_ & Hp). destruct Hp as (_ & E1 & E2).
      { split; [apply mma; exact Hr|]. split; [exact Hslot|exact E]. }
      split; [|congruence]. rewrite Hfi in E1. injection E1 as E1. unfold idx in E1. change (a_geom a0) with g in E1. nia.
Qed.

Lemma slot_of_exists off : mine a0 off = true ->
  slot_exists (g_fpb g) (g_bpf g) (N.of_nat (krow a0 off)) (kslot a0 off).
Proof.
  intros _. unfold slot_exists, krow, kslot, row_of, slot_of. change (a_geom a0) with g.
  destruct (N.eqb_spec (g_bpf g) 0) as [HB|HB]; [left; auto|right]. split; [exact HB|].
  pose proof th_F as HF. change (a_geom a0) with g in HF.
  pose proof (N.mod_lt off (g_fpb g) ltac:(lia)). pose proof (N.mod_lt (off / g_fpb g / g_procs g) (g_bpf g) HB). nia.
Qed.

(** The frame that belongs somewhere is ours. *)
Lemma frame_in_mine k s : slot_exists (g_fpb g) (g_bpf g) k s ->
  mine a0 (frame_in (g_procs g) (g_fpb g) (g_bpf g) (g_rank g) k s) = true.
Proof.
  intros Hs. pose proof th_P as HP. pose proof th_F as HF. pose proof th_r as Hr. change (a_geom a0) with g in *.
  unfold mine. change (a_geom a0) with g. unfold frame_in.
  pose proof (N.mod_lt s (g_fpb g) ltac:(lia)).
  destruct (N.eqb_spec (g_bpf g) 0) as [HB|HB].
  - unfold frame_at_single. rewrite dma by assumption. rewrite mma by assumption. apply N.eqb_refl.
  - unfold frame_at. rewrite dma by assumption.
    rewrite (mma k (g_procs g) (g_rank g)) by assumption. rewrite mma by assumption. apply N.eqb_refl.
Qed.

(** ** Runs *)

Lemma call_ok_of i f : creates i -> number_ok g K f -> call_ok a0 KR (i, f).
Proof.
  intros Hc Hn. split; [intros j; apply Hc|]. cbn [fst snd]. split; [apply adjust_def, Hn|].
  intros off Hoff. apply (adjust_val f off Hn Hoff).
Qed.

Lemma create_good_of i k : no_failure i -> rows_ok g total towrite defs K -> (k <= KR)%nat -> create_good a0 i k.
Proof.
  intros (H1 & H2 & H3) Hrows Hk. split; [|apply H2]. intros d Hin.
  destruct (hd_chunks d Hin) as (c0 & Hc0 & _).
  split; [|split; [|split; [|split]]].
  - apply not_true_is_false. intros E. apply existsb_exists in E. destruct E as (n & Hn & E).
    apply N.eqb_eq in E. subst n. exact (so_dims _ _ _ _ OK d 0 Hin Hn eq_refl).
  - apply not_true_is_false. intros E. apply existsb_exists in E. destruct E as (n & Hn & E).
    apply N.eqb_eq in E. subst n. exact (so_chunks _ _ _ _ OK d 0 Hin Hn eq_refl).
  - apply (so_length _ _ _ _ OK d Hin).
  - apply H2.
  - eexists. split; [apply (th_rows_val k d c0 Hk Hin Hc0)|].
    destruct Hrows as [Ht|Hrows]; [left; exact Ht|right]. apply (Hrows d c0); [exact Hin|exact Hc0|unfold KR in Hk; lia].
Qed.

Definition stepl (hist : list (frame * bool)) (ds : string) (off : N) (z : option (list N)) : option (list N) :=
  fold_left (fun acc fb => if is_for ds off (fst fb) && snd fb then Some (f_data (fst fb)) else acc) hist z.

Lemma patts_names i k slot A ps l b : patts a0 i k slot A ps l b ->
  forall t, In t l -> t_row t = k /\ In (t_ds t) (map fst ps).
Proof.
  induction 1 as [|n v ps l b Hf Hp IH|n v ps d Hf Hs|n v ps d x Hf Hv Hi|n v ps d x l b Hf Hv Hp IH]; intros t Hin.
  - destruct Hin.
  - destruct (IH t Hin). split; [assumption|right; assumption].
  - destruct Hin.
  - destruct Hin as [<-|[]]. split; [reflexivity|left; reflexivity].
  - destruct Hin as [<-|Hin]; [split; [reflexivity|left; reflexivity]|].
    destruct (IH t Hin). split; [assumption|right; assumption].
Qed.

Lemma cells_app_other gh l k ds row : (forall t, In t l -> at_file k ds t = false) ->
  cells_of (gh ++ l) k ds row = cells_of gh k ds row.
Proof.
  induction l as [|t l IH] using rev_ind; intros H; [rewrite app_nil_r; reflexivity|].
  rewrite app_assoc, cells_snoc, (H t) by (apply in_or_app; right; left; reflexivity).
  apply IH. intros u Hu. apply H, in_or_app. left. exact Hu.
Qed.

Lemma params_fin i f s' off : 
  adjusted f = Z.of_N off -> (krow a0 off <= KR)%nat -> params_ok g total towrite defs f -> io_param i = true -> Full a0 s' ->
  forall Q ps fin, (forall n v, In (n, v) Q -> In (n, v) (f_params f)) ->
  patts a0 i (krow a0 off) (kslot a0 off) (fun _ => ~ Full a0 s') Q ps fin -> fin = true.
Proof.
  intros Hoff Hk Hpo Hio HFu Q ps fin Hsub Hpa.
  induction Hpa as [|n v ps l b Hf Hp IH|n v ps d Hf Hs|n v ps d x Hf Hv Hi|n v ps d x l b Hf Hv Hp IH].
  - reflexivity.
  - apply IH. intros n' v' Hin. apply Hsub. right. exact Hin.
  - exfalso. destruct Hs as [(e & He)|Hs]; [|exact (Hs HFu)].
    apply find_def_some in Hf. destruct Hf as (Hin & Hn).
    destruct (Hpo n v d (Hsub n v (or_introl eq_refl)) Hin Hn) as ((x & ->) & _).
    unfold param_value in He. destruct (d_type d); discriminate.
  - exfalso. destruct Hi as [Hi|(Hu & Hi)]; [congruence|].
    apply find_def_some in Hf. destruct Hf as (Hin & Hn).
    destruct (Hpo n v d (Hsub n v (or_introl eq_refl)) Hin Hn) as (_ & Hro).
    unfold unl in Hu. change (a_total a0) with total in Hu. apply N.eqb_neq in Hu.
    destruct Hro as [?|Hro]; [congruence|]. destruct (hd_chunks d Hin) as (c0 & Hc0 & _).
    specialize (Hro c0 Hc0). rewrite Hoff, N2Z.id in Hro.
    unfold fresh_rows in Hi. change (a_total a0) with total in Hi. destruct (N.eqb_spec total 0); [congruence|].
    rewrite (th_rows_val _ d c0 Hk Hin Hc0) in Hi.
    unfold krow, kslot in *. change (a_geom a0) with g in *. rewrite N2Nat.id in Hi. lia.
  - apply IH. intros n' v' Hin. apply Hsub. right. exact Hin.
Qed.

(** One step, as far as the image of a dataset is concerned. *)
Lemma outcome_flag i f s m gh s1 m1 l r :
  number_ok g K f -> outcome_of a0 i f s m gh s1 m1 l r ->
  exists b : bool,
    (written (Some r) = true -> b = true) /\
    (Full a0 s1 -> params_ok g total towrite defs f -> io_param i = true -> b = true -> written (Some r) = true) /\
    (forall k ds d c0 slot, In d defs -> d_name d = ds -> hd_error (d_chunks d) = Some c0 ->
       slot_exists (g_fpb g) (g_bpf g) (N.of_nat k) slot -> not_param ds f ->
       cells_of (gh ++ l) k ds (slot * c0) =
       if is_for ds (frame_in (g_procs g) (g_fpb g) (g_bpf g) (g_rank g) (N.of_nat k) slot) f && b
       then Some (f_data f) else cells_of gh k ds (slot * c0)) /\
    (b = true -> exists d off, adjust_frame_offset (f_number f) (f_adj f) = Ret off /\ mine a0 off = true /\
        check_frame_valid a0 f = true /\ In d defs /\ d_name d = f_dataset f) .
Proof.
  intros Hn [(Href & -> & -> & Hsc)|(off & c0 & d & b & fin & ps & A)].
  - exists false. split; [discriminate|]. split; [discriminate|]. split; [|discriminate].
    intros. rewrite app_nil_r, andb_false_r. reflexivity.
  - destruct (adjust_val f off Hn (at_off _ _ _ _ _ _ _ _ _ _ _ _ _ _ _ _ A)) as (Hoff & Hk).
    pose proof (at_mine _ _ _ _ _ _ _ _ _ _ _ _ _ _ _ _ A) as Hmine.
    destruct (find_def_some _ _ _ (at_def _ _ _ _ _ _ _ _ _ _ _ _ _ _ _ _ A)) as (Hdin & Hdn).
    exists b. split; [|split; [|split]].
    + intros Hw. destruct b; [reflexivity|]. destruct (at_nob _ _ _ _ _ _ _ _ _ _ _ _ _ _ _ _ A eq_refl) as (_ & Hfin).
      destruct (at_nofin _ _ _ _ _ _ _ _ _ _ _ _ _ _ _ _ A Hfin) as (-> & _). discriminate.
    + intros HFu Hpo Hio Hb.
      assert (fin = true) as Hfin.
      { eapply (params_fin i f s1 off Hoff Hk Hpo Hio HFu (f_params f)); [auto|].
        apply (at_params _ _ _ _ _ _ _ _ _ _ _ _ _ _ _ _ A Hb). }
      destruct (at_fin _ _ _ _ _ _ _ _ _ _ _ _ _ _ _ _ A Hfin) as [(_ & _ & Hc)|(-> & _)]; [destruct (Hc HFu)|].
      unfold status_of. destruct (_ && _); [destruct (_ <=? _)|]; reflexivity.
    + intros k ds d' c0' slot Hd' Hdn' Hc0' Hslot Hnp. rewrite (at_list _ _ _ _ _ _ _ _ _ _ _ _ _ _ _ _ A).
      change (gh ++ img f (krow a0 off) c0 (kslot a0 off) b :: ps)
        with (gh ++ [img f (krow a0 off) c0 (kslot a0 off) b] ++ ps). rewrite app_assoc.
      rewrite cells_app_other.
      2: { intros t Hin. destruct b.
           - destruct (patts_names _ _ _ _ _ _ _ (at_params _ _ _ _ _ _ _ _ _ _ _ _ _ _ _ _ A eq_refl) t Hin) as (_ & Hds).
             destruct (at_file k ds t) eqn:E; [|reflexivity]. apply at_file_true in E. destruct E as (_ & E).
             rewrite E in Hds. destruct (Hnp Hds).
           - destruct (at_nob _ _ _ _ _ _ _ _ _ _ _ _ _ _ _ _ A eq_refl) as (-> & _). destruct Hin. }
      rewrite cells_snoc.
      assert (at_file k ds (img f (krow a0 off) c0 (kslot a0 off) b) && t_ok (img f (krow a0 off) c0 (kslot a0 off) b) &&
         (t_start (img f (krow a0 off) c0 (kslot a0 off) b) =? slot * c0')
         = is_for ds (frame_in (g_procs g) (g_fpb g) (g_bpf g) (g_rank g) (N.of_nat k) slot) f && b) as ->; [|reflexivity].
      unfold is_for, at_file, img. cbn [t_row t_ds t_ok t_start].
      destruct b; [rewrite !andb_true_r|rewrite !andb_false_r; reflexivity].
      destruct (String.eqb_spec (f_dataset f) ds) as [E|E]; [|destruct (Nat.eqb (krow a0 off) k); reflexivity].
      rewrite ?andb_true_r. cbn [andb].
      assert (d' = d) as ->.
      { pose proof (find_def_in a0 th_nd d' Hd') as F1. pose proof (at_def _ _ _ _ _ _ _ _ _ _ _ _ _ _ _ _ A) as F2.
        rewrite Hdn', <- E in F1. rewrite F2 in F1. congruence. }
      assert (c0' = c0) as -> by (pose proof (at_c0 _ _ _ _ _ _ _ _ _ _ _ _ _ _ _ _ A); congruence).
      assert (c0 <> 0) by (destruct (hd_chunks d Hdin) as (c & Hc & Hc'); congruence).
      pose proof (place_iff off k slot Hmine Hslot) as Hpl.
      apply eq_true_iff_eq. rewrite andb_true_iff, Nat.eqb_eq, N.eqb_eq, Z.eqb_eq, Hoff.
      split.
      * intros (H1 & H2). f_equal. apply Hpl. split; [exact H1|nia].
      * intros H1. assert (H1' := N2Z.inj _ _ H1). apply Hpl in H1'. destruct H1' as (-> & ->). split; reflexivity.
    + intros _. exists d, off. split; [apply (at_off _ _ _ _ _ _ _ _ _ _ _ _ _ _ _ _ A)|]. split; [exact Hmine|].
      split; [apply (at_valid _ _ _ _ _ _ _ _ _ _ _ _ _ _ _ _ A)|]. split; assumption.
Qed.

Lemma steps_content s m gh t s' m' gh' rs :
  Steps a0 dk KR s m gh t s' m' gh' rs -> Forall (fun c => number_ok g K (snd c)) t ->
  exists fl, List.length fl = List.length t /\
    Forall2 (fun r b => written (Some r) = true -> b = true) rs fl /\
    (Full a0 s -> Forall (fun c => no_failure (fst c) /\ params_ok g total towrite defs (snd c)) t ->
       rows_ok g total towrite defs K -> fl = map (fun r => written (Some r)) rs) /\
    forall k ds d c0 slot, In d defs -> d_name d = ds -> hd_error (d_chunks d) = Some c0 ->
       slot_exists (g_fpb g) (g_bpf g) (N.of_nat k) slot -> Forall (fun c => not_param ds (snd c)) t ->
       cells_of gh' k ds (slot * c0) =
       stepl (combine (map snd t) fl) ds (frame_in (g_procs g) (g_fpb g) (g_bpf g) (g_rank g) (N.of_nat k) slot)
             (cells_of gh k ds (slot * c0)).
Proof.
  induction 1 as [|s m gh i f s1 m1 l r t s' m' gh' rs HI HI1 Hm Hok E Ho HFu HS IH]; intros Hn.
  - exists []. split; [reflexivity|]. split; [constructor|]. split; [reflexivity|]. intros. reflexivity.
  - inversion Hn as [|? ? Hn1 Hn2]; subst. cbn [snd] in Hn1.
    destruct (IH Hn2) as (fl & L1 & L2 & L3 & L4).
    destruct (outcome_flag _ _ _ _ _ _ _ _ _ Hn1 Ho) as (b & B1 & B2 & B3 & _).
    exists (b :: fl). split; [cbn; congruence|]. split; [constructor; assumption|]. split.
    + intros HF0 Hnf Hro. inversion Hnf as [|? ? (Hn1' & Hn2') Hnf2]; subst. cbn [fst snd] in *.
      assert (HF1 : Full a0 s1).
      { apply HFu; [|exact HF0]. intros off Hoff j Hj. apply create_good_of; [exact Hn1'|exact Hro|].
        destruct Hok as (_ & _ & Hk). specialize (Hk off Hoff). lia. }
      cbn [map]. f_equal; [|apply L3; assumption].
      destruct Hn1' as (_ & _ & Hio).
      specialize (B2 HF1 Hn2' Hio). destruct b; [symmetry; apply B2; reflexivity|].
      destruct (written (Some r)); [apply B1; reflexivity|reflexivity].
    + intros k ds d c0 slot Hd Hdn Hc0 Hslot Hnp. inversion Hnp as [|? ? Hnp1 Hnp2]; subst. cbn [snd] in Hnp1.
      rewrite (L4 k (d_name d) d c0 slot Hd eq_refl Hc0 Hslot Hnp2).
      rewrite (B3 k (d_name d) d c0 slot Hd eq_refl Hc0 Hslot Hnp1). reflexivity.
Qed.

(** ** From start to the end of a run *)

Lemma started i0 s0 : creates i0 -> start_acquisition i0 (St a0 dk []) = (s0, Ret true) ->
  Inv a0 dk s0 0 [] /\ a_written (s_acq s0) = 0 /\ a_processed (s_acq s0) = 0 /\
  (no_failure i0 -> rows_ok g total towrite defs K -> Full a0 s0).
Proof.
  intros Hc E.
  destruct (start_step a0 dk KR th_P th_r th_nd th_inj th_rows th_F th_chunks i0 eq_refl eq_refl (Hc _))
    as (s & o & E1 & Hou & Hf & HI & Hg).
  rewrite E in E1. injection E1 as <- <-. destruct (HI ltac:(discriminate)) as (HI' & Hw & Hp).
  split; [exact HI'|]. split; [exact Hw|]. split; [exact Hp|].
  intros Hnf Hro. apply Hg; [|apply th_stem]. apply create_good_of; [exact Hnf|exact Hro|lia].
Qed.

Lemma start_ok i0 : no_failure i0 -> rows_ok g total towrite defs K ->
  exists s0, start_acquisition i0 (St a0 dk []) = (s0, Ret true).
Proof.
  intros Hnf Hro.
  destruct (start_step a0 dk KR th_P th_r th_nd th_inj th_rows th_F th_chunks i0 eq_refl eq_refl (proj1 Hnf _))
    as (s & o & E1 & Hou & Hf & HI & Hg).
  destruct Hg as (-> & _); [apply create_good_of; [exact Hnf|exact Hro|lia]|apply th_stem|]. eauto.
Qed.

Lemma ran i0 s0 t s rs : creates i0 -> start_acquisition i0 (St a0 dk []) = (s0, Ret true) ->
  Forall (fun c => creates (fst c) /\ number_ok g K (snd c)) t -> run s0 t = (s, rs) ->
  exists m gh rs', rs = map Some rs' /\ Steps a0 dk KR s0 0 [] t s m gh rs'.
Proof.
  intros Hc E Ht Er. destruct (started i0 s0 Hc E) as (HI & _).
  destruct (run_steps a0 dk KR th_P th_r th_nd th_inj th_rows th_F th_chunks t s0 O [] HI) as (s' & m' & gh' & rs' & Er' & HS).
  { auto. } { lia. }
  { eapply Forall_impl; [|exact Ht]. intros [i f] (H1 & H2). apply call_ok_of; assumption. }
  rewrite Er in Er'. injection Er' as -> ->. eauto.
Qed.

Lemma read_cells s m gh k ds row : Inv a0 dk s m gh -> (k <= m)%nat ->
  read (s_disk s) (pth a0 k) ds row = cells_of gh k ds row.
Proof.
  intros HI Hk. destruct (inv_files _ _ _ _ _ HI k Hk) as (df & Hdf & Hall). unfold read. rewrite Hdf.
  specialize (Hall ds). destruct (df ds) as [dd|].
  - destruct Hall as (d & _ & _ & Hc). apply Hc.
  - symmetry. apply fold_none, Hall.
Qed.

Lemma created_iff s m gh k : Inv a0 dk s m gh -> (m <= KR)%nat -> (k <= KR)%nat ->
  (In (pth a0 k) (created (s_log s)) <-> (k <= m)%nat).
Proof.
  intros HI Hm Hk. rewrite (inv_created _ _ _ _ _ HI), in_map_iff. split.
  - intros (k' & E & Hin). apply in_seq in Hin. apply th_inj in E; [lia|lia|exact Hk].
  - intros Hle. exists k. split; [reflexivity|]. apply in_seq. lia.
Qed.

Lemma steps_bound s m gh t s' m' gh' rs : Steps a0 dk KR s m gh t s' m' gh' rs -> (m <= KR)%nat -> (m' <= KR)%nat.
Proof. induction 1 as [|s m gh i f s1 m1 l r t s' m' gh' rs HI HI1 Hm Hok E Ho HFu HS IH]; [auto|]. intros _. apply IH. lia. Qed.

Theorem readback i0 s0 t s rs :
  creates i0 -> start_acquisition i0 (St a0 dk []) = (s0, Ret true) ->
  Forall (fun c => creates (fst c) /\ number_ok g K (snd c)) t ->
  run s0 t = (s, rs) ->
  exists stored : list bool,
    Forall2 (fun r b => r <> None /\ (written r = true -> b = true)) rs stored /\
    (no_failure i0 -> rows_ok g total towrite defs K ->
     Forall (fun c => no_failure (fst c) /\ params_ok g total towrite defs (snd c)) t -> stored = map written rs) /\
    (forall p, ~ In p (created (s_log s)) -> s_disk s p = dk p) /\
    forall k d c0 slot, k <= K -> In d defs -> hd_error (d_chunks d) = Some c0 ->
      slot_exists (g_fpb g) (g_bpf g) k slot -> Forall (fun c => not_param (d_name d) (snd c)) t ->
      let path := path_of dir nm (k * g_procs g + g_rank g) in
      let want := last_stored (combine (map snd t) stored) (d_name d)
                              (frame_in (g_procs g) (g_fpb g) (g_bpf g) (g_rank g) k slot) in
      (In path (created (s_log s)) -> read (s_disk s) path (d_name d) (slot * c0) = want) /\
      (~ In path (created (s_log s)) -> want = None).
Proof.
  intros Hc E Ht Er. destruct (ran i0 s0 t s rs Hc E Ht Er) as (m & gh & rs' & -> & HS).
  destruct (started i0 s0 Hc E) as (HI0 & _ & _ & HF0).
  destruct (steps_content _ _ _ _ _ _ _ _ HS) as (fl & L1 & L2 & L3 & L4).
  { eapply Forall_impl; [|exact Ht]. intros c (_ & H). exact H. }
  pose proof (steps_inv a0 dk KR th_P th_r th_inj th_rows th_F _ _ _ _ _ _ _ _ HS) as (_ & HI & _).
  pose proof (steps_bound _ _ _ _ _ _ _ _ HS ltac:(lia)) as Hm.
  exists fl. split; [|split; [|split]].
  - clear -L2. induction L2; cbn [map]; constructor; auto. split; [discriminate|assumption].
  - intros Hnf Hro Hall. rewrite map_map. apply L3; auto.
  - intros p Hp. apply (inv_others _ _ _ _ _ HI). intros k Hk Heq. apply Hp. rewrite Heq.
    apply (created_iff s m gh k HI Hm); lia.
  - intros k d c0 slot Hk Hd Hc0 Hslot Hnp. cbv zeta.
    specialize (L4 (N.to_nat k) (d_name d) d c0 slot Hd eq_refl Hc0). rewrite N2Nat.id in L4.
    specialize (L4 Hslot Hnp). change (cells_of [] (N.to_nat k) (d_name d) (slot * c0)) with (@None (list N)) in L4.
    change (stepl ?a ?b ?c None) with (last_stored a b c) in L4. rewrite <- L4.
    replace (path_of dir nm (k * g_procs g + g_rank g)) with (pth a0 (N.to_nat k)) by (rewrite th_pth, N2Nat.id; reflexivity).
    assert (HkR : (N.to_nat k <= KR)%nat) by (unfold KR; lia).
    split; intros Hin.
    + apply (created_iff s m gh _ HI Hm HkR) in Hin. apply (read_cells s m gh); assumption.
    + rewrite (created_iff s m gh _ HI Hm HkR) in Hin.
      apply fold_none. intros u Hu. pose proof (inv_rows _ _ _ _ _ HI u Hu).
      destruct (at_file _ _ u) eqn:Ea; [|reflexivity]. apply at_file_true in Ea. lia.
Qed.

(** ** Files *)

Lemma every_map n : forall a, every n (N.of_nat a * g_procs g + g_rank g) (g_procs g)
  = map (fun k => N.of_nat k * g_procs g + g_rank g) (seq a n).
Proof.
  induction n as [|n IH]; intros a; [reflexivity|]. cbn [every seq map]. f_equal. rewrite <- IH. f_equal. lia.
Qed.

Lemma pth_every n : map (pth a0) (seq 0 n) = map (path_of dir nm) (every n (g_rank g) (g_procs g)).
Proof.
  pose proof (every_map n 0) as H. cbn [N.of_nat N.mul N.add] in H. rewrite H, map_map. reflexivity.
Qed.

Theorem file_sequence i0 s0 t s rs :
  creates i0 -> start_acquisition i0 (St a0 dk []) = (s0, Ret true) ->
  Forall (fun c => creates (fst c) /\ number_ok g K (snd c)) t ->
  run s0 t = (s, rs) ->
  exists n, (1 <= n)%nat /\
    created (s_log s) = map (path_of dir nm) (every n (g_rank g) (g_procs g)) /\
    NoDup (created (s_log s)) /\
    closed (s_log s) ++ open_file (a_prev (s_acq s)) ++ open_file (a_cur (s_acq s)) = created (s_log s) /\
    (forall s', stop_acquisition s = (s', Ret tt) ->
       created (s_log s') = created (s_log s) /\ closed (s_log s') = created (s_log s) /\ s_disk s' = s_disk s) /\
    exists s', stop_acquisition s = (s', Ret tt).
Proof.
  intros Hc E Ht Er. destruct (ran i0 s0 t s rs Hc E Ht Er) as (m & gh & rs' & -> & HS).
  pose proof (steps_inv a0 dk KR th_P th_r th_inj th_rows th_F _ _ _ _ _ _ _ _ HS) as (_ & HI & _).
  pose proof (steps_bound _ _ _ _ _ _ _ _ HS ltac:(lia)) as Hm.
  exists (S m). split; [lia|]. rewrite <- pth_every.
  destruct (stop_step a0 dk s m gh HI) as (s' & Es & Hd & Hcr & Hcl).
  split; [apply (inv_created _ _ _ _ _ HI)|]. split; [|split; [|split; [|eauto]]].
  - rewrite (inv_created _ _ _ _ _ HI).
    assert (Hgen : forall n a, (a + n <= S KR)%nat -> NoDup (map (pth a0) (seq a n))).
    { induction n as [|n IH]; intros a Ha; [constructor|]. cbn [seq map]. constructor; [|apply IH; lia].
      rewrite in_map_iff. intros (k & Ek & Hk). apply in_seq in Hk. apply th_inj in Ek; lia. }
    apply Hgen. lia.
  - rewrite (inv_created _ _ _ _ _ HI), (inv_closed _ _ _ _ _ HI).
    destruct (inv_cur _ _ _ _ _ HI) as (c & -> & (On & _ & Oo & _)). cbn [open_file]. rewrite Oo, On.
    pose proof (inv_prev _ _ _ _ _ HI) as HPv. destruct m as [|m'].
    + rewrite HPv. reflexivity.
    + destruct HPv as (p & -> & (Pn & _ & Po & _)). cbn [open_file]. rewrite Po, Pn. cbn [Nat.sub]. rewrite Nat.sub_0_r.
      rewrite (seq_S (S m')), (seq_S m'), !map_app, <- app_assoc. reflexivity.
  - intros s1 Es1. rewrite Es in Es1. injection Es1 as <-. rewrite Hcr, Hcl, (inv_created _ _ _ _ _ HI). auto.
Qed.

(** ** Late and foreign frames *)
Lemma steps_single s m gh t s' m' gh' rs : g_bpf g = 0 -> Steps a0 dk KR s m gh t s' m' gh' rs -> m = O -> m' = O.
Proof.
  intros H0. induction 1 as [|s m gh i f s1 m1 l r t s' m' gh' rs HI HI1 Hm Hok E Ho HFu HS IH]; [auto|].
  intros ->. apply IH.
  assert (Hk0 : forall off, krow a0 off = O) by (intros; unfold krow, row_of; change (a_geom a0) with g; rewrite H0; reflexivity).
  destruct Ho as [(Href & _)|(off & c0 & d & b & fin & ps & A)].
  - destruct Href; try (subst; reflexivity); try rewrite Hk0 in *; lia.
  - rewrite (at_m _ _ _ _ _ _ _ _ _ _ _ _ _ _ _ _ A), Hk0. reflexivity.
Qed.

Theorem late_refused i0 s0 t s rs i f :
  creates i0 -> start_acquisition i0 (St a0 dk []) = (s0, Ret true) ->
  Forall (fun c => creates (fst c) /\ number_ok g K (snd c)) t ->
  run s0 t = (s, rs) ->
  number_ok g K f -> creates i ->
  row_of (g_procs g) (g_fpb g) (g_bpf g) (Z.to_N (adjusted f)) + 2 < N.of_nat (List.length (created (s_log s))) ->
  process_frame i f s = (s, Some SInvalid).
Proof.
  intros Hc E Ht Er Hn Hci Hlate. destruct (ran i0 s0 t s rs Hc E Ht Er) as (m & gh & rs' & -> & HS).
  pose proof (steps_inv a0 dk KR th_P th_r th_inj th_rows th_F _ _ _ _ _ _ _ _ HS) as (_ & HI & _).
  pose proof (steps_bound _ _ _ _ _ _ _ _ HS ltac:(lia)) as Hm.
  rewrite (inv_created _ _ _ _ _ HI), map_length, seq_length in Hlate.
  assert (Hne0 : g_bpf g <> 0 \/ m = O).
  { destruct (N.eq_dec (g_bpf g) 0) as [H0|H0]; [right|left; exact H0].
    eapply steps_single; [exact H0|exact HS|reflexivity]. }
  destruct (process_step a0 dk KR th_P th_r th_nd th_inj th_rows th_F th_chunks i f s m gh HI)
    as (s1 & r & m1 & l & E1 & HI1 & HB1 & Hm1 & Ho & _).
  - change (a_geom a0) with g. intros H0. destruct Hne0; [congruence|assumption].
  - exact Hm.
  - intros j. apply Hci.
  - apply adjust_def, Hn.
  - intros off Hoff. apply (adjust_val f off Hn Hoff).
  - rewrite E1. 
    assert (Hkrow : forall off, adjust_frame_offset (f_number f) (f_adj f) = Ret off -> (S (krow a0 off) < m)%nat).
    { intros off Hoff. destruct (adjust_val f off Hn Hoff) as (Hadj & _). rewrite Hadj, N2Z.id in Hlate.
      unfold krow. change (a_geom a0) with g. lia. }
    destruct Ho as [(Href & -> & -> & _)|(off & c0 & d & b & fin & ps & A)].
    + f_equal. destruct Href as [|e H|off H|off H|off H|off H|off d H]; subst; try reflexivity;
        specialize (Hkrow off H); lia.
    + specialize (Hkrow off (at_off _ _ _ _ _ _ _ _ _ _ _ _ _ _ _ _ A)).
      pose proof (at_window _ _ _ _ _ _ _ _ _ _ _ _ _ _ _ _ A). lia.
Qed.

(** ** Admission *)
Lemma eqb_dims_eq a b : eqb_dims a b = true <-> a = b.
Proof.
  revert b; induction a as [|x a IH]; intros [|y b]; cbn; try (split; congruence).
  rewrite andb_true_iff, N.eqb_eq, IH. split; [intros (-> & ->); reflexivity|intros [=]; auto].
Qed.

Lemma dtype_eqb_eq a b : dtype_eqb a b = true <-> a = b.
Proof. destruct a, b; cbn; split; congruence. Qed.
Lemma ctype_eqb_eq a b : ctype_eqb a b = true <-> a = b.
Proof. destruct a, b; cbn; split; congruence. Qed.

Lemma valid_iff f : check_frame_valid a0 f = true <-> matches defs f.
Proof.
  unfold check_frame_valid, matches. change (a_defs a0) with defs. split.
  - destruct (find_def defs (f_dataset f)) as [d|] eqn:Ed; [|discriminate].
    apply (find_def_some a0) in Ed. destruct Ed as (Hin & Hn).
    rewrite negb_true_iff, !orb_false_iff. intros ((Hc & Ht) & Hd).
    exists d. split; [exact Hin|]. split; [exact Hn|].
    apply negb_false_iff in Hd. apply eqb_dims_eq in Hd.
    split; [destruct (f_comp f); discriminate|]. split.
    { destruct (f_comp f); try discriminate; apply negb_false_iff, ctype_eqb_eq in Hc; exact Hc. }
    split; [destruct (f_type f); discriminate|]. split; [|exact Hd].
    destruct (f_type f); try discriminate; apply negb_false_iff, dtype_eqb_eq in Ht; exact Ht.
  - intros (d & Hin & Hn & Hc1 & Hc2 & Ht1 & Ht2 & Hd).
    rewrite <- Hn. change defs with (a_defs a0). rewrite (find_def_in a0 th_nd d Hin).
    apply eqb_dims_eq in Hd. rewrite Hd. cbn [negb]. rewrite orb_false_r.
    apply ctype_eqb_eq in Hc2. apply dtype_eqb_eq in Ht2.
    destruct (f_comp f); try congruence; destruct (f_type f); try congruence; rewrite Hc2, Ht2; reflexivity.
Qed.

(** ** Which frames are written *)

Lemma ran_more i0 s0 t s rs i f :
  creates i0 -> start_acquisition i0 (St a0 dk []) = (s0, Ret true) ->
  Forall (fun c => creates (fst c) /\ number_ok g K (snd c)) t ->
  run s0 t = (s, rs) -> number_ok g K f -> creates i ->
  exists m gh rs' s1 r m1 l, rs = map Some rs' /\ Steps a0 dk KR s0 0 [] t s m gh rs' /\ Inv a0 dk s m gh /\ (m <= KR)%nat /\
    process_frame i f s = (s1, Some r) /\ outcome_of a0 i f s m gh s1 m1 l r /\ Inv a0 dk s1 m1 (gh ++ l) /\
    Steps a0 dk KR s m gh [(i, f)] s1 m1 (gh ++ l) [r].
Proof.
  intros Hc E Ht Er Hn Hci. destruct (ran i0 s0 t s rs Hc E Ht Er) as (m & gh & rs' & -> & HS).
  pose proof (steps_inv a0 dk KR th_P th_r th_inj th_rows th_F _ _ _ _ _ _ _ _ HS) as (_ & HI & _).
  pose proof (steps_bound _ _ _ _ _ _ _ _ HS ltac:(lia)) as Hm.
  destruct (process_step a0 dk KR th_P th_r th_nd th_inj th_rows th_F th_chunks i f s m gh HI)
    as (s1 & r & m1 & l & E1 & HI1 & HB1 & Hm1 & Ho & HFu).
  - intros H0. eapply steps_single; [exact H0|exact HS|reflexivity].
  - exact Hm.
  - intros j. apply Hci.
  - apply adjust_def, Hn.
  - intros off Hoff. apply (adjust_val f off Hn Hoff).
  - exists m, gh, rs', s1, r, m1, l. split; [reflexivity|]. repeat (split; [assumption|]).
    eapply st_cons; try eassumption; [apply call_ok_of; assumption|constructor; exact HI1].
Qed.

Lemma expected_rows_le n c0 k d : In d defs -> hd_error (d_chunks d) = Some c0 -> k <= K -> n <= 2 ^ 31 ->
  expected_rows (g_fpb g) (g_bpf g) n c0 k <= 2 ^ 31.
Proof.
  intros Hin Hc0 Hk Hn. pose proof (so_int _ _ _ _ OK d c0 Hin Hc0) as Hint. unfold expected_rows.
  set (W := g_bpf g * g_fpb g * c0) in *. assert (W < 2 ^ 31) by nia.
  destruct (W <=? 1) eqn:EW; [exact Hn|]. apply N.leb_gt in EW.
  destruct (n <? (k + 1) * W); [|lia]. pose proof (N.mod_lt n W ltac:(lia)). lia.
Qed.

Lemma dmo_small rows slot : 1 <= rows <= 2 ^ 31 -> dmo_refuses rows slot = true -> rows <= slot.
Proof.
  intros Hr. unfold dmo_refuses. rewrite i32_small by lia. unfold u64. rewrite Z.mod_small by lia.
  rewrite andb_true_iff, N.ltb_lt. lia.
Qed.

(** What it takes for a frame to be written. *)
Definition belongs (off : N) : Prop := block_of (g_fpb g) off mod g_procs g = g_rank g.
Definition has_room (f : frame) (off : N) : Prop :=
  total = 0 \/ forall d c0, In d defs -> d_name d = f_dataset f -> hd_error (d_chunks d) = Some c0 ->
    slot_of (g_procs g) (g_fpb g) (g_bpf g) off * c0
    < expected_rows (g_fpb g) (g_bpf g) towrite c0 (row_of (g_procs g) (g_fpb g) (g_bpf g) off).

Theorem written_iff i0 s0 t s rs i f :
  no_failure i0 -> rows_ok g total towrite defs K -> (total = 0 \/ towrite <= 2 ^ 31) ->
  start_acquisition i0 (St a0 dk []) = (s0, Ret true) ->
  Forall (fun c => no_failure (fst c) /\ number_ok g K (snd c)) t ->
  run s0 t = (s, rs) ->
  no_failure i -> io_write i = true -> number_ok g K f -> number_small f -> params_ok g total towrite defs f ->
  (written (snd (process_frame i f s)) = true <->
   matches defs f /\
   exists off, adjusted f = Z.of_N off /\ belongs off /\
     N.of_nat (List.length (created (s_log s))) <= row_of (g_procs g) (g_fpb g) (g_bpf g) off + 2 /\
     has_room f off).
Proof.
  intros Hnf0 Hro Htw E Ht Er Hnf Hw Hn Hns Hpo.
  assert (Ht' : Forall (fun c => creates (fst c) /\ number_ok g K (snd c)) t).
  { eapply Forall_impl; [|exact Ht]. intros c (H1 & H2). split; [apply H1|exact H2]. }
  destruct (ran_more i0 s0 t s rs i f (proj1 Hnf0) E Ht' Er Hn (proj1 Hnf))
    as (m & gh & rs' & s1 & r & m1 & l & -> & HS & HI & Hm & E1 & Ho & HI1 & HS1).
  rewrite E1. cbn [snd].
  destruct (started i0 s0 (proj1 Hnf0) E) as (HI0 & _ & _ & HF0). specialize (HF0 Hnf0 Hro).
  assert (HFs : Full a0 s).
  { eapply (steps_full a0 dk KR th_P th_r th_inj th_rows th_F); [exact HS| |exact HF0].
    intros i' f' Hin j Hj. rewrite Forall_forall in Ht. apply create_good_of; [apply (Ht _ Hin)|exact Hro|exact Hj]. }
  assert (HFs1 : Full a0 s1).
  { eapply (steps_full a0 dk KR th_P th_r th_inj th_rows th_F); [exact HS1| |exact HFs].
    intros i' f' [[= <- <-]|[]] j Hj. apply create_good_of; [exact Hnf|exact Hro|exact Hj]. }
  assert (Hlen : List.length (created (s_log s)) = S m).
  { rewrite (inv_created _ _ _ _ _ HI), map_length, seq_length. reflexivity. }
  rewrite Hlen.
  assert (Hmine : forall off, mine a0 off = true <-> belongs off).
  { intros off. unfold mine, belongs, block_of. change (a_geom a0) with g. apply N.eqb_eq. }
  assert (Hrow : forall off, N.of_nat (krow a0 off) = row_of (g_procs g) (g_fpb g) (g_bpf g) off).
  { intros off. unfold krow. change (a_geom a0) with g. lia. }
  assert (Hroom : forall off d c0, (krow a0 off <= KR)%nat -> find_def defs (f_dataset f) = Some d -> hd_error (d_chunks d) = Some c0 ->
     has_room f off -> kslot a0 off * c0 < if unl a0 then N.max (rows_unl gh (krow a0 off) (f_dataset f)) ((kslot a0 off + 1) * c0)
           else fresh_rows a0 d (idx a0 (krow a0 off))).
  { intros off d c0 Hk Hd Hc0 Hr. apply (find_def_some a0) in Hd. destruct Hd as (Hin & Hdn).
    destruct (hd_chunks d Hin) as (c' & Hc' & Hnz). assert (c' = c0) by congruence. subst c'.
    unfold unl. change (a_total a0) with total. destruct (N.eqb_spec total 0) as [H0|H0]; [nia|].
    destruct Hr as [?|Hr]; [congruence|]. specialize (Hr d c0 Hin Hdn Hc0).
    unfold fresh_rows. change (a_total a0) with total. destruct (N.eqb_spec total 0); [congruence|].
    rewrite (th_rows_val _ d c0 Hk Hin Hc0), Hrow. exact Hr. }
  split.
  - intros Hwr. destruct Ho as [(_ & _ & -> & _)|(off & c0 & d & b & fin & ps & A)]; [discriminate|].
    split; [apply valid_iff, (at_valid _ _ _ _ _ _ _ _ _ _ _ _ _ _ _ _ A)|].
    pose proof (at_off _ _ _ _ _ _ _ _ _ _ _ _ _ _ _ _ A) as Hoff.
    destruct (adjust_val f off Hn Hoff) as (Hadj & Hk).
    exists off. split; [exact Hadj|]. split; [apply Hmine, (at_mine _ _ _ _ _ _ _ _ _ _ _ _ _ _ _ _ A)|].
    split. { rewrite <- Hrow. pose proof (at_window _ _ _ _ _ _ _ _ _ _ _ _ _ _ _ _ A). lia. }
    assert (b = true) as Hb.
    { destruct b; [reflexivity|]. destruct (at_nob _ _ _ _ _ _ _ _ _ _ _ _ _ _ _ _ A eq_refl) as (_ & Hfin).
      destruct (at_nofin _ _ _ _ _ _ _ _ _ _ _ _ _ _ _ _ A Hfin) as (-> & _). discriminate. }
    apply (at_b _ _ _ _ _ _ _ _ _ _ _ _ _ _ _ _ A) in Hb. destruct Hb as (_ & Hb).
    unfold has_room. destruct (N.eq_dec total 0) as [H0|H0]; [left; exact H0|right].
    intros d' c0' Hin' Hdn' Hc0'. unfold unl in Hb. change (a_total a0) with total in Hb.
    destruct (N.eqb_spec total 0); [congruence|].
    assert (d' = d).
    { pose proof (find_def_in a0 th_nd d' Hin') as F1. pose proof (at_def _ _ _ _ _ _ _ _ _ _ _ _ _ _ _ _ A) as F2.
      rewrite Hdn', F2 in F1. congruence. }
    subst d'. assert (c0' = c0) by (pose proof (at_c0 _ _ _ _ _ _ _ _ _ _ _ _ _ _ _ _ A); congruence). subst c0'.
    unfold fresh_rows in Hb. change (a_total a0) with total in Hb. destruct (N.eqb_spec total 0); [congruence|].
    rewrite (th_rows_val _ d c0 Hk Hin' Hc0'), Hrow in Hb. exact Hb.
  - intros (Hmat & off & Hadj & Hbel & Hwin & Hrm).
    assert (Hoff : adjust_frame_offset (f_number f) (f_adj f) = Ret off).
    { rewrite (adjust_small f Hn Hns), Hadj, N2Z.id. destruct (Z.ltb_spec (Z.of_N off) 0); [lia|reflexivity]. }
    destruct (adjust_val f off Hn Hoff) as (_ & Hk). rewrite <- Hrow in Hwin.
    apply valid_iff in Hmat. apply Hmine in Hbel.
    assert (Hd : exists d c0, find_def defs (f_dataset f) = Some d /\ hd_error (d_chunks d) = Some c0 /\ c0 <> 0 /\ In d defs).
    { unfold check_frame_valid in Hmat. change (a_defs a0) with defs in Hmat.
      destruct (find_def defs (f_dataset f)) as [d|] eqn:Ed; [|discriminate].
      pose proof (find_def_some a0 _ _ Ed) as (Hin & _). destruct (hd_chunks d Hin) as (c0 & Hc0 & Hnz). eauto 8. }
    destruct Hd as (d & c0 & Hd & Hc0 & Hnz & Hin).
    specialize (Hroom off d c0 Hk Hd Hc0 Hrm).
    destruct (outcome_flag _ _ _ _ _ _ _ _ _ Hn Ho) as (b & _ & B2 & _ & _).
    destruct Ho as [(Href & -> & -> & Hsc)|(off' & c0' & d' & b' & fin & ps & A)].
    + exfalso. destruct Href as [H1|e H1|off1 H1 H2|off1 H1 H2 H3|off1 H1 H2 H3 H4 H5|off1 H1 H2 H3 H4 H5|off1 d1 H1 H2 H3 H4 H5 H6 H7].
      * congruence.
      * congruence.
      * congruence.
      * assert (off1 = off) by congruence. subst. lia.
      * apply H5. intros j Hj. apply create_good_of; [exact Hnf|exact Hro|]. assert (off1 = off) by congruence. subst. lia.
      * exact (H5 HFs1).
      * assert (off1 = off) by congruence. subst off1. change (a_defs a0) with defs in H5.
        assert (d1 = d) by congruence. subst d1. rewrite H6 in Hroom.
        unfold unl in H6. change (a_total a0) with total in H6. apply N.eqb_neq in H6.
        destruct Htw as [?|Htw]; [congruence|].
        assert (Hval : fresh_rows a0 d (idx a0 (krow a0 off)) = expected_rows (g_fpb g) (g_bpf g) towrite c0 (N.of_nat (krow a0 off))).
        { unfold fresh_rows. change (a_total a0) with total. destruct (N.eqb_spec total 0); [congruence|].
          rewrite (th_rows_val _ d c0 Hk Hin Hc0). reflexivity. }
        assert (fresh_rows a0 d (idx a0 (krow a0 off)) <= 2 ^ 31).
        { rewrite Hval. eapply expected_rows_le; [exact Hin|exact Hc0|unfold KR in Hk; lia|exact Htw]. }
        apply dmo_small in H7; [|lia]. nia.
    + assert (off' = off) by (pose proof (at_off _ _ _ _ _ _ _ _ _ _ _ _ _ _ _ _ A); congruence). subst off'.
      pose proof (at_def _ _ _ _ _ _ _ _ _ _ _ _ _ _ _ _ A) as Hd'. change (a_defs a0) with defs in Hd'.
      assert (d' = d) by congruence. subst d'.
      assert (c0' = c0) by (pose proof (at_c0 _ _ _ _ _ _ _ _ _ _ _ _ _ _ _ _ A); congruence). subst c0'.
      assert (b' = true) as Hb' by (apply (at_b _ _ _ _ _ _ _ _ _ _ _ _ _ _ _ _ A); split; assumption).
      assert (fin = true) as Hfin.
      { eapply (params_fin i f s1 off Hadj Hk Hpo (proj2 (proj2 Hnf)) HFs1 (f_params f)); [auto|].
        apply (at_params _ _ _ _ _ _ _ _ _ _ _ _ _ _ _ _ A Hb'). }
      destruct (at_fin _ _ _ _ _ _ _ _ _ _ _ _ _ _ _ _ A Hfin) as [(_ & _ & Hc)|(-> & _)]; [destruct (Hc HFs1)|].
      unfold status_of. destruct (_ && _); [destruct (_ <=? _)|]; reflexivity.
Qed.

(** ** Parameters kept in datasets *)

Lemma patts_cells i slot k A Q l : patts a0 i k slot A Q l true -> NoDup (map fst Q) ->
  forall gh k' ds d row, find_def defs ds = Some d ->
  cells_of (gh ++ l) k' ds row =
  match find (fun nv => String.eqb (fst nv) ds) Q with
  | Some (_, PV _ x) => if Nat.eqb k k' && (slot =? row) then Some [x] else cells_of gh k' ds row
  | None => cells_of gh k' ds row
  end.
Proof.
  intros Hpa. remember true as fin eqn:Efin. revert Efin.
  induction Hpa as [|n v ps l b Hf Hp IH|n v ps d Hf Hs|n v ps d x Hf Hv Hi|n v ps d x l b Hf Hv Hp IH];
    intros Efin Hnd gh k' ds d' row Hd; try discriminate.
  - rewrite app_nil_r. reflexivity.
  - inversion Hnd as [|? ? Hn1 Hn2]; subst. cbn [find fst].
    destruct (String.eqb_spec n ds) as [->|Hne]; [change (a_defs a0) with defs in Hf; congruence|].
    eapply IH; [reflexivity|exact Hn2|exact Hd].
  - inversion Hnd as [|? ? Hn1 Hn2]; subst.
    change (gh ++ Att k n (slot + 1) slot [x] true 0 :: l) with (gh ++ [Att k n (slot + 1) slot [x] true 0] ++ l).
    rewrite app_assoc, (IH eq_refl Hn2 _ k' ds d' row Hd), cells_snoc. cbn [find fst]. cbn [t_ok t_start t_data].
    unfold at_file. cbn [t_row t_ds].
    destruct (String.eqb_spec n ds) as [->|Hne].
    + assert (find (fun nv => String.eqb (fst nv) ds) ps = None) as ->.
      { destruct (find _ ps) as [[n' v']|] eqn:Efd; [|reflexivity]. apply find_some in Efd. destruct Efd as (Hin & Heq).
        cbn [fst] in Heq. apply String.eqb_eq in Heq. subst n'. destruct Hn1. apply (in_map fst) in Hin. exact Hin. }
      destruct v as [tv xv]. unfold param_value in Hv. destruct (dtype_eqb tv _); [|discriminate]. injection Hv as ->.
      rewrite !andb_true_r. reflexivity.
    + rewrite andb_false_r. cbn [andb]. reflexivity.
Qed.

Lemma steps_params s m gh t s' m' gh' rs :
  Steps a0 dk KR s m gh t s' m' gh' rs -> Forall (fun c => number_ok g K (snd c)) t ->
  Full a0 s -> Forall (fun c => no_failure (fst c) /\ params_ok g total towrite defs (snd c) /\ NoDup (map fst (f_params (snd c)))) t ->
  rows_ok g total towrite defs K ->
  forall k ds d slot, In d defs -> d_name d = ds ->
    slot_exists (g_fpb g) (g_bpf g) (N.of_nat k) slot -> Forall (fun c => f_dataset (snd c) <> ds) t ->
    cells_of gh' k ds slot =
    fold_left (fun acc fb => match param_of ds (fst fb) with
                           | Some x => if (adjusted (fst fb) =? Z.of_N (frame_in (g_procs g) (g_fpb g) (g_bpf g) (g_rank g) (N.of_nat k) slot))%Z && snd fb then Some [x] else acc
                           | None => acc
                           end) (combine (map snd t) (map (fun r => written (Some r)) rs)) (cells_of gh k ds slot).
Proof.
  induction 1 as [|s m gh i f s1 m1 l r t s' m' gh' rs HI HI1 Hm Hok E Ho HFu HS IH]; intros Hn HF0 Hnf Hro k ds d slot Hd Hdn Hslot Hds.
  - reflexivity.
  - inversion Hn as [|? ? Hn1 Hn2]; subst. cbn [snd] in Hn1.
    inversion Hnf as [|? ? (Hf1 & Hf2 & Hf3) Hnf2]; subst. cbn [fst snd] in *.
    inversion Hds as [|? ? Hds1 Hds2]; subst. cbn [snd] in Hds1.
    assert (HF1 : Full a0 s1).
    { apply HFu; [|exact HF0]. intros off Hoff j Hj. apply create_good_of; [exact Hf1|exact Hro|].
      destruct Hok as (_ & _ & Hk). specialize (Hk off Hoff). lia. }
    cbn [map combine fold_left fst snd]. rewrite (IH Hn2 HF1 Hnf2 Hro k (d_name d) d slot Hd eq_refl Hslot Hds2). f_equal.
    destruct Ho as [(Href & -> & -> & Hsc)|(off & c0 & d' & b & fin & ps & A)].
    + rewrite app_nil_r. cbn [written]. destruct (param_of (d_name d) f); [rewrite andb_false_r|]; reflexivity.
    + destruct (adjust_val f off Hn1 (at_off _ _ _ _ _ _ _ _ _ _ _ _ _ _ _ _ A)) as (Hoff & Hk).
      pose proof (at_mine _ _ _ _ _ _ _ _ _ _ _ _ _ _ _ _ A) as Hmine.
      rewrite (at_list _ _ _ _ _ _ _ _ _ _ _ _ _ _ _ _ A).
      change (gh ++ img f (krow a0 off) c0 (kslot a0 off) b :: ps)
        with (gh ++ [img f (krow a0 off) c0 (kslot a0 off) b] ++ ps). rewrite app_assoc.
      assert (Himg : forall row, cells_of (gh ++ [img f (krow a0 off) c0 (kslot a0 off) b]) k (d_name d) row = cells_of gh k (d_name d) row).
      { intros row. rewrite cells_snoc. destruct (at_file k (d_name d) _) eqn:Ea; [|reflexivity].
        apply at_file_true in Ea. unfold img in Ea. cbn [t_ds] in Ea. destruct Ea; congruence. }
      destruct b.
      * pose proof (at_params _ _ _ _ _ _ _ _ _ _ _ _ _ _ _ _ A eq_refl) as Hpa.
        assert (fin = true) as Hfin.
        { eapply (params_fin i f s1 off Hoff Hk Hf2 (proj2 (proj2 Hf1)) HF1 (f_params f)); [auto|exact Hpa]. }
        rewrite Hfin in Hpa.
        rewrite (patts_cells _ _ _ _ _ _ Hpa Hf3 _ k (d_name d) d slot (find_def_in a0 th_nd d Hd)), Himg.
        assert (written (Some r) = true) as ->.
        { destruct (at_fin _ _ _ _ _ _ _ _ _ _ _ _ _ _ _ _ A Hfin) as [(_ & _ & Hc)|(-> & _)]; [destruct (Hc HF1)|].
          unfold status_of. destruct (_ && _); [destruct (_ <=? _)|]; reflexivity. }
        rewrite andb_true_r. unfold param_of. destruct (find _ (f_params f)) as [[n [tv x]]|]; [|reflexivity].
        assert (Nat.eqb (krow a0 off) k && (kslot a0 off =? slot) =
          (adjusted f =? Z.of_N (frame_in (g_procs g) (g_fpb g) (g_bpf g) (g_rank g) (N.of_nat k) slot))%Z) as ->; [|reflexivity].
        pose proof (place_iff off k slot Hmine Hslot) as Hpl.
        apply eq_true_iff_eq. rewrite andb_true_iff, Nat.eqb_eq, N.eqb_eq, Z.eqb_eq, Hoff. rewrite Hpl. lia.
      * destruct (at_nob _ _ _ _ _ _ _ _ _ _ _ _ _ _ _ _ A eq_refl) as (-> & Hfin).
        destruct (at_nofin _ _ _ _ _ _ _ _ _ _ _ _ _ _ _ _ A Hfin) as (-> & _). rewrite app_nil_r, Himg.
        cbn [written]. destruct (param_of (d_name d) f); [rewrite andb_false_r|]; reflexivity.
Qed.

Theorem readback_params i0 s0 t s rs :
  no_failure i0 -> rows_ok g total towrite defs K -> start_acquisition i0 (St a0 dk []) = (s0, Ret true) ->
  Forall (fun c => number_ok g K (snd c) /\ no_failure (fst c) /\ params_ok g total towrite defs (snd c) /\
                   NoDup (map fst (f_params (snd c)))) t ->
  run s0 t = (s, rs) ->
  forall k d slot, k <= K -> In d defs -> slot_exists (g_fpb g) (g_bpf g) k slot ->
    Forall (fun c => f_dataset (snd c) <> d_name d) t ->
    let path := path_of dir nm (k * g_procs g + g_rank g) in
    In path (created (s_log s)) ->
    read (s_disk s) path (d_name d) slot =
    last_param (combine (map snd t) (map written rs)) (d_name d)
               (frame_in (g_procs g) (g_fpb g) (g_bpf g) (g_rank g) k slot).
Proof.
  intros Hnf0 Hro E Ht Er k d slot Hk Hd Hslot Hds path Hin.
  assert (Ht' : Forall (fun c => creates (fst c) /\ number_ok g K (snd c)) t).
  { eapply Forall_impl; [|exact Ht]. intros c (H1 & H2 & _). split; [apply H2|exact H1]. }
  destruct (ran i0 s0 t s rs (proj1 Hnf0) E Ht' Er) as (m & gh & rs' & -> & HS).
  destruct (started i0 s0 (proj1 Hnf0) E) as (HI0 & _ & _ & HF0).
  pose proof (steps_inv a0 dk KR th_P th_r th_inj th_rows th_F _ _ _ _ _ _ _ _ HS) as (_ & HI & _).
  pose proof (steps_bound _ _ _ _ _ _ _ _ HS ltac:(lia)) as Hm.
  assert (HkR : (N.to_nat k <= KR)%nat) by (unfold KR; lia).
  unfold path in *. replace (path_of dir nm (k * g_procs g + g_rank g)) with (pth a0 (N.to_nat k)) in * by (rewrite th_pth, N2Nat.id; reflexivity).
  apply (created_iff s m gh _ HI Hm HkR) in Hin. rewrite (read_cells s m gh _ _ _ HI Hin).
  pose proof (steps_params _ _ _ _ _ _ _ _ HS) as HSP. rewrite map_map. unfold last_param.
  rewrite (HSP) with (d := d); [rewrite N2Nat.id; reflexivity| | | | | | | | ].
  - eapply Forall_impl; [|exact Ht]. intros c H. apply H.
  - apply HF0; assumption.
  - eapply Forall_impl; [|exact Ht]. intros c (H1 & H2 & H3 & H4). auto.
  - exact Hro.
  - exact Hd.
  - reflexivity.
  - rewrite N2Nat.id. exact Hslot.
  - exact Hds.
Qed.

(** ** Extents *)

Lemma rows_app_other gh l k ds : (forall t, In t l -> at_file k ds t = false) ->
  rows_unl (gh ++ l) k ds = rows_unl gh k ds.
Proof.
  induction l as [|t l IH] using rev_ind; intros H; [rewrite app_nil_r; reflexivity|].
  rewrite app_assoc, rows_snoc, (H t) by (apply in_or_app; right; left; reflexivity).
  apply IH. intros u Hu. apply H, in_or_app. left. exact Hu.
Qed.

Lemma steps_extent s m gh t s' m' gh' rs :
  Steps a0 dk KR s m gh t s' m' gh' rs -> Forall (fun c => number_ok g K (snd c)) t -> (total =? 0) = true ->
  Forall (fun c => io_write (fst c) = true) t ->
  Full a0 s -> Forall (fun c => no_failure (fst c) /\ params_ok g total towrite defs (snd c)) t ->
  forall k ds d c0, In d defs -> d_name d = ds -> hd_error (d_chunks d) = Some c0 ->
    Forall (fun c => not_param ds (snd c)) t ->
    rows_unl gh' k ds =
    fold_left (fun acc fb =>
    if String.eqb (f_dataset (fst fb)) ds && snd fb && (row_of (g_procs g) (g_fpb g) (g_bpf g) (Z.to_N (adjusted (fst fb))) =? N.of_nat k)
    then N.max acc ((slot_of (g_procs g) (g_fpb g) (g_bpf g) (Z.to_N (adjusted (fst fb))) + 1) * c0) else acc)
    (combine (map snd t) (map (fun r => written (Some r)) rs)) (rows_unl gh k ds).
Proof.
  induction 1 as [|s m gh i f s1 m1 l r t s' m' gh' rs HI HI1 Hm Hok E Ho HFu HS IH]; intros Hn Htot Hiow HF0 Hnf k ds d c0 Hd Hdn Hc0 Hnp.
  - reflexivity.
  - inversion Hn as [|? ? Hn1 Hn2]; subst. cbn [snd] in Hn1.
    inversion Hnf as [|? ? (Hf1 & Hf2) Hnf2]; subst. cbn [fst snd] in *.
    inversion Hnp as [|? ? Hnp1 Hnp2]; subst. cbn [snd] in Hnp1.
    inversion Hiow as [|? ? Hw1 Hw2]; subst. cbn [fst] in Hw1.
    assert (Hro : rows_ok g total towrite defs K) by (left; apply N.eqb_eq; exact Htot).
    assert (HF1 : Full a0 s1).
    { apply HFu; [|exact HF0]. intros off Hoff j Hj. apply create_good_of; [exact Hf1|exact Hro|].
      destruct Hok as (_ & _ & Hk). specialize (Hk off Hoff). lia. }
    cbn [map combine fold_left fst snd]. rewrite (IH Hn2 Htot Hw2 HF1 Hnf2 k (d_name d) d c0 Hd eq_refl Hc0 Hnp2). f_equal.
    destruct Ho as [(Href & -> & -> & Hsc)|(off & c0' & d' & b & fin & ps & A)].
    + rewrite app_nil_r. cbn [written]. rewrite andb_false_r. reflexivity.
    + destruct (adjust_val f off Hn1 (at_off _ _ _ _ _ _ _ _ _ _ _ _ _ _ _ _ A)) as (Hoff & Hk).
      rewrite (at_list _ _ _ _ _ _ _ _ _ _ _ _ _ _ _ _ A).
      destruct (find_def_some a0 _ _ (at_def _ _ _ _ _ _ _ _ _ _ _ _ _ _ _ _ A)) as (Hdin' & Hdn').
      destruct (hd_chunks d' Hdin') as (c1 & Hc1 & Hnz).
      assert (c1 = c0') by (pose proof (at_c0 _ _ _ _ _ _ _ _ _ _ _ _ _ _ _ _ A); congruence). subst c1.
      assert (b = true) as Hb.
      { apply (at_b _ _ _ _ _ _ _ _ _ _ _ _ _ _ _ _ A). split; [exact Hw1|]. unfold unl. change (a_total a0) with total.
        rewrite Htot. nia. }
      rewrite Hb in A. subst b. pose proof (at_params _ _ _ _ _ _ _ _ _ _ _ _ _ _ _ _ A eq_refl) as Hpa.
      assert (fin = true) as Hfin.
      { eapply (params_fin i f s1 off Hoff Hk Hf2 (proj2 (proj2 Hf1)) HF1 (f_params f)); [auto|exact Hpa]. }
      assert (written (Some r) = true) as ->.
      { destruct (at_fin _ _ _ _ _ _ _ _ _ _ _ _ _ _ _ _ A Hfin) as [(_ & _ & Hc)|(-> & _)]; [destruct (Hc HF1)|].
        unfold status_of. destruct (_ && _); [destruct (_ <=? _)|]; reflexivity. }
      change (gh ++ img f (krow a0 off) c0' (kslot a0 off) true :: ps)
        with (gh ++ [img f (krow a0 off) c0' (kslot a0 off) true] ++ ps). rewrite app_assoc.
      rewrite rows_app_other.
      2: { intros u Hin. destruct (patts_names _ _ _ _ _ _ _ Hpa u Hin) as (_ & Hu).
           destruct (at_file k (d_name d) u) eqn:Ea; [|reflexivity]. apply at_file_true in Ea. destruct Ea as (_ & Ea).
           rewrite Ea in Hu. destruct (Hnp1 Hu). }
      rewrite rows_snoc. unfold at_file, img. cbn [t_row t_ds t_rows]. rewrite andb_true_r.
      rewrite Hoff, N2Z.id.
      assert (row_of (g_procs g) (g_fpb g) (g_bpf g) off =? N.of_nat k = Nat.eqb (krow a0 off) k) as ->.
      { unfold krow. change (a_geom a0) with g. apply eq_true_iff_eq. rewrite N.eqb_eq, Nat.eqb_eq. lia. }
      destruct (String.eqb_spec (f_dataset f) (d_name d)) as [Eq|Eq]; [|rewrite andb_false_r; reflexivity].
      rewrite andb_true_r. cbn [andb].
      assert (d' = d).
      { pose proof (find_def_in a0 th_nd d Hd) as F1. pose proof (find_def_in a0 th_nd d' Hdin') as F2. congruence. }
      subst d'. assert (c0' = c0) by congruence. subst c0'. reflexivity.
Qed.

Lemma Full_rows s m gh k d : Inv a0 dk s m gh -> (k <= m)%nat -> In d defs -> Full a0 s ->
  rows_of (s_disk s) (pth a0 k) (d_name d) = Some (if unl a0 then rows_unl gh k (d_name d) else fresh_rows a0 d (idx a0 k)).
Proof.
  intros HI Hk Hd (_ & _ & HF). destruct (inv_files _ _ _ _ _ HI k Hk) as (df & Hdf & Hall). unfold rows_of. rewrite Hdf.
  specialize (Hall (d_name d)). destruct (df (d_name d)) as [dd|] eqn:E.
  - destruct Hall as (d' & Hd' & Hr & _). rewrite (find_def_in a0 th_nd d Hd) in Hd'. injection Hd' as <-. rewrite Hr. reflexivity.
  - destruct (HF (pth a0 k) df d); try assumption. rewrite (inv_created _ _ _ _ _ HI). apply in_map, in_seq. lia.
Qed.

Theorem extent_exact i0 s0 t s rs :
  no_failure i0 -> total = 0 -> start_acquisition i0 (St a0 dk []) = (s0, Ret true) ->
  Forall (fun c => number_ok g K (snd c) /\ no_failure (fst c) /\ io_write (fst c) = true /\
                   params_ok g total towrite defs (snd c)) t ->
  run s0 t = (s, rs) ->
  forall k d c0, k <= K -> In d defs -> hd_error (d_chunks d) = Some c0 ->
    Forall (fun c => not_param (d_name d) (snd c)) t ->
    let path := path_of dir nm (k * g_procs g + g_rank g) in
    In path (created (s_log s)) ->
    rows_of (s_disk s) path (d_name d) = Some (extent (g_procs g) (g_fpb g) (g_bpf g) (combine (map snd t) (map written rs)) (d_name d) c0 k).
Proof.
  intros Hnf0 Htot E Ht Er k d c0 Hk Hd Hc0 Hnp path Hin.
  assert (Ht' : Forall (fun c => creates (fst c) /\ number_ok g K (snd c)) t).
  { eapply Forall_impl; [|exact Ht]. intros c (H1 & H2 & _). split; [apply H2|exact H1]. }
  destruct (ran i0 s0 t s rs (proj1 Hnf0) E Ht' Er) as (m & gh & rs' & -> & HS).
  destruct (started i0 s0 (proj1 Hnf0) E) as (HI0 & _ & _ & HF0).
  pose proof (steps_inv a0 dk KR th_P th_r th_inj th_rows th_F _ _ _ _ _ _ _ _ HS) as (_ & HI & _).
  pose proof (steps_bound _ _ _ _ _ _ _ _ HS ltac:(lia)) as Hm.
  assert (HkR : (N.to_nat k <= KR)%nat) by (unfold KR; lia).
  unfold path in *. replace (path_of dir nm (k * g_procs g + g_rank g)) with (pth a0 (N.to_nat k)) in * by (rewrite th_pth, N2Nat.id; reflexivity).
  apply (created_iff s m gh _ HI Hm HkR) in Hin.
  rewrite (Full_rows s m gh _ d HI Hin Hd).
  2: { eapply (steps_full a0 dk KR th_P th_r th_inj th_rows th_F); [exact HS| |apply HF0; [exact Hnf0|left; exact Htot]].
       intros i' f' Hin' j Hj. rewrite Forall_forall in Ht. apply create_good_of; [apply (Ht _ Hin')|left; exact Htot|exact Hj]. }
  unfold unl. change (a_total a0) with total. rewrite (proj2 (N.eqb_eq _ _) Htot). f_equal.
  rewrite (steps_extent _ _ _ _ _ _ _ _ HS) with (d := d) (c0 := c0); try assumption; try reflexivity.
  - unfold extent. rewrite map_map, N2Nat.id. reflexivity.
  - eapply Forall_impl; [|exact Ht]. intros c H. apply H.
  - apply N.eqb_eq. exact Htot.
  - eapply Forall_impl; [|exact Ht]. intros c H. apply H.
  - apply HF0; [exact Hnf0|left; exact Htot].
  - eapply Forall_impl; [|exact Ht]. intros c (H1 & H2 & H3 & H4). auto.
Qed.

Lemma rows_grow gh l k ds : rows_unl gh k ds <= rows_unl (gh ++ l) k ds.
Proof.
  induction l as [|t l IH] using rev_ind; [rewrite app_nil_r; lia|].
  rewrite app_assoc, rows_snoc. destruct (at_file k ds t); lia.
Qed.

Theorem extent_fixed i0 s0 t s rs :
  no_failure i0 -> total <> 0 -> rows_ok g total towrite defs K ->
  start_acquisition i0 (St a0 dk []) = (s0, Ret true) ->
  Forall (fun c => number_ok g K (snd c) /\ no_failure (fst c)) t ->
  run s0 t = (s, rs) ->
  forall k d c0, k <= K -> In d defs -> hd_error (d_chunks d) = Some c0 ->
    let path := path_of dir nm (k * g_procs g + g_rank g) in
    In path (created (s_log s)) ->
    rows_of (s_disk s) path (d_name d) = Some (expected_rows (g_fpb g) (g_bpf g) towrite c0 k).
Proof.
  intros Hnf0 Htot Hro E Ht Er k d c0 Hk Hd Hc0 path Hin.
  assert (Ht' : Forall (fun c => creates (fst c) /\ number_ok g K (snd c)) t).
  { eapply Forall_impl; [|exact Ht]. intros c (H1 & H2). split; [apply H2|exact H1]. }
  destruct (ran i0 s0 t s rs (proj1 Hnf0) E Ht' Er) as (m & gh & rs' & -> & HS).
  destruct (started i0 s0 (proj1 Hnf0) E) as (HI0 & _ & _ & HF0).
  pose proof (steps_inv a0 dk KR th_P th_r th_inj th_rows th_F _ _ _ _ _ _ _ _ HS) as (_ & HI & _).
  pose proof (steps_bound _ _ _ _ _ _ _ _ HS ltac:(lia)) as Hm.
  assert (HkR : (N.to_nat k <= KR)%nat) by (unfold KR; lia).
  unfold path in *. replace (path_of dir nm (k * g_procs g + g_rank g)) with (pth a0 (N.to_nat k)) in * by (rewrite th_pth, N2Nat.id; reflexivity).
  apply (created_iff s m gh _ HI Hm HkR) in Hin.
  rewrite (Full_rows s m gh _ d HI Hin Hd).
  2: { eapply (steps_full a0 dk KR th_P th_r th_inj th_rows th_F); [exact HS| |apply HF0; assumption].
       intros i' f' Hin' j Hj. rewrite Forall_forall in Ht. apply create_good_of; [apply (Ht _ Hin')|exact Hro|exact Hj]. }
  unfold unl, fresh_rows. change (a_total a0) with total. rewrite (proj2 (N.eqb_neq _ _) Htot).
  rewrite (th_rows_val _ d c0 HkR Hd Hc0), N2Nat.id. reflexivity.
Qed.

(** The ghost history only grows and rows only grow. *)
Lemma steps_grow s m gh t s' m' gh' rs : Steps a0 dk KR s m gh t s' m' gh' rs -> exists l, gh' = gh ++ l.
Proof.
  induction 1 as [|s m gh i f s1 m1 l r t s' m' gh' rs HI HI1 Hm Hok E Ho HFu HS IH]; [exists []; rewrite app_nil_r; reflexivity|].
  destruct IH as (l' & ->). exists (l ++ l'). rewrite app_assoc. reflexivity.
Qed.

Lemma run_app t1 : forall s t2, run s (t1 ++ t2) =
  (fst (run (fst (run s t1)) t2), snd (run s t1) ++ snd (run (fst (run s t1)) t2)).
Proof.
  induction t1 as [|[i f] t1 IH]; intros s t2; cbn [run app fst snd].
  - destruct (run s t2); reflexivity.
  - destruct (process_frame i f s) as [s1 r]. rewrite IH. destruct (run s1 t1) as [s2 rs]. cbn [fst snd].
    destruct (run s2 t2); reflexivity.
Qed.

Lemma rows_present s m gh k ds : Inv a0 dk s m gh -> (k <= m)%nat -> forall n, rows_of (s_disk s) (pth a0 k) ds = Some n ->
  exists d, find_def defs ds = Some d /\ n = if unl a0 then rows_unl gh k ds else fresh_rows a0 d (idx a0 k).
Proof.
  intros HI Hk n. destruct (inv_files _ _ _ _ _ HI k Hk) as (df & Hdf & Hall). unfold rows_of. rewrite Hdf.
  specialize (Hall ds). destruct (df ds) as [dd|]; [|discriminate]. destruct Hall as (d & H1 & H2 & _). intros [= <-]. eauto.
Qed.

Theorem extent_grows i0 s0 t1 t2 s1 rs1 s2 rs2 :
  no_failure i0 -> rows_ok g total towrite defs K -> start_acquisition i0 (St a0 dk []) = (s0, Ret true) ->
  Forall (fun c => number_ok g K (snd c) /\ no_failure (fst c)) (t1 ++ t2) ->
  run s0 t1 = (s1, rs1) -> run s1 t2 = (s2, rs2) ->
  forall k d, k <= K -> In d defs ->
    let path := path_of dir nm (k * g_procs g + g_rank g) in
    In path (created (s_log s1)) ->
    exists n1 n2, rows_of (s_disk s1) path (d_name d) = Some n1 /\ rows_of (s_disk s2) path (d_name d) = Some n2 /\ 1 <= n1 <= n2.
Proof.
  intros Hnf0 Hro E Ht Er1 Er2 k d Hk Hd path Hin.
  assert (Ht' : Forall (fun c => creates (fst c) /\ number_ok g K (snd c)) (t1 ++ t2)).
  { eapply Forall_impl; [|exact Ht]. intros c (H1 & H2). split; [apply H2|exact H1]. }
  rewrite Forall_app in Ht, Ht'.
  destruct (ran i0 s0 t1 s1 rs1 (proj1 Hnf0) E (proj1 Ht') Er1) as (m & gh & rs' & -> & HS).
  destruct (started i0 s0 (proj1 Hnf0) E) as (HI0 & _ & _ & HF0).
  pose proof (steps_inv a0 dk KR th_P th_r th_inj th_rows th_F _ _ _ _ _ _ _ _ HS) as (_ & HI & _).
  pose proof (steps_bound _ _ _ _ _ _ _ _ HS ltac:(lia)) as Hm.
  destruct (run_steps a0 dk KR th_P th_r th_nd th_inj th_rows th_F th_chunks t2 s1 m gh HI) as (s2' & m2 & gh2 & rs2' & Er2' & HS2).
  { intros H0. eapply steps_single; [exact H0|exact HS|reflexivity]. }
  { exact Hm. }
  { destruct Ht' as (_ & Ht2). eapply Forall_impl; [|exact Ht2]. intros [i f] (H1 & H2). apply call_ok_of; assumption. }
  rewrite Er2 in Er2'. injection Er2' as <- ->.
  pose proof (steps_inv a0 dk KR th_P th_r th_inj th_rows th_F _ _ _ _ _ _ _ _ HS2) as (_ & HI2 & Hmm).
  assert (HFs : Full a0 s1).
  { eapply (steps_full a0 dk KR th_P th_r th_inj th_rows th_F); [exact HS| |apply HF0; assumption].
    intros i' f' Hin' j Hj. destruct Ht as (Ht1 & _). rewrite Forall_forall in Ht1.
    apply create_good_of; [apply (Ht1 _ Hin')|exact Hro|exact Hj]. }
  assert (HFs2 : Full a0 s2).
  { eapply (steps_full a0 dk KR th_P th_r th_inj th_rows th_F); [exact HS2| |exact HFs].
    intros i' f' Hin' j Hj. destruct Ht as (_ & Ht2). rewrite Forall_forall in Ht2.
    apply create_good_of; [apply (Ht2 _ Hin')|exact Hro|exact Hj]. }
  assert (HkR : (N.to_nat k <= KR)%nat) by (unfold KR; lia).
  unfold path in *. replace (path_of dir nm (k * g_procs g + g_rank g)) with (pth a0 (N.to_nat k)) in * by (rewrite th_pth, N2Nat.id; reflexivity).
  apply (created_iff s1 m gh _ HI Hm HkR) in Hin.
  rewrite (Full_rows s1 m gh _ d HI Hin Hd HFs), (Full_rows s2 m2 gh2 (N.to_nat k) d HI2 (Nat.le_trans _ _ _ Hin Hmm) Hd HFs2).
  do 2 eexists. split; [reflexivity|]. split; [reflexivity|].
  destruct (hd_chunks d Hd) as (c0 & Hc0 & _).
  unfold unl, fresh_rows. change (a_total a0) with total. destruct (N.eqb_spec total 0) as [H0|H0].
  - destruct (steps_grow _ _ _ _ _ _ _ _ HS2) as (l & ->). pose proof (rows_grow gh l (N.to_nat k) (d_name d)).
    pose proof (rows_grow [] gh (N.to_nat k) (d_name d)) as H1. cbn [app] in H1. change (rows_unl [] (N.to_nat k) (d_name d)) with 1 in H1. lia.
  - rewrite (th_rows_val _ d c0 HkR Hd Hc0). destruct Hro as [Hro|Hro]; [congruence|].
    specialize (Hro d c0 k Hd Hc0 Hk). rewrite N2Nat.id. lia.
Qed.

(** ** Counters *)
Definition local (off : N) : N := local_of (g_procs g) (g_fpb g) off.

Lemma local_split off : local off = before a0 (krow a0 off) + kslot a0 off.
Proof.
  pose proof th_F as HF. pose proof th_P as HP. change (a_geom a0) with g in *.
  unfold local, local_of, before, krow, kslot, row_of, slot_of. change (a_geom a0) with g.
  destruct (N.eqb_spec (g_bpf g) 0) as [->|HB]; [lia|]. rewrite N2Nat.id.
  pose proof (N.div_mod (off / g_fpb g / g_procs g) (g_bpf g) HB). nia.
Qed.

Lemma kslot_lt off : g_bpf g <> 0 -> kslot a0 off < g_fpb g * g_bpf g.
Proof.
  intros HB. pose proof th_F as HF. change (a_geom a0) with g in *. unfold kslot, slot_of. change (a_geom a0) with g.
  destruct (N.eqb_spec (g_bpf g) 0); [congruence|].
  pose proof (N.mod_lt off (g_fpb g) ltac:(lia)). pose proof (N.mod_lt (off / g_fpb g / g_procs g) (g_bpf g) HB). nia.
Qed.

Lemma mine_iff off : mine a0 off = true <-> block_of (g_fpb g) off mod g_procs g = g_rank g.
Proof. unfold mine, block_of. change (a_geom a0) with g. apply N.eqb_eq. Qed.

Lemma patts_upto i k slot A ps l b : patts a0 i k slot A ps l b -> forall u, In u l -> t_upto u = 0.
Proof.
  induction 1; intros u Hin; cbn in Hin; try tauto; auto.
  - destruct Hin as [<-|[]]; reflexivity.
  - destruct Hin as [<-|Hin]; [reflexivity|auto].
Qed.

Lemma actual_app_zero gh l k ds : (forall u, In u l -> t_upto u = 0) -> actual (gh ++ l) k ds = actual gh k ds.
Proof.
  induction l as [|t l IH] using rev_ind; intros H; [rewrite app_nil_r; reflexivity|].
  rewrite app_assoc, actual_snoc, (H t) by (apply in_or_app; right; left; reflexivity).
  rewrite IH by (intros u Hu; apply H, in_or_app; left; exact Hu). destruct (_ && _); lia.
Qed.

(** What a run so far means for the counters. *)
Record Counts (s : st) (m : nat) (gh : list att) (h : list (frame * bool)) : Prop := {
  cn_processed : a_processed (s_acq s) = N.of_nat (List.length (counted_frames master h));
  cn_placed : forall f, In (f, true) h -> exists off, adjusted f = Z.of_N off /\ mine a0 off = true /\ (krow a0 off <= m)%nat /\
                kslot a0 off + 1 <= actual gh (krow a0 off) (f_dataset f);
  cn_lower : forall f, In (f, true) h -> is_counted master f = true -> local (Z.to_N (adjusted f)) + 1 <= a_written (s_acq s);
  cn_upper : a_written (s_acq s) = 0 \/
    (exists f, In (f, true) h /\ is_counted master f = true /\ a_written (s_acq s) = local (Z.to_N (adjusted f)) + 1) \/
    (exists k, (1 <= k <= m)%nat /\ a_written (s_acq s) = before a0 k);
  cn_file : m = O \/ exists f off b, In (f, b) h /\ adjusted f = Z.of_N off /\ mine a0 off = true /\ krow a0 off = m;
  cn_actual : forall k ds, actual gh k ds = 0 \/
    exists f off, In (f, true) h /\ f_dataset f = ds /\ adjusted f = Z.of_N off /\ mine a0 off = true /\ krow a0 off = k /\ actual gh k ds = kslot a0 off + 1 }.

Definition unit_chunks : Prop := forall d, In d defs -> hd_error (d_chunks d) = Some 1.

Lemma counted_snoc h f b : counted_frames master (h ++ [(f, b)]) =
  counted_frames master h ++ (if is_counted master f && b then [f] else []).
Proof.
  unfold counted_frames. rewrite filter_app, map_app. cbn [filter fst snd].
  destruct (is_counted master f && b); reflexivity.
Qed.

Lemma count_step s m gh h i f s1 m1 l r :
  unit_chunks -> f_ocs f = 1 -> number_ok g K f -> (g_bpf g = 0 -> m1 = O) -> (m <= m1)%nat ->
  outcome_of a0 i f s m gh s1 m1 l r -> Full a0 s1 -> no_failure i -> params_ok g total towrite defs f ->
  (m1 = m \/ exists off, adjusted f = Z.of_N off /\ mine a0 off = true /\ krow a0 off = m1) ->
  Counts s m gh h -> Counts s1 m1 (gh ++ l) (h ++ [(f, written (Some r))]) /\
  a_written (s_acq s) <= a_written (s_acq s1) /\
  (written (Some r) = true -> r = status_of a0 s1).
Proof.
  intros Hu Hocs Hn HB Hmm Ho HF Hnf Hpo Hnew HC.
  assert (Hfile : m1 = O \/ exists f' off b, In (f', b) (h ++ [(f, written (Some r))]) /\ adjusted f' = Z.of_N off /\ mine a0 off = true /\ krow a0 off = m1).
  { destruct Hnew as [->|(off & H1 & H2 & H3)].
    - destruct (cn_file _ _ _ _ HC) as [->|(f' & off & b & H0 & H1 & H2 & H3)]; [left; reflexivity|].
      right. exists f', off, b. rewrite in_app_iff. auto.
    - right. exists f, off, (written (Some r)). rewrite in_app_iff. split; [right; left; reflexivity|auto]. }
  assert (Hkeep : forall b, b = false -> same_counts s s1 -> (forall k ds, actual (gh ++ l) k ds = actual gh k ds) ->
     written (Some r) = b -> Counts s1 m1 (gh ++ l) (h ++ [(f, written (Some r))]) /\ a_written (s_acq s) <= a_written (s_acq s1) /\
      (written (Some r) = true -> r = status_of a0 s1)).
  { intros b -> (W & Pr) Hact Hb. rewrite Hb in *. split; [|split; [lia|discriminate]]. constructor.
    - rewrite counted_snoc, andb_false_r, app_nil_r, Pr. apply (cn_processed _ _ _ _ HC).
    - intros f' Hin. apply in_app_iff in Hin. destruct Hin as [Hin|[[=]|[]]].
      destruct (cn_placed _ _ _ _ HC f' Hin) as (off & H1 & H2 & H3 & H4). exists off. rewrite Hact. repeat split; try assumption. lia.
    - intros f' Hin Hct. apply in_app_iff in Hin. destruct Hin as [Hin|[[=]|[]]]. rewrite W. apply (cn_lower _ _ _ _ HC f' Hin Hct).
    - rewrite W. destruct (cn_upper _ _ _ _ HC) as [H|[(f' & H1 & H2)|(k & H1 & H2)]]; [auto| |].
      + right; left. exists f'. rewrite in_app_iff. tauto.
      + right; right. exists k. split; [lia|exact H2].
    - exact Hfile.
    - intros k ds. rewrite Hact. destruct (cn_actual _ _ _ _ HC k ds) as [H|(f' & off & H1 & H2)]; [auto|].
      right. exists f', off. rewrite in_app_iff. tauto. }
  destruct Ho as [(Href & -> & -> & Hsc)|(off & c0 & d & b & fin & ps & A)].
  { apply (Hkeep false); try reflexivity; [exact Hsc|]. intros. rewrite app_nil_r. reflexivity. }
  destruct (adjust_val f off Hn (at_off _ _ _ _ _ _ _ _ _ _ _ _ _ _ _ _ A)) as (Hoff & Hk).
  pose proof (at_mine _ _ _ _ _ _ _ _ _ _ _ _ _ _ _ _ A) as Hmine.
  destruct (find_def_some _ _ _ (at_def _ _ _ _ _ _ _ _ _ _ _ _ _ _ _ _ A)) as (Hdin & Hdn).
  assert (c0 = 1) as ->.
  { pose proof (Hu d Hdin) as H1. pose proof (at_c0 _ _ _ _ _ _ _ _ _ _ _ _ _ _ _ _ A). congruence. }
  pose proof (at_list _ _ _ _ _ _ _ _ _ _ _ _ _ _ _ _ A) as Hl.
  assert (Happ : gh ++ l = (gh ++ [img f (krow a0 off) 1 (kslot a0 off) b]) ++ ps) by (rewrite Hl, <- app_assoc; reflexivity).
  destruct b.
  2: { destruct (at_nob _ _ _ _ _ _ _ _ _ _ _ _ _ _ _ _ A eq_refl) as (-> & Hfin).
       destruct (at_nofin _ _ _ _ _ _ _ _ _ _ _ _ _ _ _ _ A Hfin) as (-> & Hsc).
       apply (Hkeep false); try reflexivity; [exact Hsc|]. intros. rewrite Happ, app_nil_r, actual_snoc. cbn [t_ok img].
       rewrite andb_false_r. reflexivity. }
  pose proof (at_params _ _ _ _ _ _ _ _ _ _ _ _ _ _ _ _ A eq_refl) as Hpa.
  assert (fin = true) as Hfin.
  { eapply (params_fin i f s1 off Hoff Hk Hpo (proj2 (proj2 Hnf)) HF (f_params f)); [auto|exact Hpa]. }
  destruct (at_fin _ _ _ _ _ _ _ _ _ _ _ _ _ _ _ _ A Hfin) as [(_ & _ & Hc)|(Hr & HW & HP)]; [destruct (Hc HF)|].
  assert (written (Some r) = true) as Hw.
  { rewrite Hr. unfold status_of. destruct (_ && _); [destruct (_ <=? _)|]; reflexivity. }
  rewrite Hw in *.
  assert (Hact : forall k ds, actual (gh ++ l) k ds =
     if Nat.eqb (krow a0 off) k && String.eqb (f_dataset f) ds then N.max (actual gh k ds) (kslot a0 off + 1) else actual gh k ds).
  { intros k ds. rewrite Happ, actual_app_zero by (eapply patts_upto; eassumption). rewrite actual_snoc. unfold at_file, img.
    cbn [t_row t_ds t_ok t_upto]. rewrite andb_true_r, Hocs, N.mul_1_r. reflexivity. }
  assert (Hge : forall k ds, actual gh k ds <= actual (gh ++ l) k ds).
  { intros k ds. rewrite Hact. destruct (_ && _); lia. }
  pose proof (at_m _ _ _ _ _ _ _ _ _ _ _ _ _ _ _ _ A) as Hm1.
  assert (Hkm : (krow a0 off <= m1)%nat) by lia.
  change (counted a0 f) with (is_counted master f) in HW, HP.
  set (h1 := h ++ [(f, true)]).
  assert (Hold : forall x, In x h -> In x h1) by (intros x Hx; apply in_app_iff; auto).
  assert (Hfin1 : In (f, true) h1) by (apply in_app_iff; right; left; reflexivity).
  assert (Hplaced : forall f', In (f', true) h1 -> exists off, adjusted f' = Z.of_N off /\ mine a0 off = true /\ (krow a0 off <= m1)%nat /\
                kslot a0 off + 1 <= actual (gh ++ l) (krow a0 off) (f_dataset f')).
  { intros f' Hin. apply in_app_iff in Hin. destruct Hin as [Hin|[[= <-]|[]]].
    - destruct (cn_placed _ _ _ _ HC f' Hin) as (o & H1 & H2 & H3 & H4). exists o. specialize (Hge (krow a0 o) (f_dataset f')).
      repeat split; try assumption; lia.
    - exists off. rewrite Hact, Nat.eqb_refl, String.eqb_refl. cbn [andb]. repeat split; try assumption. lia. }
  assert (Hactual : forall k ds, actual (gh ++ l) k ds = 0 \/
    exists f' off, In (f', true) h1 /\ f_dataset f' = ds /\ adjusted f' = Z.of_N off /\ mine a0 off = true /\ krow a0 off = k /\ actual (gh ++ l) k ds = kslot a0 off + 1).
  { intros k ds. rewrite Hact. destruct (Nat.eqb_spec (krow a0 off) k) as [E1|E1]; [destruct (String.eqb_spec (f_dataset f) ds) as [E2|E2]|]; cbn [andb].
    1: destruct (N.max_spec (actual gh k ds) (kslot a0 off + 1)) as [(_ & Hmx)|(_ & Hmx)]; rewrite Hmx;
       [right; exists f, off; rewrite <- E1, <- E2; auto 10|].
    all: destruct (cn_actual _ _ _ _ HC k ds) as [H|(f' & off' & H1 & H2)]; [auto|right; exists f', off'; split; [auto|exact H2]]. }
  split; [|split; [rewrite HW; destruct (is_counted master f); lia|auto]].
  constructor.
  - unfold h1. rewrite counted_snoc, andb_true_r, HP, Hocs. pose proof (cn_processed _ _ _ _ HC).
    destruct (is_counted master f); rewrite ?app_nil_r, ?app_length; cbn [List.length]; lia.
  - exact Hplaced.
  - intros f' Hin Hct. apply in_app_iff in Hin. destruct Hin as [Hin|[[= <-]|[]]].
    { pose proof (cn_lower _ _ _ _ HC f' Hin Hct). rewrite HW. destruct (is_counted master f); lia. }
    rewrite HW, Hct, Hoff, N2Z.id, local_split.
    assert (before a0 (krow a0 off) + kslot a0 off + 1 <= before a0 m1 + actual (gh ++ l) m1 (f_dataset f)); [|lia].
    destruct (Nat.eq_dec (krow a0 off) m1) as [E1|E1].
    + rewrite Hact, <- E1, Nat.eqb_refl, String.eqb_refl. cbn [andb]. lia.
    + assert (HBn : g_bpf g <> 0) by (intros H0; specialize (HB H0); lia).
      pose proof (kslot_lt off HBn). unfold before. change (a_geom a0) with g.
      assert (N.of_nat (krow a0 off) + 1 <= N.of_nat m1) by lia. nia.
  - rewrite HW. destruct (is_counted master f) eqn:Hct.
    2: { destruct (cn_upper _ _ _ _ HC) as [H|[(f' & H1 & H2)|(k & H1 & H2)]]; [auto| |].
         + right; left. exists f'. auto.
         + right; right. exists k. split; [lia|exact H2]. }
    destruct (N.max_spec (a_written (s_acq s)) (before a0 m1 + actual (gh ++ l) m1 (f_dataset f))) as [(_ & Hmx)|(_ & Hmx)]; rewrite Hmx.
    2: { destruct (cn_upper _ _ _ _ HC) as [H|[(f' & H1 & H2)|(k & H1 & H2)]]; [auto| |].
         + right; left. exists f'. auto.
         + right; right. exists k. split; [lia|exact H2]. }
    destruct (Hactual m1 (f_dataset f)) as [H0|(f' & off' & H1 & H2 & H3 & H4 & H5 & H6)].
    + rewrite H0, N.add_0_r. destruct m1 as [|m1']; [left; unfold before; cbn; lia|].
      right; right. exists (S m1'). split; [lia|reflexivity].
    + right; left. exists f'. split; [exact H1|]. split. { unfold is_counted in *. rewrite H2. exact Hct. }
      rewrite H6, H3, N2Z.id, local_split, H5. lia.
  - exact Hfile.
  - exact Hactual.
Qed.

Lemma before_le k m : (k <= m)%nat -> before a0 k <= before a0 m.
Proof. intros H. unfold before. apply N.mul_le_mono_r, N.mul_le_mono_r. lia. Qed.

Definition good_call (c : io * frame) : Prop :=
  number_ok g K (snd c) /\ no_failure (fst c) /\ params_ok g total towrite defs (snd c) /\ f_ocs (snd c) = 1.

Lemma steps_counts s m gh t s' m' gh' rs : unit_chunks -> rows_ok g total towrite defs K ->
  Steps a0 dk KR s m gh t s' m' gh' rs -> (g_bpf g = 0 -> m = O) -> Full a0 s -> Forall good_call t ->
  forall h, Counts s m gh h ->
    Counts s' m' gh' (h ++ combine (map snd t) (map (fun r => written (Some r)) rs)) /\
    a_written (s_acq s) <= a_written (s_acq s').
Proof.
  intros Hu Hro. induction 1 as [|s m gh i f s1 m1 l r t s' m' gh' rs HI HI1 Hm Hok E Ho HFu HS IH]; intros HB HF Ht h HC.
  - cbn. rewrite app_nil_r. split; [exact HC|lia].
  - inversion Ht as [|? ? (H1 & H2 & H3 & H4) Ht2]; subst. cbn [fst snd] in *.
    assert (Hall : forall off, adjust_frame_offset (f_number f) (f_adj f) = Ret off -> all_created a0 i m (krow a0 off)).
    { intros off Hoff j Hj. apply create_good_of; [exact H2|exact Hro|].
      destruct Hok as (_ & _ & Hk). specialize (Hk off Hoff). lia. }
    specialize (HFu Hall HF).
    assert (HB1 : g_bpf g = 0 -> m1 = O).
    { intros H0. apply (steps_single s m gh [(i, f)] s1 m1 (gh ++ l) [r] H0); [|exact (HB H0)].
      eapply st_cons; try eassumption; [auto|constructor; exact HI1]. }
    assert (Hnew : m1 = m \/ exists off, adjusted f = Z.of_N off /\ mine a0 off = true /\ krow a0 off = m1).
    { assert (Hx : forall off, adjust_frame_offset (f_number f) (f_adj f) = Ret off -> mine a0 off = true -> m1 = Nat.max m (krow a0 off) ->
         m1 = m \/ exists off, adjusted f = Z.of_N off /\ mine a0 off = true /\ krow a0 off = m1).
      { intros off Ha Hmi ->. destruct (adjust_val f off H1 Ha) as (Hoff & _).
        destruct (Nat.max_spec m (krow a0 off)) as [(_ & ->)|(_ & ->)]; [right; eauto|left; reflexivity]. }
      destruct Ho as [(Href & -> & -> & Hsc)|(off & c0 & d & b & fin & ps & A)].
      - destruct Href as [? ? ?|? ? ? ?|? ? ? ? ?|? ? ? ? ? ?|off Ha ? ? ? Hno|off Ha Hmi ? Hmm ?|off d Ha Hmi ? Hmm ? ? ?]; auto.
        + destruct (Hno (Hall off Ha)).
        + eauto.
        + eauto.
      - eapply Hx; [apply (at_off _ _ _ _ _ _ _ _ _ _ _ _ _ _ _ _ A)|apply (at_mine _ _ _ _ _ _ _ _ _ _ _ _ _ _ _ _ A)|apply (at_m _ _ _ _ _ _ _ _ _ _ _ _ _ _ _ _ A)]. }
    destruct (count_step s m gh h i f s1 m1 l r Hu H4 H1 HB1 ltac:(lia) Ho HFu H2 H3 Hnew HC) as (HC1 & Hle & _).
    destruct (IH HB1 HFu Ht2 _ HC1) as (HC2 & Hle2).
    cbn [map combine]. rewrite <- app_assoc in HC2. split; [exact HC2|lia].
Qed.

Lemma counts_start i0 s0 : no_failure i0 -> start_acquisition i0 (St a0 dk []) = (s0, Ret true) -> Counts s0 0 [] [].
Proof.
  intros Hnf E. destruct (started i0 s0 (proj1 Hnf) E) as (_ & W & Pr & _). constructor; cbn.
  - exact Pr.
  - intros f [].
  - intros f [].
  - left. exact W.
  - left. reflexivity.
  - intros k ds. left. reflexivity.
Qed.

Lemma good_creates t : Forall good_call t -> Forall (fun c => creates (fst c) /\ number_ok g K (snd c)) t.
Proof. apply Forall_impl. intros c (H1 & H2 & _). split; [apply H2|exact H1]. Qed.

(** Everything about the counters after a run. *)
Lemma counts_run i0 s0 t s rs : unit_chunks -> no_failure i0 -> rows_ok g total towrite defs K ->
  start_acquisition i0 (St a0 dk []) = (s0, Ret true) -> Forall good_call t -> run s0 t = (s, rs) ->
  exists m gh, Inv a0 dk s m gh /\ (m <= KR)%nat /\ Full a0 s /\ (g_bpf g = 0 -> m = O) /\ Counts s m gh (combine (map snd t) (map written rs)) /\
    a_written (s_acq s0) <= a_written (s_acq s).
Proof.
  intros Hu Hnf Hro E Ht Er.
  destruct (ran i0 s0 t s rs (proj1 Hnf) E (good_creates t Ht) Er) as (m & gh & rs' & -> & HS).
  destruct (started i0 s0 (proj1 Hnf) E) as (HI0 & _ & _ & HF0). specialize (HF0 Hnf Hro).
  pose proof (steps_inv a0 dk KR th_P th_r th_inj th_rows th_F _ _ _ _ _ _ _ _ HS) as (_ & HI & _).
  pose proof (steps_bound _ _ _ _ _ _ _ _ HS ltac:(lia)) as Hm.
  assert (HFs : Full a0 s).
  { eapply (steps_full a0 dk KR th_P th_r th_inj th_rows th_F); [exact HS| |exact HF0].
    intros i' f' Hin j Hj. rewrite Forall_forall in Ht. destruct (Ht _ Hin) as (H1 & H2 & _). apply create_good_of; [exact H2|exact Hro|exact Hj]. }
  exists m, gh. split; [exact HI|]. split; [exact Hm|]. split; [exact HFs|].
  split; [intros H0; eapply steps_single; [exact H0|exact HS|reflexivity]|].
  rewrite map_map. apply (steps_counts _ _ _ _ _ _ _ _ Hu Hro HS (fun _ => eq_refl) HF0 Ht [] (counts_start i0 s0 Hnf E)).
Qed.

(** The run may be cut anywhere. *)
Lemma counts_split i0 s0 t1 t2 s1 rs1 s2 rs2 : unit_chunks -> no_failure i0 -> rows_ok g total towrite defs K ->
  start_acquisition i0 (St a0 dk []) = (s0, Ret true) -> Forall good_call (t1 ++ t2) ->
  run s0 t1 = (s1, rs1) -> run s1 t2 = (s2, rs2) -> a_written (s_acq s1) <= a_written (s_acq s2).
Proof.
  intros Hu Hnf Hro E Ht Er1 Er2. apply Forall_app in Ht. destruct Ht as (Ht1 & Ht2).
  destruct (counts_run i0 s0 t1 s1 rs1 Hu Hnf Hro E Ht1 Er1) as (m & gh & HI & Hm & HF & HB & HC & _).
  destruct (run_steps a0 dk KR th_P th_r th_nd th_inj th_rows th_F th_chunks t2 s1 m gh HI HB Hm) as (s' & m' & gh' & rs' & Er' & HS).
  { eapply Forall_impl; [|exact (good_creates t2 Ht2)]. intros [i f] (H1 & H2). apply call_ok_of; assumption. }
  rewrite Er2 in Er'. injection Er' as <- ->.
  apply (steps_counts _ _ _ _ _ _ _ _ Hu Hro HS HB HF Ht2 _ HC).
Qed.

Theorem counters i0 s0 t s rs : unit_chunks -> no_failure i0 -> rows_ok g total towrite defs K ->
  start_acquisition i0 (St a0 dk []) = (s0, Ret true) -> Forall good_call t -> run s0 t = (s, rs) ->
  let hist := combine (map snd t) (map written rs) in
  a_processed (s_acq s) = N.of_nat (List.length (counted_frames master hist)) /\
  (forall f, In f (counted_frames master hist) -> local (Z.to_N (adjusted f)) < a_written (s_acq s)) /\
  (a_written (s_acq s) = 0 \/ exists f, In f (map snd t) /\ (0 <= adjusted f)%Z /\
      block_of (g_fpb g) (Z.to_N (adjusted f)) mod g_procs g = g_rank g /\
      a_written (s_acq s) <= local (Z.to_N (adjusted f)) + 1).
Proof.
  intros Hu Hnf Hro E Ht Er hist.
  destruct (counts_run i0 s0 t s rs Hu Hnf Hro E Ht Er) as (m & gh & HI & Hm & HF & HB & HC & _). fold hist in HC.
  assert (Hlen : List.length rs = List.length t).
  { destruct (ran i0 s0 t s rs (proj1 Hnf) E (good_creates t Ht) Er) as (m' & gh' & rs' & -> & HS).
    rewrite map_length. apply (steps_length _ _ _ _ _ _ _ _ _ _ _ HS). }
  assert (Hin : forall f b, In (f, b) hist -> In f (map snd t)).
  { intros f b H. apply in_combine_l in H. exact H. }
  split; [apply (cn_processed _ _ _ _ HC)|]. split.
  - intros f Hf. unfold counted_frames in Hf. apply in_map_iff in Hf. destruct Hf as ([f' b] & <- & Hf).
    apply filter_In in Hf. cbn [fst snd] in Hf. destruct Hf as (Hf & Hc). apply andb_true_iff in Hc. destruct Hc as (Hc & ->).
    pose proof (cn_lower _ _ _ _ HC f' Hf Hc). cbn [fst]. lia.
  - destruct (cn_upper _ _ _ _ HC) as [H|[(f & H1 & H2 & H3)|(k & H1 & H2)]]; [left; exact H| |].
    + right. destruct (cn_placed _ _ _ _ HC f H1) as (off & Ho & Hmi & _). exists f. split; [eapply Hin; exact H1|].
      split; [lia|]. split; [rewrite Ho, N2Z.id; apply mine_iff, Hmi|lia].
    + right. destruct (cn_file _ _ _ _ HC) as [H0|(f & off & b & Hi & Ho & Hmi & Hk)]; [lia|].
      exists f. split; [eapply Hin; exact Hi|]. split; [lia|]. split; [rewrite Ho, N2Z.id; apply mine_iff, Hmi|].
      rewrite Ho, N2Z.id, local_split, Hk, H2. unfold before. change (a_geom a0) with g. assert (N.of_nat k <= N.of_nat m) by lia. nia.
Qed.

(** ** Completion *)
Lemma local_below off : calc_num_frames g total = Ret towrite -> mine a0 off = true -> (off < total <-> local off < towrite).
Proof.
  intros Hc Hmi. pose proof th_F as HF. pose proof th_P as HP. pose proof th_r as Hr. unfold mine in Hmi.
  change (a_geom a0) with g in *. apply N.eqb_eq in Hmi. unfold local, local_of.
  destruct (decompose (g_procs g) (g_fpb g) off HP HF) as (q & p & f & -> & Hp & Hf).
  rewrite dma, mma in Hmi by assumption. subst p.
  rewrite !dma, mma by assumption.
  destruct (decompose (g_procs g) (g_fpb g) total HP HF) as (q' & p' & f' & Et & Hp' & Hf').
  rewrite Et in *. destruct g as [P r F B]. cbn [g_procs g_rank g_fpb g_bpf] in *.
  rewrite calc_val in Hc by assumption. injection Hc as <-.
  destruct (N.lt_trichotomy q q') as [H|[H|H]].
  - assert ((q * P + r) * F + f < (q' * P + p') * F + f').
    { assert (q * P + P <= q' * P) by nia. assert (q * P + r + 1 <= q' * P + p') by lia. nia. }
    assert (q * F + f < q' * F) by nia.
    destruct (N.ltb_spec r p'); [|destruct (N.eqb_spec r p')]; split; intros; lia.
  - subst q'. assert ((q * P + r) * F = q * P * F + r * F) as -> by lia. assert ((q * P + p') * F = q * P * F + p' * F) as -> by lia.
    destruct (N.ltb_spec r p') as [H1|H1]; [|destruct (N.eqb_spec r p') as [->|H2]].
    + assert (r * F + F <= p' * F) by nia. split; intros; lia.
    + split; intros; lia.
    + assert (p' * F + F <= r * F) by nia. split; intros; lia.
  - assert ((q' * P + p') * F + f' < (q * P + r) * F + f).
    { assert (q' * P + P <= q * P) by nia. assert (q' * P + p' + 1 <= q * P + r) by lia. nia. }
    assert (q' * F + F <= q * F) by nia.
    destruct (N.ltb_spec r p'); [|destruct (N.eqb_spec r p')]; split; intros; lia.
Qed.

Lemma local_inj a b : mine a0 a = true -> mine a0 b = true -> local a = local b -> a = b.
Proof.
  pose proof th_F as HF. pose proof th_P as HP. unfold mine, local, local_of. change (a_geom a0) with g in *.
  rewrite !N.eqb_eq.
  destruct (decompose (g_procs g) (g_fpb g) a HP HF) as (q & p & f & -> & Hp & Hf).
  destruct (decompose (g_procs g) (g_fpb g) b HP HF) as (q' & p' & f' & -> & Hp' & Hf').
  rewrite !dma, !mma by assumption. intros -> ->. intros H. assert (q = q') by nia. nia.
Qed.

Lemma local_onto l : exists off, mine a0 off = true /\ local off = l.
Proof.
  pose proof th_F as HF. pose proof th_P as HP. pose proof th_r as Hr. unfold mine, local, local_of. change (a_geom a0) with g in *.
  exists ((l / g_fpb g * g_procs g + g_rank g) * g_fpb g + l mod g_fpb g).
  pose proof (N.mod_lt l (g_fpb g) ltac:(lia)). rewrite !dma, !mma by assumption. split; [apply N.eqb_refl|].
  pose proof (N.div_mod l (g_fpb g) ltac:(lia)). lia.
Qed.

Definition expected_frame (off : N) : Prop := off < total /\ block_of (g_fpb g) off mod g_procs g = g_rank g.

Lemma NoDup_map_inv_on {A B} (f : A -> B) l : (forall x y, In x l -> In y l -> f x = f y -> x = y) -> NoDup l -> NoDup (map f l).
Proof.
  induction l as [|a l IH]; intros Hi Hn; [constructor|]. inversion Hn as [|? ? H1 H2]; subst. cbn. constructor.
  - rewrite in_map_iff. intros (x & E & Hx). apply Hi in E; [subst; contradiction|right; exact Hx|left; reflexivity].
  - apply IH; [|exact H2]. intros x y Hx Hy. apply Hi; right; assumption.
Qed.

Lemma processed_all (l : list frame) :
  (forall f, In f l -> exists off, adjusted f = Z.of_N off /\ mine a0 off = true /\ local off < towrite) ->
  NoDup (map adjusted l) ->
  (towrite <= N.of_nat (List.length l) <-> forall off, mine a0 off = true -> local off < towrite -> exists f, In f l /\ adjusted f = Z.of_N off).
Proof.
  intros Hl Hnd.
  set (ll := map (fun z => local (Z.to_N z)) (map adjusted l)).
  assert (Hlen : List.length ll = List.length l) by (unfold ll; rewrite !map_length; reflexivity).
  assert (Hndl : NoDup ll).
  { apply NoDup_map_inv_on; [|exact Hnd]. intros x y Hx Hy Hxy. apply in_map_iff in Hx, Hy.
    destruct Hx as (fx & <- & Hx). destruct Hy as (fy & <- & Hy).
    destruct (Hl fx Hx) as (ox & Ox & Mx & _). destruct (Hl fy Hy) as (oy & Oy & My & _).
    rewrite Ox, Oy, !N2Z.id in Hxy. apply local_inj in Hxy; [congruence|assumption|assumption]. }
  set (all := map N.of_nat (seq 0 (N.to_nat towrite))).
  assert (Hall : forall x, In x all <-> x < towrite).
  { intros x. unfold all. rewrite in_map_iff. split.
    - intros (n & <- & Hn). apply in_seq in Hn. lia.
    - intros Hx. exists (N.to_nat x). rewrite in_seq. lia. }
  assert (Hsub : incl ll all).
  { intros x Hx. apply Hall. unfold ll in Hx. rewrite map_map in Hx. apply in_map_iff in Hx. destruct Hx as (f & <- & Hf).
    destruct (Hl f Hf) as (o & -> & _ & Ho). rewrite N2Z.id. exact Ho. }
  assert (Halen : List.length all = N.to_nat towrite) by (unfold all; rewrite map_length, seq_length; reflexivity).
  split.
  - intros Hle off Hmi Hlo.
    assert (Hinc : incl all ll) by (apply NoDup_length_incl; [exact Hndl|lia|exact Hsub]).
    specialize (Hinc (local off) (proj2 (Hall _) Hlo)). unfold ll in Hinc. rewrite map_map in Hinc. apply in_map_iff in Hinc.
    destruct Hinc as (f & Hf & Hin). exists f. split; [exact Hin|]. destruct (Hl f Hin) as (o & Ho & Hm & _).
    rewrite Ho, N2Z.id in Hf. apply local_inj in Hf; congruence.
  - intros H. assert (incl all ll).
    { intros x Hx. apply Hall in Hx. destruct (local_onto x) as (off & Hmi & <-). destruct (H off Hmi Hx) as (f & Hf & Hfo).
      unfold ll. rewrite map_map. apply in_map_iff. exists f. rewrite Hfo, N2Z.id. split; [reflexivity|exact Hf]. }
    assert (NoDup all).
    { unfold all. apply NoDup_map_inv_on; [intros x y _ _; apply Nat2N.inj|apply seq_NoDup]. }
    pose proof (NoDup_incl_length H1 H0). lia.
Qed.

Lemma NoDup_sublist {A} (f : A -> bool) l : NoDup l -> NoDup (filter f l).
Proof. apply NoDup_filter. Qed.

Lemma counted_nodup h : NoDup (map adjusted (filter (is_counted master) (map fst h))) -> NoDup (map adjusted (counted_frames master h)).
Proof.
  unfold counted_frames. induction h as [|[f b] h IH]; [auto|]. cbn [map fst filter snd].
  assert (Hsub : forall x, In x (map adjusted (map fst (filter (fun fb => is_counted master (fst fb) && snd fb) h))) ->
                           In x (map adjusted (filter (is_counted master) (map fst h)))).
  { intros x Hx. rewrite in_map_iff in *. destruct Hx as (f' & <- & Hf). exists f'. split; [reflexivity|].
    apply in_map_iff in Hf. destruct Hf as ([f2 b2] & <- & Hf). apply filter_In in Hf. destruct Hf as (Hf & Hc).
    apply andb_true_iff in Hc. destruct Hc as (Hc & _). apply filter_In. split; [|exact Hc]. apply in_map_iff. exists (f2, b2). auto. }
  destruct (is_counted master f) eqn:Ec; cbn [andb].
  - cbn [map]. intros Hn. inversion Hn as [|? ? H1 H2]; subst. destruct b; [|apply IH, H2].
    cbn [map fst]. constructor; [|apply IH, H2]. intros Hx. apply H1, Hsub, Hx.
  - exact IH.
Qed.

Theorem completion i0 s0 t s rs i f s1 r :
  unit_chunks -> no_failure i0 -> rows_ok g total towrite defs K ->
  start_acquisition i0 (St a0 dk []) = (s0, Ret true) -> Forall good_call (t ++ [(i, f)]) ->
  calc_num_frames g total = Ret towrite -> 0 < towrite ->
  Forall (fun c => (adjusted (snd c) < Z.of_N total)%Z) (t ++ [(i, f)]) ->
  NoDup (map adjusted (filter (is_counted master) (map snd (t ++ [(i, f)])))) ->
  run s0 t = (s, rs) -> process_frame i f s = (s1, Some r) ->
  let hist := combine (map snd t) (map written rs) ++ [(f, written (Some r))] in
  let arrived off := exists f', In f' (counted_frames master hist) /\ adjusted f' = Z.of_N off in
  let last off := expected_frame off /\ forall off', expected_frame off' -> off' <= off in
  written (Some r) = true ->
  (r = SComplete <-> forall off, expected_frame off -> arrived off) /\
  (r = SMissing <-> (forall off, last off -> arrived off) /\ exists off, expected_frame off /\ ~ arrived off).
Proof.
  intros Hu Hnf Hro E Ht Hcalc Hpos Htot Hnd Er E1 hist arrived last Hw.
  assert (Er1 : run s0 (t ++ [(i, f)]) = (s1, rs ++ [Some r])).
  { rewrite run_app, Er. cbn [fst snd run]. rewrite E1. reflexivity. }
  assert (Hlen : List.length rs = List.length t).
  { apply Forall_app in Ht. destruct (ran i0 s0 t s rs (proj1 Hnf) E (good_creates t (proj1 Ht)) Er) as (m' & gh' & rs' & -> & HS).
    rewrite map_length. apply (steps_length _ _ _ _ _ _ _ _ _ _ _ HS). }
  destruct (counts_run i0 s0 _ s1 _ Hu Hnf Hro E Ht Er1) as (m & gh & HI & Hm & HF & HB & HC & _).
  assert (Hhist : combine (map snd (t ++ [(i, f)])) (map written (rs ++ [Some r])) = hist).
  { unfold hist. rewrite !map_app. cbn [map snd]. clear -Hlen. revert rs Hlen. induction t as [|c t IH]; intros [|x rs] Hl; try discriminate; [reflexivity|].
    cbn. f_equal. apply IH. cbn in Hl. lia. }
  rewrite Hhist in HC.
  assert (Hr : r = status_of a0 s1).
  { assert (Er0 := Er). pose proof Ht as Ht0. apply Forall_app in Ht0. destruct Ht0 as (Ht1 & Ht2).
    inversion Ht2 as [|? ? (G1 & G2 & G3 & G4) _]; subst. cbn [fst snd] in *.
    destruct (ran_more i0 s0 t s rs i f (proj1 Hnf) E (good_creates t Ht1) Er G1 (proj1 G2))
      as (m' & gh' & rs' & s1' & r' & m1' & l & -> & HS & HI' & Hm' & E1' & Ho & HI1' & HS1).
    rewrite E1 in E1'. injection E1' as <- <-.
    destruct Ho as [(_ & _ & -> & _)|(off & c0 & d & b & fin & ps & A)]; [discriminate|].
    destruct fin; [|destruct (at_nofin _ _ _ _ _ _ _ _ _ _ _ _ _ _ _ _ A eq_refl) as (-> & _); discriminate].
    destruct (at_fin _ _ _ _ _ _ _ _ _ _ _ _ _ _ _ _ A eq_refl) as [(-> & _)|(-> & _)]; [discriminate|reflexivity]. }
  assert (Hcf : forall f', In f' (counted_frames master hist) <-> In (f', true) hist /\ is_counted master f' = true).
  { intros f'. unfold counted_frames. rewrite in_map_iff. split.
    - intros ([f2 b] & <- & Hx). apply filter_In in Hx. cbn [fst snd] in *. destruct Hx as (Hx & Hc). apply andb_true_iff in Hc.
      destruct Hc as (Hc & ->). auto.
    - intros (H1 & H2). exists (f', true). split; [reflexivity|]. apply filter_In. cbn [fst snd]. rewrite H2. auto. }
  assert (Hfst : map fst hist = map snd (t ++ [(i, f)])).
  { unfold hist. rewrite !map_app. cbn [map fst snd]. f_equal. clear -Hlen. revert rs Hlen.
    induction t as [|c t IH]; intros [|x rs] Hl; try discriminate; [reflexivity|]. cbn in *. f_equal. apply IH. lia. }
  assert (Hbelow : forall f' b, In (f', b) hist -> (adjusted f' < Z.of_N total)%Z).
  { intros f' b Hin. apply (in_map fst) in Hin. rewrite Hfst in Hin. cbn [fst] in Hin. apply in_map_iff in Hin.
    destruct Hin as (c & <- & Hin). rewrite Forall_forall in Htot. apply (Htot c Hin). }
  assert (Hok : forall f', In f' (counted_frames master hist) -> exists off, adjusted f' = Z.of_N off /\ mine a0 off = true /\ local off < towrite).
  { intros f' Hf. apply Hcf in Hf. destruct Hf as (Hf & _). destruct (cn_placed _ _ _ _ HC f' Hf) as (off & Ho & Hmi & _).
    exists off. split; [exact Ho|]. split; [exact Hmi|]. apply (local_below off Hcalc Hmi). pose proof (Hbelow f' true Hf). lia. }
  assert (Hndc : NoDup (map adjusted (counted_frames master hist))).
  { apply counted_nodup. rewrite Hfst. exact Hnd. }
  pose proof (processed_all _ Hok Hndc) as Hproc.
  assert (Hexp : forall off, expected_frame off <-> mine a0 off = true /\ local off < towrite).
  { intros off. unfold expected_frame. rewrite <- mine_iff. split.
    - intros (H1 & H2). split; [exact H2|]. apply (local_below off Hcalc H2), H1.
    - intros (H1 & H2). split; [|exact H1]. apply (local_below off Hcalc H1), H2. }
  assert (Hall : towrite <= a_processed (s_acq s1) <-> forall off, expected_frame off -> arrived off).
  { rewrite (cn_processed _ _ _ _ HC), Hproc. split.
    - intros H off He. apply Hexp in He. destruct He as (H1 & H2). exact (H off H1 H2).
    - intros H off H1 H2. apply H, Hexp. auto. }
  destruct (local_onto (towrite - 1)) as (lo & Hlo1 & Hlo2).
  assert (Hmono : forall a b, mine a0 a = true -> mine a0 b = true -> local a <= local b -> a <= b).
  { intros a b Ha Hb. pose proof th_F as HFF. pose proof th_P as HPP. revert Ha Hb. unfold mine, local, local_of. change (a_geom a0) with g in *.
    rewrite !N.eqb_eq.
    destruct (decompose (g_procs g) (g_fpb g) a HPP HFF) as (q & p & fa & -> & Hp & Hfa).
    destruct (decompose (g_procs g) (g_fpb g) b HPP HFF) as (q' & p' & fb & -> & Hp' & Hfb).
    rewrite !dma, !mma by assumption. intros -> ->. intros H. assert (q <= q') by nia.
    destruct (N.eq_dec q q') as [->|]; [nia|]. assert (q + 1 <= q') by lia. nia. }
  assert (Hlast : forall off, last off <-> off = lo).
  { intros off. unfold last. split.
    - intros (H1 & H2). apply Hexp in H1. destruct H1 as (H1 & H3).
      apply N.le_antisymm; [apply Hmono; [exact H1|exact Hlo1|lia]|]. apply H2, Hexp. split; [exact Hlo1|lia].
    - intros ->. split; [apply Hexp; split; [exact Hlo1|lia]|]. intros off' H. apply Hexp in H. apply Hmono; [apply H|exact Hlo1|]. lia. }
  assert (Hwr : a_written (s_acq s1) = towrite <-> arrived lo).
  { split.
    - intros Hw1. destruct (cn_upper _ _ _ _ HC) as [H|[(f' & H1 & H2 & H3)|(k & H1 & H2)]]; [lia| |].
      + exists f'. split; [apply Hcf; auto|]. destruct (cn_placed _ _ _ _ HC f' H1) as (off & Ho & Hmi & _).
        rewrite Ho, N2Z.id in H3. rewrite Ho. f_equal. apply local_inj; [exact Hmi|exact Hlo1|lia].
      + exfalso. destruct (cn_file _ _ _ _ HC) as [H0|(f' & off & b & Hi & Ho & Hmi & Hk)]; [lia|].
        pose proof (Hbelow f' b Hi) as Hb. assert (Hlt : off < total) by lia. apply (local_below off Hcalc Hmi) in Hlt.
        rewrite local_split, Hk in Hlt. idtac.
        pose proof (before_le k m ltac:(lia)). lia.
    - intros (f' & Hf & Ho). apply Hcf in Hf. destruct Hf as (Hf & Hc).
      pose proof (cn_lower _ _ _ _ HC f' Hf Hc) as Hlow. rewrite Ho, N2Z.id, Hlo2 in Hlow.
      apply N.le_antisymm; [|lia].
      destruct (cn_upper _ _ _ _ HC) as [H|[(f2 & H1 & H2 & H3)|(k & H1 & H2)]]; [lia| |].
      + destruct (Hok f2) as (o2 & Ho2 & _ & Hlt2); [apply Hcf; auto|]. rewrite Ho2, N2Z.id in H3. rewrite H3. lia.
      + destruct (cn_file _ _ _ _ HC) as [H0|(f2 & off & b & Hi & Ho2 & Hmi & Hk)]; [lia|].
        pose proof (Hbelow f2 b Hi) as Hb. assert (Hlt : off < total) by lia. apply (local_below off Hcalc Hmi) in Hlt.
        rewrite local_split, Hk in Hlt. rewrite H2.
        pose proof (before_le k m ltac:(lia)). lia. }
  assert (Hr' : r = if a_written (s_acq s1) =? towrite then (if towrite <=? a_processed (s_acq s1) then SComplete else SMissing) else SOk).
  { rewrite Hr. unfold status_of. change (a_towrite a0) with towrite. destruct (N.ltb_spec 0 towrite); [reflexivity|lia]. }
  assert (Hall_lo : (forall off, expected_frame off -> arrived off) -> a_written (s_acq s1) = towrite).
  { intros H. apply Hwr, H, Hexp. split; [exact Hlo1|lia]. }
  assert (Hdec : ~ (towrite <= a_processed (s_acq s1)) -> exists off, expected_frame off /\ ~ arrived off).
  { intros Hno.
    (* some local position is not hit *)
    set (ll := map (fun f => local (Z.to_N (adjusted f))) (counted_frames master hist)).
    assert (Hdec : forall n : nat, (forall l, l < N.of_nat n -> In l ll) \/ exists l, l < N.of_nat n /\ ~ In l ll).
    { induction n as [|n [IH|(l & H1 & H2)]]; [left; lia| |right; exists l; split; [lia|exact H2]].
      destruct (in_dec N.eq_dec (N.of_nat n) ll) as [Hi|Hi].
      - left. intros l Hl. destruct (N.eq_dec l (N.of_nat n)) as [->|]; [exact Hi|apply IH; lia].
      - right. exists (N.of_nat n). split; [lia|exact Hi]. }
    destruct (Hdec (N.to_nat towrite)) as [Hd|(l & H1 & H2)].
    - exfalso. apply Hno. rewrite (cn_processed _ _ _ _ HC). apply Hproc. intros off Hmi Hlt.
      specialize (Hd (local off) ltac:(lia)). unfold ll in Hd. apply in_map_iff in Hd. destruct Hd as (f' & Hf & Hin).
      exists f'. split; [exact Hin|]. destruct (Hok f' Hin) as (o & Ho & Hm' & _). rewrite Ho, N2Z.id in Hf.
      apply local_inj in Hf; congruence.
    - destruct (local_onto l) as (off & Hmi & <-). exists off. split; [apply Hexp; split; [exact Hmi|lia]|].
      intros (f' & Hf & Hfo). apply H2. unfold ll. apply in_map_iff. exists f'. rewrite Hfo, N2Z.id. auto. }
  rewrite Hr'. split.
  - split.
    + destruct (N.eqb_spec (a_written (s_acq s1)) towrite); [|discriminate]. destruct (N.leb_spec towrite (a_processed (s_acq s1))); [|discriminate].
      intros _. apply Hall. assumption.
    + intros H. rewrite (proj2 (N.eqb_eq _ _) (Hall_lo H)). apply Hall in H. rewrite (proj2 (N.leb_le _ _) H). reflexivity.
  - split.
    + destruct (N.eqb_spec (a_written (s_acq s1)) towrite) as [Ew|]; [|discriminate].
      destruct (N.leb_spec towrite (a_processed (s_acq s1))) as [|Hlt]; [discriminate|]. intros _. split.
      * intros off Ho. apply Hlast in Ho. subst off. apply Hwr, Ew.
      * apply Hdec. lia.
    + intros (H1 & off & H2 & H3). rewrite (proj2 (N.eqb_eq _ _) (proj2 Hwr (H1 lo (proj2 (Hlast lo) eq_refl)))).
      destruct (N.leb_spec towrite (a_processed (s_acq s1))) as [Hle|]; [|reflexivity]. exfalso. apply H3, Hall; assumption.
Qed.

Theorem exact_at_end i0 s0 t s rs :
  unit_chunks -> no_failure i0 -> rows_ok g total towrite defs K ->
  start_acquisition i0 (St a0 dk []) = (s0, Ret true) -> Forall good_call t ->
  calc_num_frames g total = Ret towrite ->
  Forall (fun c => (adjusted (snd c) < Z.of_N total)%Z) t -> run s0 t = (s, rs) ->
  let hist := combine (map snd t) (map written rs) in
  (forall off, expected_frame off -> exists f, In f (counted_frames master hist) /\ adjusted f = Z.of_N off) ->
  a_written (s_acq s) = towrite.
Proof.
  intros Hu Hnf Hro E Ht Hcalc Htot Er hist Hall.
  destruct (counters i0 s0 t s rs Hu Hnf Hro E Ht Er) as (_ & Hlow & Hup). fold hist in Hlow.
  apply N.le_antisymm.
  - destruct Hup as [->|(f & Hin & Hpos & Hm & Hle)]; [lia|]. apply mine_iff in Hm.
    apply in_map_iff in Hin. destruct Hin as (c & <- & Hin). rewrite Forall_forall in Htot. specialize (Htot c Hin).
    assert (Hlt : Z.to_N (adjusted (snd c)) < total) by lia. apply (local_below _ Hcalc Hm) in Hlt. lia.
  - destruct (N.eq_dec towrite 0) as [->|Hne]; [lia|].
    destruct (local_onto (towrite - 1)) as (lo & Hlo1 & Hlo2).
    destruct (Hall lo) as (f & Hf & Hfo).
    { split; [apply (local_below lo Hcalc Hlo1); lia|apply mine_iff, Hlo1]. }
    specialize (Hlow f Hf). rewrite Hfo, N2Z.id in Hlow. lia.
Qed.
End Thms.
