From Verif Require Import Base PlaceModel PlaceSpec PlaceProofs NameModel NameProofs AcqModel AcqSpec.
Local Open Scope N_scope.

(** ** Generalities *)

Lemma upd_eq {A} (m : string -> A) k v : upd m k v k = v.
Proof. unfold upd. rewrite String.eqb_refl. reflexivity. Qed.

Lemma upd_neq {A} (m : string -> A) k v k' : k' <> k -> upd m k v k' = m k'.
Proof. unfold upd. intros H. destruct (String.eqb_spec k' k); congruence. Qed.

Lemma bind_ret {A B} (a : A) (k : A -> M B) s : bind (ret a) k s = k a s.
Proof. reflexivity. Qed.

Lemma bind_get {B} (k : st -> M B) s : bind get k s = k s s.
Proof. reflexivity. Qed.

(** Settings that never change once configured. *)
Definition same_cfg (a b : acq) : Prop :=
  a_geom a = a_geom b /\ a_naming a = a_naming b /\ a_path a = a_path b /\ a_master a = a_master b /\
  a_total a = a_total b /\ a_towrite a = a_towrite b /\ a_defs a = a_defs b.

Lemma same_cfg_refl a : same_cfg a a.
Proof. repeat split. Qed.

Lemma same_cfg_trans a b c : same_cfg a b -> same_cfg b c -> same_cfg a c.
Proof. unfold same_cfg. intuition congruence. Qed.

Lemma same_cfg_path a b n : same_cfg a b -> full_path a n = full_path b n.
Proof. intros (H1 & H2 & H3 & _). unfold full_path. rewrite H2, H3. reflexivity. Qed.

Lemma same_cfg_rows a b d n : same_cfg a b -> dataset_rows a d n = dataset_rows b d n.
Proof. intros (H1 & H2 & H3 & H4 & H5 & H6 & H7). unfold dataset_rows. rewrite H1, H6. reflexivity. Qed.

(** An HDF5File object and the file on disk agree. *)
Definition sync (h : hfile) (df : dfile) : Prop :=
  forall ds, match hf_dsets h ds, df ds with
             | Some hd, Some dd => hd_rows hd = dd_rows dd
             | None, None => True
             | _, _ => False
             end.

Definition blank (df : dfile) : Prop := forall ds dd, df ds = Some dd -> forall r, dd_cells dd r = None.

Definition same_id (c c' : hfile) : Prop :=
  hf_name c = hf_name c' /\ hf_index c = hf_index c' /\ hf_open c = hf_open c' /\ hf_unlim c = hf_unlim c'.

Lemma same_id_refl c : same_id c c.
Proof. repeat split. Qed.

(** Rows of a freshly created dataset. *)
Definition fresh_rows (a : acq) (d : dsdef) (n : N) : N :=
  if a_total a =? 0 then 1 else match dataset_rows a d n with Ret r => r | _ => 0 end.

(** ** create_datasets *)
Lemma create_dataset_spec ok d rows lo hi s c df :
  a_cur (s_acq s) = Some c -> s_disk s (hf_name c) = Some df -> sync c df -> blank df ->
  exists s' o c' df',
    create_dataset ok d rows lo hi s = (s', o) /\ o <> Undef /\
    s_acq s' = with_cur (s_acq s) (Some c') /\ s_log s' = s_log s /\
    (forall p, s_disk s' p = if String.eqb p (hf_name c) then Some df' else s_disk s p) /\
    same_id c c' /\ sync c' df' /\ blank df' /\
    (forall x, x <> d_name d -> hf_dsets c' x = hf_dsets c x) /\
    (o = Ret tt -> hf_dsets c' (d_name d) = Some (HDset (if hf_unlim c then 1 else rows) 0)) /\
    (o <> Ret tt -> c' = c).
Proof.
  intros Hc Hd Hs Hb. unfold create_dataset. rewrite bind_get, Hc.
  assert (Hsame : forall e, exists s' o c' df',
    (s, @Throw exn unit e) = (s', o) /\ o <> Undef /\
    s_acq s' = with_cur (s_acq s) (Some c') /\ s_log s' = s_log s /\
    (forall p, s_disk s' p = if String.eqb p (hf_name c) then Some df' else s_disk s p) /\
    same_id c c' /\ sync c' df' /\ blank df' /\
    (forall x, x <> d_name d -> hf_dsets c' x = hf_dsets c x) /\
    (o = Ret tt -> hf_dsets c' (d_name d) = Some (HDset (if hf_unlim c then 1 else rows) 0)) /\
    (o <> Ret tt -> c' = c)).
  { intros e. exists s, (Throw e), c, df. split; [reflexivity|]. split; [discriminate|].
    split. { destruct (s_acq s); cbn in *. subst. reflexivity. }
    split; [reflexivity|]. split.
    { intros p. destruct (String.eqb_spec p (hf_name c)); subst; auto. }
    repeat (split; [solve [assumption | apply same_id_refl | auto]|]). first [split; [discriminate|auto] | auto]. }
  destruct (negb (Nat.eqb _ _)); [apply Hsame|].
  destruct (negb (hf_unlim c) && (rows =? 0)); [apply Hsame|].
  destruct (negb ok); [apply Hsame|].
  rewrite Hd. unfold bind, set_disk, put_cur. cbn [s_acq s_disk s_log].
  eexists _, _, _, _. split; [reflexivity|]. split; [discriminate|]. cbn [s_acq s_disk s_log].
  split; [reflexivity|]. split; [reflexivity|]. split; [|split; [|split; [|split; [|split; [|split]]]]].
  - intros p. unfold upd at 1. reflexivity.
  - repeat split.
  - intros ds. cbn [hf_dsets]. unfold upd. destruct (String.eqb_spec ds (d_name d)); [reflexivity|apply Hs].
  - intros ds dd. unfold upd. destruct (String.eqb_spec ds (d_name d)); [|apply Hb].
    intros [= <-]. reflexivity.
  - intros x Hx. cbn [hf_dsets]. apply upd_neq. exact Hx.
  - intros _. cbn [hf_dsets]. apply upd_eq.
  - congruence.
Qed.

Lemma create_datasets_spec i n : forall ds s c df,
  a_cur (s_acq s) = Some c -> s_disk s (hf_name c) = Some df -> sync c df -> blank df ->
  (forall d, In d ds -> dataset_rows (s_acq s) d n <> Undef) -> NoDup (map d_name ds) ->
  exists s' o c' df',
    create_datasets i n ds s = (s', o) /\ o <> Undef /\
    s_acq s' = with_cur (s_acq s) (Some c') /\ s_log s' = s_log s /\
    (forall p, s_disk s' p = if String.eqb p (hf_name c) then Some df' else s_disk s p) /\
    same_id c c' /\ sync c' df' /\ blank df' /\
    (forall x, ~ In x (map d_name ds) -> hf_dsets c' x = hf_dsets c x) /\
    (o = Ret tt -> forall d, In d ds -> hf_dsets c' (d_name d) =
       Some (HDset (if hf_unlim c then 1 else match dataset_rows (s_acq s) d n with Ret r => r | _ => 0 end) 0)) /\
    (forall x hd, hf_dsets c' x = Some hd -> hf_dsets c x = Some hd \/
       exists d, In d ds /\ d_name d = x /\
       hd = HDset (if hf_unlim c then 1 else match dataset_rows (s_acq s) d n with Ret r => r | _ => 0 end) 0).
Proof.
  induction ds as [|d ds IH]; intros s c df Hc Hd Hs Hb Hr Hnd.
  - exists s, (Ret tt), c, df. cbn [create_datasets]. split; [reflexivity|]. split; [discriminate|].
    split. { destruct (s_acq s); cbn in *. subst. reflexivity. }
    split; [reflexivity|]. split.
    { intros p. destruct (String.eqb_spec p (hf_name c)); subst; auto. }
    repeat (split; [solve [assumption | apply same_id_refl | auto]|]).
    split; [intros _ d []|auto].
  - cbn [create_datasets]. rewrite bind_get.
    inversion Hnd as [|? ? Hnin Hnd']; subst.
    assert (Hfail : forall e, exists s' o c' df',
      (s, @Throw exn unit e) = (s', o) /\ o <> Undef /\
      s_acq s' = with_cur (s_acq s) (Some c') /\ s_log s' = s_log s /\
      (forall p, s_disk s' p = if String.eqb p (hf_name c) then Some df' else s_disk s p) /\
      same_id c c' /\ sync c' df' /\ blank df' /\
      (forall x, ~ In x (map d_name (d :: ds)) -> hf_dsets c' x = hf_dsets c x) /\
      (o = Ret tt -> forall d', In d' (d :: ds) -> hf_dsets c' (d_name d') =
         Some (HDset (if hf_unlim c then 1 else match dataset_rows (s_acq s) d' n with Ret r => r | _ => 0 end) 0)) /\
      (forall x hd, hf_dsets c' x = Some hd -> hf_dsets c x = Some hd \/
         exists d', In d' (d :: ds) /\ d_name d' = x /\
         hd = HDset (if hf_unlim c then 1 else match dataset_rows (s_acq s) d' n with Ret r => r | _ => 0 end) 0)).
    { intros e. exists s, (Throw e), c, df. split; [reflexivity|]. split; [discriminate|].
      split. { destruct (s_acq s); cbn in *. subst. reflexivity. }
      split; [reflexivity|]. split.
      { intros p. destruct (String.eqb_spec p (hf_name c)); subst; auto. }
      repeat (split; [solve [assumption | apply same_id_refl | auto]|]). first [split; [discriminate|auto] | auto]. }
    pose proof (Hr d (or_introl eq_refl)) as Hrd.
    destruct (dataset_rows (s_acq s) d n) as [rows|[]|] eqn:Erows; [|congruence].
    cbn [lift]. rewrite bind_ret.
    unfold bind at 1. unfold validate_definition.
    destruct (existsb _ (d_dims d)); [apply Hfail|].
    destruct (existsb _ (d_chunks d)); [apply Hfail|].
    cbn [ret]. unfold bind at 1.
    destruct (create_dataset_spec (io_dset i n (d_name d)) d rows
               (fst (low_high (s_acq s) d n)) (snd (low_high (s_acq s) d n)) s c df Hc Hd Hs Hb)
      as (s1 & o1 & c1 & df1 & -> & Hou & Ha1 & Hl1 & Hd1 & Hid1 & Hs1 & Hb1 & Hx1 & Hok1 & Hno1).
    destruct Hid1 as (In1 & Ii1 & Io1 & Iu1).
    destruct o1 as [[]|e|]; [|clear Hfail|congruence].
    + assert (Hcfg : same_cfg (s_acq s1) (s_acq s)) by (rewrite Ha1; repeat split).
      edestruct (IH s1 c1 df1) as (s2 & o2 & c2 & df2 & E2 & Hou2 & Ha2 & Hl2 & Hd2 & Hid2 & Hs2 & Hb2 & Hx2 & Hok2 & Hsome2).
      { rewrite Ha1. reflexivity. }
      { rewrite Hd1, <- In1, String.eqb_refl. reflexivity. }
      { exact Hs1. } { exact Hb1. }
      { intros d' Hin. rewrite (same_cfg_rows _ _ _ _ Hcfg). apply Hr. right. exact Hin. }
      { exact Hnd'. }
      rewrite E2. exists s2, o2, c2, df2. split; [reflexivity|]. split; [exact Hou2|].
      split. { rewrite Ha2, Ha1. reflexivity. }
      split; [congruence|]. split.
      { intros p. rewrite Hd2, Hd1, <- In1. destruct (String.eqb p (hf_name c)); reflexivity. }
      split. { destruct Hid2 as (?&?&?&?). repeat split; congruence. }
      split; [exact Hs2|]. split; [exact Hb2|]. split; [|split].
      * intros x Hx. cbn [map In] in Hx. rewrite Hx2 by tauto. apply Hx1. intros ->. tauto.
      * intros Ho d' [->|Hin].
        { rewrite Hx2 by exact Hnin. rewrite Hok1 by reflexivity. rewrite Erows. reflexivity. }
        { rewrite Hok2 by assumption. rewrite <- Iu1. rewrite (same_cfg_rows _ _ _ _ Hcfg). reflexivity. }
      * intros x hd Hhd. destruct (Hsome2 x hd Hhd) as [H|(d' & Hin & Hn & ->)].
        { destruct (String.eqb_spec x (d_name d)) as [->|Hne].
          - rewrite Hok1 in H by reflexivity. injection H as <-. right. exists d.
            split; [left; reflexivity|]. split; [reflexivity|]. rewrite Erows. reflexivity.
          - rewrite Hx1 in H by exact Hne. left; exact H. }
        { right. exists d'. split; [right; exact Hin|]. split; [exact Hn|].
          rewrite <- Iu1. rewrite (same_cfg_rows _ _ _ _ Hcfg). reflexivity. }
    + exists s1, (Throw e), c1, df1. split; [reflexivity|]. split; [discriminate|].
      split; [exact Ha1|]. split; [exact Hl1|]. split; [exact Hd1|].
      split; [repeat split; assumption|]. split; [exact Hs1|]. split; [exact Hb1|].
      rewrite (Hno1 ltac:(discriminate)). split; [auto|]. split; [discriminate|auto].
Qed.
