(** The invariant of a running acquisition. *)
From Verif Require Import Base PlaceModel PlaceSpec PlaceProofs NameModel NameProofs AcqModel AcqSpec AcqProofs.
Local Open Scope N_scope.

(** A definition that can be turned into a dataset of file [n] without a failure. *)
Definition def_good (a : acq) (i : io) (n : N) (d : dsdef) : Prop :=
  existsb (N.eqb 0) (d_dims d) = false /\ existsb (N.eqb 0) (d_chunks d) = false /\
  List.length (d_chunks d) = S (List.length (d_dims d)) /\ io_dset i n (d_name d) = true /\
  exists r, dataset_rows a d n = Ret r /\ (a_total a = 0 \/ 0 < r).

Lemma def_good_cfg a b i n d : same_cfg a b -> def_good a i n d -> def_good b i n d.
Proof.
  intros Hs (H1 & H2 & H3 & H4 & r & H5 & H6). repeat (split; [assumption|]). exists r.
  rewrite <- (same_cfg_rows _ _ _ _ Hs). split; [exact H5|].
  destruct Hs as (_&_&_&_&Ht&_). rewrite <- Ht. exact H6.
Qed.

Lemma create_datasets_good i n : forall ds s c df,
  a_cur (s_acq s) = Some c -> s_disk s (hf_name c) = Some df -> hf_unlim c = (a_total (s_acq s) =? 0) ->
  (forall d, In d ds -> def_good (s_acq s) i n d) ->
  exists s', create_datasets i n ds s = (s', Ret tt).
Proof.
  induction ds as [|d ds IH]; intros s c df Hc Hd Hu Hg; [exists s; reflexivity|].
  cbn [create_datasets]. rewrite bind_get.
  destruct (Hg d (or_introl eq_refl)) as (G1 & G2 & G3 & G4 & r & G5 & G6).
  rewrite G5. cbn [lift]. rewrite bind_ret. unfold bind at 1, validate_definition. rewrite G1, G2. cbn [ret].
  unfold bind at 1, create_dataset. rewrite bind_get, Hc, G3, Nat.eqb_refl, G4, Hd. cbn [negb].
  assert (negb (hf_unlim c) && (r =? 0) = false) as ->.
  { rewrite Hu. destruct (N.eqb_spec (a_total (s_acq s)) 0); [reflexivity|]. cbn [negb andb].
    apply N.eqb_neq. lia. }
  unfold bind at 1, set_disk, put_cur. cbn [s_acq s_disk s_log].
  eapply IH; cbn [s_acq s_disk with_cur a_cur hf_name hf_unlim].
  - reflexivity.
  - apply upd_eq.
  - exact Hu.
  - intros d' Hin. eapply def_good_cfg; [|apply Hg; right; exact Hin]. repeat split.
Qed.

Definition closes (p : option hfile) : list ev := match p with Some f => [EvClose (hf_name f)] | None => [] end.

Lemma h5_close_name f : hf_name (h5_close f) = hf_name f.
Proof. unfold h5_close. destruct (hf_open f); reflexivity. Qed.

Lemma create_file_core i n s :
  io_create i n = true ->
  (forall d, In d (a_defs (s_acq s)) -> dataset_rows (s_acq s) d n <> Undef) ->
  NoDup (map d_name (a_defs (s_acq s))) ->
  exists s' o c df,
    create_file i n s = (s', o) /\ o <> Undef /\
    same_cfg (s_acq s') (s_acq s) /\
    a_written (s_acq s') = a_written (s_acq s) /\ a_processed (s_acq s') = a_processed (s_acq s) /\
    a_cur (s_acq s') = Some c /\ a_prev (s_acq s') = a_cur (s_acq s) /\
    s_log s' = s_log s ++ closes (a_prev (s_acq s)) ++ [EvCreate (full_path (s_acq s) n)] /\
    (forall p, s_disk s' p = if String.eqb p (full_path (s_acq s) n) then Some df else s_disk s p) /\
    hf_name c = full_path (s_acq s) n /\ hf_index c = n /\ hf_open c = true /\
    hf_unlim c = (a_total (s_acq s) =? 0) /\
    sync c df /\ blank df /\
    (forall x hd, hf_dsets c x = Some hd ->
       exists d, In d (a_defs (s_acq s)) /\ d_name d = x /\ hd = HDset (fresh_rows (s_acq s) d n) 0) /\
    ((forall d, In d (a_defs (s_acq s)) -> def_good (s_acq s) i n d) -> io_dset i n "" = true ->
       o = Ret tt /\ forall d, In d (a_defs (s_acq s)) -> hf_dsets c (d_name d) <> None).
Proof.
  intros Hcr Hr Hnd. unfold create_file. rewrite bind_get.
  set (path := full_path (s_acq s) n).
  unfold bind at 1.
  assert (exists p', close_file (a_prev (s_acq s)) s
     = (St (s_acq s) (s_disk s) (s_log s ++ closes (a_prev (s_acq s))), Ret p')) as (p' & ->).
  { unfold close_file, closes. destruct (a_prev (s_acq s)) as [f|].
    - unfold bind, emit, ret. rewrite h5_close_name. eauto.
    - rewrite app_nil_r. exists None. destruct s; reflexivity. }
  unfold bind at 1, put_prev at 1. cbn [s_acq s_disk s_log]. rewrite bind_get.
  unfold bind at 1, put_prev at 1. cbn [s_acq s_disk s_log].
  change (full_path (with_prev (s_acq s) p') n) with path.
  rewrite Hcr. cbn [negb].
  unfold bind at 1, set_disk at 1. cbn [s_acq s_disk s_log].
  unfold bind at 1, put_cur at 1. cbn [s_acq s_disk s_log].
  unfold bind at 1, emit at 1. cbn [s_acq s_disk s_log].
  unfold bind at 1.
  match goal with |- context [create_datasets i n ?ds ?s1] => set (s1' := s1) end.
  cbn [with_prev a_defs].
  set (c1 := HFile path n true (a_total (s_acq s) =? 0) (fun _ => None)).
  assert (Hcfg1 : same_cfg (s_acq s1') (s_acq s)) by (repeat split).
  assert (Hc1 : a_cur (s_acq s1') = Some c1) by reflexivity.
  assert (Hd1 : s_disk s1' (hf_name c1) = Some (fun _ => None)) by (apply upd_eq).
  destruct (create_datasets_spec i n (a_defs (s_acq s)) s1' c1 (fun _ => None) Hc1 Hd1)
    as (s2 & o2 & c2 & df2 & E2 & Hou2 & Ha2 & Hl2 & Hd2 & Hid2 & Hs2 & Hb2 & Hx2 & Hok2 & Hsome2).
  { intros ds. exact I. }
  { intros ds dd [=]. }
  { intros d Hin. rewrite (same_cfg_rows _ _ _ _ Hcfg1). apply Hr, Hin. }
  { exact Hnd. }
  rewrite E2.
  destruct Hid2 as (In2 & Ii2 & Io2 & Iu2).
  exists s2, (match o2 with Ret _ => if io_dset i n "" then Ret tt else Throw EHdf5 | Throw e => Throw e | Undef => Undef end), c2, df2.
  split. { destruct o2 as [[]|e|]; try reflexivity. destruct (io_dset i n ""); reflexivity. }
  split. { destruct o2 as [[]|e|]; try congruence. destruct (io_dset i n ""); discriminate. }
  rewrite Ha2. split; [repeat split|]. split; [reflexivity|]. split; [reflexivity|].
  split; [reflexivity|]. split; [reflexivity|].
  split. { rewrite Hl2. unfold s1'. cbn [s_log]. rewrite <- app_assoc. reflexivity. }
  split. { intros p. rewrite Hd2. cbn [c1 hf_name]. unfold s1', upd. cbn [s_disk].
           destruct (String.eqb p path); reflexivity. }
  split; [symmetry; exact In2|]. split; [symmetry; exact Ii2|]. split; [symmetry; exact Io2|].
  split; [symmetry; exact Iu2|]. split; [exact Hs2|]. split; [exact Hb2|]. split.
  - intros x hd Hx. destruct (Hsome2 x hd Hx) as [H|(d & Hin & Hn & ->)]; [discriminate H|].
    exists d. split; [exact Hin|]. split; [exact Hn|]. unfold fresh_rows. cbn [c1 hf_unlim].
    rewrite (same_cfg_rows _ _ _ _ Hcfg1). reflexivity.
  - intros Hg Hsw.
    destruct (create_datasets_good i n (a_defs (s_acq s)) s1' c1 _ Hc1 Hd1 eq_refl) as (s3 & E3).
    { intros d Hin. eapply def_good_cfg; [|apply Hg, Hin]. repeat split. }
    rewrite E2 in E3. injection E3 as -> ->. rewrite Hsw. split; [reflexivity|].
    intros d Hin. rewrite (Hok2 eq_refl d Hin). discriminate.
Qed.

(** ** Attempts to store something, and what they add up to *)

(** [t_row]: number of the file in the series of this process; [t_rows]: rows asked for; [t_start]: row written. *)
Record att := Att { t_row : nat; t_ds : string; t_rows : N; t_start : N; t_data : list N; t_ok : bool; t_upto : N }.

Definition at_file (k : nat) (ds : string) (t : att) : bool := Nat.eqb (t_row t) k && String.eqb (t_ds t) ds.

Definition cells_of (gh : list att) (k : nat) (ds : string) (row : N) : option (list N) :=
  fold_left (fun acc t => if at_file k ds t && t_ok t && (t_start t =? row) then Some (t_data t) else acc) gh None.
Definition rows_unl (gh : list att) (k : nat) (ds : string) : N :=
  fold_left (fun acc t => if at_file k ds t then N.max acc (t_rows t) else acc) gh 1.
Definition actual (gh : list att) (k : nat) (ds : string) : N :=
  fold_left (fun acc t => if at_file k ds t && t_ok t then N.max acc (t_upto t) else acc) gh 0.

Lemma cells_snoc gh t k ds row : cells_of (gh ++ [t]) k ds row =
  if at_file k ds t && t_ok t && (t_start t =? row) then Some (t_data t) else cells_of gh k ds row.
Proof. unfold cells_of. rewrite fold_left_app. reflexivity. Qed.
Lemma rows_snoc gh t k ds : rows_unl (gh ++ [t]) k ds =
  if at_file k ds t then N.max (rows_unl gh k ds) (t_rows t) else rows_unl gh k ds.
Proof. unfold rows_unl. rewrite fold_left_app. reflexivity. Qed.
Lemma actual_snoc gh t k ds : actual (gh ++ [t]) k ds =
  if at_file k ds t && t_ok t then N.max (actual gh k ds) (t_upto t) else actual gh k ds.
Proof. unfold actual. rewrite fold_left_app. reflexivity. Qed.

Lemma at_file_true k ds t : at_file k ds t = true <-> t_row t = k /\ t_ds t = ds.
Proof. unfold at_file. rewrite andb_true_iff, Nat.eqb_eq, String.eqb_eq. tauto. Qed.

Lemma fold_none gh k ds : (forall t, In t gh -> at_file k ds t = false) ->
  (forall row, cells_of gh k ds row = None) /\ rows_unl gh k ds = 1 /\ actual gh k ds = 0.
Proof.
  induction gh as [|t gh IH] using rev_ind; intros H; [repeat split|].
  rewrite rows_snoc, actual_snoc. rewrite (H t) by (apply in_or_app; right; left; reflexivity). cbn [andb].
  destruct IH as (I1 & I2 & I3). { intros u Hu. apply H, in_or_app. left. exact Hu. }
  split; [|split; assumption]. intros row. rewrite cells_snoc, (H t) by (apply in_or_app; right; left; reflexivity).
  apply I1.
Qed.

(** ** The invariant *)
Section Inv.
Context (a0 : acq) (dk0 : disk) (KR : nat).

Definition idx (k : nat) : N := N.of_nat k * g_procs (a_geom a0) + g_rank (a_geom a0).
Definition pth (k : nat) : string := full_path a0 (idx k).
Definition unl : bool := a_total a0 =? 0.

Definition file_ok (gh : list att) (dk : disk) (k : nat) : Prop :=
  exists df, dk (pth k) = Some df /\
  forall ds, match df ds with
             | None => forall t, In t gh -> at_file k ds t = false
             | Some dd => exists d, find_def (a_defs a0) ds = Some d /\
                 dd_rows dd = (if unl then rows_unl gh k ds else fresh_rows a0 d (idx k)) /\
                 forall row, dd_cells dd row = cells_of gh k ds row
             end.

Definition handle_ok (gh : list att) (dk : disk) (h : hfile) (k : nat) : Prop :=
  hf_name h = pth k /\ hf_index h = idx k /\ hf_open h = true /\ hf_unlim h = unl /\
  (exists df, dk (pth k) = Some df /\ sync h df) /\
  forall ds hd, hf_dsets h ds = Some hd -> hd_actual hd = actual gh k ds.

Record Inv (s : st) (m : nat) (gh : list att) : Prop := {
  inv_cfg : same_cfg (s_acq s) a0;
  inv_cur : exists c, a_cur (s_acq s) = Some c /\ handle_ok gh (s_disk s) c m;
  inv_prev : match m with
             | O => a_prev (s_acq s) = None
             | S m' => exists p, a_prev (s_acq s) = Some p /\ handle_ok gh (s_disk s) p m'
             end;
  inv_files : forall k, (k <= m)%nat -> file_ok gh (s_disk s) k;
  inv_others : forall p, (forall k, (k <= m)%nat -> p <> pth k) -> s_disk s p = dk0 p;
  inv_rows : forall t, In t gh -> (t_row t <= m)%nat;
  inv_created : created (s_log s) = map pth (seq 0 (S m));
  inv_closed : closed (s_log s) = map pth (seq 0 (m - 1)) }.

(** Every defined dataset exists in the open files and in the files created so far. *)
Definition full (h : hfile) : Prop := forall d, In d (a_defs a0) -> hf_dsets h (d_name d) <> None.
Definition Full (s : st) : Prop :=
  (forall c, a_cur (s_acq s) = Some c -> full c) /\ (forall p, a_prev (s_acq s) = Some p -> full p) /\
  forall p df d, In p (created (s_log s)) -> s_disk s p = Some df -> In d (a_defs a0) -> df (d_name d) <> None.

Definition same_counts (s s' : st) : Prop :=
  a_written (s_acq s') = a_written (s_acq s) /\ a_processed (s_acq s') = a_processed (s_acq s).

Lemma same_counts_refl s : same_counts s s.
Proof. split; reflexivity. Qed.
Lemma same_counts_trans a b c : same_counts a b -> same_counts b c -> same_counts a c.
Proof. unfold same_counts. intuition congruence. Qed.

Context (HP : 1 <= g_procs (a_geom a0)) (Hr : g_rank (a_geom a0) < g_procs (a_geom a0))
        (Hnd : NoDup (map d_name (a_defs a0)))
        (Hinj : forall k k', (k <= KR)%nat -> (k' <= KR)%nat -> pth k = pth k' -> k = k')
        (Hrows : forall k d, (k <= KR)%nat -> In d (a_defs a0) -> dataset_rows a0 d (idx k) <> Undef).

Lemma find_def_in d : In d (a_defs a0) -> find_def (a_defs a0) (d_name d) = Some d.
Proof.
  clear -Hnd. unfold find_def. induction (a_defs a0) as [|e l IH]; intros Hin; [destruct Hin|].
  inversion Hnd as [|? ? Hn Hnd']; subst. cbn [find]. destruct Hin as [->|Hin].
  - rewrite String.eqb_refl. reflexivity.
  - destruct (String.eqb_spec (d_name e) (d_name d)) as [E|_]; [|apply IH; assumption].
    destruct Hn. rewrite E. apply in_map, Hin.
Qed.

Lemma find_def_some x d : find_def (a_defs a0) x = Some d -> In d (a_defs a0) /\ d_name d = x.
Proof.
  intros H. unfold find_def in H. apply find_some in H. rewrite String.eqb_eq in H. exact H.
Qed.

Lemma idx_inj k k' : idx k = idx k' -> k = k'.
Proof. unfold idx. intros H. nia. Qed.

Lemma idx_S k : idx (S k) = idx k + g_procs (a_geom a0).
Proof. unfold idx. lia. Qed.

Lemma idx_div k : idx k / g_procs (a_geom a0) = N.of_nat k.
Proof. unfold idx. apply dma. exact Hr. Qed.

Lemma idx_lt k k' : (k < k')%nat -> idx k < idx k'.
Proof. unfold idx. intros H. nia. Qed.

Lemma created_app a b : created (a ++ b) = created a ++ created b.
Proof. unfold created. apply flat_map_app. Qed.
Lemma closed_app a b : closed (a ++ b) = closed a ++ closed b.
Proof. unfold closed. apply flat_map_app. Qed.

(** Creating a file does not touch the files of other numbers. *)
Lemma file_ok_other gh dk dk' k : dk' (pth k) = dk (pth k) -> file_ok gh dk k -> file_ok gh dk' k.
Proof. unfold file_ok. intros ->. auto. Qed.
Lemma handle_ok_other gh dk dk' h k : dk' (pth k) = dk (pth k) -> handle_ok gh dk h k -> handle_ok gh dk' h k.
Proof. unfold handle_ok. intros ->. auto. Qed.

(** A fresh file satisfies its part of the invariant. *)
Lemma fresh_ok a c df gh dk k :
  same_cfg a a0 -> (forall t, In t gh -> (t_row t < k)%nat) ->
  dk (pth k) = Some df -> hf_name c = full_path a (idx k) -> hf_index c = idx k -> hf_open c = true ->
  hf_unlim c = (a_total a =? 0) -> sync c df -> blank df ->
  (forall x hd, hf_dsets c x = Some hd ->
       exists d, In d (a_defs a) /\ d_name d = x /\ hd = HDset (fresh_rows a d (idx k)) 0) ->
  handle_ok gh dk c k /\ file_ok gh dk k.
Proof.
  intros Hcfg Hgh Hdk Hn Hi Ho Hu Hs Hb Hx.
  assert (Hgh' : forall x t, In t gh -> at_file k x t = false).
  { intros x t Hin. destruct (at_file k x t) eqn:E; [|reflexivity]. apply at_file_true in E.
    specialize (Hgh t Hin). lia. }
  pose proof Hcfg as (C1 & C2 & C3 & C4 & C5 & C6 & C7).
  split.
  - split. { rewrite Hn. apply same_cfg_path, Hcfg. } split; [exact Hi|]. split; [exact Ho|].
    split. { rewrite Hu, C5. reflexivity. } split; [eauto|].
    intros ds hd Hhd. destruct (Hx ds hd Hhd) as (d & _ & _ & ->). cbn.
    symmetry. apply fold_none, Hgh'.
  - exists df. split; [exact Hdk|]. intros ds. specialize (Hs ds).
    destruct (df ds) as [dd|] eqn:Edd; [|apply Hgh'].
    destruct (hf_dsets c ds) as [hd|] eqn:Ehd; [|destruct Hs].
    destruct (Hx ds hd Ehd) as (d & Hin & Hnm & ->). cbn [hd_rows] in Hs.
    exists d. rewrite C7 in Hin. subst ds. split; [apply find_def_in, Hin|].
    destruct (fold_none gh k (d_name d) (Hgh' _)) as (F1 & F2 & F3).
    split.
    + rewrite <- Hs, F2. unfold fresh_rows, unl. rewrite C5, (same_cfg_rows _ _ _ _ Hcfg).
      destruct (a_total a0 =? 0); reflexivity.
    + intros row. rewrite F1. eapply Hb, Edd.
Qed.

Lemma create_next i s m gh :
  Inv s m gh -> (S m <= KR)%nat -> io_create i (idx (S m)) = true ->
  exists s' o, create_file i (idx (S m)) s = (s', o) /\ o <> Undef /\ Inv s' (S m) gh /\ same_counts s s' /\
    ((forall d, In d (a_defs a0) -> def_good a0 i (idx (S m)) d) -> io_dset i (idx (S m)) "" = true ->
      o = Ret tt /\ (Full s -> Full s')).
Proof.
  intros HI Hm Hcr.
  pose proof (inv_cfg _ _ _ HI) as Hcfg. pose proof Hcfg as (C1 & C2 & C3 & C4 & C5 & C6 & C7).
  destruct (create_file_core i (idx (S m)) s Hcr) as
    (s' & o & c & df & E & Hou & Hcfg' & Hw & Hp & Hc & Hpv & Hlog & Hdk & Hn & Hi & Ho & Hu & Hs & Hb & Hx & Hgood).
  { intros d Hin. rewrite (same_cfg_rows _ _ _ _ Hcfg). apply Hrows; [exact Hm|]. rewrite <- C7. exact Hin. }
  { rewrite C7. exact Hnd. }
  assert (Hpath : full_path (s_acq s) (idx (S m)) = pth (S m)) by (apply same_cfg_path, Hcfg).
  rewrite Hpath in *.
  assert (Hne : forall k, (k <= m)%nat -> s_disk s' (pth k) = s_disk s (pth k)).
  { intros k Hk. rewrite Hdk. destruct (String.eqb_spec (pth k) (pth (S m))) as [E'|_]; [|reflexivity].
    apply Hinj in E'; lia. }
  exists s', o. split; [exact E|]. split; [exact Hou|].
  destruct (fresh_ok (s_acq s) c df gh (s_disk s') (S m) Hcfg) as (HO1 & HO2); try assumption.
  { intros t Hin. pose proof (inv_rows _ _ _ HI t Hin). lia. }
  { rewrite Hdk, String.eqb_refl. reflexivity. }
  { rewrite Hpath. exact Hn. }
  destruct (inv_cur _ _ _ HI) as (c0 & Hc0 & HO0).
  split; [constructor|split; [split; assumption|]].
  - eapply same_cfg_trans; eassumption.
  - exists c. split; assumption.
  - exists c0. split; [congruence|]. eapply handle_ok_other; [|exact HO0]. apply Hne. lia.
  - intros k Hk. destruct (Nat.eq_dec k (S m)) as [->|Hkm]; [exact HO2|].
    eapply file_ok_other; [apply Hne; lia|]. apply (inv_files _ _ _ HI). lia.
  - intros p Hp'. rewrite Hdk. destruct (String.eqb_spec p (pth (S m))) as [->|_].
    + destruct (Hp' (S m)); [lia|reflexivity].
    + apply (inv_others _ _ _ HI). intros k Hk. apply Hp'. lia.
  - intros t Hin. pose proof (inv_rows _ _ _ HI t Hin). lia.
  - rewrite Hlog, !created_app, (inv_created _ _ _ HI), (seq_S (S m)), map_app.
    destruct (a_prev (s_acq s)); reflexivity.
  - rewrite Hlog, !closed_app, (inv_closed _ _ _ HI).
    pose proof (inv_prev _ _ _ HI) as HPv. destruct m as [|m'].
    + rewrite HPv. reflexivity.
    + destruct HPv as (p & -> & (Hpn & _)). cbn [closes closed flat_map app Nat.sub]. rewrite Hpn.
      rewrite Nat.sub_0_r, seq_S, map_app. reflexivity.
  - intros Hg Hsw. rewrite C7 in Hgood.
    destruct Hgood as (-> & Hfull); [|exact Hsw|].
    { intros d Hin. eapply def_good_cfg; [|apply Hg, Hin]. destruct Hcfg as (?&?&?&?&?&?&?). repeat split; congruence. }
    split; [reflexivity|]. intros (HF1 & HF2 & HF3). split; [|split].
    + intros c' Hc'. rewrite Hc in Hc'. injection Hc' as <-. exact Hfull.
    + intros p Hp'. rewrite Hpv in Hp'. apply HF1. exact Hp'.
    + intros p df1 d Hin. rewrite Hdk. destruct (String.eqb_spec p (pth (S m))) as [->|Hnp].
      * intros [= <-] Hd Hnone. specialize (Hs (d_name d)). rewrite Hnone in Hs.
        destruct (hf_dsets c (d_name d)) eqn:Ec; [destruct Hs|]. exact (Hfull d Hd Ec).
      * intros Hp1 Hd. apply (HF3 p); try assumption. rewrite Hlog, !created_app in Hin.
        rewrite !in_app_iff in Hin. destruct Hin as [Hin|[Hin|[<-|[]]]]; [exact Hin| |congruence].
        exfalso. destruct (a_prev (s_acq s)); [|destruct Hin]. cbn in Hin. exact Hin.
Qed.

(** All that creating file [k] needs. *)
Definition create_good (i : io) (k : nat) : Prop :=
  (forall d, In d (a_defs a0) -> def_good a0 i (idx k) d) /\ io_dset i (idx k) "" = true.

Lemma create_missing_step i k : (k <= KR)%nat -> (forall j, io_create i (idx j) = true) ->
  forall fuel s m gh, Inv s m gh -> (m < k)%nat -> (k - m <= S fuel)%nat ->
  exists s' o m', create_missing i fuel (idx k) s = (s', o) /\ o <> Undef /\ Inv s' m' gh /\ same_counts s s' /\
    (m <= m' < k)%nat /\ (o = Ret tt -> S m' = k) /\
    ((forall j, (m < j < k)%nat -> create_good i j) -> o = Ret tt /\ (Full s -> Full s')).
Proof.
  intros Hk Hcr. induction fuel as [|fuel IH]; intros s m gh HI Hm Hf.
  - cbn [create_missing]. rewrite bind_get.
    destruct (inv_cur _ _ _ HI) as (c & Hc & (Hcn & Hci & _)). rewrite Hc, Hci.
    pose proof (inv_cfg _ _ _ HI) as (C1 & _). rewrite C1, <- idx_S.
    assert (S m = k) by lia. subst k. rewrite N.ltb_irrefl.
    exists s, (Ret tt), m. split; [reflexivity|]. split; [discriminate|]. split; [exact HI|].
    split; [apply same_counts_refl|]. split; [lia|]. split; [lia|]. auto.
  - cbn [create_missing]. rewrite bind_get.
    destruct (inv_cur _ _ _ HI) as (c & Hc & (Hcn & Hci & _)). rewrite Hc, Hci.
    pose proof (inv_cfg _ _ _ HI) as (C1 & _). rewrite C1, <- idx_S.
    destruct (N.ltb_spec (idx (S m)) (idx k)) as [Hlt|Hge].
    + assert (Hlt' : (S m < k)%nat). { unfold idx in Hlt. nia. }
      destruct (create_next i s m gh HI) as (s1 & o1 & E1 & Hou1 & HI1 & Hsc1 & Hg1); [lia|apply Hcr|].
      unfold bind at 1. rewrite E1. destruct o1 as [[]|e|]; [| |congruence].
      * destruct (IH s1 (S m) gh HI1) as (s2 & o2 & m2 & E2 & Hou2 & HI2 & Hsc2 & Hm2 & Ho2 & Hg2); [lia|lia|].
        rewrite E2. exists s2, o2, m2. split; [reflexivity|]. split; [exact Hou2|]. split; [exact HI2|].
        split; [eapply same_counts_trans; eassumption|]. split; [lia|]. split; [exact Ho2|].
        intros Hg. destruct Hg2 as (-> & HF2). { intros j Hj. apply Hg. lia. }
        split; [reflexivity|]. intros HF. apply HF2.
        destruct (Hg (S m)) as (G1 & G2); [lia|]. destruct (Hg1 G1 G2) as (_ & HF1). apply HF1, HF.
      * exists s1, (Throw e), (S m). split; [reflexivity|]. split; [discriminate|]. split; [exact HI1|].
        split; [exact Hsc1|]. split; [lia|]. split; [discriminate|].
        intros Hg. destruct (Hg (S m)) as (G1 & G2); [lia|]. destruct (Hg1 G1 G2) as ([=] & _).
    + assert (S m = k). { unfold idx in Hge. nia. }
      exists s, (Ret tt), m. split; [reflexivity|]. split; [discriminate|]. split; [exact HI|].
      split; [apply same_counts_refl|]. split; [lia|]. split; [lia|]. auto.
Qed.

(** The place of a frame number. *)
Definition krow (off : N) : nat :=
  N.to_nat (row_of (g_procs (a_geom a0)) (g_fpb (a_geom a0)) (g_bpf (a_geom a0)) off).
Definition kslot (off : N) : N :=
  slot_of (g_procs (a_geom a0)) (g_fpb (a_geom a0)) (g_bpf (a_geom a0)) off.

Context (HF : 1 <= g_fpb (a_geom a0)).

Lemma file_index_krow a off : same_cfg a a0 -> 1 <= g_bpf (a_geom a0) ->
  file_index (a_geom a) off = Ret (idx (krow off)).
Proof.
  intros (C1 & _) HB. rewrite C1. unfold file_index, idx, krow, row_of.
  destruct (N.eqb_spec (g_fpb (a_geom a0)) 0); [lia|]. destruct (N.eqb_spec (g_procs (a_geom a0)) 0); [lia|].
  destruct (N.eqb_spec (g_bpf (a_geom a0)) 0); [lia|]. cbn [orb]. rewrite N2Nat.id. reflexivity.
Qed.

Lemma offset_kslot a off : same_cfg a a0 -> offset_in_file (a_geom a) off = Ret (kslot off).
Proof.
  intros (C1 & _). rewrite C1. unfold kslot, slot_of.
  destruct (a_geom a0) as [P r F B]. cbn [g_procs g_fpb g_bpf g_rank] in *.
  destruct (decompose P F off HP HF) as (q & p & f & -> & Hp & Hf).
  rewrite (offset_val P F B r q p f) by assumption.
  rewrite (dma (q * P + p) F f) by assumption. rewrite (dma q P p) by assumption.
  rewrite (mma (q * P + p) F f) by assumption. destruct (B =? 0); reflexivity.
Qed.

(** File of the handle in use. *)
Definition wrow (w : which) (m k : nat) : Prop := match w with Cur => m = k | Prev => m = S k end.

Lemma get_file_step i s m gh off :
  Inv s m gh -> (krow off <= KR)%nat -> (g_bpf (a_geom a0) = 0 -> m = O) ->
  (forall j, io_create i (idx j) = true) ->
  exists s' o m', get_file i off s = (s', o) /\ o <> Undef /\ Inv s' m' gh /\ same_counts s s' /\
    (m <= m' <= Nat.max m (krow off))%nat /\
    (forall w, o = Ret (Some w) -> wrow w m' (krow off) /\ m' = Nat.max m (krow off)) /\
    (o = Ret None <-> (S (krow off) < m)%nat) /\ (o = Ret None -> s' = s) /\
    (forall e, o = Throw e -> (m < krow off)%nat) /\
    ((forall j, (m < j <= krow off)%nat -> create_good i j) ->
       (forall e, o <> Throw e) /\ (Full s -> Full s')).
Proof.
  intros HI Hk HB Hcr. unfold get_file. rewrite bind_get.
  pose proof (inv_cfg _ _ _ HI) as Hcfg. pose proof Hcfg as (C1 & _). rewrite C1.
  destruct (N.eqb_spec (g_bpf (a_geom a0)) 0) as [HB0|HB0].
  - assert (krow off = O) as Hk0.
    { unfold krow, row_of. rewrite HB0. reflexivity. }
    rewrite (HB HB0) in *. rewrite Hk0.
    exists s, (Ret (Some Cur)), O. split; [reflexivity|]. split; [discriminate|]. split; [exact HI|].
    split; [apply same_counts_refl|]. split; [lia|]. split; [intros w [= <-]; split; reflexivity|].
    split; [split; [discriminate|lia]|]. split; [discriminate|]. split; [discriminate|].
    intros _. split; [discriminate|auto].
  - rewrite <- C1. rewrite (file_index_krow _ off Hcfg) by lia. cbn [lift]. rewrite bind_ret.
    destruct (inv_cur _ _ _ HI) as (c & Hc & (Hcn & Hci & _)). rewrite Hc, Hci.
    destruct (N.eqb_spec (idx (krow off)) (idx m)) as [E|E].
    { apply idx_inj in E. rewrite E.
      exists s, (Ret (Some Cur)), m. split; [reflexivity|]. split; [discriminate|]. split; [exact HI|].
      split; [apply same_counts_refl|]. split; [lia|]. split; [intros w [= <-]; split; [reflexivity|lia]|].
      split; [split; [discriminate|lia]|]. split; [discriminate|]. split; [discriminate|].
      intros _. split; [discriminate|auto]. }
    destruct (match a_prev (s_acq s) with Some p => _ | None => false end) eqn:Ep.
    { pose proof (inv_prev _ _ _ HI) as HPv. destruct m as [|m']; [rewrite HPv in Ep; discriminate|].
      destruct HPv as (p & Hp & (Hpn & Hpi & _)). rewrite Hp, Hpi in Ep. apply N.eqb_eq, idx_inj in Ep. rewrite Ep.
      exists s, (Ret (Some Prev)), (S m'). split; [reflexivity|]. split; [discriminate|]. split; [exact HI|].
      split; [apply same_counts_refl|]. split; [lia|]. split; [intros w [= <-]; split; [reflexivity|lia]|].
      split; [split; [discriminate|lia]|]. split; [discriminate|]. split; [discriminate|].
      intros _. split; [discriminate|auto]. }
    destruct (N.ltb_spec (idx m) (idx (krow off))) as [Hlt|Hge].
    + assert (Hmk : (m < krow off)%nat). { unfold idx in Hlt. nia. }
      unfold bind at 1.
      destruct (create_missing_step i (krow off) Hk Hcr (N.to_nat (idx (krow off) - idx m)) s m gh HI Hmk)
        as (s1 & o1 & m1 & E1 & Hou1 & HI1 & Hsc1 & Hm1 & Ho1 & Hg1).
      { unfold idx. nia. }
      rewrite E1. destruct o1 as [[]|e|]; [| |congruence].
      * specialize (Ho1 eq_refl). rewrite <- Ho1 in *.
        destruct (create_next i s1 m1 gh HI1) as (s2 & o2 & E2 & Hou2 & HI2 & Hsc2 & Hg2); [lia|apply Hcr|].
        unfold bind. rewrite E2. destruct o2 as [[]|e|]; [| |congruence].
        { exists s2, (Ret (Some Cur)), (S m1). split; [reflexivity|]. split; [discriminate|]. split; [exact HI2|].
          split; [eapply same_counts_trans; eassumption|]. split; [lia|].
          split; [intros w [= <-]; split; [reflexivity|lia]|].
          split; [split; [discriminate|lia]|]. split; [discriminate|]. split; [discriminate|].
          intros Hg. split; [discriminate|]. intros HFu.
          destruct (Hg (S m1)) as (G1 & G2); [lia|]. destruct (Hg2 G1 G2) as (_ & HF2). apply HF2.
          destruct Hg1 as (_ & HF1); [|apply HF1, HFu]. intros j Hj. apply Hg. lia. }
        { exists s2, (Throw e), (S m1). split; [reflexivity|]. split; [discriminate|]. split; [exact HI2|].
          split; [eapply same_counts_trans; eassumption|]. split; [lia|]. split; [discriminate|].
          split; [split; [discriminate|lia]|]. split; [discriminate|]. split; [intros _ _; lia|].
          intros Hg. destruct (Hg (S m1)) as (G1 & G2); [lia|]. destruct (Hg2 G1 G2) as ([=] & _). }
      * exists s1, (Throw e), m1. split; [reflexivity|]. split; [discriminate|]. split; [exact HI1|].
        split; [exact Hsc1|]. split; [lia|]. split; [discriminate|].
        split; [split; [discriminate|lia]|]. split; [discriminate|]. split; [intros _ _; lia|].
        intros Hg. destruct Hg1 as ([=] & _). intros j Hj. apply Hg. lia.
    + assert (Hmk : (krow off < m)%nat).
      { destruct (Nat.eq_dec (krow off) m) as [Heq|]; [rewrite Heq in E; congruence|]. unfold idx in Hge. nia. }
      assert (S (krow off) <> m).
      { intros <-. pose proof (inv_prev _ _ _ HI) as HPv. cbn in HPv. destruct HPv as (p & Hp & (Hpn & Hpi & _)).
        rewrite Hp, Hpi, N.eqb_refl in Ep. discriminate. }
      exists s, (Ret None), m. split; [reflexivity|]. split; [discriminate|]. split; [exact HI|].
      split; [apply same_counts_refl|]. split; [lia|]. split; [discriminate|].
      split; [split; [lia|reflexivity]|]. split; [reflexivity|]. split; [discriminate|].
      intros _. split; [discriminate|auto].
Qed.

(** ** Writing *)
Definition other (w : which) : which := match w with Cur => Prev | Prev => Cur end.

Lemma handle_of s m gh w k : Inv s m gh -> wrow w m k ->
  exists h, file_of w (s_acq s) = Some h /\ handle_ok gh (s_disk s) h k.
Proof.
  intros HI Hw. destruct w; cbn in *.
  - subst k. apply (inv_cur _ _ _ HI).
  - pose proof (inv_prev _ _ _ HI) as HPv. rewrite Hw in HPv. exact HPv.
Qed.

Lemma wrow_le w m k : wrow w m k -> (k <= m)%nat.
Proof. destruct w; cbn; lia. Qed.

(** Replacing one open file and the corresponding file on disk keeps the invariant. *)
Lemma Inv_put s s' m gh gh' w k h' :
  Inv s m gh -> wrow w m k -> (m <= KR)%nat ->
  same_cfg (s_acq s') (s_acq s) -> s_log s' = s_log s ->
  file_of w (s_acq s') = Some h' -> file_of (other w) (s_acq s') = file_of (other w) (s_acq s) ->
  (forall p, p <> pth k -> s_disk s' p = s_disk s p) ->
  handle_ok gh' (s_disk s') h' k -> file_ok gh' (s_disk s') k ->
  (forall k' ds, k' <> k -> (forall row, cells_of gh' k' ds row = cells_of gh k' ds row) /\
       rows_unl gh' k' ds = rows_unl gh k' ds /\ actual gh' k' ds = actual gh k' ds /\
       ((forall t, In t gh -> at_file k' ds t = false) -> forall t, In t gh' -> at_file k' ds t = false)) ->
  (forall t, In t gh' -> (t_row t <= m)%nat) ->
  Inv s' m gh'.
Proof.
  intros HI Hw Hm Hcfg Hlog Hh' Hoth Hdk HO HFo Hgh Hrm.
  pose proof (wrow_le _ _ _ Hw) as Hkm.
  assert (Hother : forall k', k' <> k -> (k' <= m)%nat -> s_disk s' (pth k') = s_disk s (pth k')).
  { intros k' Hne Hk'. apply Hdk. intros E. apply Hinj in E; lia. }
  assert (Hho : forall h k', k' <> k -> (k' <= m)%nat -> handle_ok gh (s_disk s) h k' -> handle_ok gh' (s_disk s') h k').
  { intros h k' Hne Hk' (H1 & H2 & H3 & H4 & H5 & H6). repeat (split; [assumption|]). split.
    - rewrite Hother by assumption. exact H5.
    - intros ds hd Hhd. destruct (Hgh k' ds Hne) as (_ & _ & -> & _). apply H6, Hhd. }
  constructor.
  - eapply same_cfg_trans; [exact Hcfg|apply (inv_cfg _ _ _ HI)].
  - destruct w; cbn in *.
    + subst k. eauto.
    + destruct (inv_cur _ _ _ HI) as (c & Hc & HOc). exists c. split; [congruence|]. apply Hho; [lia|lia|exact HOc].
  - pose proof (inv_prev _ _ _ HI) as HPv. destruct w; cbn in *.
    + subst k. destruct m as [|m']; [congruence|]. destruct HPv as (p & Hp & HOp). exists p. split; [congruence|].
      apply Hho; [lia|lia|exact HOp].
    + rewrite Hw in *. eauto.
  - intros k' Hk'. destruct (Nat.eq_dec k' k) as [->|Hne]; [exact HFo|].
    destruct (inv_files _ _ _ HI k' Hk') as (df & Hdf & Hall). exists df. split; [rewrite Hother by assumption; exact Hdf|].
    intros ds. specialize (Hall ds). destruct (Hgh k' ds Hne) as (G1 & G2 & G3 & G4). destruct (df ds) as [dd|].
    + destruct Hall as (d & D1 & D2 & D3). exists d. split; [exact D1|]. split; [rewrite G2; exact D2|].
      intros row. rewrite G1. apply D3.
    + apply G4, Hall.
  - intros p Hp. rewrite Hdk; [|apply Hp, Hkm]. apply (inv_others _ _ _ HI), Hp.
  - exact Hrm.
  - rewrite Hlog. apply (inv_created _ _ _ HI).
  - rewrite Hlog. apply (inv_closed _ _ _ HI).
Qed.

(** Two open files agree on which datasets they have. *)
Definition same_dsets (h h' : hfile) : Prop := forall x, hf_dsets h' x = None <-> hf_dsets h x = None.

Lemma same_dsets_refl h : same_dsets h h.
Proof. split; auto. Qed.

Definition keeps (w : which) (s s' : st) : Prop :=
  (forall h, file_of w (s_acq s) = Some h -> exists h', file_of w (s_acq s') = Some h' /\ same_dsets h h') /\
  (file_of (other w) (s_acq s') = file_of (other w) (s_acq s) /\ created (s_log s') = created (s_log s) /\
   forall p df', s_disk s' p = Some df' -> exists df, s_disk s p = Some df /\ forall x, df' x = None -> df x = None).

Lemma keeps_refl w s : keeps w s s.
Proof.
  split; [|split; [reflexivity|split; [reflexivity|eauto]]]. intros h H. exists h.
  split; [exact H|apply same_dsets_refl].
Qed.

Lemma keeps_trans w a b c : keeps w a b -> keeps w b c -> keeps w a c.
Proof.
  intros (A1 & A2 & A3 & A4) (B1 & B2 & B3 & B4). split; [|split; [congruence|split; [congruence|]]].
  2: { intros p df' Hp. destruct (B4 p df' Hp) as (df1 & Hp1 & H1). destruct (A4 p df1 Hp1) as (df2 & Hp2 & H2).
       exists df2. auto. }
  intros h H. destruct (A1 h H) as (h1 & H1 & D1). destruct (B1 h1 H1) as (h2 & H2 & D2).
  exists h2. split; [exact H2|]. intros x. etransitivity; [apply D2|apply D1].
Qed.

Lemma keeps_full w s s' m gh k : Inv s m gh -> wrow w m k -> keeps w s s' -> Full s -> Full s'.
Proof.
  intros HI Hw (K1 & K2 & K3 & K4) (F1 & F2 & F3).
  assert (F3' : forall p df d, In p (created (s_log s')) -> s_disk s' p = Some df -> In d (a_defs a0) -> df (d_name d) <> None).
  { intros p df d Hin Hp Hd Hnone. rewrite K3 in Hin. destruct (K4 p df Hp) as (df1 & Hp1 & H1).
    exact (F3 p df1 d Hin Hp1 Hd (H1 _ Hnone)). }
  destruct (handle_of _ _ _ _ _ HI Hw) as (h & Hh & _).
  destruct (K1 h Hh) as (h' & Hh' & HD).
  assert (full h').
  { assert (full h) as Hf by (destruct w; cbn in Hh; auto).
    intros d Hin Hnone. apply HD in Hnone. exact (Hf d Hin Hnone). }
  destruct w; cbn in *.
  - split; [intros c Hc; replace c with h' by congruence; assumption|split; [|exact F3']; intros p Hp; apply F2; congruence].
  - split; [intros c Hc; apply F1; congruence|split; [|exact F3']; intros p Hp; replace p with h' by congruence; assumption].
Qed.

Lemma extend_rows hd rows : hd_rows (extend hd rows) = N.max (hd_rows hd) rows.
Proof. unfold extend. destruct (N.ltb_spec (hd_rows hd) rows); cbn; lia. Qed.
Lemma extend_actual hd rows : hd_actual (extend hd rows) = hd_actual hd.
Proof. unfold extend. destruct (hd_rows hd <? rows); reflexivity. Qed.

Lemma write_rows_step ok w name rows start data s m gh k h :
  Inv s m gh -> wrow w m k -> (m <= KR)%nat -> file_of w (s_acq s) = Some h ->
  (hf_dsets h name = None /\ write_rows ok w name rows start data s = (s, Throw ENoDataset)) \/
  exists hd d s' (b : bool),
    hf_dsets h name = Some hd /\ find_def (a_defs a0) name = Some d /\
    hd_rows hd = (if unl then rows_unl gh k name else fresh_rows a0 d (idx k)) /\
    write_rows ok w name rows start data s = (s', if b then Ret tt else Throw EHdf5) /\
    Inv s' m (gh ++ [Att k name rows start data b 0]) /\ s_log s' = s_log s /\ same_counts s s' /\ keeps w s s' /\
    b = ok && (start <? if unl then N.max (hd_rows hd) rows else hd_rows hd).
Proof.
  intros HI Hw Hm Hh. pose proof (wrow_le _ _ _ Hw) as Hkm.
  destruct (handle_of _ _ _ _ _ HI Hw) as (h1 & Hh1 & HO). rewrite Hh in Hh1. injection Hh1 as <-.
  unfold write_rows. rewrite bind_get, Hh.
  destruct (hf_dsets h name) as [hd|] eqn:Ehd; [right|left; split; reflexivity].
  destruct HO as (On & Oi & Oo & Ou & (df & Hdf & Hsy) & Oa).
  destruct (inv_files _ _ _ HI k Hkm) as (df1 & Hdf1 & Hall). rewrite Hdf in Hdf1. injection Hdf1 as <-.
  pose proof (Hsy name) as Hs1. rewrite Ehd in Hs1. destruct (df name) as [dd|] eqn:Edd; [|destruct Hs1].
  pose proof (Hall name) as Ha1. rewrite Edd in Ha1. destruct Ha1 as (d & D1 & D2 & D3).
  set (b := ok && (start <? if unl then N.max (hd_rows hd) rows else hd_rows hd)).
  assert (Hb : b = ok && (start <? if unl then N.max (dd_rows dd) rows else dd_rows dd))
    by (unfold b; rewrite Hs1; reflexivity).
  clearbody b.
  set (t := Att k name rows start data b 0).
  set (hd' := if hf_unlim h then extend hd rows else hd).
  set (h' := HFile (hf_name h) (hf_index h) (hf_open h) (hf_unlim h) (upd (hf_dsets h) name (Some hd'))).
  set (dd' := fst (store (hf_unlim h) dd rows start data ok)).
  set (dk' := upd (s_disk s) (hf_name h) (Some (upd df name (Some dd')))).
  set (s' := St (match w with Cur => with_cur (s_acq s) (Some h') | Prev => with_prev (s_acq s) (Some h') end) dk' (s_log s)).
  exists hd, d, s', b. split; [reflexivity|]. split; [exact D1|]. split; [congruence|].
  assert (Hsnd : snd (store (hf_unlim h) dd rows start data ok) = b).
  { unfold store. rewrite Ou, <- Hb. destruct b; reflexivity. }
  assert (Hr' : dd_rows dd' = if unl then N.max (dd_rows dd) rows else dd_rows dd).
  { unfold dd', store. rewrite Ou, <- Hb. destruct b; reflexivity. }
  assert (Hc' : forall row, dd_cells dd' row = if b && (start =? row) then Some data else dd_cells dd row).
  { intros row. unfold dd', store. rewrite Ou, <- Hb. destruct b; cbn; [|reflexivity].
    rewrite (N.eqb_sym row start). reflexivity. }
  assert (Hhr : hd_rows hd' = dd_rows dd').
  { rewrite Hr'. unfold hd'. rewrite Ou. destruct unl; [rewrite extend_rows; congruence|exact Hs1]. }
  split.
  { unfold bind. unfold put_file, put_cur, put_prev.
    destruct w; cbn [s_acq s_disk s_log]; rewrite On, Hdf, Edd;
      unfold set_disk; cbn [s_acq s_disk s_log];
      rewrite Hsnd; unfold s', dk', h', dd'; rewrite On; destruct b; reflexivity. }
  assert (Hk1 : keeps w s s').
  { split.
    - intros h1 Hh1. assert (h1 = h) by congruence. subst h1. exists h'. split; [destruct w; reflexivity|].
      intros x. unfold h'. cbn [hf_dsets]. unfold upd. destruct (String.eqb_spec x name) as [->|]; [|tauto].
      rewrite Ehd. split; discriminate.
    - split; [destruct w; reflexivity|]. split; [reflexivity|]. intros p df'. unfold s', dk'. cbn [s_disk].
      unfold upd at 1. destruct (String.eqb_spec p (hf_name h)) as [->|_]; [|eauto]. intros [= <-]. rewrite On. exists df.
      split; [exact Hdf|]. intros x. unfold upd. destruct (String.eqb x name); [discriminate|auto]. }
  split; [|split; [reflexivity|split; [destruct w; split; reflexivity|split; [exact Hk1|rewrite Hs1; exact Hb]]]].
  assert (Hat : forall k' ds, k' <> k -> at_file k' ds t = false).
  { intros k' ds Hne. destruct (at_file k' ds t) eqn:E; [|reflexivity]. apply at_file_true in E. cbn in E. lia. }
  apply (Inv_put s s' m gh (gh ++ [t]) w k h'); try eassumption.
  - destruct w; repeat split.
  - reflexivity.
  - destruct w; reflexivity.
  - apply Hk1.
  - intros p Hp. unfold s', dk'. cbn [s_disk]. apply upd_neq. rewrite On. exact Hp.
  - split; [exact On|]. split; [exact Oi|]. split; [exact Oo|]. split; [exact Ou|]. split.
    + exists (upd df name (Some dd')). split. { unfold s', dk'. cbn [s_disk]. rewrite On. apply upd_eq. }
      intros x. unfold h'. cbn [hf_dsets]. unfold upd. destruct (String.eqb x name); [exact Hhr|apply Hsy].
    + intros ds hd1. unfold h'. cbn [hf_dsets].
      assert (actual (gh ++ [t]) k ds = actual gh k ds) as ->
        by (rewrite actual_snoc; change (t_upto t) with 0; destruct (at_file k ds t && t_ok t); lia).
      unfold upd. destruct (String.eqb_spec ds name) as [->|].
      * intros [= <-]. unfold hd'. destruct (hf_unlim h); [rewrite extend_actual|]; apply Oa; exact Ehd.
      * apply Oa.
  - exists (upd df name (Some dd')). split. { unfold s', dk'. cbn [s_disk]. rewrite On. apply upd_eq. }
    intros x. unfold upd. destruct (String.eqb_spec x name) as [->|Hne].
    + exists d. split; [exact D1|].
      assert (at_file k name t = true) as Hatt by (apply at_file_true; split; reflexivity).
      rewrite rows_snoc, Hatt. cbn [t_rows t]. split.
      * rewrite Hr', D2. destruct unl; reflexivity.
      * intros row. rewrite cells_snoc, Hatt, Hc', D3. reflexivity.
    + assert (at_file k x t = false) as Hatf.
      { destruct (at_file k x t) eqn:E; [|reflexivity]. apply at_file_true in E. cbn in E. destruct E; congruence. }
      specialize (Hall x). destruct (df x) as [dd1|].
      * destruct Hall as (d1 & E1 & E2 & E3). exists d1. split; [exact E1|]. rewrite rows_snoc, Hatf. split; [exact E2|].
        intros row. rewrite cells_snoc, Hatf. apply E3.
      * intros u Hin. apply in_app_iff in Hin. destruct Hin as [Hin|[<-|[]]]; [apply Hall, Hin|exact Hatf].
  - intros k' ds Hne. rewrite rows_snoc, actual_snoc, (Hat k' ds Hne). split; [|split; [reflexivity|split; [reflexivity|]]].
    + intros row. rewrite cells_snoc, (Hat k' ds Hne). reflexivity.
    + intros Hn u Hin. apply in_app_iff in Hin. destruct Hin as [Hin|[<-|[]]]; [apply Hn, Hin|apply Hat, Hne].
  - intros u Hin. apply in_app_iff in Hin. destruct Hin as [Hin|[<-|[]]]; [apply (inv_rows _ _ _ HI), Hin|exact Hkm].
Qed.

Lemma note_actual_step w name u s m gh t k h hd :
  Inv s m (gh ++ [t]) -> wrow w m k -> (m <= KR)%nat -> file_of w (s_acq s) = Some h -> hf_dsets h name = Some hd ->
  t_row t = k -> t_ds t = name -> t_ok t = true -> t_upto t = 0 ->
  exists s', note_actual w name u s = (s', Ret tt) /\
    Inv s' m (gh ++ [Att k name (t_rows t) (t_start t) (t_data t) true u]) /\ s_log s' = s_log s /\
    same_counts s s' /\ keeps w s s'.
Proof.
  intros HI Hw Hm Hh Hhd Tr Td To Tu.
  destruct (handle_of _ _ _ _ _ HI Hw) as (h1 & Hh1 & HO). rewrite Hh in Hh1. injection Hh1 as <-.
  destruct HO as (On & Oi & Oo & Ou & (df & Hdf & Hsy) & Oa).
  unfold note_actual. rewrite bind_get, Hh, Hhd.
  set (t' := Att k name (t_rows t) (t_start t) (t_data t) true u).
  set (h' := HFile (hf_name h) (hf_index h) (hf_open h) (hf_unlim h)
               (upd (hf_dsets h) name (Some (HDset (hd_rows hd) (N.max (hd_actual hd) u))))).
  set (s' := St (match w with Cur => with_cur (s_acq s) (Some h') | Prev => with_prev (s_acq s) (Some h') end)
                (s_disk s) (s_log s)).
  exists s'. split; [destruct w; reflexivity|].
  assert (Hk1 : keeps w s s').
  { split.
    - intros h1 Hh1. assert (h1 = h) by congruence. subst h1. exists h'. split; [destruct w; reflexivity|].
      intros x. unfold h'. cbn [hf_dsets]. unfold upd. destruct (String.eqb_spec x name) as [->|]; [|tauto].
      rewrite Hhd. split; discriminate.
    - split; [destruct w; reflexivity|]. split; [reflexivity|eauto]. }
  split; [|split; [reflexivity|split; [destruct w; split; reflexivity|exact Hk1]]].
  assert (Hat : forall k' ds, at_file k' ds t' = at_file k' ds t).
  { intros k' ds. unfold at_file. cbn [t_row t_ds t']. rewrite Tr, Td. reflexivity. }
  assert (HC : forall k' ds row, cells_of (gh ++ [t']) k' ds row = cells_of (gh ++ [t]) k' ds row).
  { intros k' ds row. rewrite !cells_snoc, Hat, To. reflexivity. }
  assert (HR : forall k' ds, rows_unl (gh ++ [t']) k' ds = rows_unl (gh ++ [t]) k' ds).
  { intros k' ds. rewrite !rows_snoc, Hat. reflexivity. }
  assert (HA : forall k' ds, at_file k' ds t = false -> actual (gh ++ [t']) k' ds = actual (gh ++ [t]) k' ds).
  { intros k' ds E. rewrite !actual_snoc, Hat, E. reflexivity. }
  assert (HIn : forall k' ds, (forall v, In v (gh ++ [t]) -> at_file k' ds v = false) ->
                forall v, In v (gh ++ [t']) -> at_file k' ds v = false).
  { intros k' ds Hn v Hin. apply in_app_iff in Hin. destruct Hin as [Hin|[<-|[]]].
    - apply Hn, in_or_app. left. exact Hin.
    - rewrite Hat. apply Hn, in_or_app. right. left. reflexivity. }
  assert (Hkm := wrow_le _ _ _ Hw).
  apply (Inv_put s s' m (gh ++ [t]) (gh ++ [t']) w k h'); try assumption.
  - destruct w; repeat split.
  - reflexivity.
  - destruct w; reflexivity.
  - apply Hk1.
  - intros p Hp. reflexivity.
  - repeat (split; [assumption|]). split.
    + exists df. split; [exact Hdf|]. intros x. unfold h'. cbn [hf_dsets]. unfold upd.
      destruct (String.eqb_spec x name) as [->|]; [|apply Hsy]. specialize (Hsy name). rewrite Hhd in Hsy. exact Hsy.
    + intros ds hd1. unfold h'. cbn [hf_dsets]. unfold upd. destruct (String.eqb_spec ds name) as [->|Hne].
      * intros [= <-]. cbn [hd_actual]. rewrite (Oa name hd Hhd), !actual_snoc, Hat.
        assert (at_file k name t = true) as -> by (apply at_file_true; split; assumption). rewrite To, Tu.
        cbn [t_ok t_upto t' andb]. lia.
      * intros Hd1. rewrite HA; [apply Oa, Hd1|].
        destruct (at_file k ds t) eqn:E; [|reflexivity]. apply at_file_true in E. destruct E; congruence.
  - destruct (inv_files _ _ _ HI k Hkm) as (df1 & Hdf1 & Hall). exists df1. split; [exact Hdf1|].
    intros ds. specialize (Hall ds). destruct (df1 ds) as [dd|]; [|apply HIn, Hall].
    destruct Hall as (d & D1 & D2 & D3). exists d. split; [exact D1|]. rewrite HR. split; [exact D2|].
    intros row. rewrite HC. apply D3.
  - intros k' ds Hne. split; [intros row; apply HC|]. split; [apply HR|]. split; [|apply HIn].
    apply HA. destruct (at_file k' ds t) eqn:E; [|reflexivity]. apply at_file_true in E. destruct E; congruence.
  - intros v Hin. apply in_app_iff in Hin. destruct Hin as [Hin|[<-|[]]]; [|exact Hkm].
    apply (inv_rows _ _ _ HI), in_or_app. left. exact Hin.
Qed.

(** The attempt to store the image of a frame. *)
Definition img (f : frame) (k : nat) (c0 slot : N) (b : bool) : att :=
  Att k (f_dataset f) ((slot + 1) * c0) (slot * c0) (f_data f) b (if b then slot * c0 + f_ocs f else 0).

Lemma write_frame_step i w f slot c0 s m gh k h :
  Inv s m gh -> wrow w m k -> (m <= KR)%nat -> file_of w (s_acq s) = Some h ->
  (hf_dsets h (f_dataset f) = None /\ write_frame i w f slot c0 s = (s, Throw ENoDataset)) \/
  exists hd d s' (b : bool),
    hf_dsets h (f_dataset f) = Some hd /\ find_def (a_defs a0) (f_dataset f) = Some d /\
    write_frame i w f slot c0 s = (s', if b then Ret tt else Throw EHdf5) /\
    Inv s' m (gh ++ [img f k c0 slot b]) /\ s_log s' = s_log s /\ same_counts s s' /\ keeps w s s' /\
    (b = true <-> io_write i = true /\
       slot * c0 < if unl then N.max (rows_unl gh k (f_dataset f)) ((slot + 1) * c0) else fresh_rows a0 d (idx k)).
Proof.
  intros HI Hw Hm Hh. unfold write_frame.
  destruct (write_rows_step (io_write i) w (f_dataset f) ((slot + 1) * c0) (slot * c0) (f_data f) s m gh k h HI Hw Hm Hh)
    as [(H1 & H2)|(hd & d & s1 & b & Hhd & Hd & Hrw & E & HI1 & Hl1 & Hsc1 & Hk1 & Hb)].
  - left. split; [exact H1|]. unfold bind. rewrite H2. reflexivity.
  - right. unfold bind. rewrite E.
    assert (Hbb : b = true <-> io_write i = true /\
       slot * c0 < if unl then N.max (rows_unl gh k (f_dataset f)) ((slot + 1) * c0) else fresh_rows a0 d (idx k)).
    { rewrite Hb, andb_true_iff, N.ltb_lt, Hrw. destruct unl; reflexivity. }
    destruct b.
    + destruct Hk1 as (K1 & K2). destruct (K1 h Hh) as (h1 & Hh1 & HD).
      destruct (hf_dsets h1 (f_dataset f)) as [hd1|] eqn:Ehd1; [|apply HD in Ehd1; congruence].
      destruct (note_actual_step w (f_dataset f) (slot * c0 + f_ocs f) s1 m gh _ k h1 hd1 HI1 Hw Hm Hh1 Ehd1)
        as (s2 & E2 & HI2 & Hl2 & Hsc2 & Hk2); try reflexivity.
      exists hd, d, s2, true. split; [exact Hhd|]. split; [exact Hd|]. split; [exact E2|]. split; [exact HI2|].
      split; [congruence|]. split; [eapply same_counts_trans; eassumption|].
      split; [eapply keeps_trans; [split; eassumption|exact Hk2]|exact Hbb].
    + exists hd, d, s1, false. split; [exact Hhd|]. split; [exact Hd|]. split; [reflexivity|]. split; [exact HI1|].
      split; [exact Hl1|]. split; [exact Hsc1|]. split; [exact Hk1|exact Hbb].
Qed.

(** The attempts to store the parameters of a frame; the boolean tells whether all of them worked. *)
Inductive patts (i : io) (k : nat) (slot : N) (absent : string -> Prop) :
  list (string * pval) -> list att -> bool -> Prop :=
| pa_nil : patts i k slot absent [] [] true
| pa_skip n v ps l b : find_def (a_defs a0) n = None -> patts i k slot absent ps l b ->
    patts i k slot absent ((n, v) :: ps) l b
| pa_stop n v ps d : find_def (a_defs a0) n = Some d ->
    (exists e, param_value d v = Throw e) \/ absent n ->
    patts i k slot absent ((n, v) :: ps) [] false
| pa_fail n v ps d x : find_def (a_defs a0) n = Some d -> param_value d v = Ret x ->
    io_param i = false \/ (unl = false /\ fresh_rows a0 d (idx k) <= slot) ->
    patts i k slot absent ((n, v) :: ps) [Att k n (slot + 1) slot [x] false 0] false
| pa_ok n v ps d x l b : find_def (a_defs a0) n = Some d -> param_value d v = Ret x ->
    patts i k slot absent ps l b ->
    patts i k slot absent ((n, v) :: ps) (Att k n (slot + 1) slot [x] true 0 :: l) b.

Lemma patts_absent i k slot (A B : string -> Prop) ps l b :
  (forall x, A x -> B x) -> patts i k slot A ps l b -> patts i k slot B ps l b.
Proof.
  intros HAB H. induction H; [constructor|eapply pa_skip; eassumption|eapply pa_stop; [eassumption|]|
    eapply pa_fail; eassumption|eapply pa_ok; eassumption].
  destruct H0 as [H0|H0]; [left; exact H0|right; apply HAB, H0].
Qed.

Lemma write_params_step i w slot k : forall ps s m gh h,
  Inv s m gh -> wrow w m k -> (m <= KR)%nat -> file_of w (s_acq s) = Some h ->
  exists s' o l fin,
    write_params i w ps slot s = (s', o) /\ o <> Undef /\ Inv s' m (gh ++ l) /\ s_log s' = s_log s /\
    same_counts s s' /\ keeps w s s' /\ patts i k slot (fun x => hf_dsets h x = None) ps l fin /\
    (o = Ret tt <-> fin = true).
Proof.
  induction ps as [|[n v] ps IH]; intros s m gh h HI Hw Hm Hh.
  - exists s, (Ret tt), [], true. rewrite app_nil_r. split; [reflexivity|]. split; [discriminate|].
    split; [exact HI|]. split; [reflexivity|]. split; [apply same_counts_refl|]. split; [apply keeps_refl|].
    split; [constructor|tauto].
  - cbn [write_params]. rewrite bind_get.
    pose proof (inv_cfg _ _ _ HI) as (_ & _ & _ & _ & _ & _ & C7). rewrite C7.
    destruct (find_def (a_defs a0) n) as [d|] eqn:Ed.
    + destruct (find_def_some _ _ Ed) as (Hin & Hn).
      destruct (param_value d v) as [x|e|] eqn:Ev.
      * cbn [olift]. rewrite bind_ret. rewrite Hn. unfold bind.
        destruct (write_rows_step (io_param i) w n (slot + 1) slot [x] s m gh k h HI Hw Hm Hh)
          as [(H1 & H2)|(hd & d' & s1 & b & Hhd & Hd & Hrw & E & HI1 & Hl1 & Hsc1 & Hk1 & Hb)].
        { rewrite H2. exists s, (Throw ENoDataset), [], false. rewrite app_nil_r. split; [reflexivity|].
          split; [discriminate|]. split; [exact HI|]. split; [reflexivity|]. split; [apply same_counts_refl|].
          split; [apply keeps_refl|]. split; [|split; discriminate]. eapply pa_stop; [exact Ed|right; exact H1]. }
        rewrite E. rewrite Ed in Hd. injection Hd as <-. destruct b.
        { destruct Hk1 as (K1 & K2). destruct (K1 h Hh) as (h1 & Hh1 & HD).
          destruct (IH s1 m _ h1 HI1 Hw Hm Hh1) as (s2 & o & l & fin & E2 & Hou & HI2 & Hl2 & Hsc2 & Hk2 & Hpa & Ho).
          rewrite E2. exists s2, o, (Att k n (slot + 1) slot [x] true 0 :: l), fin.
          split; [reflexivity|]. split; [exact Hou|]. split. { rewrite <- app_assoc in HI2. exact HI2. }
          split; [congruence|]. split; [eapply same_counts_trans; eassumption|].
          split; [eapply keeps_trans; [split; eassumption|exact Hk2]|]. split; [|exact Ho].
          eapply pa_ok; [exact Ed|exact Ev|]. eapply patts_absent; [|exact Hpa]. intros y. apply HD. }
        { exists s1, (Throw EHdf5), [Att k n (slot + 1) slot [x] false 0], false.
          split; [reflexivity|]. split; [discriminate|]. split; [exact HI1|]. split; [exact Hl1|].
          split; [exact Hsc1|]. split; [exact Hk1|]. split; [|split; discriminate].
          eapply pa_fail; [exact Ed|exact Ev|]. symmetry in Hb. rewrite andb_false_iff, N.ltb_ge in Hb.
          destruct Hb as [Hb|Hb]; [left; exact Hb|right]. rewrite Hrw in Hb.
          destruct unl; [lia|]. split; [reflexivity|exact Hb]. }
      * cbn [olift]. exists s, (Throw e), [], false. rewrite app_nil_r. split; [reflexivity|].
        split; [discriminate|]. split; [exact HI|]. split; [reflexivity|]. split; [apply same_counts_refl|].
        split; [apply keeps_refl|]. split; [|split; discriminate]. eapply pa_stop; [exact Ed|left; eauto].
      * exfalso. unfold param_value in Ev. destruct v as [tv xv], (dtype_eqb tv _); discriminate.
    + destruct (IH s m gh h HI Hw Hm Hh) as (s2 & o & l & fin & E2 & Hou & HI2 & Hl2 & Hsc2 & Hk2 & Hpa & Ho).
      exists s2, o, l, fin. repeat (split; [assumption|]). split; [apply pa_skip; assumption|exact Ho].
Qed.

(** ** Counting *)

Definition counted (f : frame) : bool := String.eqb (a_master a0) "" || String.eqb (a_master a0) (f_dataset f).

(** Frames of this process in the files before file [m]. *)
Definition before (m : nat) : N := N.of_nat m * g_fpb (a_geom a0) * g_bpf (a_geom a0).

Lemma Inv_acq s s' m gh : Inv s m gh -> same_cfg (s_acq s') (s_acq s) ->
  a_cur (s_acq s') = a_cur (s_acq s) -> a_prev (s_acq s') = a_prev (s_acq s) -> s_disk s' = s_disk s ->
  created (s_log s') = created (s_log s) -> closed (s_log s') = closed (s_log s) -> Inv s' m gh.
Proof.
  intros HI Hcfg Hc Hp Hd Hl1 Hl2. constructor.
  - eapply same_cfg_trans; [exact Hcfg|apply (inv_cfg _ _ _ HI)].
  - rewrite Hc, Hd. apply (inv_cur _ _ _ HI).
  - rewrite Hp, Hd. apply (inv_prev _ _ _ HI).
  - rewrite Hd. apply (inv_files _ _ _ HI).
  - rewrite Hd. apply (inv_others _ _ _ HI).
  - apply (inv_rows _ _ _ HI).
  - rewrite Hl1. apply (inv_created _ _ _ HI).
  - rewrite Hl2. apply (inv_closed _ _ _ HI).
Qed.

Lemma count_frame_step f s m gh : Inv s m gh ->
  (exists s', count_frame f s = (s', Ret tt) /\ Inv s' m gh /\ s_log s' = s_log s /\ (Full s -> Full s') /\
    a_written (s_acq s') = (if counted f then N.max (a_written (s_acq s)) (before m + actual gh m (f_dataset f))
                            else a_written (s_acq s)) /\
    a_processed (s_acq s') = (if counted f then a_processed (s_acq s) + f_ocs f else a_processed (s_acq s))) \/
  (exists c, count_frame f s = (s, Throw ENoDataset) /\ counted f = true /\
     a_cur (s_acq s) = Some c /\ hf_dsets c (f_dataset f) = None).
Proof.
  intros HI. unfold count_frame, counted. rewrite bind_get.
  pose proof (inv_cfg _ _ _ HI) as (C1 & _ & _ & C4 & _ & _ & _). rewrite C4, C1.
  destruct (_ || _) eqn:Em.
  - destruct (inv_cur _ _ _ HI) as (c & Hc & (On & Oi & Oo & Ou & Od & Oa)). rewrite Hc.
    destruct (hf_dsets c (f_dataset f)) as [hd|] eqn:Ehd; [left|right; eauto 6].
    destruct (N.eqb_spec (g_procs (a_geom a0)) 0); [lia|].
    rewrite Oi, idx_div, (Oa _ _ Ehd).
    eexists. split; [reflexivity|]. cbn [s_acq s_log with_counts a_written a_processed].
    split; [|split; [reflexivity|split; [auto|split; reflexivity]]].
    apply (Inv_acq s); try reflexivity; [exact HI|repeat split].
  - left. exists s. split; [reflexivity|]. split; [exact HI|]. split; [reflexivity|]. split; [auto|]. split; reflexivity.
Qed.

(** ** One frame *)

(** The bound check of Acquisition.cpp:121-125 for a fixed dataset of [rows] rows. *)
Definition dmo_refuses (rows slot : N) : bool :=
  negb (i32 (Z.of_N rows - 1) =? 0)%Z && (u64 (i32 (Z.of_N rows - 1)) <? slot).

Definition mine (off : N) : bool :=
  (off / g_fpb (a_geom a0)) mod g_procs (a_geom a0) =? g_rank (a_geom a0).

(** Status reported after a frame was stored and counted. *)
Definition status_of (s' : st) : status :=
  if (0 <? a_towrite a0) && (a_written (s_acq s') =? a_towrite a0)
  then (if a_towrite a0 <=? a_processed (s_acq s') then SComplete else SMissing)
  else SOk.

Definition all_created (i : io) (m k : nat) : Prop := forall j, (m < j <= k)%nat -> create_good i j.

(** Nothing was attempted; why. *)
Inductive refused (i : io) (f : frame) (s : st) (m : nat) (s' : st) (m' : nat) : Prop :=
| rf_invalid : check_frame_valid a0 f = false -> s' = s -> m' = m -> refused i f s m s' m'
| rf_range e : adjust_frame_offset (f_number f) (f_adj f) = Throw e -> s' = s -> m' = m -> refused i f s m s' m'
| rf_rank off : adjust_frame_offset (f_number f) (f_adj f) = Ret off -> mine off = false ->
    s' = s -> m' = m -> refused i f s m s' m'
| rf_late off : adjust_frame_offset (f_number f) (f_adj f) = Ret off -> mine off = true -> (S (krow off) < m)%nat ->
    s' = s -> m' = m -> refused i f s m s' m'
| rf_create off : adjust_frame_offset (f_number f) (f_adj f) = Ret off -> mine off = true -> (m < krow off)%nat ->
    (m <= m' <= krow off)%nat -> ~ all_created i m (krow off) -> refused i f s m s' m'
| rf_absent off : adjust_frame_offset (f_number f) (f_adj f) = Ret off -> mine off = true -> (m <= S (krow off))%nat ->
    m' = Nat.max m (krow off) -> ~ Full s' -> refused i f s m s' m'
| rf_bound off d : adjust_frame_offset (f_number f) (f_adj f) = Ret off -> mine off = true -> (m <= S (krow off))%nat ->
    m' = Nat.max m (krow off) -> find_def (a_defs a0) (f_dataset f) = Some d -> unl = false ->
    dmo_refuses (fresh_rows a0 d (idx (krow off))) (kslot off) = true -> refused i f s m s' m'.

(** Something was attempted; what. *)
Record attempted (i : io) (f : frame) (s : st) (m : nat) (gh : list att)
                 (s' : st) (m' : nat) (l : list att) (r : status) (off c0 : N) (d : dsdef) (b fin : bool) (ps : list att) : Prop := {
  at_valid : check_frame_valid a0 f = true;
  at_off : adjust_frame_offset (f_number f) (f_adj f) = Ret off;
  at_mine : mine off = true;
  at_window : (m <= S (krow off))%nat;
  at_m : m' = Nat.max m (krow off);
  at_def : find_def (a_defs a0) (f_dataset f) = Some d;
  at_c0 : hd_error (d_chunks d) = Some c0;
  at_list : l = img f (krow off) c0 (kslot off) b :: ps;
  at_b : b = true <-> io_write i = true /\ kslot off * c0 <
           if unl then N.max (rows_unl gh (krow off) (f_dataset f)) ((kslot off + 1) * c0)
           else fresh_rows a0 d (idx (krow off));
  at_nob : b = false -> ps = [] /\ fin = false;
  at_params : b = true -> patts i (krow off) (kslot off) (fun _ => ~ Full s') (f_params f) ps fin;
  at_nofin : fin = false -> r = SInvalid /\ same_counts s s';
  at_fin : fin = true ->
    (r = SInvalid /\ same_counts s s' /\ ~ Full s') \/
    (r = status_of s' /\
     a_written (s_acq s') = (if counted f then N.max (a_written (s_acq s)) (before m' + actual (gh ++ l) m' (f_dataset f))
                            else a_written (s_acq s)) /\
     a_processed (s_acq s') = (if counted f then a_processed (s_acq s) + f_ocs f else a_processed (s_acq s))) }.

Definition outcome_of (i : io) (f : frame) (s : st) (m : nat) (gh : list att)
                 (s' : st) (m' : nat) (l : list att) (r : status) : Prop :=
  (refused i f s m s' m' /\ l = [] /\ r = SInvalid /\ same_counts s s') \/
  exists off c0 d b fin ps, attempted i f s m gh s' m' l r off c0 d b fin ps.

Lemma adjust_lt n adj off : adjust_frame_offset n adj = Ret off -> off < 2 ^ 64.
Proof.
  unfold adjust_frame_offset. destruct (negb _); [discriminate|]. destruct (_ <? 0)%Z; [discriminate|].
  intros [= <-]. unfold u64. pose proof (Z.mod_pos_bound (Z.of_N n + adj) (2^64)). lia.
Qed.

Lemma kslot_le off : kslot off <= off.
Proof.
  unfold kslot, slot_of. set (P := g_procs (a_geom a0)). set (F := g_fpb (a_geom a0)). set (B := g_bpf (a_geom a0)).
  assert (H1 : off / F / P * F + off mod F <= off).
  { destruct (decompose P F off HP HF) as (q & p & f & -> & Hp & Hf).
    rewrite (dma (q * P + p) F f), (mma (q * P + p) F f) by assumption. rewrite (dma q P p) by assumption.
    assert (1 <= P) by exact HP. nia. }
  destruct (B =? 0) eqn:EB; [exact H1|]. apply N.eqb_neq in EB.
  pose proof (N.mod_le (off / F / P) B EB). nia.
Qed.

Context (Hchunks : forall d, In d (a_defs a0) -> d_chunks d <> []).

Lemma process_step i f s m gh :
  Inv s m gh -> (g_bpf (a_geom a0) = 0 -> m = O) -> (m <= KR)%nat ->
  (forall j, io_create i (idx j) = true) ->
  adjust_frame_offset (f_number f) (f_adj f) <> Undef ->
  (forall off, adjust_frame_offset (f_number f) (f_adj f) = Ret off -> (krow off <= KR)%nat) ->
  exists s' r m' l,
    process_frame i f s = (s', Some r) /\ Inv s' m' (gh ++ l) /\
    (g_bpf (a_geom a0) = 0 -> m' = O) /\ (m <= m' <= KR)%nat /\
    outcome_of i f s m gh s' m' l r /\
    ((forall off, adjust_frame_offset (f_number f) (f_adj f) = Ret off -> all_created i m (krow off)) -> Full s -> Full s').
Proof.
  intros HI HB Hm Hcr Hadj Hk.
  pose proof (inv_cfg _ _ _ HI) as Hcfg. pose proof Hcfg as (C1 & _ & _ & _ & _ & _ & C7).
  unfold process_frame, process_body. rewrite bind_get.
  assert (check_frame_valid (s_acq s) f = check_frame_valid a0 f) as -> by (unfold check_frame_valid; rewrite C7; reflexivity).
  assert (Hstop : forall s' r m', r = SInvalid -> Inv s' m' gh -> (g_bpf (a_geom a0) = 0 -> m' = O) -> (m <= m' <= KR)%nat ->
     refused i f s m s' m' -> same_counts s s' ->
     ((forall off, adjust_frame_offset (f_number f) (f_adj f) = Ret off -> all_created i m (krow off)) -> Full s -> Full s') ->
     exists s1 r1 m1 l,
      (s', Some r) = (s1, Some r1) /\ Inv s1 m1 (gh ++ l) /\
      (g_bpf (a_geom a0) = 0 -> m1 = O) /\ (m <= m1 <= KR)%nat /\
      outcome_of i f s m gh s1 m1 l r1 /\
      ((forall off, adjust_frame_offset (f_number f) (f_adj f) = Ret off -> all_created i m (krow off)) -> Full s -> Full s1)).
  { intros s' r m' -> HI' HB' Hm' Href Hsc HFu. exists s', SInvalid, m', []. rewrite app_nil_r.
    split; [reflexivity|]. split; [exact HI'|]. split; [exact HB'|]. split; [exact Hm'|]. split; [|exact HFu].
    left. split; [exact Href|]. split; [reflexivity|]. split; [reflexivity|exact Hsc]. }
  destruct (check_frame_valid a0 f) eqn:Ecv; cbn [negb].
  2: { apply (Hstop s SInvalid m); auto; [apply rf_invalid; auto|apply same_counts_refl]. }
  destruct (adjust_frame_offset (f_number f) (f_adj f)) as [off|e|] eqn:Eadj; [| |congruence].
  2: { cbn. apply (Hstop s SInvalid m); auto; [eapply rf_range; eauto|apply same_counts_refl]. }
  rewrite bind_ret. specialize (Hk off eq_refl).
  rewrite C1, rank_test_true by assumption. cbn [lift]. rewrite bind_ret.
  fold (mine off). destruct (mine off) eqn:Emine; cbn [negb].
  2: { apply (Hstop s SInvalid m); auto; [eapply rf_rank; eauto|apply same_counts_refl]. }
  unfold bind at 1.
  destruct (get_file_step i s m gh off HI Hk HB Hcr)
    as (s1 & o1 & m1 & E1 & Hou1 & HI1 & Hsc1 & Hm1 & Hw1 & Hn1 & Hs1 & Ht1 & Hg1).
  rewrite E1.
  assert (HB1 : g_bpf (a_geom a0) = 0 -> m1 = O).
  { intros H0. specialize (HB H0). assert (krow off = O) by (unfold krow, row_of; rewrite H0; reflexivity). lia. }
  assert (HFu1 : (forall off0, Ret off = Ret (E:=range_error) off0 -> all_created i m (krow off0)) -> Full s -> Full s1).
  { intros Hg. apply Hg1, (Hg off eq_refl). }
  destruct o1 as [[w|]|e|]; [| | |congruence].
  2: { (* too late *)
    destruct Hn1 as (Hn1 & _). specialize (Hn1 eq_refl). rewrite (Hs1 eq_refl) in *. assert (m1 = m) as -> by lia.
    apply (Hstop s SInvalid m); auto. eapply rf_late; eauto. }
  2: { (* creation failed *)
    apply (Hstop s1 SInvalid m1); auto; [lia|].
    specialize (Ht1 e eq_refl). eapply rf_create; [exact Eadj|exact Emine|exact Ht1|lia|].
    intros Hall. destruct (Hg1 Hall) as (Hno & _). exact (Hno e eq_refl). }
  destruct (Hw1 w eq_refl) as (Hww & Hmm). clear Hw1.
  assert (Hwin : (m <= S (krow off))%nat) by (destruct w; cbn in Hww; lia).
  assert (Hm1' : (m1 <= KR)%nat) by lia.
  rewrite bind_get.
  pose proof (inv_cfg _ _ _ HI1) as Hcfg1. pose proof Hcfg1 as (D1 & _ & _ & _ & _ & D6 & D7).
  rewrite (offset_kslot _ off Hcfg1). cbn [lift]. rewrite bind_ret.
  destruct (handle_of _ _ _ _ _ HI1 Hww) as (h & Hh & HO). rewrite Hh.
  pose proof HO as (On & Oi & Oo & Ou & (df & Hdf & Hsy) & Oa).
  rewrite D7.
  destruct (find_def (a_defs a0) (f_dataset f)) as [d|] eqn:Ed.
  2: { exfalso. unfold check_frame_valid in Ecv. rewrite Ed in Ecv. discriminate. }
  destruct (find_def_some _ _ Ed) as (Hdin & Hdn).
  destruct (d_chunks d) as [|c0 ct] eqn:Ech; [exfalso; eapply Hchunks; eassumption|].
  assert (Habs : forall s', (forall h', file_of w (s_acq s') = Some h' -> full h' -> hf_dsets h' (f_dataset f) <> None)).
  { intros s' h' _ Hf. rewrite <- Hdn. apply Hf, Hdin. }
  assert (HabsF : forall h' s', file_of w (s_acq s') = Some h' -> forall x dx, find_def (a_defs a0) x = Some dx ->
             hf_dsets h' x = None -> ~ Full s').
  { intros h' s' Hh' x dx Hx Hnone (F1 & F2 & _). destruct (find_def_some _ _ Hx) as (Hxi & <-).
    assert (full h') as Hf by (destruct w; cbn in Hh'; auto). exact (Hf dx Hxi Hnone). }
  (* bound check *)
  unfold max_size. rewrite Ou.
  assert (Hmx : (exists mx, (if unl then Ret 0 else match hf_dsets h (f_dataset f) with Some d1 => Ret (hd_rows d1) | None => Throw ENoDataset end) = Ret (E:=exn) mx /\
             ((negb (i32 (Z.of_N mx - 1) =? 0)%Z && (u64 (i32 (Z.of_N mx - 1)) <? kslot off)) = true ->
                unl = false /\ dmo_refuses (fresh_rows a0 d (idx (krow off))) (kslot off) = true)) \/
           ((if unl then Ret 0 else match hf_dsets h (f_dataset f) with Some d1 => Ret (hd_rows d1) | None => Throw ENoDataset end) = Throw ENoDataset /\ hf_dsets h (f_dataset f) = None)).
  { destruct unl eqn:Eunl.
    - left. exists 0. split; [reflexivity|]. intros Hx. exfalso.
      rewrite andb_true_iff, N.ltb_lt in Hx. destruct Hx as (_ & Hx).
      pose proof (adjust_lt _ _ _ Eadj). pose proof (kslot_le off).
      change (u64 (i32 (Z.of_N 0 - 1))) with 18446744073709551615 in Hx. lia.
    - destruct (hf_dsets h (f_dataset f)) as [hd|] eqn:Ehd; [left|right; split; reflexivity].
      exists (hd_rows hd). split; [reflexivity|].
      destruct (inv_files _ _ _ HI1 (krow off) (wrow_le _ _ _ Hww)) as (df1 & Hdf1 & Hall).
      rewrite Hdf in Hdf1. injection Hdf1 as <-. specialize (Hsy (f_dataset f)). rewrite Ehd in Hsy.
      specialize (Hall (f_dataset f)). destruct (df (f_dataset f)) as [dd|]; [|destruct Hsy].
      destruct Hall as (d' & Hd' & Hrw & _). rewrite Ed in Hd'. injection Hd' as <-. rewrite Eunl in Hrw.
      unfold dmo_refuses. rewrite Hsy, Hrw. auto. }
  destruct Hmx as [(mx & -> & Hmx)|(-> & Hnone)].
  2: { cbn. apply (Hstop s1 SInvalid m1); auto; [lia|].
       eapply rf_absent; [exact Eadj|exact Emine|exact Hwin|exact Hmm|]. eapply HabsF; eassumption. }
  cbn [olift]. rewrite bind_ret. cbv zeta.
  destruct (negb _ && _) eqn:Edmo.
  { destruct (Hmx eq_refl) as (Hu & Hdm). apply (Hstop s1 SInvalid m1); auto; [lia|].
    eapply rf_bound; eauto. }
  clear Hmx Edmo.
  (* write *)
  unfold bind at 1.
  destruct (write_frame_step i w f (kslot off) c0 s1 m1 gh (krow off) h HI1 Hww Hm1' Hh)
    as [(Hnone & Ewf)|(hd & d' & s2 & b & Hhd & Hd' & Ewf & HI2 & Hl2 & Hsc2 & Hk2 & Hb)].
  { rewrite Ewf. apply (Hstop s1 SInvalid m1); auto; [lia|].
    eapply rf_absent; [exact Eadj|exact Emine|exact Hwin|exact Hmm|]. eapply HabsF; eassumption. }
  rewrite Ed in Hd'. injection Hd' as <-. rewrite Ewf.
  assert (HFu2 : Full s1 -> Full s2) by (eapply keeps_full; eassumption).
  destruct b.
  2: { (* image refused by HDF5 *)
    exists s2, SInvalid, m1, [img f (krow off) c0 (kslot off) false].
    split; [reflexivity|]. split; [exact HI2|]. split; [exact HB1|]. split; [lia|]. split.
    - right. exists off, c0, d, false, false, []. constructor; try assumption; try reflexivity; try discriminate; auto.
      + rewrite Ech. reflexivity.
      + intros _. split; [reflexivity|]. eapply same_counts_trans; eassumption.
    - intros Hg HFs. apply HFu2, HFu1; assumption. }
  destruct Hk2 as (K1 & K2). destruct (K1 h Hh) as (h2 & Hh2 & HD2).
  unfold bind at 1.
  destruct (write_params_step i w (kslot off) (krow off) (f_params f) s2 m1 _ h2 HI2 Hww Hm1' Hh2)
    as (s3 & o3 & ps & fin & E3 & Hou3 & HI3 & Hl3 & Hsc3 & Hk3 & Hpa & Ho3).
  rewrite E3.
  assert (HFu3 : Full s2 -> Full s3) by (eapply keeps_full; eassumption).
  set (l := img f (krow off) c0 (kslot off) true :: ps).
  assert (Happ : (gh ++ [img f (krow off) c0 (kslot off) true]) ++ ps = gh ++ l) by (rewrite <- app_assoc; reflexivity).
  rewrite Happ in HI3.
  destruct Hk3 as (K3 & K4). destruct (K3 h2 Hh2) as (h3 & Hh3 & HD3).
  assert (Hpa' : forall s', file_of w (s_acq s') = Some h3 -> a_cur (s_acq s') = a_cur (s_acq s3) -> a_prev (s_acq s') = a_prev (s_acq s3) ->
            patts i (krow off) (kslot off) (fun _ => ~ Full s') (f_params f) ps fin).
  { intros s' Hs' _ _. clear -Hpa HD3 Hs' HabsF. 
    induction Hpa; [constructor|eapply pa_skip; eassumption|eapply pa_stop; [eassumption|]|
       eapply pa_fail; eassumption|eapply pa_ok; eassumption].
    destruct H0 as [H0|H0]; [left; exact H0|right]. apply HD3 in H0. eapply HabsF; eassumption. }
  destruct fin.
  2: { (* a parameter could not be stored *)
    assert (exists e, o3 = Throw e) as (e & ->).
    { destruct o3 as [[]|e|]; [destruct Ho3 as (Ho3 & _); discriminate (Ho3 eq_refl)|eauto|congruence]. }
    exists s3, SInvalid, m1, l.
    split; [reflexivity|]. split; [exact HI3|]. split; [exact HB1|]. split; [lia|]. split.
    - right. exists off, c0, d, true, false, ps. constructor; try assumption; try reflexivity; try discriminate; auto.
      + rewrite Ech. reflexivity.
      + intros _. split; [reflexivity|]. eapply same_counts_trans; [exact Hsc1|]. eapply same_counts_trans; eassumption.
    - intros Hg HFs. apply HFu3, HFu2, HFu1; assumption. }
  destruct Ho3 as (_ & Ho3). rewrite (Ho3 eq_refl).
  unfold bind at 1, emit.
  set (s4 := St (s_acq s3) (s_disk s3) (s_log s3 ++ [EvWrite (f_number f) off])).
  assert (HI4 : Inv s4 m1 (gh ++ l)).
  { apply (Inv_acq s3); try reflexivity; [exact HI3|apply same_cfg_refl| |]; unfold s4; cbn [s_log].
    - rewrite created_app. apply app_nil_r.
    - rewrite closed_app. apply app_nil_r. }
  assert (HFu4 : Full s3 -> Full s4).
  { intros (F1 & F2 & F3). split; [exact F1|]. split; [exact F2|]. intros p df1 d0. unfold s4. cbn [s_log s_disk].
    rewrite created_app. cbn. rewrite app_nil_r. apply F3. }
  unfold bind at 1.
  destruct (count_frame_step f s4 m1 _ HI4) as [(s5 & E5 & HI5 & Hl5 & HFu5 & Hwr5 & Hpr5)|(c & E5 & Hct & Hc & Hnone)].
  - rewrite E5. rewrite bind_get.
    pose proof (inv_cfg _ _ _ HI5) as (_ & _ & _ & _ & _ & G6 & _). rewrite G6.
    exists s5, (status_of s5), m1, l. split.
    { unfold status_of. destruct (_ && _); reflexivity. }
    split; [exact HI5|]. split; [exact HB1|]. split; [lia|]. split.
    + right. exists off, c0, d, true, true, ps. constructor; try assumption; try reflexivity; try discriminate; auto.
      * rewrite Ech. reflexivity.
      * intros _. 
        assert (Hc5 : s_acq s5 = with_counts (s_acq s3) (a_written (s_acq s5)) (a_processed (s_acq s5))).
        { revert E5. unfold count_frame. rewrite bind_get. change (s_acq s4) with (s_acq s3).
          destruct (_ || _); [|intros [= <-]; destruct (s_acq s3); reflexivity].
          destruct (a_cur (s_acq s3)) as [c|]; [|discriminate]. destruct (hf_dsets c _); [|discriminate].
          destruct (_ =? 0); [discriminate|]. intros [= <-]. reflexivity. }
        apply Hpa'; [|rewrite Hc5; reflexivity|rewrite Hc5; reflexivity].
        rewrite Hc5. destruct w; exact Hh3.
      * intros _. right. split; [reflexivity|].
        change (s_acq s4) with (s_acq s3) in *.
        destruct Hsc1 as (W1 & P1). destruct Hsc2 as (W2 & P2). destruct Hsc3 as (W3 & P3).
        rewrite Hwr5, Hpr5, W3, W2, W1, P3, P2, P1. split; reflexivity.
    + intros Hg HFs. apply HFu5, HFu4, HFu3, HFu2, HFu1; assumption.
  - rewrite E5. change (s_acq s4) with (s_acq s3) in *. exists s4, SInvalid, m1, l.
    split; [reflexivity|]. split; [exact HI4|]. split; [exact HB1|]. split; [lia|]. split.
    + right. exists off, c0, d, true, true, ps. constructor; try assumption; try reflexivity; try discriminate; auto.
      * rewrite Ech. reflexivity.
      * intros _. left. split; [reflexivity|]. split.
        { eapply same_counts_trans; [exact Hsc1|]. eapply same_counts_trans; [exact Hsc2|]. exact Hsc3. }
        { intros (F1 & _). destruct (find_def_some _ _ Ed) as (Hdi & Hdn'). rewrite <- Hdn' in Hnone. exact (F1 c Hc d Hdi Hnone). }
    + intros Hg HFs. apply HFu4, HFu3, HFu2, HFu1; assumption.
Qed.

(** ** Start, runs of frames, stop *)

Lemma start_step i : a_prev a0 = None -> a_cur a0 = None ->
  io_create i (idx 0) = true ->
  exists s o, start_acquisition i (St a0 dk0 []) = (s, o) /\ o <> Undef /\
    (o = Ret false <-> generate_filename (a_naming a0) (g_rank (a_geom a0)) = ""%string) /\
    (o <> Ret false -> Inv s 0 [] /\ same_counts (St a0 dk0 []) s) /\
    (create_good i 0 -> generate_filename (a_naming a0) (g_rank (a_geom a0)) <> ""%string ->
       o = Ret true /\ Full s).
Proof.
  intros Hpv Hcu Hcr. unfold start_acquisition. rewrite bind_get. cbn [s_acq].
  destruct (String.eqb_spec (generate_filename (a_naming a0) (g_rank (a_geom a0))) "") as [E|E].
  - exists (St a0 dk0 []), (Ret false). split; [reflexivity|]. split; [discriminate|]. split; [tauto|].
    split; [congruence|]. intros _ H. congruence.
  - assert (Hi0 : idx 0 = g_rank (a_geom a0)) by (unfold idx; lia).
    unfold bind at 1, emit. cbn [s_acq s_disk s_log app]. unfold bind.
    rewrite <- Hi0.
    destruct (create_file_core i (idx 0) (St a0 dk0 [EvStart]) Hcr) as
      (s' & o & c & df & E1 & Hou & Hcfg' & Hw & Hp & Hc & Hpv' & Hlog & Hdk & Hn & Hi & Ho & Hu & Hs & Hb & Hx & Hgood).
    { cbn [s_acq]. intros d Hin. apply Hrows; [lia|exact Hin]. }
    { cbn [s_acq]. exact Hnd. }
    cbn [s_acq s_disk s_log] in *. rewrite E1.
    exists s', (match o with Ret _ => Ret true | Throw e => Throw e | Undef => Undef end).
    split; [destruct o; reflexivity|]. split; [destruct o; congruence|].
    split; [split; [destruct o; discriminate|congruence]|].
    destruct (fresh_ok a0 c df [] (s_disk s') 0 (same_cfg_refl _)) as (HO1 & HO2); try assumption.
    { intros t []. }
    { rewrite Hdk. fold (pth 0). rewrite String.eqb_refl. reflexivity. }
    split.
    + intros _. split; [|split; assumption]. constructor.
      * exact Hcfg'.
      * exists c. split; assumption.
      * congruence.
      * intros k Hk. assert (k = O) as -> by lia. exact HO2.
      * intros p Hp'. rewrite Hdk. fold (pth 0). destruct (String.eqb_spec p (pth 0)) as [->|_]; [|reflexivity].
        destruct (Hp' O); [lia|reflexivity].
      * intros t [].
      * rewrite Hlog, Hpv. reflexivity.
      * rewrite Hlog, Hpv. reflexivity.
    + intros (G1 & G2) _. destruct (Hgood G1 G2) as (-> & Hfull). split; [reflexivity|]. split; [|split].
      * intros c' Hc'. rewrite Hc in Hc'. injection Hc' as <-. exact Hfull.
      * intros p Hp'. congruence.
      * intros p df1 d Hin. rewrite Hlog, Hpv in Hin. cbn in Hin. destruct Hin as [<-|[]].
        rewrite Hdk, String.eqb_refl. intros [= <-] Hd Hnone. specialize (Hs (d_name d)). rewrite Hnone in Hs.
        destruct (hf_dsets c (d_name d)) eqn:Ec; [destruct Hs|]. exact (Hfull d Hd Ec).
Qed.

(** What is assumed about a call: the file can be created; the adjusted number is a frame number of an expected file. *)
Definition call_ok (c : io * frame) : Prop :=
  (forall j, io_create (fst c) (idx j) = true) /\
  adjust_frame_offset (f_number (snd c)) (f_adj (snd c)) <> Undef /\
  forall off, adjust_frame_offset (f_number (snd c)) (f_adj (snd c)) = Ret off -> (krow off <= KR)%nat.

Inductive Steps : st -> nat -> list att -> list (io * frame) -> st -> nat -> list att -> list status -> Prop :=
| st_nil s m gh : Inv s m gh -> Steps s m gh [] s m gh []
| st_cons s m gh i f s1 m1 l r t s' m' gh' rs :
    Inv s m gh -> Inv s1 m1 (gh ++ l) -> (m <= m1 <= KR)%nat -> call_ok (i, f) ->
    process_frame i f s = (s1, Some r) -> outcome_of i f s m gh s1 m1 l r ->
    ((forall off, adjust_frame_offset (f_number f) (f_adj f) = Ret off -> all_created i m (krow off)) -> Full s -> Full s1) ->
    Steps s1 m1 (gh ++ l) t s' m' gh' rs ->
    Steps s m gh ((i, f) :: t) s' m' gh' (r :: rs).

Lemma run_steps : forall t s m gh,
  Inv s m gh -> (g_bpf (a_geom a0) = 0 -> m = O) -> (m <= KR)%nat -> Forall call_ok t ->
  exists s' m' gh' rs, run s t = (s', map Some rs) /\ Steps s m gh t s' m' gh' rs.
Proof.
  induction t as [|[i f] t IH]; intros s m gh HI HB Hm Hok.
  - exists s, m, gh, []. split; [reflexivity|constructor; exact HI].
  - inversion Hok as [|? ? H1 H2]; subst. pose proof H1 as (O1 & O2 & O3). cbn [fst snd] in O1, O2, O3.
    destruct (process_step i f s m gh HI HB Hm O1 O2 O3) as (s1 & r & m1 & l & E & HI1 & HB1 & Hm1 & Hout & HFu).
    destruct (IH s1 m1 (gh ++ l) HI1 HB1 ltac:(lia) H2) as (s' & m' & gh' & rs & Er & HS).
    exists s', m', gh', (r :: rs). cbn [run]. rewrite E, Er. split; [reflexivity|].
    eapply st_cons; eassumption.
Qed.

Lemma steps_inv s m gh t s' m' gh' rs : Steps s m gh t s' m' gh' rs -> Inv s m gh /\ Inv s' m' gh' /\ (m <= m')%nat.
Proof.
  induction 1 as [|s m gh i f s1 m1 l r t s' m' gh' rs HI HI1 Hm Hok E Ho HFu HS IH]; [auto|].
  destruct IH as (_ & HI' & Hle). split; [exact HI|]. split; [exact HI'|lia].
Qed.

Lemma steps_length s m gh t s' m' gh' rs : Steps s m gh t s' m' gh' rs -> List.length rs = List.length t.
Proof. induction 1; cbn; congruence. Qed.

Lemma steps_full s m gh t s' m' gh' rs : Steps s m gh t s' m' gh' rs ->
  (forall i f, In (i, f) t -> forall j, (j <= KR)%nat -> create_good i j) -> Full s -> Full s'.
Proof.
  induction 1 as [|s m gh i f s1 m1 l r t s' m' gh' rs HI HI1 Hm Hok E Ho HFu HS IH]; [auto|].
  intros Hg HF0. apply IH; [intros; apply Hg with f0; [right|]; assumption|]. apply HFu; [|exact HF0].
  intros off Hoff j Hj. destruct Hok as (_ & _ & Hk). apply Hg with f; [left; reflexivity|]. specialize (Hk off Hoff). lia.
Qed.

(** Stop closes both files and leaves the disk alone. *)
Lemma stop_step s m gh : Inv s m gh ->
  exists s', stop_acquisition s = (s', Ret tt) /\ s_disk s' = s_disk s /\
    created (s_log s') = map pth (seq 0 (S m)) /\ closed (s_log s') = map pth (seq 0 (S m)).
Proof.
  intros HI. unfold stop_acquisition. rewrite bind_get.
  destruct (inv_cur _ _ _ HI) as (c & Hc & (On & _)).
  pose proof (inv_prev _ _ _ HI) as HPv.
  pose proof (inv_created _ _ _ HI) as HCr. pose proof (inv_closed _ _ _ HI) as HCl.
  destruct m as [|m'].
  - rewrite HPv. unfold close_file, bind, ret, put_prev, put_cur, emit. cbn [s_acq with_prev a_cur s_disk s_log].
    rewrite Hc. cbn [s_acq with_prev a_cur s_disk s_log]. rewrite h5_close_name, On.
    eexists. split; [reflexivity|]. split; [reflexivity|]. cbn [s_log].
    rewrite !created_app, !closed_app, HCr, HCl. split; [|reflexivity]. rewrite !app_nil_r. reflexivity.
  - destruct HPv as (p & Hp & (Pn & _)). rewrite Hp.
    unfold close_file, bind, ret, put_prev, put_cur, emit. cbn [s_acq with_prev a_cur s_disk s_log].
    rewrite Hc. cbn [s_acq with_prev a_cur s_disk s_log]. rewrite !h5_close_name, On, Pn.
    eexists. split; [reflexivity|]. split; [reflexivity|]. cbn [s_log].
    rewrite !created_app, !closed_app, HCr, HCl. split; [cbn [created flat_map app]; rewrite !app_nil_r; reflexivity|].
    cbn [closed flat_map app]. rewrite app_nil_r, <- app_assoc. cbn [app Nat.sub]. rewrite Nat.sub_0_r.
    rewrite (seq_S (S m')), (seq_S m'), !map_app. rewrite <- app_assoc. reflexivity.
Qed.
End Inv.
