(** Property C80: what the file says about a dataset fits the frames stored in it. *)
From Verif Require Import Base PlaceModel PlaceSpec NameModel AcqModel AcqSpec AcqAny HdsModel HdsSpec.
Local Open Scope N_scope.

(** C80.  Whenever a frame is reported as written, its dataset was declared with the compression, the element type and
    the dimensions of that frame: in any state, whatever HDF5 does, fixed or unlimited, whatever the blosc settings. *)
Theorem c80_readable : forall i f s, written (snd (process_frame i f s)) = true ->
  exists d, In d (a_defs (s_acq s)) /\ d_name d = f_dataset f /\
    forall h unlim rows l, h_def h = d -> declare unlim rows h = Ret l ->
      read_as l (f_comp f) /\ elements l (f_type f) /\ tl (l_dims l) = f_dims f /\
      forall c t, (read_as l c -> c = f_comp f) /\ (elements l t -> t = f_type f).
Proof.
  intros i f s H.
  assert (M : check_frame_valid (s_acq s) f = true).
  { destruct (check_frame_valid (s_acq s) f) eqn:E; [reflexivity|]. exfalso. revert H. unfold process_frame, process_body, bind, get. rewrite E. discriminate. }
  destruct (valid_matches _ _ M) as (d & Hin & Hn & Hc & Ec & Ht & Et & Ed). exists d. split; [exact Hin|]. split; [exact Hn|].
  intros h unlim rows l Hh Hl. unfold declare in Hl. rewrite Hh in Hl. destruct (negb _); [discriminate|].
  assert (L : l_type l = datatype_to_hdf_type (d_type d) /\ tl (l_dims l) = d_dims d /\ l_filter l = filter_of h) by (destruct unlim; injection Hl as <-; auto).
  destruct L as (L1 & L2 & L3). unfold read_as, elements, registered. rewrite L1, L2, L3, <- Et, <- Ed. unfold filter_of. rewrite Hh, <- Ec.
  destruct (f_comp f), (f_type f); try congruence; cbn; unfold lz4_filter, bslz4_filter, blosc_filter; (repeat split; auto);
    try (intros E; intuition congruence); try (destruct t; tauto).
Qed.
Print Assumptions c80_readable.

(** C80.  A definition without a known type or compression takes no frame at all. *)
Theorem c80_unknown : forall i f s d, In d (a_defs (s_acq s)) -> d_name d = f_dataset f -> NoDup (map d_name (a_defs (s_acq s))) ->
  d_type d = TUnknown \/ d_comp d = CUnknown -> process_frame i f s = (s, Some SInvalid).
Proof.
  intros i f s d Hin Hn Hnd Hu. apply mismatch_refused. intros (d' & Hin' & Hn' & Hc & Ec & Ht & Et & _).
  assert (d' = d) as ->.
  { clear -Hin Hin' Hn Hn' Hnd. induction (a_defs (s_acq s)) as [|x r IH]; [destruct Hin|]. cbn in Hnd. inversion Hnd as [|? ? N1 N2]; subst.
    destruct Hin as [<-|Hin]; destruct Hin' as [E|Hin']; auto.
    - destruct N1. rewrite Hn, <- Hn'. apply in_map. exact Hin'.
    - subst x. destruct N1. rewrite Hn', <- Hn. apply in_map. exact Hin. }
  destruct Hu; congruence.
Qed.
Print Assumptions c80_unknown.

(** C80.  The number of rows: one and growing without limit, or exactly the rows asked for and fixed; a frame's
    dimensions never change. *)
Theorem c80_space : forall unlim rows h l, declare unlim rows h = Ret l ->
  l_dims l = (if unlim then 1 else rows) :: d_dims (h_def h) /\
  l_max l = (if unlim then None else Some rows) :: map Some (d_dims (h_def h)).
Proof. intros unlim rows h l H. unfold declare in H. destruct (negb _); [discriminate|]. destruct unlim; injection H as <-; auto. Qed.
Print Assumptions c80_space.

(** C80.  It is the dataset that create_dataset leaves on the disk: the same rows, refused for the same chunks. *)
Theorem c80_created : forall ok h rows lo hi s s' o c,
  a_cur (s_acq s) = Some c -> create_dataset ok (h_def h) rows lo hi s = (s', o) ->
  (o = Throw EBadChunks <-> declare (hf_unlim c) rows h = Throw EBadChunks) /\
  (o = Ret tt -> exists l df dd, declare (hf_unlim c) rows h = Ret l /\ s_disk s' (hf_name c) = Some df /\
     df (d_name (h_def h)) = Some dd /\ hd_error (l_dims l) = Some (dd_rows dd)).
Proof.
  intros ok h rows lo hi s s' o c Hc H. unfold create_dataset, bind, get in H. rewrite Hc in H. unfold declare.
  destruct (negb (Nat.eqb _ _)). { injection H as <- <-. split; [tauto|discriminate]. }
  assert (D : (if hf_unlim c then Ret (Layout (datatype_to_hdf_type (d_type (h_def h))) (1 :: d_dims (h_def h)) (None :: map Some (d_dims (h_def h))) (d_chunks (h_def h)) (filter_of h))
    else let chunk := match d_chunks (h_def h) with c0 :: c => (if rows <? c0 then rows else c0) :: c | [] => [] end in
      Ret (Layout (datatype_to_hdf_type (d_type (h_def h))) (rows :: d_dims (h_def h)) (map Some (rows :: d_dims (h_def h))) chunk (filter_of h))) <> @Throw exn layout EBadChunks) by (destruct (hf_unlim c); discriminate).
  cbv zeta in H.
  destruct (negb (hf_unlim c) && (rows =? 0)). { injection H as <- <-. split; [split; [discriminate|intros E; destruct (D E)]|discriminate]. }
  destruct (negb ok). { injection H as <- <-. split; [split; [discriminate|intros E; destruct (D E)]|discriminate]. }
  destruct (s_disk s (hf_name c)) as [df|]; [|injection H as <- <-; split; [split; [discriminate|intros E; destruct (D E)]|discriminate]].
  cbn in H. injection H as <- <-. split; [split; [discriminate|intros E; destruct (D E)]|]. intros _.
  destruct (hf_unlim c); do 3 eexists; (split; [reflexivity|]); cbn; unfold upd; rewrite String.eqb_refl; (split; [reflexivity|]); cbn beta; rewrite String.eqb_refl; split; reflexivity.
Qed.
Print Assumptions c80_created.

(** C80.  Every place a frame can be written to is the start of a chunk, as H5DOwrite_chunk requires, even when the
    chunks were cut to the size of the dataset. *)
Theorem c80_aligned : forall unlim rows h l c0 slot,
  declare unlim rows h = Ret l -> hd_error (d_chunks (h_def h)) = Some c0 -> c0 <> 0 ->
  (unlim = true \/ slot * c0 < rows) ->
  exists k r, l_chunk l = k :: r /\ k <> 0 /\ (slot * c0) mod k = 0 /\ r = tl (d_chunks (h_def h)) /\
    (unlim = true \/ c0 <= rows -> k = c0).
Proof.
  intros unlim rows h l c0 slot H Hc H0 Hs. unfold declare in H. destruct (negb _); [discriminate|].
  destruct (d_chunks (h_def h)) as [|c r]; [discriminate|]. injection Hc as ->. destruct unlim; injection H as <-.
  - exists c0, r. repeat split; auto. apply N.mod_mul. exact H0.
  - destruct Hs as [|Hs]; [discriminate|]. cbn [l_chunk tl]. destruct (N.ltb_spec rows c0).
    + exists rows, r. assert (slot = 0) by nia. subst slot. split; [reflexivity|]. split; [lia|]. split; [rewrite N.mul_0_l; apply N.mod_0_l; lia|]. split; [reflexivity|]. intros [|]; [discriminate|lia].
    + exists c0, r. repeat split; auto. apply N.mod_mul. exact H0.
Qed.
Print Assumptions c80_aligned.

(** C80, partial.  HDF5 accepts the dataset.  Missing: chunks that are larger than a frame (the definition is not
    checked for that, see below), more than 31 dimensions, chunks of 4 GiB, zero rows. *)
Theorem c80_accepted_partial : forall unlim rows h,
  let d := h_def h in
  (forall n, In n (d_chunks d) -> n <> 0) -> List.length (d_chunks d) = S (List.length (d_dims d)) ->
  (List.length (d_dims d) <= 31)%nat -> Forall2 (fun c n => c <= n) (tl (d_chunks d)) (d_dims d) ->
  Forall (fun c => c < 2 ^ 32) (d_chunks d) ->
  product (d_chunks d) * h5_size (datatype_to_hdf_type (d_type d)) < 2 ^ 32 -> (unlim = true \/ rows <> 0) ->
  exists l, declare unlim rows h = Ret l /\ h5_accepts l.
Proof.
  intros unlim rows h d Hz Hl Hd Hi Hb Hp Hr. unfold declare. fold d. rewrite Hl, Nat.eqb_refl. cbn [negb].
  destruct (d_chunks d) as [|c r] eqn:E; [discriminate|]. cbn [tl] in Hi.
  assert (Hi' : Forall2 (fun c m => match m with Some n => c <= n | None => True end) r (map Some (d_dims d))) by (clear -Hi; induction Hi; cbn; constructor; auto).
  inversion Hb as [|? ? B1 B2]; subst.
  assert (Hf : Forall (fun c => 1 <= c < 2 ^ 32) r).
  { rewrite Forall_forall in *. intros n Hn. specialize (B2 n Hn). assert (n <> 0) by (apply Hz; right; exact Hn). lia. }
  assert (Hc : c <> 0) by (apply Hz; left; reflexivity).
  cbn [List.length] in Hl. destruct unlim.
  - eexists. split; [reflexivity|]. unfold h5_accepts. cbn [l_dims l_chunk l_max l_type List.length]. rewrite map_length.
    split; [lia|]. split; [lia|]. split; [lia|]. split; [constructor; [lia|exact Hf]|]. split; [exact Hp|]. constructor; [exact Logic.I|exact Hi'].
  - destruct Hr as [|Hr]; [discriminate|]. eexists. split; [reflexivity|]. unfold h5_accepts. cbn [l_dims l_chunk l_max l_type List.length map]. rewrite map_length.
    split; [lia|]. split; [lia|]. split; [lia|].
    assert (K : 1 <= (if rows <? c then rows else c) <= c /\ (if rows <? c then rows else c) <= rows) by (destruct (N.ltb_spec rows c); lia).
    split; [constructor; [lia|exact Hf]|]. split; [|constructor; [lia|exact Hi']].
    unfold product in *. cbn [fold_right] in *. eapply N.le_lt_trans; [|exact Hp]. apply N.mul_le_mono_r, N.mul_le_mono_r. lia.
Qed.
Print Assumptions c80_accepted_partial.

(** Refuted: a definition whose chunk is larger than a frame passes the checks of the writer, and HDF5 refuses it. *)
Theorem c80_chunks_refuted : exists d, snd (validate_definition d (St (configured (Geom 1 0 1 1) (Naming "run" "" "" ".h5" true 0) "dir" "" 4 4 [d]) (fun _ => None) [])) = Ret tt /\
  exists l, declare false 4 (HDef d 0 0 0) = Ret l /\ ~ h5_accepts l.
Proof.
  exists (DsDef "data" T16 CNone [3; 4] [1; 3; 8] false). split; [reflexivity|]. eexists. split; [reflexivity|].
  intros (_ & _ & _ & _ & _ & H). cbn in H. inversion H as [|? ? ? ? _ H1]; subst. inversion H1 as [|? ? ? ? _ H2]; subst. inversion H2 as [|? ? ? ? H3 _]; subst. lia.
Qed.
Print Assumptions c80_chunks_refuted.

Lemma pixels_mod dims : forall n, fold_left (fun n d => (n * d) mod 2 ^ 32) dims (n mod 2 ^ 32) = (n * product dims) mod 2 ^ 32.
Proof.
  induction dims as [|d r IH]; intros n; cbn [fold_left].
  - unfold product. cbn [fold_right]. rewrite N.mul_1_r. reflexivity.
  - rewrite N.mul_mod_idemp_l by discriminate. rewrite IH. unfold product. cbn [fold_right]. f_equal. lia.
Qed.

(** C80, partial.  The values of the blosc filter: versions, bytes of an element, bytes of a frame, and the settings as
    configured.  Missing: frames of 4 GiB and more (refuted below). *)
Theorem c80_blosc_partial : forall unlim rows h l b,
  d_comp (h_def h) = CBlosc -> declare unlim rows h = Ret l -> bytes_of (d_type (h_def h)) = Some b ->
  product (d_dims (h_def h)) * b < 2 ^ 32 ->
  exists m, l_filter l = Some (Filter 32001 m [2; 2; b; product (d_dims (h_def h)) * b; h_level h; h_shuffle h; h_compressor h]).
Proof.
  intros unlim rows h l b Hc Hl Hb Hp. unfold declare in Hl. destruct (negb _); [discriminate|].
  assert (L : l_filter l = filter_of h) by (destruct unlim; injection Hl as <-; reflexivity).
  rewrite L. unfold filter_of. rewrite Hc. exists false.
  assert (S : h5_size (datatype_to_hdf_type (d_type (h_def h))) = b) by (destruct (d_type (h_def h)); cbn in *; congruence). rewrite S.
  assert (B : 1 <= b) by (destruct (d_type (h_def h)); cbn in Hb; try discriminate; injection Hb as <-; lia).
  unfold frame_num_pixels. change 1 with (1 mod 2 ^ 32) at 1. rewrite pixels_mod. rewrite N.mul_1_l. rewrite (N.mod_small (product _)) by nia.
  rewrite N.mod_small by exact Hp. reflexivity.
Qed.
Print Assumptions c80_blosc_partial.

(** Refuted: of a frame of 65536 x 65536 pixels of 16 bits the filter is told 0 bytes. *)
Theorem c80_blosc_refuted : let h := HDef (DsDef "data" T16 CBlosc [65536; 65536] [1; 65536; 32] false) 1 5 1 in
  exists l, declare true 0 h = Ret l /\ h5_accepts l /\ product (d_dims (h_def h)) * 2 = 2 ^ 33 /\
    l_filter l = Some (Filter 32001 false [2; 2; 2; 0; 5; 1; 1]).
Proof.
  cbv zeta. eexists. split; [reflexivity|]. split; [|split; vm_compute; reflexivity].
  unfold h5_accepts. cbn. repeat split; try lia; repeat constructor; lia.
Qed.
Print Assumptions c80_blosc_refuted.

(** ** Cases *)
Definition hx : hdef := HDef (DsDef "data" T16 CBlosc [3; 4] [1; 3; 4] false) 1 5 2.
Example c80_case : declare false 10 hx = Ret (Layout H5U16 [10; 3; 4] [Some 10; Some 3; Some 4] [1; 3; 4] (Some (Filter 32001 false [2; 2; 2; 24; 5; 2; 1]))).
Proof. vm_compute. reflexivity. Qed.
Example c80_case_cut : declare false 2 (HDef (DsDef "data" T64 CLz4 [] [8] false) 0 0 0) = Ret (Layout H5U64 [2] [Some 2] [2] (Some (Filter 32004 true [3]))).
Proof. vm_compute. reflexivity. Qed.
Example c80_case_written :
  let s := fst (start_acquisition io_ok (St (configured (Geom 1 0 2 0) (Naming "run" "" "" ".h5" true 0) "dir" "data" 10 10 [h_def hx]) (fun _ => None) [])) in
  written (snd (process_frame io_ok (Frame 3 0 "data" "" T16 CBlosc [3; 4] [] 1 [7]) s)) = true /\
  written (snd (process_frame io_ok (Frame 3 0 "data" "" T16 CLz4 [3; 4] [] 1 [7]) s)) = false.
Proof. vm_compute. split; reflexivity. Qed.
