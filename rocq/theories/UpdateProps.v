(** C34: updating the parameters of a message. *)
From Coq Require Import String Ascii.
From Verif Require Import Base JsonModel JsonSpec JsonProofs JsonUpdate JsonProps.
Local Open Scope string_scope.
Local Open Scope list_scope.

Lemma update_top u m : good_tree u -> object u ->
  match sets (at_params [] (leaves u)) (JObj (g_doc m)) with Some (JObj d) => update_value u "" m = (with_doc d m, Ret tt) | _ => snd (update_value u "" m) = Throw EAssert end.
Proof. intros G O. exact (update_eq u G [] m (Forall_nil _) (fun _ => O)). Qed.
Lemma params_apart l : all_apart (map fst l) -> all_apart (map fst (at_params [] l)).
Proof. intros H. unfold at_params. rewrite map_map. cbn. rewrite <- (map_map fst (cons "params")). apply all_apart_map, H. Qed.
Lemma in_params c v l : In (c, v) (at_params [] l) <-> exists d, c = "params" :: d /\ In (d, v) l.
Proof.
  unfold at_params. rewrite in_map_iff. split.
  - intros ([d w] & E & H). injection E as <- <-. eauto.
  - intros (d & -> & H). exists (d, v). auto.
Qed.
Lemma updated u m m' : good_tree u -> object u -> update_value u "" m = (m', Ret tt) -> exists d, m' = with_doc d m /\ sets (at_params [] (leaves u)) (JObj (g_doc m)) = Some (JObj d).
Proof.
  intros G O U. pose proof (update_top u m G O) as E. destruct (sets (at_params [] (leaves u)) (JObj (g_doc m))) as [y|]; [|rewrite U in E; discriminate]. destruct y; try (rewrite U in E; discriminate). rewrite E in U. injection U as <-. eauto.
Qed.

(** Every leaf of the update is in the message afterwards; what is apart from all of them is as it was. *)
Theorem c34_leaves_partial u m m' :
  good_tree u -> object u -> update_value u "" m = (m', Ret tt) ->
  (forall c x, leaf c x u -> holds m' c x) /\ (forall q, (forall c x, leaf c x u -> apart c q) -> forall y, holds m' q y <-> holds m q y) /\ same_head m' m.
Proof.
  intros G O U. destruct (updated u m m' G O U) as (d & -> & S). split; [|split; [|repeat split]].
  - intros c x L. apply holds_at. cbn [with_doc g_doc]. apply (sets_leaf _ _ _ _ _ S); [apply params_apart, leaves_apart, G|]. apply in_params. exists c. split; [reflexivity|]. apply in_leaves; assumption.
  - intros q A y. rewrite !holds_at. cbn [with_doc g_doc]. rewrite (sets_other _ _ _ ("params" :: q) S); [tauto|]. intros c v H. apply in_params in H as (e & -> & H). apply apart_cons, (A e v). apply in_leaves in H; assumption.
Qed.

(** It succeeds exactly if no leaf has something else than an object on its way. *)
Theorem c34_succeeds_partial u m : good_tree u -> object u ->
  ((forall c x, leaf c x u -> clear_way ("params" :: c) (JObj (g_doc m))) -> exists m', update_value u "" m = (m', Ret tt)) /\
  (forall m', update_value u "" m = (m', Ret tt) -> forall c x, leaf c x u -> clear_way ("params" :: c) (JObj (g_doc m))) /\
  (snd (update_value u "" m) = Ret tt \/ snd (update_value u "" m) = Throw EAssert).
Proof.
  intros G O. pose proof (update_top u m G O) as E. pose proof (params_apart _ (leaves_apart u G)) as AP. split; [|split].
  - intros W. destruct (sets_some (at_params [] (leaves u)) (JObj (g_doc m)) AP) as (y & S).
    + intros c v H. apply in_params in H as (d & -> & H). apply way_clear, (W d v). apply in_leaves in H; assumption.
    + assert (OY : object y) by (eapply sets_object; [|eexists; reflexivity|exact S]; intros c v H; apply in_params in H as (d & -> & _); eauto). destruct OY as (d & ->). rewrite S in E. eauto.
  - intros m' U c x L. destruct (updated u m m' G O U) as (d & _ & S). apply way_clear. intros q r z EQ N LQ. eapply (sets_way _ _ _ ("params" :: c) x q r z S AP); try assumption. apply in_params. exists c. split; [reflexivity|apply in_leaves; assumption].
  - destruct (sets (at_params [] (leaves u)) (JObj (g_doc m))) as [y|]; [|right; exact E]. destruct y; try (right; exact E). rewrite E. left. reflexivity.
Qed.

(** A second time makes no difference. *)
Theorem c34_again_partial u m m' : good_tree u -> object u -> update_value u "" m = (m', Ret tt) -> update_value u "" m' = (m', Ret tt).
Proof.
  intros G O U. destruct (updated u m m' G O U) as (d & -> & S). pose proof (update_top u (with_doc d m) G O) as E. cbn [with_doc g_doc] in E. rewrite (sets_again (at_params [] (leaves u)) (JObj d)) in E; [exact E|].
  intros c v H. apply (sets_leaf _ _ _ _ _ S); [apply params_apart, leaves_apart, G|exact H].
Qed.

(** The other update: each parameter of the other message replaces the one of the same name as a whole. *)
Definition top_leaves (l : list (string * json)) : list (list string * json) := map (fun e => (["params"; fst e], snd e)) l.
Lemma update_names_eq m other l l0 : params_of other = Some (JObj l0) -> NoDup (map fst l0) -> (forall n y, In (n, y) l -> In (n, y) l0 /\ name_ok n) ->
  match sets (top_leaves l) (JObj (g_doc m)) with Some (JObj d) => update_names m other (map (fun e => cstr (fst e)) l) = (with_doc d m, Ret tt) | _ => snd (update_names m other (map (fun e => cstr (fst e)) l)) = Throw EAssert end.
Proof.
  intros P ND. revert m. induction l as [|[n y] l IH]; intros m H; cbn [top_leaves map sets update_names fst snd]; [rewrite with_doc_same; reflexivity|]. destruct (H n y (or_introl eq_refl)) as (I & NO).
  rewrite (cstr_id n) by apply NO. assert (GR : get_ref other n = Ret y).
  { unfold get_ref, get_raw. rewrite P, (pieces_no_slash n) by apply NO. cbn [get_node]. rewrite (cstr_id n) by apply NO. rewrite (find_nodup n l0 y ND I). reflexivity. }
  rewrite GR. assert (GP : good_path [n]) by (apply good_path_all; [discriminate|repeat constructor; apply NO]). rewrite (set_param_eq m [n] (XJson y) GP : set_param m n (XJson y) = _). cbn [set_value].
  destruct (set_at ["params"; n] y (JObj (g_doc m))) as [z|] eqn:S; [|reflexivity]. assert (OZ : object z) by (cbn in S; destruct (match find_member "params" (g_doc m) with Some y0 => y0 | None => JObj [] end); try discriminate; injection S as <-; eexists; reflexivity). destruct OZ as (d & ->).
  specialize (IH (with_doc d m) (fun k w K => H k w (or_intror K))). cbn [with_doc g_doc] in IH. exact IH.
Qed.
Lemma top_apart l : NoDup (map fst l) -> all_apart (map fst (top_leaves l)).
Proof.
  induction l as [|[n y] l IH]; cbn; [auto|]. intros N. inversion N as [|? ? A B]; subst. split; [|auto]. intros d H. apply in_map_iff in H as ([c v] & <- & H). apply in_map_iff in H as ([k z] & E & H). injection E as <- <-. apply apart_cons, apart_head. intros ->. apply A, in_map_iff. exists (k, z). auto.
Qed.
Theorem c34_message_partial m other l m' :
  params_of other = Some (JObj l) -> NoDup (map fst l) -> (forall n y, In (n, y) l -> no_slash n /\ no_nul n /\ plain n) -> update_msg m other = (m', Ret tt) ->
  (forall n r x, holds other (n :: r) x -> holds m' (n :: r) x) /\ (forall n r x, In n (map fst l) -> holds m' (n :: r) x -> holds other (n :: r) x) /\
  (forall n r x, ~ In n (map fst l) -> (holds m' (n :: r) x <-> holds m (n :: r) x)) /\ update_msg m' other = (m', Ret tt) /\ same_head m' m.
Proof.
  intros P ND NO U. unfold update_msg, get_param_names in U. rewrite P in U. pose proof (update_names_eq m other l l P ND (fun n y H => conj H (NO n y H))) as E.
  destruct (sets (top_leaves l) (JObj (g_doc m))) as [y|] eqn:S; [|rewrite U in E; discriminate]. destruct y; try (rewrite U in E; discriminate). rewrite E in U. injection U as <-.
  assert (LF : forall n y, In (n, y) l -> at_path ["params"; n] (JObj l0) = Some y). { intros n y H. apply (sets_leaf _ _ _ _ _ S); [apply top_apart, ND|]. apply in_map_iff. exists (n, y). auto. }
  assert (TR : forall n r y, In (n, y) l -> at_path ("params" :: n :: r) (JObj l0) = at_path r y).
  { intros n r y H. specialize (LF n y H). cbn in *. destruct (find_member "params" l0) as [p|]; [|discriminate]. destruct p; try discriminate. destruct (find_member n l1); [|discriminate]. injection LF as ->. reflexivity. }
  assert (TO : forall n r, at_path ("params" :: n :: r) (JObj (g_doc other)) = match find_member n l with Some y => at_path r y | None => None end) by (intros n r; cbn; unfold params_of in P; rewrite P; reflexivity).
  split; [|split; [|split; [|split]]].
  - intros n r x H. apply holds_at in H. apply holds_at. cbn [with_doc g_doc]. rewrite TO in H. destruct (find_member n l) as [y|] eqn:F; [|discriminate]. rewrite (TR n r y (find_in _ _ _ F)). exact H.
  - intros n r x I H. apply holds_at in H. apply holds_at. cbn [with_doc g_doc] in H. rewrite TO. apply in_map_iff in I as ([k y] & <- & I). cbn [fst] in *. rewrite (find_nodup k l y ND I). rewrite (TR k r y I) in H. exact H.
  - intros n r x I. rewrite !holds_at. cbn [with_doc g_doc]. rewrite (sets_other _ _ _ ("params" :: n :: r) S); [tauto|]. intros c v H. apply in_map_iff in H as ([k y] & E2 & H). injection E2 as <- <-. apply apart_cons, apart_head. intros ->. apply I, in_map_iff. exists (n, y). auto.
  - unfold update_msg, get_param_names. rewrite P. pose proof (update_names_eq (with_doc l0 m) other l l P ND (fun n y H => conj H (NO n y H))) as E2. cbn [with_doc g_doc] in E2. rewrite (sets_again (top_leaves l) (JObj l0)) in E2; [exact E2|].
    intros c v H. apply in_map_iff in H as ([k y] & E3 & H). injection E3 as <- <-. apply LF, H.
  - repeat split.
Qed.

Fixpoint tree_check (x : json) : bool :=
  match x with
  | JObj l => (fix each (l : list (string * json)) := match l with [] => true | (n, y) :: r => negb (existsb (fun e => String.eqb (fst e) n) r) && no_char "/" n && no_char zero n && plain_check n && tree_check y && each r end) l
  | _ => true
  end.
Lemma tree_check_ok x : tree_check x = true -> good_tree x.
Proof.
  induction x as [x N|l IH] using json_ind'; intros H; [apply gt_leaf, N|]. assert (X : NoDup (map fst l) /\ forall n y, In (n, y) l -> no_slash n /\ no_nul n /\ plain n /\ good_tree y); [|apply gt_obj; apply X].
  revert IH H. induction l as [|[k z] l IHl]; intros IH H; [split; [constructor|intros n y []]|]. cbn in H. rewrite !andb_true_iff in H. destruct H as (((((A & B) & C) & D) & E) & F). destruct (IHl (fun n y K => IH n y (or_intror K)) F) as (ND & G). split.
  - cbn. constructor; [|exact ND]. intros I. apply in_map_iff in I as ([n y] & EQ & I). cbn in EQ. subst n. rewrite negb_true_iff in A. apply Bool.not_true_iff_false in A. apply A. apply existsb_exists. exists (k, y). split; [exact I|apply String.eqb_refl].
  - intros n y [EQ|I]; [|exact (G n y I)]. injection EQ as <- <-. repeat split; try (apply no_char_ok; assumption); try (apply plain_check_ok; exact D). apply (IH k z); [left; reflexivity|exact E].
Qed.

(** A configuration with a plugin's settings, and an update of some of them. *)
Definition base_msg := fst (update_value (JObj [("hdf", JObj [("file", JObj [("name", JStr "a"); ("path", JStr "/data")]); ("frames", JInt 10)]); ("meta", JObj [("topic", JStr "t")])]) "" m0).
Definition new_params := JObj [("hdf", JObj [("file", JObj [("name", JStr "b")]); ("frames", JArr [JInt 1; JInt 2])])].
Example c34_case : good_tree new_params /\ object new_params /\ (let m' := fst (update_value new_params "" base_msg) in snd (update_value new_params "" base_msg) = Ret tt /\
  get_param GStr m' "hdf/file/name" = Ret (RStr "b") /\ get_param GStr m' "hdf/file/path" = Ret (RStr "/data") /\ get_raw m' "hdf/frames" = Ret (JArr [JInt 1; JInt 2]) /\ get_param GStr m' "meta/topic" = Ret (RStr "t")).
Proof. split; [apply tree_check_ok; vm_compute; reflexivity|]. split; [eexists; reflexivity|]. vm_compute. repeat split. Qed.

Example c34_message_case : exists l, params_of base_msg = Some (JObj l) /\ NoDup (map fst l) /\ (forall n y, In (n, y) l -> no_slash n /\ no_nul n /\ plain n) /\ snd (update_msg m2 base_msg) = Ret tt /\ map fst l = ["hdf"; "meta"].
Proof.
  exists (match params_of base_msg with Some (JObj l) => l | _ => [] end). assert (G : good_tree (JObj (match params_of base_msg with Some (JObj l) => l | _ => [] end))) by (apply tree_check_ok; vm_compute; reflexivity).
  split; [vm_compute; reflexivity|]. inversion G as [? N|? ND GS]; subst; [destruct N; eexists; reflexivity|]. split; [exact ND|]. split; [intros n y H; destruct (GS n y H) as (A & B & C & _); auto|]. vm_compute. auto.
Qed.

(** The update with a message loses what the other message does not name below the first level. *)
Theorem c34_message_deep_refuted : exists m other m', update_msg m other = (m', Ret tt) /\ get_param GStr m "hdf/file/path" = Ret (RStr "/data") /\ has_param other "hdf/file/path" = Ret false /\ has_param m' "hdf/file/path" = Ret false.
Proof. pose (o := fst (update_value new_params "" m0)). exists base_msg, o, (fst (update_msg base_msg o)). vm_compute. repeat split. Qed.
(** When it fails half way, the leaves before are changed. *)
Theorem c34_conflict_refuted : exists u m m', good_tree u /\ update_value u "" m = (m', Throw EAssert) /\ get_param GStr m "hdf/file/name" = Ret (RStr "a") /\ get_param GStr m' "hdf/file/name" = Ret (RStr "b").
Proof.
  pose (u := JObj [("hdf", JObj [("file", JObj [("name", JStr "b")]); ("frames", JObj [("first", JInt 1)])])]). exists u, base_msg, (fst (update_value u "" base_msg)). split; [apply tree_check_ok; vm_compute; reflexivity|]. vm_compute. repeat split.
Qed.
(** Names of one character, empty ones and names with '/' in the update. *)
Theorem c34_names_refuted : (exists m, snd (update_value (JObj [("x", JInt 1)]) "" m) = Throw ERange) /\ (forall m, update_value (JInt 1) "" m = (m, Undef)) /\
  (exists m m', update_value (JObj [("ab/cd", JInt 1)]) "" m = (m', Ret tt) /\ ~ holds m' ["ab/cd"] (JInt 1) /\ holds m' ["ab"; "cd"] (JInt 1)).
Proof.
  split; [exists m0; vm_compute; reflexivity|]. split; [reflexivity|]. exists m0, (fst (update_value (JObj [("ab/cd", JInt 1)]) "" m0)). split; [vm_compute; reflexivity|]. rewrite !holds_at. vm_compute. split; [discriminate|reflexivity].
Qed.
(** Empty objects of the update are dropped. *)
Theorem c34_empty_object_refuted : exists m, update_value (JObj [("hdf", JObj [])]) "" m = (m, Ret tt) /\ has_param m "hdf" = Ret false.
Proof. exists m0. vm_compute. auto. Qed.

(** C34, refuted: that any message accepted from text can be used for an update.  A message without params is accepted when not strict;
    get_param_names then dereferences the end of the members. *)
Theorem c34_no_params_refuted : forall c, exists other, msg_of_doc c (JObj [("msg_type", JStr "cmd"); ("msg_val", JStr "configure")]) false = Ret other /\ forall m, update_msg m other = (m, Undef).
Proof. intros c. eexists. split; [reflexivity|]. intros m. reflexivity. Qed.
Print Assumptions c34_leaves_partial.
Print Assumptions c34_succeeds_partial.
Print Assumptions c34_again_partial.
Print Assumptions c34_message_partial.
Print Assumptions c34_message_deep_refuted.
Print Assumptions c34_conflict_refuted.
Print Assumptions c34_names_refuted.
Print Assumptions c34_empty_object_refuted.
Print Assumptions c34_no_params_refuted.
