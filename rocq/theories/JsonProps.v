(** C33: parameters of messages. *)
From Coq Require Import String Ascii.
From Verif Require Import Base JsonModel JsonSpec JsonProofs.
Local Open Scope string_scope.
Local Open Scope list_scope.

(** The value set is read back at its path, whatever was there. *)
Theorem c33_read_back_partial m c v m' g r :
  good_path c -> set_param m (slashed c) v = (m', Ret tt) -> reads_as v g r -> get_param g m' (slashed c) = Ret r.
Proof.
  intros G S RA. rewrite (set_param_eq _ _ _ G) in S. destruct (set_at ("params" :: c) (set_value v) (JObj (g_doc m))) as [y|] eqn:SA; [|discriminate]. destruct y; try discriminate. injection S as <-.
  unfold get_param. assert (E : get_raw (with_doc l m) (slashed c) = Ret (set_value v)). { apply get_raw_holds; [apply good_any, G|]. apply holds_at. cbn [with_doc g_doc]. rewrite <- (app_nil_r ("params" :: c)). apply (set_at_below _ _ _ _ [] SA). }
  rewrite E. destruct RA; cbn; unfold in_range; try reflexivity;
    try (match goal with |- context [(?a <=? ?z)%Z] => destruct (Z.leb_spec a z); [|lia] end; match goal with |- context [(?z <? ?b)%Z] => destruct (Z.ltb_spec z b); [|lia] end; reflexivity).
  rewrite (cstr_id _ H), (cstr_id _ H). reflexivity.
Qed.

(** All of the tree: at and below the path there is the value; apart from it nothing is added, changed or lost; nothing but the
    document changes.  [x]: any value of rapidjson. *)
Theorem c33_tree_partial m c x m' :
  good_path c -> set_param m (slashed c) (XJson x) = (m', Ret tt) ->
  (forall r y, holds m' (c ++ r) y <-> leads r x y) /\ (forall q y, apart c q -> (holds m' q y <-> holds m q y)) /\ (forall q r y, c = q ++ r -> r <> [] -> holds m' q y -> object y) /\ same_head m' m.
Proof.
  intros G S. rewrite (set_param_eq _ _ _ G) in S. destruct (set_at ("params" :: c) (set_value (XJson x)) (JObj (g_doc m))) as [y|] eqn:SA; [|discriminate]. destruct y; try discriminate. injection S as <-. cbn [set_value] in SA. repeat split.
  - rewrite holds_at, leads_at. cbn [with_doc g_doc]. change ("params" :: c ++ r) with (("params" :: c) ++ r). rewrite (set_at_below _ _ _ _ r SA). auto.
  - rewrite holds_at, leads_at. cbn [with_doc g_doc]. change ("params" :: c ++ r) with (("params" :: c) ++ r). rewrite (set_at_below _ _ _ _ r SA). auto.
  - rewrite !holds_at. cbn [with_doc g_doc]. rewrite (set_at_apart _ _ _ _ ("params" :: q) SA); [auto|apply apart_cons; exact H].
  - rewrite !holds_at. cbn [with_doc g_doc]. rewrite (set_at_apart _ _ _ _ ("params" :: q) SA); [auto|apply apart_cons; exact H].
  - intros q r y E N H. apply holds_at in H. cbn [with_doc g_doc] in H. destruct (set_at_above _ _ _ _ ("params" :: q) r SA ltac:(rewrite E; reflexivity) N) as (d & D). rewrite D in H. injection H as <-. eexists. reflexivity.
Qed.

(** Reading anywhere else, by any type, is not affected: same value, same exception. *)
Theorem c33_others_partial m c v m' q :
  good_path c -> set_param m (slashed c) v = (m', Ret tt) -> any_path q -> apart c q ->
  (forall g, get_param g m' (slashed q) = get_param g m (slashed q)) /\ has_param m' (slashed q) = has_param m (slashed q) /\
  (forall g n d, q = [n] -> get_param_or g m' n d = get_param_or g m n d).
Proof.
  intros G S A P. rewrite (set_param_eq _ _ _ G) in S. destruct (set_at ("params" :: c) (set_value v) (JObj (g_doc m))) as [y|] eqn:SA; [|discriminate]. destruct y; try discriminate. injection S as <-.
  assert (P' : apart ("params" :: c) (map cstr ("params" :: pieces (slashed q)))) by (rewrite (any_pieces q A); cbn [map]; rewrite map_cstr by apply A; apply apart_cons, P).
  assert (R : get_raw (with_doc l m) (slashed q) = get_raw m (slashed q)) by (rewrite !get_raw_eq; cbn [with_doc g_doc]; exact (get_node_same _ _ _ _ _ SA P')).
  split; [intros g; unfold get_param; rewrite R; reflexivity|]. split; [rewrite !has_param_eq; cbn [with_doc g_doc]; exact (has_node_same _ _ _ _ _ SA P')|].
  intros g n d ->. cbn [slashed] in R. unfold get_raw in R. destruct A as (_ & A1 & A2). inversion A1 as [|? ? A3 _]; inversion A2 as [|? ? A4 _]; subst. rewrite (pieces_no_slash n A3) in R. unfold get_param_or. cbn [get_node] in R.
  destruct (params_of (with_doc l m)) as [p1|] eqn:E1, (params_of m) as [p2|] eqn:E2.
  - destruct p1 as [| | | | | |la], p2 as [| | | | | |lb]; try discriminate R; try reflexivity; try (destruct (find_member (cstr n) la); discriminate R); try (destruct (find_member (cstr n) lb); discriminate R).
    destruct (find_member (cstr n) la), (find_member (cstr n) lb); try discriminate R; [injection R as ->; reflexivity|reflexivity].
  - destruct p1; try discriminate R. destruct (find_member (cstr n) l0); [discriminate R|reflexivity].
  - exfalso. unfold params_of in E1. cbn [with_doc g_doc] in E1. cbn [set_at] in SA. destruct (set_at c _ _); [|discriminate]. injection SA as <-. rewrite find_put in E1. discriminate.
  - reflexivity.
Qed.

(** It succeeds exactly if nothing but objects stands on the way; else the message is unchanged. *)
Theorem c33_succeeds m c v : good_path c ->
  (clear_way ("params" :: c) (JObj (g_doc m)) -> exists m', set_param m (slashed c) v = (m', Ret tt)) /\
  (~ clear_way ("params" :: c) (JObj (g_doc m)) -> set_param m (slashed c) v = (m, Throw EAssert)).
Proof.
  intros G. rewrite (set_param_eq _ _ _ G), way_clear. split; intros W.
  - destruct (set_at_some _ (set_value v) _ W) as (y & S). rewrite S. cbn [set_at] in S. destruct (set_at c _ _); [|discriminate]. injection S as <-. eauto.
  - destruct (set_at ("params" :: c) (set_value v) (JObj (g_doc m))) as [y|] eqn:S; [|reflexivity]. destruct W. intros q r z E N L.
    destruct (set_at_blocks _ _ _ _ _ _ _ S E N L). eexists. eassumption.
Qed.

(** has_param and get_param agree. *)
Theorem c33_has m q b : any_path q -> has_param m (slashed q) = Ret b -> (b = true <-> exists x, holds m q x) /\ (b = false <-> forall g, get_param g m (slashed q) = Throw EMissing).
Proof.
  intros A H. assert (X : (b = true -> exists x, holds m q x) /\ (b = false -> get_raw m (slashed q) = Throw EMissing)).
  { rewrite has_param_eq in H. rewrite get_raw_eq. setoid_rewrite holds_at. rewrite (any_pieces q A) in *. assert (F : Forall no_nul ("params" :: q)) by (constructor; [intros X; cbn in X; intuition discriminate|apply A]).
    revert H F. generalize ("params" :: q) as names. generalize (JObj (g_doc m)) as x. intros x names. revert x. induction names as [|n r IH]; intros x H F; cbn in *; [injection H as <-; split; [eauto|discriminate]|].
    destruct x; try discriminate. inversion F as [|? ? B C]; subst. rewrite (cstr_id _ B) in *. destruct (find_member n l); [apply IH; assumption|]. injection H as <-. split; [discriminate|reflexivity]. }
  destruct X as (X1 & X2). destruct b.
  - split; [tauto|]. split; [discriminate|]. intros N. destruct (X1 eq_refl) as (x & HX). apply (get_raw_holds m q x A) in HX. specialize (N GInt). unfold get_param in N. rewrite HX in N. destruct x; try discriminate N. cbn in N. unfold in_range in N. destruct (_ && _); discriminate N.
  - split; [split; [discriminate|]|split; [|reflexivity]].
    + intros (x & HX). apply (get_raw_holds m q x A) in HX. rewrite (X2 eq_refl) in HX. discriminate.
    + intros _ g. unfold get_param. rewrite (X2 eq_refl). reflexivity.
Qed.

(** "[]" at the end of a path appends to the array there, or starts one. *)
Theorem c33_push_partial m d n v m' :
  good_path (d ++ [n]) -> d <> [] -> ~ In (append n "[]") d -> clear_way ("params" :: d ++ [n]) (JObj (g_doc m)) ->
  set_param m (slashed (d ++ [append n "[]"])) v = (m', Ret tt) ->
  (forall l, holds m (d ++ [n]) (JArr l) -> holds m' (d ++ [n]) (JArr (l ++ [set_value v]))) /\
  ((forall l, ~ holds m (d ++ [n]) (JArr l)) -> holds m' (d ++ [n]) (JArr [set_value v])) /\
  (forall q y, apart (d ++ [n]) q -> (holds m' q y <-> holds m q y)).
Proof.
  intros G D N W S. destruct d as [|t d]; [congruence|]. destruct G as (_ & G1 & G2 & G3 & _). cbn [hd app] in *. apply way_clear in W.
  inversion G1 as [|? ? G1a G1b]; subst. inversion G2 as [|? ? G2a G2b]; subst.
  assert (SA : exists dd, set_at ("params" :: t :: d ++ [n]) (JArr (elements (at_path ("params" :: t :: d ++ [n]) (JObj (g_doc m))) ++ [set_value v])) (JObj (g_doc m)) = Some (JObj dd) /\ m' = with_doc dd m).
  { destruct (set_at_some _ (JArr (elements (at_path ("params" :: t :: d ++ [n]) (JObj (g_doc m))) ++ [set_value v])) _ W) as (y & SY). rewrite SY.
    unfold set_param in S. assert (LN : lines (slashed (t :: d ++ [append n "[]"])) = t :: d ++ [append n "[]"]).
    { change (t :: d ++ [append n "[]"]) with ((t :: d) ++ [append n "[]"]). apply lines_slashed; [|destruct n; discriminate]. cbn. constructor; [exact G1a|]. apply Forall_app in G1b as (Y1 & Y2). apply Forall_app. split; [exact Y1|]. constructor; [|constructor]. inversion Y2; subst. apply no_slash_app; [assumption|]. intros X. cbn in X. intuition discriminate. }
    rewrite LN, (ends_plain _ G3), (cstr_id _ G2a), last_snoc in S. unfold params_of in S. cbn [set_at at_path] in SY. set (p := match find_member "params" (g_doc m) with Some p => p | None => JObj [] end) in *.
    assert (AP : forall r, match find_member "params" (g_doc m) with Some y0 => at_path (t :: r) y0 | None => None end = at_path (t :: r) p) by (intros r; unfold p; destruct (find_member "params" (g_doc m)); reflexivity).
    cbn [at_path] in AP. rewrite AP in SY. destruct p as [| | | | | |l]; try discriminate SY. set (x := match find_member t l with Some x => x | None => JObj [] end) in *.
    assert (AX : match find_member t l with Some y0 => at_path (d ++ [n]) y0 | None => None end = at_path (d ++ [n]) x) by (unfold x; destruct (find_member t l); [reflexivity|rewrite at_path_empty by (destruct d; discriminate); reflexivity]).
    rewrite AX in SY. destruct (set_at (d ++ [n]) _ x) as [x'|] eqn:SX; [|discriminate SY]. rewrite (set_rest_push d n (set_value v) x G2b (fun X => N (or_intror X)) x' SX) in S. injection S as <-. injection SY as <-. eauto. }
  destruct SA as (dd & SA & ->). split; [|split].
  - intros l H. apply holds_at in H. apply holds_at. cbn [with_doc g_doc app] in *. rewrite H in SA. cbn [elements] in SA. pose proof (set_at_below _ _ _ _ [] SA) as B. rewrite app_nil_r in B. exact B.
  - intros H. apply holds_at. cbn [with_doc g_doc app]. assert (E : elements (at_path ("params" :: t :: d ++ [n]) (JObj (g_doc m))) = []).
    { destruct (at_path ("params" :: t :: d ++ [n]) (JObj (g_doc m))) as [[]|] eqn:E; try reflexivity. destruct (H l). apply holds_at. exact E. }
    rewrite E in SA. pose proof (set_at_below _ _ _ _ [] SA) as B. rewrite app_nil_r in B. exact B.
  - intros q y A. rewrite !holds_at. cbn [with_doc g_doc]. rewrite (set_at_apart _ _ _ _ ("params" :: q) SA); [tauto|]. apply (apart_cons "params" (t :: d ++ [n]) q). exact A.
Qed.

(** Deciding the conditions of a path on concrete strings. *)
Definition no_char (c : ascii) (s : string) : bool := forallb (fun a => negb (Ascii.eqb a c)) (chars s).
Lemma no_char_ok c s : no_char c s = true -> ~ In c (chars s).
Proof. unfold no_char. rewrite forallb_forall. intros H X. specialize (H c X). rewrite Ascii.eqb_refl in H. discriminate. Qed.
Definition plain_check (s : string) : bool := match ends_array s with Ret false => true | _ => false end.
Lemma plain_check_ok s : plain_check s = true -> plain s.
Proof. unfold plain_check. intros H. destruct (Nat.lt_ge_cases (String.length s) 2) as [L|L]; [rewrite (ends_short _ L) in H; discriminate|]. destruct (ends_array_spec s L) as (b & E & B). rewrite E in H. destruct b; [discriminate|]. split; [exact L|]. intros X. apply B in X. discriminate. Qed.
Definition path_check (c : list string) : bool := match c with [] => false | _ => forallb (no_char "/") c && forallb (no_char zero) c && plain_check (hd "" c) && plain_check (last c "") end.
Lemma path_check_ok c : path_check c = true -> good_path c.
Proof.
  unfold path_check. destruct c as [|n c]; [discriminate|]. rewrite !andb_true_iff, !forallb_forall. intros (((A & B) & C) & D). split; [discriminate|]. split; [apply Forall_forall; intros x X; apply no_char_ok, A, X|]. split; [apply Forall_forall; intros x X; apply no_char_ok, B, X|].
  split; apply plain_check_ok; assumption.
Qed.

Lemma way_check_ok c x : (match set_at c JNull x with Some _ => true | None => false end) = true -> clear_way c x.
Proof. destruct (set_at c JNull x) eqn:S; [|discriminate]. intros _. apply way_clear. intros q r y E N L. exact (set_at_blocks _ _ _ _ _ _ _ S E N L). Qed.

Definition m0 := new_msg TCmd VConfigure true 0.
Definition m1 := fst (set_param m0 "hdf/file/name" (XStr "run_1")).
Definition m2 := fst (set_param m1 "hdf/frames" (XUint 7)).
Example c33_case : good_path ["hdf"; "file"; "name"] /\ good_path ["hdf"; "frames"] /\ apart ["hdf"; "frames"] ["hdf"; "file"; "name"] /\ clear_way ["params"; "hdf"; "frames"] (JObj (g_doc m1)) /\
  set_param m1 "hdf/frames" (XUint 7) = (m2, Ret tt) /\ get_param GUint m2 "hdf/frames" = Ret (RInt 7) /\ get_param GStr m2 "hdf/file/name" = Ret (RStr "run_1") /\
  get_param GInt m2 "hdf/file" = Throw EAssert /\ get_param GInt m2 "hdf/files" = Throw EMissing /\ has_param m2 "hdf/frames" = Ret true /\ has_param m2 "hdf/files" = Ret false /\ snd (set_param m2 "hdf/frames/first" (XInt 0)) = Throw EAssert.
Proof.
  split; [apply path_check_ok; vm_compute; reflexivity|]. split; [apply path_check_ok; vm_compute; reflexivity|]. split; [apply apart_cons, apart_head; discriminate|]. split; [|vm_compute; repeat split].
  apply way_check_ok. vm_compute. reflexivity.
Qed.
Definition m3 := fst (set_param m2 "hdf/list[]" (XInt 1)).
Example c33_push_case : good_path (["hdf"] ++ ["list"]) /\ ~ In (append "list" "[]") ["hdf"] /\ get_raw m3 "hdf/list" = Ret (JArr [JInt 1]) /\ get_raw (fst (set_param m3 "hdf/list[]" (XInt 2))) "hdf/list" = Ret (JArr [JInt 1; JInt 2]).
Proof. split; [apply path_check_ok; vm_compute; reflexivity|]. split; [intros [H|[]]; discriminate|]. vm_compute. auto. Qed.

(** False for other paths.  A name of one character: std::out_of_range, whatever the message. *)
Theorem c33_short_name_refuted : forall m v a, a <> "/"%char -> set_param m (String a "") v = (m, Throw ERange).
Proof.
  intros m v a N. unfold set_param, lines. cbn. destruct (Ascii.eqb_spec a "/"); [contradiction|]. reflexivity.
Qed.
(** The same for the last name; the message is changed all the same. *)
Theorem c33_short_last_refuted : exists m m', set_param m "roi/x" (XInt 1) = (m', Throw ERange) /\ has_param m "roi" = Ret false /\ has_param m' "roi" = Ret true /\ has_param m' "roi/x" = Ret false.
Proof. exists m0, (fst (set_param m0 "roi/x" (XInt 1))). vm_compute. repeat split. Qed.
(** A '/' at the end, the empty name. *)
Theorem c33_last_slash_refuted : exists m m', set_param m "ab/" (XInt 1) = (m', Ret tt) /\ get_param GInt m' "ab/" = Throw EAssert /\ get_param GInt m' "ab" = Ret (RInt 1).
Proof. exists m0, (fst (set_param m0 "ab/" (XInt 1))). vm_compute. repeat split. Qed.
Theorem c33_empty_name_refuted : forall m v, set_param m "" v = (m, Undef).
Proof. reflexivity. Qed.
(** "[]" at the first of several names cuts the last two characters off the others. *)
Theorem c33_array_inside_refuted : exists m m', set_param m "list[]/entry" (XInt 1) = (m', Ret tt) /\ get_param GInt m' "list/entry" = Throw EMissing /\ has_param m' "list/ent" = Ret true.
Proof. exists m0, (fst (set_param m0 "list[]/entry" (XInt 1))). vm_compute. repeat split. Qed.
(** has_param throws where something that is not an object stands on the way. *)
Theorem c33_has_throws_refuted : exists m, has_param m "hdf/frames/first" = Throw EAssert.
Proof. exists m2. vm_compute. reflexivity. Qed.
(** With a default, a path with '/' is not found. *)
Theorem c33_default_refuted : exists m, get_param GUint m "hdf/frames" = Ret (RInt 7) /\ get_param_or GUint m "hdf/frames" (RInt 3) = Ret (RInt 3).
Proof. exists m2. vm_compute. auto. Qed.
(** A reference to a rapidjson value below the first level dangles, in every message that has one there. *)
Theorem c33_reference_refuted : forall m n k r x, any_path (n :: k :: r) -> holds m (n :: k :: r) x -> get_ref m (slashed (n :: k :: r)) = Undef.
Proof. intros m n k r x A H. unfold get_ref. rewrite (proj2 (get_raw_holds m _ x A) H), (any_pieces _ A). reflexivity. Qed.
(** A zero character ends a string. *)
Theorem c33_nul_refuted : exists m m' s, set_param m "name" (XStr s) = (m', Ret tt) /\ get_param GStr m' "name" = Ret (RStr "ab") /\ s <> "ab".
Proof. pose (s := String "a" (String "b" (String zero "c"))). exists m0, (fst (set_param m0 "name" (XStr s))), s. vm_compute. repeat split. discriminate. Qed.

Print Assumptions c33_read_back_partial.
Print Assumptions c33_tree_partial.
Print Assumptions c33_others_partial.
Print Assumptions c33_succeeds.
Print Assumptions c33_has.
Print Assumptions c33_push_partial.
Print Assumptions c33_short_name_refuted.
Print Assumptions c33_short_last_refuted.
Print Assumptions c33_last_slash_refuted.
Print Assumptions c33_empty_name_refuted.
Print Assumptions c33_array_inside_refuted.
Print Assumptions c33_has_throws_refuted.
Print Assumptions c33_default_refuted.
Print Assumptions c33_reference_refuted.
Print Assumptions c33_nul_refuted.
