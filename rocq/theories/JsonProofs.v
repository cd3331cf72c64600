From Coq Require Import String Ascii.
From Verif Require Import Base JsonModel JsonSpec.
Local Open Scope string_scope.
Local Open Scope list_scope.

Fixpoint at_path (c : list string) (x : json) : option json :=
  match c with [] => Some x | n :: r => match x with JObj l => match find_member n l with Some y => at_path r y | None => None end | _ => None end end.
Fixpoint set_at (c : list string) (v x : json) : option json :=
  match c with
  | [] => Some v
  | n :: r => match x with JObj l => match set_at r v (match find_member n l with Some y => y | None => JObj [] end) with Some y' => Some (JObj (put_member n y' l)) | None => None end | _ => None end
  end.

Lemma find_split k l y : find_member k l = Some y <-> exists l1 l2, l = l1 ++ (k, y) :: l2 /\ ~ In k (map fst l1).
Proof.
  split.
  - induction l as [|[n x] l IH]; cbn; [discriminate|]. destruct (String.eqb_spec n k) as [->|N].
    + intros H. injection H as ->. exists [], l. split; [reflexivity|intros []].
    + intros H. destruct (IH H) as (l1 & l2 & -> & X). exists ((n, x) :: l1), l2. split; [reflexivity|]. intros [Y|Y]; [exact (N Y)|exact (X Y)].
  - intros (l1 & l2 & -> & X). induction l1 as [|[n x] l1 IH]; cbn in *; [rewrite String.eqb_refl; reflexivity|]. destruct (String.eqb_spec n k); [tauto|]. apply IH. tauto.
Qed.
Lemma find_none k l : find_member k l = None <-> ~ In k (map fst l).
Proof. induction l as [|[n x] l IH]; cbn; [tauto|]. destruct (String.eqb_spec n k); [split; [discriminate|tauto]|]. rewrite IH. tauto. Qed.
Lemma leads_at c x y : leads c x y <-> at_path c x = Some y.
Proof.
  revert x. induction c as [|n r IH]; intros x; cbn; split; intros H.
  - inversion H. reflexivity.
  - injection H as ->. constructor.
  - inversion H as [|? ? l1 l2 z ? A B]; subst. assert (F : find_member n (l1 ++ (n, z) :: l2) = Some z) by (apply find_split; exists l1, l2; auto). rewrite F. apply IH, B.
  - destruct x; try discriminate. destruct (find_member n l) as [z|] eqn:F; [|discriminate]. apply find_split in F as (l1 & l2 & -> & F). constructor; [exact F|apply IH, H].
Qed.

Lemma find_put k j v l : find_member k (put_member j v l) = if String.eqb j k then Some v else find_member k l.
Proof.
  induction l as [|[n x] l IH]; cbn.
  - reflexivity.
  - destruct (String.eqb_spec n j) as [->|N]; cbn.
    + destruct (String.eqb_spec j k); reflexivity.
    + destruct (String.eqb_spec n k) as [->|M]; [|exact IH]. destruct (String.eqb_spec j k); [congruence|reflexivity].
Qed.
Lemma put_same k v l : find_member k l = Some v -> put_member k v l = l.
Proof. induction l as [|[n x] l IH]; cbn; [discriminate|]. destruct (String.eqb_spec n k) as [->|N]; intros H; [injection H as ->; reflexivity|rewrite IH by exact H; reflexivity]. Qed.

Lemma starts_cons n c q : starts (n :: c) (n :: q) <-> starts c q.
Proof. split; intros (r & H); exists r; [injection H as ->; reflexivity|rewrite H; reflexivity]. Qed.
Lemma starts_nil q : starts [] q. Proof. exists q. reflexivity. Qed.
Lemma apart_cons n c q : apart (n :: c) (n :: q) <-> apart c q. Proof. unfold apart. rewrite !starts_cons. reflexivity. Qed.
Lemma apart_sym a b : apart a b <-> apart b a. Proof. unfold apart. tauto. Qed.
Lemma apart_nil c : ~ apart c []. Proof. intros (_ & H). apply H, starts_nil. Qed.
Lemma apart_nil' c : ~ apart [] c. Proof. intros (H & _). apply H, starts_nil. Qed.
Lemma apart_head a b c q : a <> b -> apart (a :: c) (b :: q). Proof. intros N. split; intros (r & H); injection H; congruence. Qed.

Lemma set_at_below c v x x' r : set_at c v x = Some x' -> at_path (c ++ r) x' = at_path r v.
Proof.
  revert x x'. induction c as [|n c IH]; intros x x'; cbn; [intros H; injection H as ->; reflexivity|]. destruct x; try discriminate. destruct (set_at c v _) as [y'|] eqn:S; [|discriminate]. intros H. injection H as <-. rewrite find_put, String.eqb_refl. eapply IH, S.
Qed.
Lemma at_path_empty q : q <> [] -> at_path q (JObj []) = None. Proof. destruct q; [congruence|reflexivity]. Qed.
Lemma set_at_apart c v x x' q : set_at c v x = Some x' -> apart c q -> at_path q x' = at_path q x.
Proof.
  revert x x' q. induction c as [|n c IH]; intros x x' q; cbn; [intros _ A; destruct (apart_nil' _ A)|]. destruct x; try discriminate. destruct (set_at c v _) as [y'|] eqn:S; [|discriminate]. intros H A. injection H as <-.
  destruct q as [|k q]; [destruct (apart_nil _ A)|]. cbn. rewrite find_put. destruct (String.eqb_spec n k) as [<-|N]; [|reflexivity]. apply apart_cons in A. rewrite (IH _ _ _ S A).
  destruct (find_member n l); [reflexivity|]. apply at_path_empty. intros ->. destruct (apart_nil _ A).
Qed.
Lemma set_at_above c v x x' q r : set_at c v x = Some x' -> c = q ++ r -> r <> [] -> exists l, at_path q x' = Some (JObj l).
Proof.
  revert x x' q. induction c as [|n c IH]; intros x x' q; cbn; [intros _ E R; destruct q, r; try discriminate; congruence|]. destruct x; try discriminate. destruct (set_at c v _) as [y'|] eqn:S; [|discriminate]. intros H E R. injection H as <-.
  destruct q as [|k q]; cbn; [eauto|]. injection E as <- E. rewrite find_put, String.eqb_refl. eapply IH; eassumption.
Qed.
Lemma set_at_same c v x : at_path c x = Some v -> set_at c v x = Some x.
Proof.
  revert x. induction c as [|n c IH]; intros x; cbn; [auto|]. destruct x; try discriminate. destruct (find_member n l) as [y|] eqn:F; [|discriminate]. intros H. rewrite (IH _ H), (put_same _ _ _ F). reflexivity.
Qed.

Lemma classic_starts q c : starts q c \/ ~ starts q c.
Proof.
  revert c. induction q as [|n q IH]; intros c; [left; apply starts_nil|]. destruct c as [|k c]; [right; intros (r & H); discriminate|]. destruct (String.string_dec n k) as [<-|N]; [|right; intros (r & H); injection H; congruence].
  destruct (IH c); [left|right]; rewrite starts_cons; assumption.
Qed.
Definition way (c : list string) (x : json) : Prop := forall q r y, c = q ++ r -> r <> [] -> at_path q x = Some y -> object y.
Lemma way_clear c x : clear_way c x <-> way c x. Proof. unfold clear_way, way. split; intros H q r y E N L; apply (H q r y E N), leads_at, L. Qed.
Lemma set_at_some c v x : way c x -> exists x', set_at c v x = Some x'.
Proof.
  revert x. induction c as [|n c IH]; intros x W; cbn; [eauto|]. destruct (W [] (n :: c) x eq_refl ltac:(discriminate) eq_refl) as (l & ->).
  destruct (IH (match find_member n l with Some y => y | None => JObj [] end)) as (y' & ->); [|eauto]. destruct (find_member n l) as [y|] eqn:F.
  - intros q r z E N L. apply (W (n :: q) r z); [rewrite E; reflexivity|exact N|cbn; rewrite F; exact L].
  - intros q r z E N L. destruct q; [injection L as <-; eexists; reflexivity|discriminate].
Qed.
Lemma set_at_none c v x : set_at c v x = None -> exists q r y, c = q ++ r /\ r <> [] /\ at_path q x = Some y /\ ~ object y.
Proof.
  revert x. induction c as [|n c IH]; intros x; cbn; [discriminate|]. destruct x; try (intros _; exists [], (n :: c); eexists; split; [reflexivity|]; split; [discriminate|]; split; [reflexivity|]; intros (? & ?); discriminate).
  destruct (set_at c v _) eqn:S; [discriminate|]. intros _. destruct (IH _ S) as (q & r & y & E & N & L & O). destruct (find_member n l) as [z|] eqn:F.
  - exists (n :: q), r, y. rewrite E. split; [reflexivity|]. split; [exact N|]. split; [cbn; rewrite F; exact L|exact O].
  - destruct q; [injection L as <-; exfalso; apply O; eexists; reflexivity|discriminate].
Qed.
Lemma way_after c v x x' d : set_at c v x = Some x' -> apart c d -> way d x -> way d x'.
Proof.
  intros S A W q r y E N L. destruct (classic_starts q c) as [(s & Es)|NS].
  - destruct s as [|n s]; [|destruct (set_at_above _ _ _ _ q (n :: s) S Es ltac:(discriminate)) as (l & X); rewrite X in L; injection L as <-; eexists; reflexivity].
    rewrite app_nil_r in Es. subst q. destruct A as (A & _). destruct A. exists r. exact E.
  - apply (W q r y E N). rewrite <- (set_at_apart _ _ _ _ q S); [exact L|]. split; [|exact NS]. intros (s & ->). destruct A as (A & _). apply A. exists (s ++ r). rewrite E, app_assoc. reflexivity.
Qed.

(** Strings. *)
Lemma cstr_id s : no_nul s -> cstr s = s.
Proof. unfold no_nul. induction s as [|c s IH]; cbn; [reflexivity|]. intros H. destruct (Ascii.eqb_spec c zero); [tauto|]. rewrite IH; tauto. Qed.
Lemma cstr_idem s : cstr (cstr s) = cstr s.
Proof. induction s as [|c s IH]; cbn; [reflexivity|]. destruct (Ascii.eqb_spec c zero) as [->|N]; [reflexivity|]. cbn. destruct (Ascii.eqb_spec c zero); [contradiction|]. rewrite IH. reflexivity. Qed.
Lemma pieces_nonempty s : pieces s <> [].
Proof. destruct s as [|c s]; cbn; [discriminate|]. destruct (Ascii.eqb c "/"); [discriminate|]. destruct (pieces s); discriminate. Qed.
Lemma pieces_no_slash s : no_slash s -> pieces s = [s].
Proof. unfold no_slash. induction s as [|c s IH]; cbn; [reflexivity|]. intros H. destruct (Ascii.eqb_spec c "/"); [tauto|]. rewrite IH by tauto. reflexivity. Qed.
Lemma pieces_app s t : no_slash s -> pieces (append s (append "/" t)) = s :: pieces t.
Proof. unfold no_slash. induction s as [|c s IH]; cbn; [reflexivity|]. intros H. destruct (Ascii.eqb_spec c "/"); [tauto|]. cbn in IH. rewrite IH by tauto. reflexivity. Qed.
Lemma pieces_slashed c : c <> [] -> Forall no_slash c -> pieces (slashed c) = c.
Proof.
  induction c as [|n c IH]; [congruence|]. intros _ F. inversion F as [|? ? A B]; subst. destruct c as [|k c]; [apply pieces_no_slash, A|]. change (slashed (n :: k :: c)) with (append n (append "/" (slashed (k :: c)))). rewrite pieces_app by exact A. rewrite IH; [reflexivity|discriminate|exact B].
Qed.
Lemma slashed_pieces s : slashed (pieces s) = s.
Proof.
  induction s as [|c s IH]; [reflexivity|]. cbn. destruct (Ascii.eqb_spec c "/") as [->|N].
  - pose proof (pieces_nonempty s). destruct (pieces s) as [|p t]; [congruence|]. change (slashed ("" :: p :: t)) with (append "" (append "/" (slashed (p :: t)))). rewrite IH. reflexivity.
  - pose proof (pieces_nonempty s). destruct (pieces s) as [|p t]; [congruence|]. rewrite <- IH. destruct t; reflexivity.
Qed.
Lemma pieces_all_no_slash s : Forall no_slash (pieces s).
Proof.
  unfold no_slash. induction s as [|c s IH]; cbn; [repeat constructor; auto|]. destruct (Ascii.eqb_spec c "/"); [constructor; [intros []|exact IH]|]. destruct (pieces s) as [|p t]; [repeat constructor; cbn; intuition congruence|]. inversion IH as [|? ? A B]; subst. constructor; [cbn; intuition congruence|exact B].
Qed.
Lemma drop_length n s : String.length (drop n s) = String.length s - n.
Proof. revert s. induction n as [|n IH]; intros [|c s]; cbn; try reflexivity. apply IH. Qed.
Lemma drop_app p s : drop (String.length p) (append p s) = s.
Proof. induction p as [|c p IH]; cbn; [destruct s; reflexivity|exact IH]. Qed.
Lemma append_length p s : String.length (append p s) = String.length p + String.length s.
Proof. induction p as [|c p IH]; cbn; [reflexivity|rewrite IH; reflexivity]. Qed.
Lemma take_drop n s : n <= String.length s -> append (substring 0 n s) (drop n s) = s.
Proof. revert s. induction n as [|n IH]; intros [|c s] H; cbn in *; try reflexivity; try lia. rewrite IH by lia. reflexivity. Qed.
Lemma ends_array_spec s : 2 <= String.length s -> exists b, ends_array s = Ret b /\ (b = true <-> array_name s).
Proof.
  intros L. unfold ends_array. destruct (Nat.ltb_spec (String.length s) 2); [lia|]. eexists. split; [reflexivity|]. rewrite String.eqb_eq. split.
  - intros E. exists (substring 0 (String.length s - 2) s). rewrite <- E. symmetry. apply take_drop. lia.
  - intros (p & ->). rewrite append_length. cbn. rewrite Nat.add_sub. apply drop_app.
Qed.
Lemma ends_plain s : plain s -> ends_array s = Ret false.
Proof. intros (L & N). destruct (ends_array_spec s L) as ([|] & E & B); [destruct N; apply B; reflexivity|exact E]. Qed.
Lemma ends_short s : String.length s < 2 -> ends_array s = Throw ERange. Proof. intros L. unfold ends_array. destruct (Nat.ltb_spec (String.length s) 2); [reflexivity|lia]. Qed.
Lemma lines_slashed c n : Forall no_slash (c ++ [n]) -> n <> "" -> lines (slashed (c ++ [n])) = c ++ [n].
Proof.
  intros F N. unfold lines. rewrite pieces_slashed; [|destruct c; discriminate|exact F]. clear F. induction c as [|k c IH]; cbn; [destruct (String.eqb_spec n ""); [contradiction|reflexivity]|]. rewrite IH. destruct c; reflexivity.
Qed.


Lemma last_snoc {A} (l : list A) x d : last (l ++ [x]) d = x.
Proof. induction l as [|y l IH]; cbn; [reflexivity|]. destruct l; [reflexivity|exact IH]. Qed.
Lemma plain_nonempty n : plain n -> n <> "". Proof. intros (L & _) ->. cbn in L. lia. Qed.
Lemma lines_good c : good_path c -> lines (slashed c) = c.
Proof.
  intros (N & S & _ & _ & P). destruct (@exists_last _ c N) as (d & n & ->). rewrite last_snoc in P. apply lines_slashed; [exact S|apply plain_nonempty, P].
Qed.
Lemma pieces_good c : good_path c -> pieces (slashed c) = c. Proof. intros (N & S & _). apply pieces_slashed; assumption. Qed.

Definition result_of (o : option json) (x : json) : json * outcome ipcexc unit := match o with Some y => (y, Ret tt) | None => (x, Throw EAssert) end.
Lemma set_rest_eq back names v x : Forall no_nul names -> plain back ->
  match set_at names v x with Some y => set_rest back names false v x = (y, Ret tt) | None => snd (set_rest back names false v x) = Throw EAssert end.
Proof.
  intros F P. revert x. induction names as [|n r IH]; intros x; cbn; [reflexivity|]. inversion F as [|? ? A B]; subst.
  assert (E : (if String.eqb n back then ends_array n else Ret false) = Ret false) by (destruct (String.eqb_spec n back) as [->|]; [apply ends_plain, P|reflexivity]). rewrite E. cbn [orb]. rewrite (cstr_id n A).
  destruct x; try reflexivity. set (y := match find_member n l with Some y => y | None => JObj [] end). specialize (IH B y). destruct (set_at r v y) as [y'|].
  - rewrite IH. reflexivity.
  - destruct (set_rest back r false v y) as [a o]. cbn in *. exact IH.
Qed.
(** When the walk fails, what it met on the way was there before: nothing changed. *)
Lemma set_rest_fails back names v x : Forall no_nul names -> plain back -> set_at names v x = None -> set_rest back names false v x = (x, Throw EAssert).
Proof.
  intros F P. revert x. induction names as [|n r IH]; intros x; cbn; [discriminate|]. inversion F as [|? ? A B]; subst.
  assert (E : (if String.eqb n back then ends_array n else Ret false) = Ret false) by (destruct (String.eqb_spec n back) as [->|]; [apply ends_plain, P|reflexivity]). rewrite E. cbn [orb]. rewrite (cstr_id n A).
  destruct x; try reflexivity. destruct (find_member n l) as [z|] eqn:FM.
  - destruct (set_at r v z) eqn:S; [discriminate|]. intros _. rewrite (IH B z S), (put_same _ _ _ FM). reflexivity.
  - destruct (set_at r v (JObj [])) eqn:S; [discriminate|]. exfalso. apply set_at_none in S as (q & s & y & _ & _ & L & O). destruct q; [injection L as <-; apply O; eexists; reflexivity|discriminate].
Qed.

Lemma with_doc_same m : with_doc (g_doc m) m = m. Proof. destruct m; reflexivity. Qed.
Lemma set_param_eq m c v : good_path c ->
  set_param m (slashed c) v = match set_at ("params" :: c) (set_value v) (JObj (g_doc m)) with Some (JObj d) => (with_doc d m, Ret tt) | _ => (m, Throw EAssert) end.
Proof.
  intros G. unfold set_param. rewrite (lines_good c G). destruct G as (N & _ & Z & P & Q). destruct c as [|tl names]; [congruence|]. cbn [hd] in P. rewrite (ends_plain _ P). inversion Z as [|? ? A B]; subst. cbn [andb]. rewrite (cstr_id _ A). cbn [set_at]. unfold params_of.
  set (p := match find_member "params" (g_doc m) with Some p => p | None => JObj [] end). destruct p as [| | | | | |l] eqn:EP; try reflexivity. set (x := match find_member tl l with Some x => x | None => JObj [] end).
  assert (QQ : names = [] \/ plain (last names "")) by (destruct names; [auto|right; exact Q]).
  assert (X : match set_at names (set_value v) x with Some y => set_rest (last names "") names false (set_value v) x = (y, Ret tt) | None => set_rest (last names "") names false (set_value v) x = (x, Throw EAssert) end).
  { destruct QQ as [->|PL]; [reflexivity|]. pose proof (set_rest_eq (last names "") names (set_value v) x B PL) as Y. destruct (set_at names (set_value v) x) eqn:S; [exact Y|]. apply set_rest_fails; assumption. }
  destruct (set_at names (set_value v) x) as [y|] eqn:S; rewrite X; [reflexivity|].
  assert (FX : find_member tl l = Some x). { unfold x in *. destruct (find_member tl l); [reflexivity|]. apply set_at_none in S as (q & s & y & _ & _ & L & O). destruct q; [injection L as <-; destruct O; eexists; reflexivity|discriminate]. }
  rewrite (put_same _ _ _ FX). unfold p in EP. destruct (find_member "params" (g_doc m)) eqn:FP; [subst; rewrite (put_same _ _ _ FP), with_doc_same; reflexivity|]. injection EP as <-. discriminate FX.
Qed.

(** Reading. *)
Lemma get_node_at names x : (forall y, get_node names x = Ret y <-> at_path (map cstr names) x = Some y).
Proof.
  revert x. induction names as [|n r IH]; intros x y; cbn; [split; intros H; injection H as ->; reflexivity|]. destruct x; try (split; discriminate). destruct (find_member (cstr n) l); [apply IH|split; discriminate].
Qed.
Lemma map_cstr l : Forall no_nul l -> map cstr l = l.
Proof. induction 1 as [|x l A B IH]; cbn; [reflexivity|]. rewrite (cstr_id _ A), IH. reflexivity. Qed.
Lemma get_raw_at m name y : get_raw m name = Ret y <-> at_path ("params" :: map cstr (pieces name)) (JObj (g_doc m)) = Some y.
Proof. unfold get_raw, params_of. cbn. destruct (find_member "params" (g_doc m)); [apply get_node_at|split; discriminate]. Qed.

(** The same answer before and after, exceptions included, apart from the path that was set. *)
Lemma get_node_same c v x x' names : set_at c v x = Some x' -> apart c (map cstr names) -> get_node names x' = get_node names x.
Proof.
  revert c x x'. induction names as [|n r IH]; intros c x x' S A; [destruct (apart_nil _ A)|]. destruct c as [|k c]; [destruct (apart_nil' _ A)|]. cbn in S. destruct x; try discriminate. destruct (set_at c v _) as [y'|] eqn:S'; [|discriminate]. injection S as <-. cbn. rewrite find_put. cbn [map] in A.
  destruct (String.eqb_spec k (cstr n)) as [->|N]; [|reflexivity]. apply apart_cons in A. rewrite (IH c _ _ S' A). destruct (find_member (cstr n) l); [reflexivity|]. destruct r; [destruct (apart_nil _ A)|reflexivity].
Qed.
Lemma has_node_same c v x x' names : set_at c v x = Some x' -> apart c (map cstr names) -> has_node names x' = has_node names x.
Proof.
  revert c x x'. induction names as [|n r IH]; intros c x x' S A; [destruct (apart_nil _ A)|]. destruct c as [|k c]; [destruct (apart_nil' _ A)|]. cbn in S. destruct x; try discriminate. destruct (set_at c v _) as [y'|] eqn:S'; [|discriminate]. injection S as <-. cbn. rewrite find_put. cbn [map] in A.
  destruct (String.eqb_spec k (cstr n)) as [->|N]; [|reflexivity]. apply apart_cons in A. rewrite (IH c _ _ S' A). destruct (find_member (cstr n) l); [reflexivity|]. destruct r; [destruct (apart_nil _ A)|reflexivity].
Qed.

Lemma get_raw_eq m name : get_raw m name = get_node ("params" :: pieces name) (JObj (g_doc m)).
Proof. unfold get_raw, params_of. cbn. destruct (find_member "params" (g_doc m)); reflexivity. Qed.
Lemma has_param_eq m name : has_param m name = has_node ("params" :: pieces name) (JObj (g_doc m)).
Proof. unfold has_param, params_of. cbn. destruct (find_member "params" (g_doc m)); reflexivity. Qed.
Lemma any_pieces c : any_path c -> pieces (slashed c) = c. Proof. intros (N & S & _). apply pieces_slashed; assumption. Qed.
Lemma holds_at m c x : holds m c x <-> at_path ("params" :: c) (JObj (g_doc m)) = Some x. Proof. apply leads_at. Qed.
Lemma get_raw_holds m c x : any_path c -> (get_raw m (slashed c) = Ret x <-> holds m c x).
Proof. intros A. rewrite get_raw_at, (any_pieces c A), map_cstr by apply A. symmetry. apply holds_at. Qed.
Lemma good_any c : good_path c -> any_path c. Proof. intros (A & B & C & _). repeat split; assumption. Qed.

(** Array notation at the end. *)
Lemma array_length n : 2 <= String.length (append n "[]"). Proof. rewrite append_length. cbn. lia. Qed.
Lemma ends_array_name n : ends_array (append n "[]") = Ret true.
Proof. destruct (ends_array_spec _ (array_length n)) as ([|] & E & B); [exact E|]. assert (false = true) by (apply B; exists n; reflexivity). discriminate. Qed.
Lemma append_nil_r s : append s "" = s. Proof. induction s as [|c s IH]; cbn; [reflexivity|rewrite IH; reflexivity]. Qed.
Lemma substring_app p s : substring 0 (String.length p) (append p s) = p. Proof. induction p as [|c p IH]; cbn; [destruct s; reflexivity|rewrite IH; reflexivity]. Qed.
Lemma cut_array_name n : cut_array (append n "[]") = n.
Proof. unfold cut_array. pose proof (array_length n). destruct (Nat.ltb_spec (String.length (append n "[]")) 2); [lia|]. rewrite append_length. cbn [String.length]. replace (String.length n + 2 - 2) with (String.length n) by lia. apply substring_app. Qed.

Definition elements (o : option json) : list json := match o with Some (JArr l) => l | _ => [] end.
Lemma set_rest_push d n v x : Forall no_nul (d ++ [n]) -> ~ In (append n "[]") d -> forall y, set_at (d ++ [n]) (JArr (elements (at_path (d ++ [n]) x) ++ [v])) x = Some y ->
  set_rest (append n "[]") (d ++ [append n "[]"]) false v x = (y, Ret tt).
Proof.
  revert x. induction d as [|k d IH]; intros x F N y; cbn.
  - inversion F as [|? ? A _]; subst. rewrite String.eqb_refl, ends_array_name. cbn [orb]. rewrite cut_array_name, (cstr_id _ A). destruct x; try discriminate. intros H. injection H as <-.
    destruct (find_member n l) as [[]|]; reflexivity.
  - inversion F as [|? ? A B]; subst. destruct (String.eqb_spec k (append n "[]")) as [E|_]; [destruct N; left; exact E|]. cbn [orb]. rewrite (cstr_id _ A). destruct x; try discriminate. destruct (find_member k l) as [z|] eqn:FM.
    + destruct (set_at (d ++ [n]) _ z) as [y'|] eqn:S; [|discriminate]. intros H. injection H as <-. rewrite (IH z B (fun X => N (or_intror X)) y' S). reflexivity.
    + destruct (set_at (d ++ [n]) _ (JObj [])) as [y'|] eqn:S; [|discriminate]. intros H. injection H as <-. rewrite (IH (JObj []) B (fun X => N (or_intror X)) y'); [reflexivity|]. rewrite at_path_empty by (destruct d; discriminate). exact S.
Qed.
Lemma chars_app a b : chars (append a b) = chars a ++ chars b. Proof. induction a as [|c a IH]; cbn; [reflexivity|rewrite IH; reflexivity]. Qed.
Lemma no_slash_app a b : no_slash a -> no_slash b -> no_slash (append a b). Proof. unfold no_slash. rewrite chars_app, in_app_iff. tauto. Qed.
Lemma no_nul_app a b : no_nul a -> no_nul b -> no_nul (append a b). Proof. unfold no_nul. rewrite chars_app, in_app_iff. tauto. Qed.
Lemma set_at_blocks c v x x' q r z : set_at c v x = Some x' -> c = q ++ r -> r <> [] -> at_path q x = Some z -> exists l, z = JObj l.
Proof.
  revert x x' q. induction c as [|n c IH]; intros x x' q S E N L; [destruct q, r; try discriminate; congruence|]. cbn in S. destruct x; try discriminate. destruct (set_at c v _) as [y'|] eqn:S'; [|discriminate].
  destruct q as [|k q]; [injection L as <-; eauto|]. injection E as <- E. cbn in L. destruct (find_member n l); [|discriminate]. eapply IH; eassumption.
Qed.
