(** Parameter containers: lemmas *)
From Coq Require Import String Ascii.
From Verif Require Import Base StrOrder JsonModel JsonSpec JsonProofs JsonUpdate ParModel ParSpec.
Local Open Scope string_scope.
Local Open Scope list_scope.
Local Open Scope Z_scope.

(** ** Bindings *)
Lemma container_snoc l c : container (l ++ [c]) = sm_put (container l) (fst c) (snd c).
Proof. unfold container. rewrite fold_left_app. cbn. unfold bind_param. destruct c as [p [k a]]. reflexivity. Qed.
Lemma container_ok l : sm_ok (container l).
Proof. induction l as [|c l IH] using rev_ind; [exact Logic.I|]. rewrite container_snoc. apply sm_put_ok, IH. Qed.
Lemma bound_snoc l c p k a : bound (l ++ [c]) p k a <-> (c = (p, (k, a)) \/ fst c <> p /\ bound l p k a).
Proof.
  split.
  - intros (l1 & l2 & E & N). destruct l2 as [|d l2] using rev_ind.
    + apply app_inj_tail in E. destruct E as (_ & ->). auto.
    + clear IHl2. change ((p, (k, a)) :: l2 ++ [d]) with (((p, (k, a)) :: l2) ++ [d]) in E. rewrite app_assoc in E. apply app_inj_tail in E. destruct E as (-> & ->). rewrite map_app in N. right. split.
      * intros H. apply N, in_or_app. right. left. exact H.
      * exists l1, l2. split; [reflexivity|]. intros H. apply N, in_or_app. auto.
  - intros [-> | (N & l1 & l2 & -> & H)].
    + exists l, []. split; [reflexivity|intros []].
    + exists l1, (l2 ++ [c]). split; [rewrite <- app_assoc; reflexivity|]. rewrite map_app. intros I. apply in_app_or in I. destruct I as [I|[I|[]]]; [exact (H I)|exact (N I)].
Qed.
Lemma container_get l p k a : sm_get (container l) p = Some (k, a) <-> bound l p k a.
Proof.
  induction l as [|c l IH] using rev_ind.
  - cbn. split; [discriminate|]. intros (l1 & l2 & E & _). destruct l1; discriminate.
  - rewrite container_snoc, sm_get_put, bound_snoc. destruct (String.eqb_spec p (fst c)) as [E|N].
    + destruct c as [p' [k' a']]. cbn in *. subst p'. split; [intros H; injection H as -> ->; auto|]. intros [H|(H & _)]; [injection H as -> ->; reflexivity|congruence].
    + rewrite IH. split; [intros H; right; split; [congruence|exact H]|]. intros [-> | (_ & H)]; [cbn in N; congruence|exact H].
Qed.
Lemma container_in l p k a : In (p, (k, a)) (container l) <-> bound l p k a.
Proof. rewrite <- container_get. split; [apply sm_in_get, container_ok|apply sm_get_in]. Qed.

(** ** Paths *)
Lemma unescape_word n : ~ In "~"%char (chars n) -> unescape n = Some n.
Proof.
  induction n as [|c n IH]; intros H; [reflexivity|]. cbn in H. assert (C : c <> "~"%char) by (intros ->; apply H; auto). assert (T : unescape n = Some n) by (apply IH; auto).
  cbn [unescape]. rewrite T. destruct c as [[] [] [] [] [] [] [] []]; try reflexivity. destruct (C eq_refl).
Qed.
Lemma unescape_words c : Forall word c -> all_some (map unescape c) = Some c.
Proof. induction 1 as [|n c W F IH]; [reflexivity|]. cbn. rewrite unescape_word by apply W. cbn. rewrite IH. reflexivity. Qed.
Lemma words_slash c : Forall word c -> Forall no_slash c. Proof. apply Forall_impl. intros n W. apply W. Qed.
Lemma words_nul c : Forall word c -> Forall no_nul c. Proof. apply Forall_impl. intros n W. apply W. Qed.
Lemma chars_append a b : chars (append a b) = chars a ++ chars b. Proof. induction a as [|c a IH]; [reflexivity|]. cbn. rewrite IH. reflexivity. Qed.
Lemma nul_append a b : no_nul a -> no_nul b -> no_nul (append a b).
Proof. unfold no_nul. intros A B H. rewrite chars_append in H. apply in_app_or in H. tauto. Qed.
Lemma nul_slash : no_nul "/". Proof. intros [H|[]]. discriminate. Qed.
Lemma nul_slashed c : Forall no_nul c -> no_nul (slashed c).
Proof.
  induction 1 as [|n c N F IH]; [intros []|]. destruct c as [|n' c]; [exact N|]. change (slashed (n :: n' :: c)) with (append n (append "/" (slashed (n' :: c)))). apply nul_append; [exact N|]. apply nul_append; [exact nul_slash|exact IH].
Qed.
Lemma pointer_words c : words c -> pointer (cstr (append "/" (slashed c))) = Some c.
Proof.
  intros (N & F). rewrite cstr_id by (apply nul_append; [exact nul_slash|apply nul_slashed, words_nul, F]). cbn [append]. unfold pointer. rewrite pieces_slashed by (try apply words_slash; assumption). apply unescape_words, F.
Qed.
Lemma slashed_first c : words c -> hd "" c <> "" -> exists ch r, slashed c = String ch r /\ ch <> "/"%char.
Proof.
  intros (N & F) H. destruct c as [|n c]; [congruence|]. cbn [hd] in H. destruct n as [|ch n]; [congruence|]. inversion F as [|? ? W _]; subst. assert (C : ch <> "/"%char) by (intros ->; apply (proj1 W); left; reflexivity). destruct c as [|n2 c]; eexists; eexists; (split; [reflexivity|exact C]).
Qed.
Lemma pointer_path_slash p : pointer_path p = match p with String c r => if Ascii.eqb c "/" then p else append "/" p | EmptyString => "/" end.
Proof. destruct p as [|c p]; [reflexivity|]. destruct c as [[] [] [] [] [] [] [] []]; reflexivity. Qed.
Lemma path_pointer p c : path p c -> pointer (cstr (pointer_path p)) = Some c.
Proof.
  intros (W & [(-> & H)| ->]); rewrite pointer_path_slash.
  - destruct (slashed_first c W H) as (ch & r & E & C). rewrite E. destruct (Ascii.eqb_spec ch "/"); [congruence|]. rewrite <- E. apply pointer_words, W.
  - change (append "/" (slashed c)) with (String "/" (slashed c)). cbn [Ascii.eqb Bool.eqb]. exact (pointer_words c W).
Qed.
Lemma path_one p c c' : path p c -> path p c' -> c = c'.
Proof. intros A B. apply path_pointer in A, B. congruence. Qed.
Lemma bare_path p c : bare p c -> path p c. Proof. intros (W & E & H). split; [exact W|]. left. auto. Qed.
Lemma bare_one p c c' : bare p c -> bare p c' -> c = c'. Proof. intros A B. exact (path_one p c c' (bare_path _ _ A) (bare_path _ _ B)). Qed.

(** ** Looking up and setting *)
Lemma digit_is c d : digit c = Some d -> is_digit c.
Proof. unfold digit, is_digit. destruct (Z.leb_spec 48 (Z.of_nat (nat_of_ascii c))), (Z.leb_spec (Z.of_nat (nat_of_ascii c)) 57); cbn; try discriminate. lia. Qed.
Lemma number_digits s : forall acc n, number_from acc s = Some n -> forall c, In c (chars s) -> is_digit c.
Proof. induction s as [|c s IH]; intros acc n H x I; [destruct I|]. cbn in H. destruct (digit c) as [d|] eqn:D; [|discriminate]. destruct I as [<-|I]; [exact (digit_is c d D)|exact (IH _ _ H x I)]. Qed.
Lemma index_word n : word n -> index n = None.
Proof.
  intros (_ & _ & _ & D & _). unfold index. destruct n as [|c n]; [reflexivity|]. destruct D as [D|(x & I & D)]; [discriminate|].
  assert (N : number_from 0 (String c n) = None) by (destruct (number_from 0 (String c n)) as [z|] eqn:E; [destruct (D (number_digits _ _ _ E x I))|reflexivity]).
  rewrite N. destruct c as [[] [] [] [] [] [] [] []]; try reflexivity. destruct n; reflexivity.
Qed.
Lemma pget_at c : Forall word c -> forall x, pget c x = at_path c x.
Proof.
  induction 1 as [|n c W F IH]; intros x; [reflexivity|]. cbn. destruct x; try reflexivity; [rewrite index_word by exact W; reflexivity|]. destruct (find_member n l); [apply IH|reflexivity].
Qed.
Lemma pset_step n c x v : word n -> exists l, pset (n :: c) x v = JObj (put_member n (pset c (match at_path [n] x with Some y => y | None => JNull end) v) l) /\ forall k, find_member k l = at_path [k] x.
Proof.
  intros W. pose proof (index_word n W) as I. assert (D : String.eqb n "-" = false) by (apply String.eqb_neq; apply W).
  destruct x; cbn; rewrite ?I, ?D; try (exists []; split; reflexivity). exists l. split; [destruct (find_member n l); reflexivity|]. intros k. destruct (find_member k l); reflexivity.
Qed.
Lemma pset_below c v r : Forall word c -> forall x, at_path (c ++ r) (pset c x v) = at_path r v.
Proof.
  induction 1 as [|n c W F IH]; intros x; [reflexivity|]. destruct (pset_step n c x v W) as (l & E & _). rewrite E. cbn [app at_path]. rewrite find_put, String.eqb_refl. apply IH.
Qed.
Lemma apart_cons n c q : apart (n :: c) (n :: q) -> apart c q.
Proof. intros (A & B). split; intros (r & ->); [apply A|apply B]; exists r; reflexivity. Qed.
Lemma pset_apart c v : Forall word c -> forall x q, apart c q -> at_path q (pset c x v) = at_path q x.
Proof.
  induction 1 as [|n c W F IH]; intros x q A. { destruct (proj1 A). exists q. reflexivity. }
  destruct q as [|k q]. { destruct (proj2 A). exists (n :: c). reflexivity. }
  destruct (pset_step n c x v W) as (l & E & FM). rewrite E. cbn [at_path]. rewrite find_put. destruct (String.eqb_spec n k) as [<-|N].
  - apply apart_cons in A. rewrite (IH _ q A). assert (Q : q <> []) by (intros ->; apply (proj2 A); exists c; reflexivity).
    destruct x; cbn; try (destruct q; [congruence|reflexivity]). destruct (find_member n l0); [reflexivity|destruct q; [congruence|reflexivity]].
  - rewrite FM. destruct x; cbn; try reflexivity. destruct (find_member k l0); reflexivity.
Qed.

(** ** Values *)
Lemma ranged_some lo hi z v : ranged lo hi z = Some v <-> lo <= z < hi /\ v = PInt z.
Proof. unfold ranged. destruct (Z.leb_spec lo z), (Z.ltb_spec z hi); cbn; split; try discriminate; try (intros (? & ?); lia). - intros E. injection E as <-. auto. - intros (_ & ->). reflexivity. Qed.
Section Values.
  Variable near : Z -> Z.
  Lemma set_is k x v : fits_scalar k x -> (set_scalar near k x = Some v <-> is_scalar near k x v).
  Proof.
    intros FT. destruct k, x; cbn -[Z.pow] in *; rewrite ?ranged_some; try (split; [discriminate|intros H; inversion H]); try (split; [intros (R & ->); constructor; exact R|intros H; inversion H; subst; auto]).
    - split; [|intros H; inversion H; subst].
      + destruct (ranged 0 (2 ^ 32) z) as [w|] eqn:E; [|discriminate]. apply ranged_some in E. destruct E as (R & _). intros H. injection H as <-. rewrite Z.mod_small by lia. constructor. lia.
      + destruct (ranged 0 (2 ^ 32) z) as [w|] eqn:E; [rewrite Z.mod_small by lia; reflexivity|]. assert (R : ranged 0 (2 ^ 32) z = Some (PInt z)) by (apply ranged_some; split; [lia|reflexivity]). congruence.
    - split; [intros H; injection H as <-; constructor|intros H; inversion H; reflexivity].
    - split; [intros H; injection H as <-; constructor|intros H; inversion H; reflexivity].
    - split; [intros H; injection H as <-; constructor|intros H; inversion H; reflexivity].
    - rewrite (cstr_id _ FT). split; [intros H; injection H as <-; constructor; exact FT|intros H; inversion H; reflexivity].
  Qed.
  Lemma elements_is k l : Forall (fits_scalar k) l -> forall vs, set_elements near k l = (vs, true) <-> Forall2 (is_scalar near k) l vs.
  Proof.
    induction 1 as [|x l FT F IH]; intros vs; cbn.
    - split; [intros H; injection H as <-; constructor|intros H; inversion H; reflexivity].
    - split.
      + destruct (set_scalar near k x) as [v|] eqn:E; [|discriminate]. destruct (set_elements near k l) as [t ok] eqn:T. intros H. injection H as <- ->. constructor; [apply set_is; assumption|apply IH; reflexivity].
      + intros H. inversion H as [|? v ? t V T]; subst. apply set_is in V; [|exact FT]. rewrite V. apply IH in T. rewrite T. reflexivity.
  Qed.
  Lemma param_is k x old v : fits k x -> (param_set near k x old = (v, true) <-> is near k x v).
  Proof.
    intros FT. destruct k as [s| |s]; cbn [param_set].
    - assert (S : forall w, set_scalar near s x = Some w <-> is_scalar near s x w) by (intros w; apply set_is; exact FT). split.
      + destruct (set_scalar near s x) as [w|] eqn:E; [|discriminate]. intros H. injection H as <-. constructor. apply S. reflexivity.
      + intros H. inversion H as [? ? ? V| |]; subst. apply S in V. rewrite V. reflexivity.
    - split; [intros H; injection H as <-; constructor|intros H; inversion H; reflexivity].
    - destruct x as [| | | | |l|]; try (split; [discriminate|intros H; inversion H]). pose proof (elements_is s l FT) as S. split.
      + destruct (set_elements near s l) as [vs ok] eqn:E. intros H. injection H as <- ->. constructor. apply S. reflexivity.
      + intros H. inversion H as [| |? ? vs V]; subst. apply S in V. rewrite V. reflexivity.
  Qed.
  Lemma is_scalar_one k x v v' : is_scalar near k x v -> is_scalar near k x v' -> v = v'.
  Proof. intros A B. inversion A; subst; inversion B; reflexivity. Qed.
  Lemma is_kind_one k x v v' : is near k x v -> is near k x v' -> v = v'.
  Proof.
    intros A B. inversion A as [? ? ? S|?|? l vs F]; subst; inversion B as [? ? ? S'|?|? ? vs' F']; subst; [exact (is_scalar_one _ _ _ _ S S')|reflexivity|]. f_equal. clear A B. revert vs' F'. induction F as [|x v l vs S F IH]; intros vs' F'; inversion F' as [|? v' ? t S' F2]; subst; [reflexivity|]. f_equal; [exact (is_scalar_one _ _ _ _ S S')|apply IH, F2].
  Qed.
  Lemma get_is_scalar k v : of_scalar k v -> is_scalar near k (param_get v) v /\ fits_scalar k (param_get v).
  Proof. intros H. destruct H; cbn [param_get]; rewrite ?cstr_id by assumption; (split; [constructor; try assumption; lia|cbn -[Z.pow]; try exact Logic.I; try assumption; lia]). Qed.
  Lemma get_is k v : of_kind k v -> is near k (param_get v) v /\ fits k (param_get v).
  Proof.
    intros H. destruct H as [k v S|x|k vs F]; [destruct (get_is_scalar k v S) as (A & B); split; [constructor; exact A|exact B]|split; [constructor|exact Logic.I]|].
    cbn [param_get fits]. split; [constructor|]; induction F as [|v vs S F IH]; cbn; constructor; try exact IH; apply (get_is_scalar k v S).
  Qed.
End Values.

(** ** Update *)
Definition addr (e : call) : nat := snd (snd e).
Definition pathed (b : list call) : Prop := forall p k a, In (p, (k, a)) b -> exists c, path p c.
Lemma pathed_cons e b : pathed (e :: b) -> pathed b. Proof. intros H p k a I. apply (H p k a). right. exact I. Qed.
(** What update does to one parameter *)
Definition outcome_at (near : Z -> Z) (d : json) (m m' : memory) (p : string) (k : kind) (a : nat) : Prop :=
  forall c, path p c -> match at_path c d with Some x => param_set near k x (m a) = (m' a, true) | None => m' a = m a end.
Lemma update_other near b d : forall m m' o, update_doc near b d m = (m', o) -> forall a, ~ In a (map addr b) -> m' a = m a.
Proof.
  induction b as [|[p [k a0]] b IH]; intros m m' o H a N; cbn in H; [injection H as <- <-; reflexivity|]. cbn in N. destruct (pointer (cstr (pointer_path p))) as [ts|]; [|injection H as <- <-; reflexivity].
  assert (S : forall v, store a0 v m a = m a) by (intros v; unfold store; destruct (Nat.eqb_spec a a0); [destruct N; left; symmetry; assumption|reflexivity]).
  destruct (pget ts d) as [x|]; [|exact (IH _ _ _ H a (fun I => N (or_intror I)))]. destruct (param_set near k x (m a0)) as [v ok]. destruct ok; [rewrite (IH _ _ _ H a (fun I => N (or_intror I))); apply S|injection H as <- <-; apply S].
Qed.
Lemma update_step near p k a b d m c : path p c -> update_doc near ((p, (k, a)) :: b) d m =
  match at_path c d with None => update_doc near b d m | Some x => let '(v, ok) := param_set near k x (m a) in if ok then update_doc near b d (store a v m) else (store a v m, Throw PAssert) end.
Proof. intros P. cbn [update_doc]. rewrite (path_pointer p c P), (pget_at c) by apply P. reflexivity. Qed.
Lemma update_done near b d : pathed b -> NoDup (map addr b) -> forall m m', update_doc near b d m = (m', Ret tt) -> forall p k a, In (p, (k, a)) b -> outcome_at near d m m' p k a.
Proof.
  induction b as [|[p0 [k0 a0]] b IH]; intros PB ND m m' H p k a I; [destruct I|]. cbn [map] in ND. inversion ND as [|? ? NI ND']; subst. destruct (PB p0 k0 a0 (or_introl eq_refl)) as (c0 & P0). rewrite (update_step near p0 k0 a0 b d m c0 P0) in H. unfold addr in NI; cbn in NI.
  assert (R : forall m1, update_doc near b d m1 = (m', Ret tt) -> (forall x, x <> a0 -> m1 x = m x) -> In (p, (k, a)) b -> outcome_at near d m m' p k a).
  { intros m1 U O J c P. pose proof (IH (pathed_cons _ _ PB) ND' m1 m' U p k a J c P) as G. assert (NA : a <> a0). { intros ->. apply NI. apply in_map_iff. exists (p, (k, a0)). auto. } rewrite (O a NA) in G. exact G. }
  assert (S : forall v x, x <> a0 -> store a0 v m x = m x) by (intros v x N; unfold store; destruct (Nat.eqb_spec x a0); [congruence|reflexivity]).
  destruct (at_path c0 d) as [x|] eqn:AT.
  - destruct (param_set near k0 x (m a0)) as [v ok] eqn:PS. destruct ok; [|discriminate]. destruct I as [I|I].
    + injection I as <- <- <-. intros c P. rewrite <- (path_one _ _ _ P0 P), AT, PS. f_equal. rewrite (update_other near b d _ _ _ H a0 NI). unfold store. rewrite Nat.eqb_refl. reflexivity.
    + apply (R (store a0 v m)); auto.
  - destruct I as [I|I].
    + injection I as <- <- <-. intros c P. rewrite <- (path_one _ _ _ P0 P), AT. exact (update_other near b d _ _ _ H a0 NI).
    + apply (R m); auto.
Qed.
(** It ends at the first value that cannot be read. *)
Lemma update_ends near b d : pathed b -> forall m, exists m' o, update_doc near b d m = (m', o) /\
  (o = Ret tt \/ o = Throw PAssert /\ exists b1 p k a b2 m1 c x v, b = b1 ++ (p, (k, a)) :: b2 /\ update_doc near b1 d m = (m1, Ret tt) /\ path p c /\ at_path c d = Some x /\ param_set near k x (m1 a) = (v, false) /\ m' = store a v m1).
Proof.
  induction b as [|[p [k a]] b IH]; intros PB m. { exists m, (Ret tt). cbn. auto. }
  destruct (PB p k a (or_introl eq_refl)) as (c & P). rewrite (update_step near p k a b d m c P). specialize (IH (pathed_cons _ _ PB)).
  assert (R : forall m1, (forall b1, update_doc near ((p, (k, a)) :: b1) d m = update_doc near b1 d m1) -> exists m' o, update_doc near b d m1 = (m', o) /\
    (o = Ret tt \/ o = Throw PAssert /\ exists b1 p' k' a' b2 m2 c' x v, (p, (k, a)) :: b = b1 ++ (p', (k', a')) :: b2 /\ update_doc near b1 d m = (m2, Ret tt) /\ path p' c' /\ at_path c' d = Some x /\ param_set near k' x (m2 a') = (v, false) /\ m' = store a' v m2)).
  { intros m1 U. destruct (IH m1) as (m' & o & E & [->|(-> & b1 & p' & k' & a' & b2 & m2 & c' & x & v & -> & E2 & T)]); exists m'; eexists; (split; [exact E|]); [left; reflexivity|]. right. split; [reflexivity|]. exists ((p, (k, a)) :: b1), p', k', a', b2, m2, c', x, v. split; [reflexivity|]. split; [rewrite U; exact E2|exact T]. }
  destruct (at_path c d) as [x|] eqn:AT.
  - destruct (param_set near k x (m a)) as [v ok] eqn:PS. destruct ok.
    + apply (R (store a v m)). intros b1. rewrite (update_step near p k a b1 d m c P), AT, PS. reflexivity.
    + exists (store a v m), (Throw PAssert). split; [reflexivity|]. right. split; [reflexivity|]. exists [], p, k, a, b, m, c, x, v. cbn. auto 10.
  - apply (R m). intros b1. rewrite (update_step near p k a b1 d m c P), AT. reflexivity.
Qed.
Lemma update_same near b d d' : pathed b -> (forall p k a c, In (p, (k, a)) b -> path p c -> at_path c d = at_path c d') -> forall m, update_doc near b d m = update_doc near b d' m.
Proof.
  induction b as [|[p [k a]] b IH]; intros PB S m; [reflexivity|]. destruct (PB p k a (or_introl eq_refl)) as (c & P). rewrite !(update_step near p k a b _ m c P), (S p k a c (or_introl eq_refl) P). specialize (IH (pathed_cons _ _ PB) (fun p k a c I => S p k a c (or_intror I))).
  destruct (at_path c d') as [x|]; [|apply IH]. destruct (param_set near k x (m a)) as [v ok]. destruct ok; [apply IH|reflexivity].
Qed.

(** ** Encode *)
(** The words before the paths *)
Definition leading (s : string) (c0 : list string) : Prop := Forall word c0 /\ forall c, words c -> append s (slashed c) = append "/" (slashed (c0 ++ c)).
Lemma slashed_app c0 c : c0 <> [] -> c <> [] -> slashed (c0 ++ c) = append (slashed c0) (append "/" (slashed c)).
Proof.
  induction c0 as [|n c0 IH]; intros A B; [congruence|]. destruct c0 as [|n0 c0].
  - cbn [app]. destruct c; [congruence|reflexivity].
  - change (slashed ((n :: n0 :: c0) ++ c)) with (append n (append "/" (slashed ((n0 :: c0) ++ c)))). rewrite IH by (try discriminate; exact B). change (slashed (n :: n0 :: c0)) with (append n (append "/" (slashed (n0 :: c0)))). rewrite !append_assoc. reflexivity.
Qed.
Definition bared (b : list call) : Prop := forall p k a, In (p, (k, a)) b -> exists c, bare p c.
Lemma bared_cons e b : bared (e :: b) -> bared b. Proof. intros H p k a I. apply (H p k a). right. exact I. Qed.
Lemma encode_step s c0 p k a b m x c : leading s c0 -> bare p c -> encode_each s ((p, (k, a)) :: b) m x = encode_each s b m (pset (c0 ++ c) x (param_get (m a))).
Proof.
  intros (F & L) (W & -> & _). cbn [encode_each]. rewrite (L c W). rewrite pointer_words; [reflexivity|]. split; [destruct W as (W & _); destruct c0; [exact W|discriminate]|apply Forall_app; split; [exact F|apply W]].
Qed.
Lemma words_both c0 c : Forall word c0 -> words c -> Forall word (c0 ++ c). Proof. intros A (_ & B). apply Forall_app. auto. Qed.
Lemma encode_apart s c0 b : leading s c0 -> bared b -> forall m x q, (forall p k a c, In (p, (k, a)) b -> bare p c -> apart (c0 ++ c) q) ->
  exists x', encode_each s b m x = (x', Ret tt) /\ at_path q x' = at_path q x.
Proof.
  intros L. induction b as [|[p [k a]] b IH]; intros PB m x q A; [exists x; auto|]. destruct (PB p k a (or_introl eq_refl)) as (c & B). rewrite (encode_step s c0 p k a b m x c L B).
  destruct (IH (bared_cons _ _ PB) m (pset (c0 ++ c) x (param_get (m a))) q) as (x' & E & Q); [intros p' k' a' c' I; apply (A p' k' a' c'); right; exact I|]. exists x'. split; [exact E|]. rewrite Q. apply pset_apart; [apply words_both; [apply L|apply B]|]. apply (A p k a c); [left; reflexivity|exact B].
Qed.
Lemma apart_under c0 c q : apart c q -> apart (c0 ++ c) (c0 ++ q).
Proof. intros (A & B). split; intros (r & H); rewrite <- app_assoc in H; apply app_inv_head in H; [apply A|apply B]; exists r; exact H. Qed.
Definition parted (b : list call) : Prop := forall p k a p' k' a' c c', In (p, (k, a)) b -> In (p', (k', a')) b -> p <> p' -> bare p c -> bare p' c' -> apart c c'.
Lemma encode_at s c0 b : leading s c0 -> bared b -> NoDup (map fst b) -> parted b -> forall m x, exists x', encode_each s b m x = (x', Ret tt) /\
  forall p k a c r, In (p, (k, a)) b -> bare p c -> at_path (c0 ++ c ++ r) x' = at_path r (param_get (m a)).
Proof.
  intros L. induction b as [|[p [k a]] b IH]; intros PB ND SP m x; [exists x; split; [reflexivity|intros ? ? ? ? ? []]|]. cbn [map] in ND. inversion ND as [|? ? NI ND']; subst. cbn in NI. destruct (PB p k a (or_introl eq_refl)) as (c & B). rewrite (encode_step s c0 p k a b m x c L B).
  destruct (IH (bared_cons _ _ PB) ND') with (m := m) (x := pset (c0 ++ c) x (param_get (m a))) as (x' & E & G); [intros p1 k1 a1 p2 k2 a2 c1 c2 I1 I2; apply (SP p1 k1 a1 p2 k2 a2); right; assumption|].
  exists x'. split; [exact E|]. intros p' k' a' c' r [I|I] B'; [|exact (G p' k' a' c' r I B')]. injection I as <- <- <-. rewrite <- (bare_one _ _ _ B B').
  destruct (encode_apart s c0 b L (bared_cons _ _ PB) m (pset (c0 ++ c) x (param_get (m a))) (c0 ++ c ++ r)) as (x2 & E2 & Q).
  { intros p2 k2 a2 c2 I2 B2. apply apart_under. assert (N : p2 <> p) by (intros ->; apply NI; apply in_map_iff; exists (p, (k2, a2)); auto). pose proof (SP p2 k2 a2 p k a c2 c (or_intror I2) (or_introl eq_refl) N B2 B) as (A1 & A2). split; intros (t & H).
    - clear - A1 A2 H. assert (K : starts c2 c \/ starts c c2). { revert c A1 A2 H. induction c2 as [|n c2 IH]; intros c A1 A2 H; [left; exists c; reflexivity|]. destruct c as [|n' c]; [right; exists (n :: c2); reflexivity|]. cbn in H. injection H as -> H. destruct (IH c) as [(u & ->)|(u & ->)]; try exact H.
        - intros (u & ->). apply A1. exists u. reflexivity.
        - intros (u & ->). apply A2. exists u. reflexivity.
        - left. exists u. reflexivity.
        - right. exists u. reflexivity. }
      tauto.
    - apply A2. exists (r ++ t). rewrite H, app_assoc. reflexivity. }
  rewrite E in E2. injection E2 as <-. rewrite Q, app_assoc. apply pset_below. apply words_both; [apply L|apply B].
Qed.
