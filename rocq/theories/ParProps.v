(** Parameter containers: properties *)
From Coq Require Import String Ascii.
From Verif Require Import Base StrOrder JsonModel JsonSpec JsonProofs JsonUpdate JsonProps ParModel ParSpec ParProofs.
Local Open Scope string_scope.
Local Open Scope list_scope.
Local Open Scope Z_scope.

Lemma container_pathed l : with_paths l -> pathed (container l). Proof. intros W p k a I. apply container_in in I. exact (W p k a I). Qed.
Lemma container_bared l : with_bare_paths l -> bared (container l). Proof. intros W p k a I. apply container_in in I. exact (W p k a I). Qed.
Lemma container_parted l : separate l -> parted (container l).
Proof. intros S p k a p' k' a' c c' I I'. apply container_in in I, I'. exact (S p k a p' k' a' c c' I I'). Qed.
Lemma bare_paths l : with_bare_paths l -> with_paths l. Proof. intros W p k a B. destruct (W p k a B) as (c & H). exists c. apply bare_path, H. Qed.
Lemma nodup_addr (b : list call) : NoDup (map fst b) -> (forall p k a p' k', In (p, (k, a)) b -> In (p', (k', a)) b -> p = p') -> NoDup (map addr b).
Proof.
  induction b as [|[p [k a]] b IH]; intros N H; [constructor|]. cbn [map] in *. inversion N as [|? ? NI N']; subst. constructor.
  - intros I. apply in_map_iff in I. destruct I as ([p' [k' a']] & E & I). cbn in E. subst a'. apply NI. apply in_map_iff. exists (p', (k', a)). split; [|exact I]. cbn. exact (H p' k' a p k (or_intror I) (or_introl eq_refl)).
  - apply IH; [exact N'|]. intros p1 k1 a1 p2 k2 I1 I2. exact (H p1 k1 a1 p2 k2 (or_intror I1) (or_intror I2)).
Qed.
Lemma container_addr l : own_variables l -> NoDup (map addr (container l)).
Proof. intros O. apply nodup_addr; [apply sm_nodup, container_ok|]. intros p k a p' k' I I'. apply container_in in I, I'. exact (O p k a p' k' I I'). Qed.
Lemma not_bound_addr l a : (forall p k, ~ bound l p k a) -> ~ In a (map addr (container l)).
Proof. intros H I. apply in_map_iff in I. destruct I as ([p [k a']] & E & I). cbn in E. subst a'. apply container_in in I. exact (H p k I). Qed.
Lemma outcome_set near l d m m' p k a : fitting l d -> bound l p k a -> outcome_at near d m m' p k a -> set_at_path near d m m' p k a.
Proof.
  intros F B O c P. specialize (O c P). split.
  - intros x L. pose proof (F p k a c x B P L) as FT. apply leads_at in L. rewrite L in O. apply (param_is near k x (m a) (m' a) FT), O.
  - intros N. destruct (at_path c d) as [x|] eqn:E; [|exact O]. apply leads_at in E. destruct (N x E).
Qed.
(** Update sets exactly the bound parameters that the document has, to the values it has; it succeeds if and only if these values have the types of the parameters.
    Paths are words between '/'; numbers for 16 bits are in range, strings without zero characters. *)
Theorem c49_update_partial near l d m : with_paths l -> own_variables l -> fitting l d ->
  (forall m', update_doc near (container l) d m = (m', Ret tt) -> set_exactly near l d m m') /\
  ((exists m', update_doc near (container l) d m = (m', Ret tt)) <-> forall p k a c x, bound l p k a -> path p c -> leads c d x -> exists v, is near k x v).
Proof.
  intros W O F. pose proof (container_pathed l W) as PB. pose proof (container_addr l O) as ND.
  assert (A : forall m', update_doc near (container l) d m = (m', Ret tt) -> set_exactly near l d m m').
  { intros m' U. split.
    - intros p k a B. apply (outcome_set near l); [exact F|exact B|]. apply (update_done near (container l) d PB ND m m' U). apply container_in, B.
    - intros a N. apply (update_other near _ d _ _ _ U), not_bound_addr, N. }
  split; [exact A|]. split.
  - intros (m' & U) p k a c x B P L. destruct (A m' U) as (S & _). destruct (S p k a B c P) as (S1 & _). exists (m' a). apply S1, L.
  - intros H. destruct (update_ends near (container l) d PB m) as (m' & o & E & [->|(_ & b1 & p & k & a & b2 & m1 & c & x & v & E1 & _ & P & AT & PS & _)]); [exists m'; exact E|]. exfalso.
    assert (B : bound l p k a) by (apply container_in; rewrite E1; apply in_or_app; right; left; reflexivity). apply leads_at in AT. destruct (H p k a c x B P AT) as (w & V). apply (param_is near k x (m1 a) w (F p k a c x B P AT)) in V. congruence.
Qed.
(** If it fails, some value has the wrong type; the parameters before it, in the order of paths, are set, those after it are not. *)
Lemma sorted_split (b1 b2 : list call) e : sm_ok (b1 ++ e :: b2) -> (forall f, In f b1 -> String.ltb (fst f) (fst e) = true) /\ forall f, In f b2 -> String.ltb (fst e) (fst f) = true.
Proof.
  induction b1 as [|[p v] b1 IH]; cbn.
  - destruct e as [p v]. intros (F & _). split; [intros f []|]. rewrite Forall_forall in F. exact F.
  - intros (F & O). destruct (IH O) as (A & B). split; [|exact B]. intros f [<-|I]; [|exact (A f I)]. rewrite Forall_forall in F. apply (F e). apply in_or_app. right. left. reflexivity.
Qed.
Lemma elements_stop near k l : Forall (fits_scalar k) l -> forall vs, set_elements near k l = (vs, false) -> exists l1 y l2, l = l1 ++ y :: l2 /\ Forall2 (is_scalar near k) l1 vs /\ forall v, ~ is_scalar near k y v.
Proof.
  induction 1 as [|x l FX F IH]; intros vs H; [discriminate|]. cbn in H. destruct (set_scalar near k x) as [v|] eqn:S.
  - destruct (set_elements near k l) as [t ok]. injection H as <- ->. destruct (IH t eq_refl) as (l1 & y & l2 & -> & A & B). exists (x :: l1), y, l2. split; [reflexivity|]. split; [constructor; [apply (set_is near k x v FX), S|exact A]|exact B].
  - injection H as <-. exists [], x, l. split; [reflexivity|]. split; [constructor|]. intros v V. apply (set_is near k x v FX) in V. congruence.
Qed.
Theorem c49_failed near l d m m' e : with_paths l -> own_variables l -> fitting l d -> update_doc near (container l) d m = (m', e) -> e <> Ret tt ->
  e = Throw PAssert /\ exists p k a c x, bound l p k a /\ path p c /\ leads c d x /\ (forall v, ~ is near k x v) /\
    (forall p' k' a', bound l p' k' a' -> String.ltb p' p = true -> set_at_path near d m m' p' k' a') /\
    (forall p' k' a', bound l p' k' a' -> String.ltb p p' = true -> m' a' = m a') /\ (forall a', (forall p' k', ~ bound l p' k' a') -> m' a' = m a') /\ (forall s, k = KOne s -> m' a = m a) /\
    (forall s, k = KVec s -> exists vs, m' a = PVec vs /\ ((forall q, x <> JArr q) -> vs = []) /\ forall q, x = JArr q -> exists q1 y q2, q = q1 ++ y :: q2 /\ Forall2 (is_scalar near s) q1 vs /\ forall v, ~ is_scalar near s y v).
Proof.
  intros W O F U N. pose proof (container_pathed l W) as PB. pose proof (container_addr l O) as ND. pose proof (container_ok l) as OK.
  destruct (update_ends near (container l) d PB m) as (m2 & o & E & R). rewrite U in E. injection E as <- <-. destruct R as [R|(-> & b1 & p & k & a & b2 & m1 & c & x & v & E1 & U1 & P & AT & PS & ->)]; [congruence|]. split; [reflexivity|].
  assert (B : bound l p k a) by (apply container_in; rewrite E1; apply in_or_app; right; left; reflexivity). exists p, k, a, c, x. split; [exact B|]. split; [exact P|]. split; [apply leads_at, AT|].
  rewrite E1 in OK. destruct (sorted_split _ _ _ OK) as (S1 & S2). cbn in S1, S2. rewrite E1, map_app in ND. cbn [map] in ND. unfold addr at 2 in ND; cbn in ND. pose proof (NoDup_remove_2 _ _ _ ND) as NA.
  assert (N1 : m1 a = m a) by (apply (update_other near _ d _ _ _ U1); intros I; apply NA, in_or_app; auto).
  split; [intros w V; apply (param_is near k x (m1 a) w) in V; [congruence|]; apply (F p k a c x B P), leads_at, AT|].
  assert (D : forall p' k' a', bound l p' k' a' -> In (p', (k', a')) b1 \/ p' = p /\ k' = k /\ a' = a \/ In (p', (k', a')) b2). { intros p' k' a' B'. apply container_in in B'. rewrite E1 in B'. apply in_app_or in B'. destruct B' as [I|[I|I]]; [auto|injection I as -> -> ->; auto|auto]. }
  split; [|split; [|split; [|split]]].
  - intros p' k' a' B' LT. destruct (D p' k' a' B') as [I|[(-> & _)|I]]; [|rewrite ltb_irrefl in LT; discriminate|].
    + apply (outcome_set near l); [exact F|exact B'|]. assert (PB1 : pathed b1) by (intros q k1 a1 J; apply (PB q k1 a1); rewrite E1; apply in_or_app; auto).
      assert (ND1 : NoDup (map addr b1)). { clear - ND. induction (map addr b1) as [|y ys IH]; [constructor|]. cbn in ND. inversion ND as [|? ? Y Z]; subst. constructor; [|apply IH, Z]. intros J. apply Y, in_or_app. auto. }
      pose proof (update_done near b1 d PB1 ND1 m m1 U1 p' k' a' I) as O1. intros c' P'. specialize (O1 c' P'). assert (X : store a v m1 a' = m1 a'). { unfold store. destruct (Nat.eqb_spec a' a) as [->|]; [|reflexivity]. destruct NA. apply in_or_app. left. apply in_map_iff. exists (p', (k', a)). auto. } rewrite X. exact O1.
    + pose proof (S2 _ I) as C. cbn in C. pose proof (ltb_trans _ _ _ LT C) as X. rewrite ltb_irrefl in X. discriminate.
  - intros p' k' a' B' LT. destruct (D p' k' a' B') as [I|[(-> & _)|I]]; [|rewrite ltb_irrefl in LT; discriminate|].
    + pose proof (S1 _ I) as C. cbn in C. pose proof (ltb_trans _ _ _ LT C) as X. rewrite ltb_irrefl in X. discriminate.
    + assert (NE : a' <> a). { intros ->. apply NA, in_or_app. right. apply in_map_iff. exists (p', (k', a)). auto. } unfold store. destruct (Nat.eqb_spec a' a); [congruence|]. apply (update_other near _ d _ _ _ U1). intros J. apply in_map_iff in J. destruct J as ([q [k1 a1]] & X & J). cbn in X. subst a1. assert (BQ : bound l q k1 a') by (apply container_in; rewrite E1; apply in_or_app; auto). pose proof (O _ _ _ _ _ B' BQ) as ->. pose proof (S1 _ J) as C. cbn in C. pose proof (ltb_trans _ _ _ LT C) as X. rewrite ltb_irrefl in X. discriminate.
  - intros a' NB. assert (U' : update_doc near (container l) d m = (store a v m1, Throw PAssert)) by exact U. apply (update_other near _ d _ _ _ U'), not_bound_addr, NB.
  - intros s ->. unfold store. rewrite Nat.eqb_refl. cbn in PS. destruct (set_scalar near s x); [discriminate|]. injection PS as <-. exact N1.
  - intros s ->. assert (FX : fits (KVec s) x) by (apply (F p (KVec s) a c x B P), leads_at, AT). unfold store. rewrite Nat.eqb_refl. cbn in PS. destruct x as [| | | | |q|]; try (injection PS as <-; exists []; split; [reflexivity|]; split; [reflexivity|discriminate]).
    destruct (set_elements near s q) as [w ok] eqn:SE. injection PS as <- ->. exists w. split; [reflexivity|]. split; [intros NQ; destruct (NQ q eq_refl)|]. intros q' Q. injection Q as <-. exact (elements_stop near s q FX w SE).
Qed.
(** What the document has elsewhere does not matter. *)
Theorem c49_ignored near l d d' m : with_paths l -> (forall p k a c x, bound l p k a -> path p c -> (leads c d x <-> leads c d' x)) -> update_doc near (container l) d m = update_doc near (container l) d' m.
Proof.
  intros W S. apply update_same; [apply container_pathed, W|]. intros p k a c I P. apply container_in in I. destruct (at_path c d) as [x|] eqn:E.
  - apply leads_at, (S p k a c x I P), leads_at in E. symmetry. exact E.
  - destruct (at_path c d') as [x|] eqn:E'; [|reflexivity]. apply leads_at, (S p k a c x I P), leads_at in E'. congruence.
Qed.

(** * Encode *)
Lemma ends_skip a c r : ends_in_slash (append a (String c r)) = ends_in_slash (String c r).
Proof.
  unfold ends_in_slash. assert (L : forall a b, list_ascii_of_string (append a b) = list_ascii_of_string a ++ list_ascii_of_string b) by (intros x y; induction x; cbn; congruence). rewrite L, rev_app_distr. cbn [list_ascii_of_string rev]. destruct (rev (list_ascii_of_string r) ++ [c]) eqn:E; [destruct (rev (list_ascii_of_string r)); discriminate|reflexivity].
Qed.
Lemma ends_word n : no_slash n -> n <> "" -> ends_in_slash n = false.
Proof.
  intros S N. unfold ends_in_slash. assert (C : chars n = list_ascii_of_string n) by (clear; induction n; cbn; congruence). unfold no_slash in S. rewrite C in S. destruct (rev (list_ascii_of_string n)) as [|c r] eqn:E; [reflexivity|]. destruct (Ascii.eqb_spec c "/") as [->|]; [|reflexivity]. destruct S. apply in_rev. rewrite E. left. reflexivity.
Qed.
Lemma ends_slashed c : words c -> last c "" <> "" -> ends_in_slash (append "/" (slashed c)) = false /\ slashed c <> "".
Proof.
  intros (N & F). induction F as [|n c W F IH]; [congruence|]. destruct c as [|n' c].
  - cbn [last slashed]. intros NE. split; [|exact NE]. destruct n as [|ch n]; [congruence|]. rewrite ends_skip. apply ends_word; [apply W|discriminate].
  - intros L. destruct IH as (A & B); [discriminate|exact L|]. change (slashed (n :: n' :: c)) with (append n (append "/" (slashed (n' :: c)))). destruct (append "/" (slashed (n' :: c))) as [|ch r] eqn:E; [discriminate|]. split; [rewrite <- append_assoc, ends_skip; exact A|]. destruct n; discriminate.
Qed.
Lemma place_leading s c0 : place s c0 -> leading (pointer_prefix s) c0.
Proof.
  intros [(-> & ->)|(W & L & H)]. { split; [constructor|]. intros c _. reflexivity. }
  destruct (ends_slashed c0 W L) as (E & NE). split; [apply W|]. intros c WC. rewrite (slashed_app c0 c) by (apply W || apply WC).
  assert (P : pointer_prefix s = append "/" (append (slashed c0) "/")).
  { unfold pointer_prefix. change (pointer_path "") with "/". destruct H as [-> | ->].
    - destruct (slashed c0) as [|ch r] eqn:S; [congruence|]. rewrite <- S in *. rewrite E. rewrite append_assoc. reflexivity.
    - destruct (append (slashed c0) "/") as [|ch r] eqn:S; [destruct (slashed c0); discriminate|]. rewrite <- S. rewrite <- append_assoc. rewrite ends_skip. reflexivity. }
  rewrite P, !append_assoc. reflexivity.
Qed.
(** Encode puts every bound parameter at its path, below the place given; nothing else in the document changes. *)
Theorem c49_encode near l s c0 m x : with_bare_paths l -> separate l -> typed_memory l m -> place s c0 ->
  exists x', encode_in s (container l) m x = (x', Ret tt) /\
    (forall p k a c, bound l p k a -> bare p c -> exists y, leads (c0 ++ c) x' y /\ is near k y (m a)) /\
    forall q y, (forall p k a c, bound l p k a -> bare p c -> apart (c0 ++ c) q) -> (leads q x' y <-> leads q x y).
Proof.
  intros W S T P. pose proof (place_leading s c0 P) as L. pose proof (container_bared l W) as BB. destruct (encode_at (pointer_prefix s) c0 (container l) L BB (sm_nodup _ (container_ok l)) (container_parted l S) m x) as (x' & E & G). exists x'. split; [exact E|]. split.
  - intros p k a c B BP. exists (param_get (m a)). split; [apply leads_at; rewrite <- (app_nil_r c); rewrite (G p k a c []); [reflexivity|apply container_in, B|exact BP]|]. apply (get_is near k (m a) (T p k a B)).
  - intros q y A. destruct (encode_apart (pointer_prefix s) c0 (container l) L BB m x q) as (x2 & E2 & Q). { intros p k a c I B. apply container_in in I. exact (A p k a c I B). } rewrite E in E2. injection E2 as <-. rewrite !leads_at, Q. reflexivity.
Qed.
Lemma at_app c0 : forall c x y, at_path c0 x = Some y -> at_path (c0 ++ c) x = at_path c y.
Proof. induction c0 as [|n c0 IH]; intros c x y H; [injection H as ->; reflexivity|]. cbn in *. destruct x; try discriminate. destruct (find_member n l); [apply IH, H|discriminate]. Qed.
(** Encoding a container, with a place or without, into any document, and updating from that place restores every bound parameter. *)
Theorem c49_restores near l s c0 m x x' d m2 : with_bare_paths l -> separate l -> own_variables l -> typed_memory l m -> place s c0 ->
  encode_in s (container l) m x = (x', Ret tt) -> leads c0 x' d ->
  exists m3, update_doc near (container l) d m2 = (m3, Ret tt) /\ (forall p k a, bound l p k a -> m3 a = m a) /\ forall a, (forall p k, ~ bound l p k a) -> m3 a = m2 a.
Proof.
  intros W S O T P E LD. pose proof (place_leading s c0 P) as L. destruct (encode_at (pointer_prefix s) c0 (container l) L (container_bared l W) (sm_nodup _ (container_ok l)) (container_parted l S) m x) as (x2 & E2 & G). unfold encode_in in E. rewrite E in E2. injection E2 as <-.
  assert (D : forall p k a c, bound l p k a -> path p c -> leads c d (param_get (m a))).
  { intros p k a c B PC. destruct (W p k a B) as (c' & BP). rewrite (path_one p c c' PC (bare_path _ _ BP)). apply leads_at in LD. apply leads_at. rewrite <- (at_app c0 c' x' d LD). rewrite <- (app_nil_r c') at 1. rewrite (G p k a c' [] (proj2 (container_in l p k a) B) BP). reflexivity. }
  assert (F : fitting l d). { intros p k a c y B PC LY. pose proof (D p k a c B PC) as LD2. apply leads_at in LY, LD2. rewrite LY in LD2. injection LD2 as ->. apply (get_is near k (m a) (T p k a B)). }
  destruct (c49_update_partial near l d m2 (bare_paths l W) O F) as (A1 & A2). destruct A2 as (_ & A2). destruct A2 as (m3 & U).
  { intros p k a c y B PC LY. pose proof (D p k a c B PC) as LD2. apply leads_at in LY, LD2. rewrite LY in LD2. injection LD2 as ->. exists (m a). apply (get_is near k (m a) (T p k a B)). }
  exists m3. split; [exact U|]. destruct (A1 m3 U) as (A & B). split; [|exact B]. intros p k a BD. destruct (W p k a BD) as (c & BP). destruct (A p k a BD c (bare_path _ _ BP)) as (A3 & _). specialize (A3 _ (D p k a c BD (bare_path _ _ BP))). exact (is_kind_one near _ _ _ _ A3 (proj1 (get_is near k (m a) (T p k a BD)))).
Qed.
(** Updating from another container: parameters of the same path take its values; parameters whose paths it does not have, nor leads to, stay. *)
Theorem c49_from near l l' m m' : with_paths l -> own_variables l -> with_bare_paths l' -> separate l' -> typed_memory l' m' ->
  (forall p k a c p' k' a' c', bound l p k a -> path p c -> bound l' p' k' a' -> bare p' c' -> c = c' /\ k = k' \/ apart c' c) ->
  exists m2, update_from near (container l) (container l') m' m = (m2, Ret tt) /\
    (forall p k a c p' a', bound l p k a -> path p c -> bound l' p' k a' -> bare p' c -> m2 a = m' a') /\
    (forall p k a c, bound l p k a -> path p c -> (forall p' k' a', bound l' p' k' a' -> ~ bare p' c) -> m2 a = m a) /\
    forall a, (forall p k, ~ bound l p k a) -> m2 a = m a.
Proof.
  intros W O W' S' T' C. assert (P : place "" []) by (left; auto). pose proof (place_leading "" [] P) as L. pose proof (container_bared l' W') as BB. destruct (encode_at (pointer_prefix "") [] (container l') L BB (sm_nodup _ (container_ok l')) (container_parted l' S') m' JNull) as (x & E & G).
  assert (D1 : forall p' k' a' c, bound l' p' k' a' -> bare p' c -> leads c x (param_get (m' a'))).
  { intros p' k' a' c B BP. apply leads_at. rewrite <- (app_nil_r c). apply (G p' k' a' c [] (proj2 (container_in l' p' k' a') B) BP). }
  assert (D2 : forall p k a c, bound l p k a -> path p c -> (forall p' k' a', bound l' p' k' a' -> ~ bare p' c) -> forall y, ~ leads c x y).
  { intros p k a c B PC N y LY. apply leads_at in LY. destruct (encode_apart (pointer_prefix "") [] (container l') L BB m' JNull c) as (x2 & E2 & Q).
    - intros p' k' a' c' I BP. apply container_in in I. destruct (C p k a c p' k' a' c' B PC I BP) as [(-> & _)|A]; [destruct (N p' k' a' I BP)|exact A].
    - rewrite E in E2. injection E2 as <-. rewrite LY in Q. destruct c; [destruct (proj1 (proj1 PC) eq_refl)|discriminate]. }
  assert (D3 : forall p k a c y, bound l p k a -> path p c -> leads c x y -> exists p' a', bound l' p' k a' /\ bare p' c /\ y = param_get (m' a')).
  { intros p k a c y B PC LY.
    assert (K : {e | In e (container l') /\ (exists c', bare (fst e) c' /\ c' = c)} + {forall e, In e (container l') -> ~ exists c', bare (fst e) c' /\ c' = c}).
    { clear - W'. assert (BB : forall e, In e (container l') -> exists c, bare (fst e) c) by (intros [p [k a]] I; apply container_in in I; exact (W' p k a I)). revert BB. induction (container l') as [|e b IH]; intros BB; [right; intros e []|].
      destruct IH as [(e' & I & H)|H]; [intros e' I; apply BB; right; exact I|left; exists e'; split; [right; exact I|exact H]|].
      destruct (String.string_dec (fst e) (slashed c)) as [Q|Q].
      - destruct (list_eq_dec String.string_dec (pieces (slashed c)) c) as [Q2|Q2].
        + left. exists e. split; [left; reflexivity|]. destruct (BB e (or_introl eq_refl)) as (c' & BP). exists c'. split; [exact BP|]. destruct BP as ((N & F) & E & _). rewrite <- Q2, <- Q, E. symmetry. apply pieces_slashed; [exact N|apply words_slash, F].
        + right. intros e' [<-|I]; [|exact (H e' I)]. intros (c' & ((N & F) & E & _) & ->). apply Q2. apply pieces_slashed; [exact N|apply words_slash, F].
      - right. intros e' [<-|I]; [|exact (H e' I)]. intros (c' & (_ & E & _) & ->). congruence. }
    destruct K as [([p' [k' a']] & I & (c' & BP & ->))|N].
    - apply container_in in I. cbn in BP. destruct (C p k a c p' k' a' c B PC I BP) as [(_ & <-)|A]; [|destruct (proj1 A); exists []; symmetry; apply app_nil_r]. exists p', a'. split; [exact I|]. split; [exact BP|]. pose proof (D1 p' k a' c I BP) as L2. apply leads_at in LY, L2. congruence.
    - exfalso. apply (D2 p k a c B PC) with (y := y); [|exact LY]. intros p' k' a' B' BP. apply (N (p', (k', a'))); [apply container_in, B'|]. exists c. auto. }
  assert (F : fitting l x). { intros p k a c y B PC LY. destruct (D3 p k a c y B PC LY) as (p' & a' & B' & _ & ->). apply (get_is near k (m' a') (T' p' k a' B')). }
  destruct (c49_update_partial near l x m W O F) as (A1 & _ & A2). destruct A2 as (m2 & U). { intros p k a c y B PC LY. destruct (D3 p k a c y B PC LY) as (p' & a' & B' & _ & ->). exists (m' a'). apply (get_is near k (m' a') (T' p' k a' B')). }
  exists m2. split; [unfold update_from, encode_in; rewrite E; exact U|]. destruct (A1 m2 U) as (A & B). split; [|split; [|exact B]].
  - intros p k a c p' a' BD PC B' BP. destruct (A p k a BD c PC) as (A3 & _). exact (is_kind_one near _ _ _ _ (A3 _ (D1 p' k a' c B' BP)) (proj1 (get_is near k (m' a') (T' p' k a' B')))).
  - intros p k a c BD PC N. destruct (A p k a BD c PC) as (_ & A3). apply A3. exact (D2 p k a c BD PC N).
Qed.

(** * Cases *)
Definition digitb (c : ascii) : bool := let n := nat_of_ascii c in Nat.leb 48 n && Nat.leb n 57.
Definition wordb (n : string) : bool :=
  forallb (fun c => negb (Ascii.eqb c "/") && negb (Ascii.eqb c zero) && negb (Ascii.eqb c "~")) (chars n) && (String.eqb n "" || existsb (fun c => negb (digitb c)) (chars n)) && negb (String.eqb n "-").
Lemma wordb_ok n : wordb n = true -> word n.
Proof.
  unfold wordb. rewrite !andb_true_iff, forallb_forall, orb_true_iff, negb_true_iff. intros ((F & D) & M). assert (G : forall c, In c (chars n) -> c <> "/"%char /\ c <> zero /\ c <> "~"%char).
  { intros c I. specialize (F c I). rewrite !andb_true_iff, !negb_true_iff in F. destruct F as ((A & B) & C). apply Ascii.eqb_neq in A, B, C. auto. }
  split; [intros I; destruct (G _ I) as (H & _); congruence|]. split; [intros I; destruct (G _ I) as (_ & H & _); congruence|]. split; [intros I; destruct (G _ I) as (_ & _ & H); congruence|]. split; [|apply String.eqb_neq, M].
  destruct D as [D|D]; [left; apply String.eqb_eq, D|]. right. apply existsb_exists in D. destruct D as (c & I & D). exists c. split; [exact I|]. apply negb_true_iff in D. unfold digitb in D. unfold is_digit. apply andb_false_iff in D. destruct D as [D|D]; apply Nat.leb_gt in D; lia.
Qed.
Definition bareb (p : string) : bool := forallb wordb (pieces p) && negb (String.eqb (hd "" (pieces p)) "").
Lemma bareb_ok p : bareb p = true -> bare p (pieces p).
Proof.
  unfold bareb. rewrite andb_true_iff, forallb_forall, negb_true_iff. intros (F & H). split; [split; [destruct p as [|c p]; [discriminate|cbn; destruct (Ascii.eqb c "/"); [discriminate|destruct (pieces p); discriminate]]|apply Forall_forall; intros n I; apply wordb_ok, F, I]|]. split; [symmetry; apply slashed_pieces|apply String.eqb_neq, H].
Qed.
Fixpoint startsb (c q : list string) : bool := match c, q with [], _ => true | a :: c', b :: q' => String.eqb a b && startsb c' q' | _, _ => false end.
Lemma startsb_ok c : forall q, starts c q -> startsb c q = true. Proof. intros q (r & ->). induction c as [|n c IH]; [reflexivity|]. cbn. rewrite String.eqb_refl. exact IH. Qed.
Definition soundb (l : list call) : bool :=
  let b := container l in
  forallb (fun e => bareb (fst e)) b && forallb (fun e => forallb (fun f => String.eqb (fst e) (fst f) || negb (startsb (pieces (fst e)) (pieces (fst f))) && negb (startsb (pieces (fst f)) (pieces (fst e))) && negb (Nat.eqb (addr e) (addr f))) b) b.
Lemma soundb_ok l : soundb l = true -> with_bare_paths l /\ separate l /\ own_variables l.
Proof.
  unfold soundb. cbv zeta. rewrite andb_true_iff, !forallb_forall. intros (A & B). split; [|split].
  - intros p k a H. apply container_in in H. exists (pieces p). apply bareb_ok. exact (A _ H).
  - intros p k a p' k' a' c c' H H' N BC BC'. apply container_in in H, H'. specialize (B _ H). rewrite forallb_forall in B. specialize (B _ H'). cbn in B. apply orb_true_iff in B. destruct B as [B|B]; [apply String.eqb_eq in B; congruence|]. rewrite !andb_true_iff, !negb_true_iff in B. destruct B as ((B1 & B2) & _).
    rewrite (bare_one _ _ _ BC (bareb_ok p (A _ H))), (bare_one _ _ _ BC' (bareb_ok p' (A _ H'))). split; intros S; apply startsb_ok in S; congruence.
  - intros p k a p' k' H H'. apply container_in in H, H'. specialize (B _ H). rewrite forallb_forall in B. specialize (B _ H'). cbn in B. apply orb_true_iff in B. destruct B as [B|B]; [apply String.eqb_eq, B|]. rewrite !andb_true_iff, !negb_true_iff in B. destruct B as (_ & B). rewrite Nat.eqb_refl in B. discriminate.
Qed.
Definition nearest (z : Z) : Z := z + 1000.
Definition sample : list call := [("roi/x", (KOne KInt, 1%nat)); ("name", (KOne KStr, 9%nat)); ("roi/sizes", (KVec KUint, 2%nat)); ("rate", (KOne KDouble, 3%nat)); ("extra", (KDoc, 4%nat)); ("name", (KOne KStr, 0%nat))].
Definition mem0 : memory := fun a => match a with 0 => PStr "first" | 1 => PInt (-5) | 2 => PVec [PInt 7; PInt 8] | 3 => PDouble 77 | 4 => PDoc (JObj [("k", JNull)]) | _ => PBool true end%nat.
Definition mem1 : memory := fun a => match a with 0 => PStr "other" | 1 => PInt 3 | 2 => PVec [] | 3 => PDouble 1 | 4 => PDoc JNull | _ => PBool false end%nat.
Definition patch : json := JObj [("rate", JInt 12); ("unbound", JStr "x"); ("roi", JObj [("sizes", JArr [JInt 1; JInt 2; JInt 3]); ("y", JBool true)])].
Lemma sample_sound : with_bare_paths sample /\ separate sample /\ own_variables sample. Proof. apply soundb_ok. vm_compute. reflexivity. Qed.
Lemma sample_bound p k a : bound sample p k a -> In (p, (k, a)) [("extra", (KDoc, 4%nat)); ("name", (KOne KStr, 0%nat)); ("rate", (KOne KDouble, 3%nat)); ("roi/sizes", (KVec KUint, 2%nat)); ("roi/x", (KOne KInt, 1%nat))].
Proof. intros H. apply container_in in H. exact H. Qed.
Lemma sample_typed m : m = mem0 \/ m = mem1 -> typed_memory sample m.
Proof. intros M p k a H. apply sample_bound in H. destruct M as [-> | ->]; repeat (destruct H as [H|H]; [injection H as <- <- <-; repeat constructor; try lia; apply no_char_ok; reflexivity|]); destruct H. Qed.
Lemma no_lead p c d : bare p c -> at_path (pieces p) d = None -> forall x, ~ leads c d x.
Proof. intros ((N & F) & E & _) A x L. apply leads_at in L. rewrite E, pieces_slashed in A by (try apply words_slash; assumption). congruence. Qed.
Lemma path_pieces p c : path p c -> bareb p = true -> c = pieces p. Proof. intros P B. exact (path_one p c (pieces p) P (bare_path _ _ (bareb_ok p B))). Qed.
Lemma sample_fits : fitting sample patch.
Proof. intros p k a c x H P L. apply sample_bound in H. repeat (destruct H as [H|H]; [injection H as <- <- <-; rewrite (path_pieces _ _ P eq_refl) in L; apply leads_at in L; cbn in L; try discriminate; injection L as <-; repeat constructor|]). destruct H. Qed.
Example c49_update_example : exists m', update_doc nearest (container sample) patch mem0 = (m', Ret tt) /\ set_exactly nearest sample patch mem0 m' /\ m' 2%nat = PVec [PInt 1; PInt 2; PInt 3] /\ m' 3%nat = PDouble 1012 /\ m' 1%nat = PInt (-5) /\ m' 9%nat = PBool true.
Proof.
  destruct sample_sound as (W & _ & O). eexists. split; [reflexivity|]. split; [apply (c49_update_partial nearest sample patch mem0 (bare_paths _ W) O sample_fits); reflexivity|]. repeat split; reflexivity.
Qed.
Definition spoiled : json := JObj [("name", JStr "new"); ("rate", JStr "fast"); ("roi", JObj [("x", JInt 1)])].
Lemma spoiled_fits : fitting sample spoiled.
Proof. intros p k a c x H P L. apply sample_bound in H. repeat (destruct H as [H|H]; [injection H as <- <- <-; rewrite (path_pieces _ _ P eq_refl) in L; apply leads_at in L; cbn in L; try discriminate; injection L as <-; first [apply no_char_ok; reflexivity|exact Logic.I]|]). destruct H. Qed.
Example c49_failed_example : exists m', update_doc nearest (container sample) spoiled mem0 = (m', Throw PAssert) /\ fitting sample spoiled /\ m' 0%nat = PStr "new" /\ m' 1%nat = PInt (-5).
Proof. eexists. split; [reflexivity|]. split; [exact spoiled_fits|]. split; reflexivity. Qed.
Example c49_restores_example : exists x' d m3, encode_in "config/odin" (container sample) mem0 (JObj [("keep", JInt 1); ("config", JInt 2)]) = (x', Ret tt) /\ leads ["config"; "odin"] x' d /\ leads ["keep"] x' (JInt 1) /\ update_doc nearest (container sample) d mem1 = (m3, Ret tt) /\
  (forall p k a, bound sample p k a -> m3 a = mem0 a) /\ m3 9%nat = PBool false.
Proof.
  destruct sample_sound as (W & S & O). pose (x := JObj [("keep", JInt 1); ("config", JInt 2)]). pose (x' := fst (encode_in "config/odin" (container sample) mem0 x)). pose (d := match at_path ["config"; "odin"] x' with Some d => d | None => JNull end). exists x', d.
  assert (P : place "config/odin" ["config"; "odin"]). { right. split; [split; [discriminate|repeat (apply Forall_cons; [apply wordb_ok; reflexivity|]); apply Forall_nil]|]. split; [discriminate|left; reflexivity]. }
  destruct (c49_restores nearest sample "config/odin" ["config"; "odin"] mem0 x x' d mem1 W S O (sample_typed mem0 (or_introl eq_refl)) P eq_refl) as (m3 & U & A & B); [apply leads_at; reflexivity|].
  exists m3. split; [reflexivity|]. split; [apply leads_at; reflexivity|]. split; [apply leads_at; reflexivity|]. split; [exact U|]. split; [exact A|]. rewrite B; [reflexivity|]. intros p k H. apply sample_bound in H. cbn in H. repeat (destruct H as [H|H]; [discriminate|]). destruct H.
Qed.
Definition smaller : list call := [("rate", (KOne KDouble, 3%nat)); ("roi/x", (KOne KInt, 1%nat))].
Lemma smaller_sound : with_bare_paths smaller /\ separate smaller /\ own_variables smaller. Proof. apply soundb_ok. vm_compute. reflexivity. Qed.
Lemma smaller_bound p k a : bound smaller p k a -> In (p, (k, a)) [("rate", (KOne KDouble, 3%nat)); ("roi/x", (KOne KInt, 1%nat))].
Proof. intros H. apply container_in in H. exact H. Qed.
Lemma apartb c q : startsb c q = false -> startsb q c = false -> apart c q.
Proof. intros A B. split; intros S; apply startsb_ok in S; congruence. Qed.
Example c49_from_example : typed_memory smaller mem1 /\
  (forall p k a c p' k' a' c', bound sample p k a -> path p c -> bound smaller p' k' a' -> bare p' c' -> c = c' /\ k = k' \/ apart c' c) /\
  exists m2, update_from nearest (container sample) (container smaller) mem1 mem0 = (m2, Ret tt) /\ m2 3%nat = PDouble 1 /\ m2 1%nat = PInt 3 /\ m2 0%nat = PStr "first".
Proof.
  split; [intros p k a H; apply smaller_bound in H; repeat (destruct H as [H|H]; [injection H as <- <- <-; repeat constructor; lia|]); destruct H|]. split.
  - intros p k a c p' k' a' c' H P H' B. apply sample_bound in H. apply smaller_bound in H'. apply bare_path in B.
    repeat (destruct H as [H|H]; [injection H as <- <- <-; rewrite (path_pieces _ _ P eq_refl); repeat (destruct H' as [H'|H']; [injection H' as <- <- <-; rewrite (path_pieces _ _ B eq_refl); first [left; split; reflexivity|right; apply apartb; reflexivity]|]); destruct H'|]). destruct H.
  - eexists. split; [reflexivity|]. repeat split; reflexivity.
Qed.

(** * What does not hold *)
(** A number that does not fit into 16 bits is cut. *)
Theorem c49_u16_refuted : exists l d m m', update_doc nearest (container l) d m = (m', Ret tt) /\ bound l "port" (KOne KU16) 0 /\ leads ["port"] d (JInt 70000) /\ m' 0%nat = PInt 4464.
Proof. exists [("port", (KOne KU16, 0%nat))], (JObj [("port", JInt 70000)]), mem0. eexists. split; [reflexivity|]. split; [apply container_in; left; reflexivity|]. split; [apply leads_at; reflexivity|reflexivity]. Qed.
(** A failed update has set some of the parameters and emptied a vector. *)
Theorem c49_atomic_refuted : exists l d m m', with_bare_paths l /\ own_variables l /\ fitting l d /\ update_doc nearest (container l) d m = (m', Throw PAssert) /\ m 0%nat = PStr "first" /\ m' 0%nat = PStr "new" /\ m 2%nat = PVec [PInt 7; PInt 8] /\ m' 2%nat = PVec [PInt 1].
Proof.
  destruct sample_sound as (W & _ & O). exists sample, (JObj [("name", JStr "new"); ("roi", JObj [("sizes", JArr [JInt 1; JBool true])])]), mem0. eexists. split; [exact W|]. split; [exact O|]. split; [|split; [reflexivity|]; repeat split; reflexivity].
  intros p k a c x H P L. apply sample_bound in H. repeat (destruct H as [H|H]; [injection H as <- <- <-; rewrite (path_pieces _ _ P eq_refl) in L; apply leads_at in L; cbn in L; try discriminate; injection L as <-; first [apply no_char_ok; reflexivity|repeat constructor]|]). destruct H.
Qed.
(** A path with '/' in front can be updated from a document, but encode puts the parameter elsewhere: it is not restored. *)
Theorem c49_slash_refuted : exists l m m2 d m3, with_paths l /\ own_variables l /\ typed_memory l m /\ encode_doc (container l) m = (d, Ret tt) /\ update_doc nearest (container l) d m2 = (m3, Ret tt) /\ bound l "/roi/x" (KOne KInt) 1 /\ m 1%nat = PInt (-5) /\ m3 1%nat = PInt 3.
Proof.
  exists [("/roi/x", (KOne KInt, 1%nat))], mem0, mem1. eexists. eexists. assert (B : forall p k a, bound [("/roi/x", (KOne KInt, 1%nat))] p k a -> (p, (k, a)) = ("/roi/x", (KOne KInt, 1%nat))) by (intros p k a H; apply container_in in H; destruct H as [H|[]]; symmetry; exact H).
  split. { intros p k a H. apply B in H. injection H as -> -> ->. exists ["roi"; "x"]. split; [split; [discriminate|repeat (apply Forall_cons; [apply wordb_ok; reflexivity|]); apply Forall_nil]|]. right. reflexivity. }
  split. { intros p k a p' k' H H'. apply B in H, H'. congruence. }
  split. { intros p k a H. apply B in H. injection H as -> -> ->. repeat constructor; lia. }
  split; [reflexivity|]. split; [reflexivity|]. split; [apply container_in; left; reflexivity|]. split; reflexivity.
Qed.
(** A number as the first name makes the document of another container an array, which the next name replaces: that parameter is lost. *)
Theorem c49_number_refuted : exists l m m2, update_from nearest (container l) (container l) m mem1 = (m2, Ret tt) /\ typed_memory l m /\ bound l "0" (KOne KInt) 1 /\ bound l "b" (KOne KStr) 0 /\ m 1%nat = PInt (-5) /\ m2 1%nat = PInt 3 /\ m2 0%nat = m 0%nat.
Proof.
  exists [("0", (KOne KInt, 1%nat)); ("b", (KOne KStr, 0%nat))], mem0. eexists. split; [reflexivity|]. split.
  - intros p k a H. apply container_in in H. repeat (destruct H as [H|H]; [injection H as <- <- <-; repeat constructor; try lia; apply no_char_ok; reflexivity|]). destruct H.
  - split; [apply container_in; left; reflexivity|]. split; [apply container_in; right; left; reflexivity|]. repeat split; reflexivity.
Qed.
(** A path that leads through another parameter: that one is overwritten in the document, and the next update fails. *)
Theorem c49_through_refuted : exists l m d, encode_doc (container l) m = (d, Ret tt) /\ typed_memory l m /\ with_bare_paths l /\ own_variables l /\ bound l "roi" (KOne KStr) 0 /\ bound l "roi/x" (KOne KInt) 1 /\ snd (update_doc nearest (container l) d m) = Throw PAssert.
Proof.
  exists [("roi", (KOne KStr, 0%nat)); ("roi/x", (KOne KInt, 1%nat))], mem0. eexists. split; [reflexivity|]. split.
  { intros p k a H. apply container_in in H. repeat (destruct H as [H|H]; [injection H as <- <- <-; repeat constructor; try lia; apply no_char_ok; reflexivity|]). destruct H. }
  split. { intros p k a H. apply container_in in H. exists (pieces p). repeat (destruct H as [H|H]; [injection H as <- <- <-; apply bareb_ok; reflexivity|]). destruct H. }
  split. { intros p k a p' k' H H'. apply container_in in H, H'. repeat (destruct H as [H|H]; [injection H as <- <- <-; repeat (destruct H' as [H'|H']; [try discriminate H'; injection H' as <- <-; reflexivity|]); destruct H'|]). destruct H. }
  split; [apply container_in; left; reflexivity|]. split; [apply container_in; right; left; reflexivity|reflexivity].
Qed.

Print Assumptions c49_update_partial.
Print Assumptions c49_failed.
Print Assumptions c49_ignored.
Print Assumptions c49_encode.
Print Assumptions c49_restores.
Print Assumptions c49_from.
Print Assumptions c49_u16_refuted.
Print Assumptions c49_atomic_refuted.
Print Assumptions c49_slash_refuted.
Print Assumptions c49_number_refuted.
Print Assumptions c49_through_refuted.
