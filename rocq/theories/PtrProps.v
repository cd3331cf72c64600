(** C49: paths with escapes and with elements of arrays *)
From Coq Require Import String Ascii.
From Verif Require Import Base StrOrder JsonModel JsonSpec JsonProofs JsonUpdate JsonReadSpec ParModel ParSpec ParProofs ParProps PtrSpec PtrProofs.
Local Open Scope string_scope.
Local Open Scope list_scope.
Local Open Scope Z_scope.

Lemma container_pointed l : with_points l -> pointed (container l). Proof. intros W p k a I. apply container_in in I. exact (W p k a I). Qed.
(** Update through JSON pointers: members of any name, elements by number.  Exactly the parameters that the document has are set; it succeeds if and only if the values have the types. *)
Theorem c49_pointers_partial near l d m : with_points l -> own_variables l -> fitting_points l d ->
  (forall m', update_doc near (container l) d m = (m', Ret tt) -> (forall p k a, bound l p k a -> set_at_point near d m m' p k a) /\ forall a, (forall p k, ~ bound l p k a) -> m' a = m a) /\
  ((exists m', update_doc near (container l) d m = (m', Ret tt)) <-> forall p k a c x, bound l p k a -> points p c -> resolves c d x -> exists v, is near k x v).
Proof.
  intros W O F. pose proof (container_pointed l W) as PB. pose proof (container_addr l O) as ND.
  assert (A : forall m', update_doc near (container l) d m = (m', Ret tt) -> (forall p k a, bound l p k a -> set_at_point near d m m' p k a) /\ forall a, (forall p k, ~ bound l p k a) -> m' a = m a).
  { intros m' U. split.
    - intros p k a B c P. pose proof (point_done near (container l) d PB ND m m' U p k a (proj2 (container_in l p k a) B) c P) as G. split.
      + intros x R. pose proof (F p k a c x B P R) as FX. apply pget_resolves in R. rewrite R in G. apply (param_is near k x (m a) (m' a) FX), G.
      + intros N. destruct (pget c d) as [x|] eqn:E; [destruct (N x); apply pget_resolves, E|exact G].
    - intros a N. apply (update_other near _ d _ _ _ U), not_bound_addr, N. }
  split; [exact A|]. split.
  - intros (m' & U) p k a c x B P R. destruct (A m' U) as (S & _). destruct (S p k a B c P) as (S1 & _). exists (m' a). apply S1, R.
  - intros H. destruct (point_ends near (container l) d PB m) as (m' & o & E & [->|(p & k & a & m1 & c & x & v & I & P & G & PS)]); [exists m'; exact E|]. exfalso.
    assert (B : bound l p k a) by (apply container_in, I). apply pget_resolves in G. destruct (H p k a c x B P G) as (w & V). apply (param_is near k x (m1 a) w (F p k a c x B P G)) in V. congruence.
Qed.
(** With a path that has a '~' on its own no update succeeds. *)
Theorem c49_tilde near l d m p k a : bound l p k a -> no_nul p -> lone_tilde p -> snd (update_doc near (container l) d m) = Throw PAssert.
Proof. intros B N T. destruct (lone_update near (container l) d p k a (proj2 (container_in l p k a) B) N T m) as (m' & ->). reflexivity. Qed.
(** Encoding into a document that has the places, members or elements, replaces these and nothing else. *)
Theorem c49_elements_partial near l m x : with_bare_points l -> separate_points l -> typed_memory l m -> (forall p k a c, bound l p k a -> bare_points p c -> exists y, resolves c x y) ->
  exists x', encode_in "" (container l) m x = (x', Ret tt) /\
    (forall p k a c, bound l p k a -> bare_points p c -> exists y, resolves c x' y /\ is near k y (m a)) /\
    forall q y, (forall p k a c, bound l p k a -> bare_points p c -> apart c q) -> (resolves q x' y <-> resolves q x y).
Proof.
  intros W S T H. destruct (point_encode (container l)) with (m := m) (x := x) as (x' & E & G & O).
  - intros p k a I. apply container_in in I. exact (W p k a I).
  - apply sm_nodup, container_ok.
  - intros p k a p' k' a' c c' I I'. apply container_in in I, I'. exact (S p k a p' k' a' c c' I I').
  - intros p k a c I. apply container_in in I. exact (H p k a c I).
  - exists x'. split; [exact E|]. split.
    + intros p k a c B P. exists (param_get (m a)). split; [apply (G p k a c); [apply container_in, B|exact P]|]. apply get_is, (T p k a B).
    + intros q y A. rewrite <- !pget_resolves, O; [reflexivity|]. intros p k a c I. apply container_in in I. exact (A p k a c I).
Qed.

(** A path of a member "a/b~" of the second element of "rows" *)
Definition deep : list call := [("rows/1/a~1b~0", (KOne KInt, 0%nat))].
Definition rows (z : Z) : json := JObj [("rows", JArr [JInt 5; JObj [("a/b~", JInt z)]; JInt 6])].
Lemma deep_points : bare_points "rows/1/a~1b~0" ["rows"; "1"; "a/b~"].
Proof.
  split; [discriminate|]. exists ["rows"; "1"; "a~1b~0"]. split; [|split; [reflexivity|discriminate]].
  apply Forall2_cons; [|apply Forall2_cons; [|apply Forall2_cons; [|apply Forall2_nil]]]; repeat first [apply es_nil|apply es_tilde|apply es_slash|apply es_char; [discriminate|discriminate|discriminate|]].
Qed.
Lemma deep_bound p k a : bound deep p k a -> p = "rows/1/a~1b~0" /\ k = KOne KInt /\ a = 0%nat.
Proof. intros B. apply container_in in B. destruct B as [B|[]]. injection B as <- <- <-. auto. Qed.
Example c49_pointers_case : with_points deep /\ own_variables deep /\ fitting_points deep (rows 7) /\ resolves ["rows"; "1"; "a/b~"] (rows 7) (JInt 7) /\
  exists m', update_doc (fun z => z) (container deep) (rows 7) (fun _ => PInt 0) = (m', Ret tt) /\ m' 0%nat = PInt 7.
Proof.
  split; [intros p k a B; apply deep_bound in B; destruct B as (-> & _); exists ["rows"; "1"; "a/b~"]; left; exact deep_points|].
  split; [intros p k a p' k' B B'; apply deep_bound in B, B'; destruct B as (-> & _), B' as (-> & _); reflexivity|].
  split; [intros p k a c x B _ _; apply deep_bound in B; destruct B as (_ & -> & _); exact Logic.I|].
  split; [apply pget_resolves; reflexivity|]. eexists. split; reflexivity.
Qed.
Example c49_elements_case : with_bare_points deep /\ separate_points deep /\ typed_memory deep (fun _ => PInt 9) /\ encode_in "" (container deep) (fun _ => PInt 9) (rows 7) = (rows 9, Ret tt).
Proof.
  split; [intros p k a B; apply deep_bound in B; destruct B as (-> & _); eexists; exact deep_points|].
  split; [intros p k a p' k' a' c c' B B' N; apply deep_bound in B, B'; destruct B as (-> & _), B' as (-> & _); congruence|].
  split; [intros p k a B; apply deep_bound in B; destruct B as (_ & -> & _); repeat constructor; lia|]. reflexivity.
Qed.
Example c49_tilde_case : lone_tilde "a~2" /\ no_nul "a~2". Proof. split; [exists "a", "2"; split; [reflexivity|intros r; split; discriminate]|]. intros H. repeat (destruct H as [H|H]; try discriminate H). destruct H. Qed.

Print Assumptions c49_pointers_partial.
Print Assumptions c49_tilde.
Print Assumptions c49_elements_partial.
