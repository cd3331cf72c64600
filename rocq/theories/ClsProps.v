(** Property C84: the loading of classes by name. *)
From Coq Require Import String.
From Verif Require Import Base ClsModel ClsSpec.
Local Open Scope list_scope.

Lemma fetch_reg n k n' : forall m, fetch n' (reg n k m) = if String.eqb n n' then Some k else fetch n' m.
Proof.
  induction m as [|[a b] r IH]; simpl.
  - destruct (String.eqb n n'); reflexivity.
  - destruct (String.eqb_spec a n) as [->|N]; simpl.
    + destruct (String.eqb_spec n n') as [->|]; reflexivity.
    + destruct (String.eqb_spec a n') as [->|N']; [|exact IH].
      destruct (String.eqb_spec n n') as [->|]; [contradiction|reflexivity].
Qed.

(** The lookup after registrations: the latest of them, else what was there. *)
Lemma fetch_regs n : forall l m,
  (forall k, latest n k l -> fetch n (fold_left (fun m x => reg (fst x) (snd x) m) l m) = Some k)
  /\ (~ In n (map fst l) -> fetch n (fold_left (fun m x => reg (fst x) (snd x) m) l m) = fetch n m).
Proof.
  induction l as [|[a b] r IH]; intros m; simpl.
  - split; [|reflexivity]. intros k (x & y & E & _). destruct x; discriminate.
  - destruct (IH (reg a b m)) as [I1 I2]. split.
    + intros k (x & y & E & N). destruct x as [|c x]; simpl in E.
      * injection E as -> -> ->. rewrite I2 by exact N. rewrite fetch_reg, String.eqb_refl. reflexivity.
      * injection E as _ ->. apply I1. exists x, y. split; [reflexivity|exact N].
    + intros N. rewrite I2 by tauto. rewrite fetch_reg. destruct (String.eqb_spec a n) as [->|]; [tauto|reflexivity].
Qed.

Lemma latest_dec n : forall l, (exists k, latest n k l) \/ ~ In n (map fst l).
Proof.
  induction l as [|[a b] r IH]; [right; intros []|]. destruct IH as [(k & x & y & -> & N)|N].
  - left. exists k, ((a, b) :: x), y. split; [reflexivity|exact N].
  - destruct (string_dec a n) as [->|D].
    + left. exists b, [], r. split; [reflexivity|exact N].
    + right. simpl. tauto.
Qed.

Lemma latest_in n k l : latest n k l -> In n (map fst l).
Proof. intros (a & b & -> & _). rewrite map_app, in_app_iff. right. simpl. auto. Qed.

(** The map is what the open libraries have registered, in order; each is opened once. *)
Definition kept (L : libraries) (s : loader) : Prop :=
  f_map s = fold_left (fun m x => reg (fst x) (snd x) m) (registrations L (f_open s)) []
  /\ NoDup (f_open s) /\ Forall (fun p => L p <> None) (f_open s).

Lemma mem_in p l : existsb (String.eqb p) l = true <-> In p l.
Proof.
  rewrite existsb_exists. split.
  - intros (x & I & E). apply String.eqb_eq in E. subst. exact I.
  - intros I. exists p. split; [exact I|apply String.eqb_refl].
Qed.

Lemma kept_load L s n p : kept L s -> kept L (fst (load_class L s n p)).
Proof.
  intros (K1 & K2 & K3). unfold load_class. destruct (fetch n (f_map s)); [repeat split; assumption|].
  unfold dlopen. destruct (L p) as [regs|] eqn:E; [|repeat split; assumption].
  destruct (existsb (String.eqb p) (f_open s)) eqn:X; [repeat split; assumption|]. simpl. repeat split; simpl.
  - unfold registrations. rewrite flat_map_app, fold_left_app. fold (registrations L (f_open s)). rewrite <- K1. simpl.
    rewrite E, app_nil_r. reflexivity.
  - apply (NoDup_Add (a := p) (l := f_open s)).
    + pose proof (Add_app p (f_open s) []) as A. rewrite app_nil_r in A. exact A.
    + split; [exact K2|]. intros I. apply mem_in in I. congruence.
  - apply Forall_app. split; [exact K3|]. constructor; [congruence|constructor].
Qed.

Lemma loads_cons L s n p r : loads L s ((n, p) :: r)
  = (fst (loads L (fst (load_class L s n p)) r), snd (load_class L s n p) :: snd (loads L (fst (load_class L s n p)) r)).
Proof. simpl. destruct (load_class L s n p) as [s1 x]. simpl. destruct (loads L s1 r). reflexivity. Qed.

Lemma kept_loads L : forall rs s, kept L s -> kept L (fst (loads L s rs)).
Proof.
  induction rs as [|[n p] r IH]; intros s K; [exact K|]. rewrite loads_cons. cbn [fst]. apply IH, kept_load, K.
Qed.

Lemma kept0 L : kept L loader0.
Proof. repeat split; constructor. Qed.

Lemma kept_fetch L s n : kept L s ->
  (forall k, latest n k (registrations L (f_open s)) -> fetch n (f_map s) = Some k)
  /\ (~ In n (map fst (registrations L (f_open s))) -> fetch n (f_map s) = None).
Proof. intros (K1 & _). rewrite K1. destruct (fetch_regs n (registrations L (f_open s)) []) as [A B]. split; assumption. Qed.

(** C84: whatever was loaded before, a name that an open library has registered gives what was registered last under it;
    no library is opened, whatever the path. *)
Theorem c84_known : forall L rs n p k, let s := fst (loads L loader0 rs) in
  latest n k (registrations L (f_open s)) -> load_class L s n p = (s, result k).
Proof.
  intros L rs n p k s H. destruct (kept_fetch L s n (kept_loads L rs _ (kept0 L))) as [A _].
  unfold load_class, make. rewrite (A k H). destruct k; reflexivity.
Qed.
Print Assumptions c84_known.

(** C84: a name not registered opens the library of the path: if that cannot be opened, the error is thrown and nothing
    changes; else it is open, and the name gives what it registers under it last, or a null pointer. *)
Theorem c84_new : forall L rs n p, let s := fst (loads L loader0 rs) in
  ~ In n (map fst (registrations L (f_open s))) ->
  match L p with
  | None => load_class L s n p = (s, LibError)
  | Some regs =>
    f_open (fst (load_class L s n p)) = (if in_dec string_dec p (f_open s) then f_open s else f_open s ++ [p])
    /\ (forall k, latest n k regs -> snd (load_class L s n p) = result k)
    /\ (~ In n (map fst regs) -> snd (load_class L s n p) = Null)
  end.
Proof.
  intros L rs n p s H. pose proof (kept_loads L rs _ (kept0 L)) as K. fold s in K. destruct (kept_fetch L s n K) as [_ A].
  specialize (A H). unfold load_class, dlopen. rewrite A. destruct (L p) as [regs|] eqn:E; [|reflexivity].
  destruct (in_dec string_dec p (f_open s)) as [I|I].
  - rewrite (proj2 (mem_in p _) I). simpl. split; [reflexivity|]. unfold make. rewrite A.
    split; [|reflexivity]. intros k B. exfalso. apply H. apply latest_in in B. unfold registrations.
    rewrite in_map_iff in B |- *. destruct B as (x & B1 & B2). exists x. split; [exact B1|]. apply in_flat_map. exists p. rewrite E. auto.
  - destruct (existsb (String.eqb p) (f_open s)) eqn:X; [apply mem_in in X; contradiction|]. simpl. split; [reflexivity|].
    destruct (fetch_regs n regs (f_map s)) as [B C]. unfold make. split.
    + intros k D. rewrite (B k D). destruct k; reflexivity.
    + intros D. rewrite (C D), A. reflexivity.
Qed.
Print Assumptions c84_new.

(** C84: libraries are opened once each, only those asked for, and those that can be. *)
Theorem c84_opened : forall L rs, let s := fst (loads L loader0 rs) in
  NoDup (f_open s) /\ forall p, In p (f_open s) -> In p (map snd rs) /\ L p <> None.
Proof.
  intros L rs s. destruct (kept_loads L rs _ (kept0 L)) as (_ & N & F). split; [exact N|]. intros p I.
  split; [|rewrite Forall_forall in F; exact (F p I)].
  assert (G : forall rs s0, In p (f_open (fst (loads L s0 rs))) -> In p (f_open s0) \/ In p (map snd rs)).
  { clear. induction rs as [|[n q] r IH]; intros s0 I; [left; exact I|]. rewrite loads_cons in I. cbn [fst] in I.
    apply IH in I. simpl. destruct I as [I|I]; [|tauto]. unfold load_class, dlopen in I.
    destruct (fetch n (f_map s0)); [tauto|]. destruct (L q); [|tauto]. destruct (existsb _ _); [tauto|].
    simpl in I. rewrite in_app_iff in I. simpl in I. tauto. }
  destruct (G rs loader0 I) as [[]|I']. exact I'.
Qed.
Print Assumptions c84_opened.

(** C84: every object given was made by a maker that a library asked for registered under the name. *)
Theorem c84_origin : forall L rs n p c, snd (load_class L (fst (loads L loader0 rs)) n p) = Object c ->
  exists q regs, In q (map snd rs ++ [p]) /\ L q = Some regs /\ In (n, Makes c) regs.
Proof.
  intros L rs n p c H. set (s := fst (loads L loader0 rs)) in *.
  assert (O : forall q, In q (f_open s) -> In q (map snd rs ++ [p])).
  { intros q I. apply in_or_app. left. exact (proj1 (proj2 (c84_opened L rs) q I)). }
  assert (M : forall k l, latest n k l -> result k = Object c -> In (n, Makes c) l).
  { intros k l (a & b & -> & _) R. destruct k; try discriminate. injection R as ->. apply in_or_app. right. left. reflexivity. }
  destruct (latest_dec n (registrations L (f_open s))) as [[k A]|A].
  - pose proof (c84_known L rs n p k) as T. cbv zeta in T. fold s in T. rewrite (T A) in H. cbn [snd] in H. apply M in A; [|exact H].
    unfold registrations in A. apply in_flat_map in A. destruct A as (q & A1 & A2). exists q.
    destruct (L q) as [regs|] eqn:E; [|destruct A2]. exists regs. auto.
  - pose proof (c84_new L rs n p) as T. cbv zeta in T. fold s in T. specialize (T A). destruct (L p) as [regs|] eqn:E.
    + destruct T as (_ & T1 & T2). destruct (latest_dec n regs) as [[k B]|B].
      * rewrite (T1 k B) in H. exists p, regs. split; [apply in_or_app; right; simpl; auto|]. split; [exact E|exact (M k regs B H)].
      * rewrite (T2 B) in H. discriminate.
    + rewrite T in H. discriminate.
Qed.
Print Assumptions c84_origin.

(** C84, partial: if no two libraries register the same name, a name that once gave an object gives objects of the same
    class for good, whatever else is loaded and whatever the path.  Missing: libraries that register the same name. *)
Theorem c84_stable_partial : forall L rs n p c rs' q, separate L ->
  let s := fst (load_class L (fst (loads L loader0 rs)) n p) in
  snd (load_class L (fst (loads L loader0 rs)) n p) = Object c ->
  snd (load_class L (fst (loads L s rs')) n q) = Object c.
Proof.
  intros L rs n p c rs' q SEP s H. set (s0 := fst (loads L loader0 rs)) in *.
  assert (K0 : kept L s0) by apply (kept_loads L rs _ (kept0 L)).
  assert (K : kept L s) by (apply kept_load; exact K0).
  assert (F : fetch n (f_map s) = Some (Makes c)).
  { unfold s, load_class in H |- *. destruct (fetch n (f_map s0)) as [k|] eqn:E; simpl in H |- *.
    - rewrite E. unfold make in H. rewrite E in H. destruct k; congruence.
    - destruct (dlopen L s0 p) as [s1|]; simpl in H |- *; [|discriminate]. unfold make in H.
      destruct (fetch n (f_map s1)) as [[]|]; congruence. }
  clearbody s. clear H K0 s0.
  assert (G : forall rs' s, kept L s -> fetch n (f_map s) = Some (Makes c) -> fetch n (f_map (fst (loads L s rs'))) = Some (Makes c)).
  { clear - SEP. induction rs' as [|[m q] r IH]; intros s K F; [exact F|]. rewrite loads_cons. cbn [fst]. apply IH; [apply kept_load, K|].
    unfold load_class. destruct (fetch m (f_map s)) eqn:X; [exact F|]. unfold dlopen. destruct (L q) as [regs|] eqn:E; [|exact F].
    destruct (existsb (String.eqb q) (f_open s)) eqn:Y; [exact F|]. simpl.
    destruct (fetch_regs n regs (f_map s)) as [_ B]. rewrite B; [exact F|]. intros I.
    assert (J : In n (map fst (registrations L (f_open s)))).
    { destruct (latest_dec n (registrations L (f_open s))) as [[k A]|A]; [exact (latest_in _ _ _ A)|].
      rewrite (proj2 (kept_fetch L s n K) A) in F. discriminate. }
    unfold registrations in J. apply in_map_iff in J. destruct J as ([n' k] & <- & J). apply in_flat_map in J. destruct J as (p & P1 & P2).
    destruct (L p) as [l|] eqn:E'; [|destruct P2].
    assert (p = q) by (eapply SEP; [exact E'|exact E| |exact I]; apply in_map_iff; exists (n', k); auto). subst p.
    apply mem_in in P1. congruence. }
  unfold load_class. rewrite (G rs' s K F). cbn [snd]. unfold make. rewrite (G rs' s K F). reflexivity.
Qed.
Print Assumptions c84_stable_partial.

Local Open Scope string_scope.
Definition two (p : string) : option (list (string * maker)) :=
  if String.eqb p "libA.so" then Some [("Writer", Makes 1); ("Broken", ThrowsStd)]
  else if String.eqb p "libB.so" then Some [("Viewer", Makes 2); ("Writer", Makes 3)]
  else None.

(** C84, refuted: that the class comes from the library asked for. *)
Theorem c84_path_refuted : ~ forall L rs n p c, snd (load_class L (fst (loads L loader0 rs)) n p) = Object c ->
  exists regs, L p = Some regs /\ In (n, Makes c) regs.
Proof.
  intros H. destruct (H two [("Writer", "libA.so")] "Writer" "libB.so" 1%Z eq_refl) as (regs & E & I).
  injection E as <-. simpl in I. destruct I as [I|[I|[]]]; discriminate.
Qed.
Print Assumptions c84_path_refuted.

(** C84, refuted: that a name stands for one class for good, without [separate]. *)
Theorem c84_stable_refuted : exists L rs n p c q rs',
  snd (load_class L (fst (loads L loader0 rs)) n p) = Object c
  /\ snd (load_class L (fst (loads L (fst (load_class L (fst (loads L loader0 rs)) n p)) rs')) n q) <> Object c.
Proof.
  exists two, [], "Writer", "libA.so", 1%Z, "libA.so", [("Viewer", "libB.so")]. vm_compute. split; [reflexivity|discriminate].
Qed.
Print Assumptions c84_stable_refuted.

Example c84_case : loads two loader0 [("Writer", "libA.so"); ("Broken", "no such file"); ("Viewer", "none.so"); ("Nothing", "libA.so"); ("Viewer", "libB.so"); ("Writer", "libA.so")]
  = (Loader [("Writer", Makes 3); ("Broken", ThrowsStd); ("Viewer", Makes 2)] ["libA.so"; "libB.so"],
     [Object 1; Null; LibError; Null; Object 2; Object 3]).
Proof. vm_compute. reflexivity. Qed.
(** Libraries that meet [separate]. *)
Example c84_separate : separate (fun p => if String.eqb p "a" then Some [("A", Makes 1)] else if String.eqb p "b" then Some [("B", Makes 2)] else None).
Proof.
  intros p q l m n. destruct (String.eqb_spec p "a") as [->|]; destruct (String.eqb_spec q "a") as [->|]; auto;
  try (destruct (String.eqb_spec p "b") as [->|]); try (destruct (String.eqb_spec q "b") as [->|]); auto; try discriminate;
  intros E1 E2; injection E1 as <-; injection E2 as <-; simpl; intros [<-|[]] [H|[]]; discriminate.
Qed.
