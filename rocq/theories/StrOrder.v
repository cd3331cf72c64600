(** The order of std::string as used by std::map, and maps in that order. *)
From Coq Require Export Ascii String.
From Verif Require Import Base.
Local Open Scope N_scope.

Lemma ascii_compare_lt_trans a b c : Ascii.compare a b = Lt -> Ascii.compare b c = Lt -> Ascii.compare a c = Lt.
Proof. unfold Ascii.compare. rewrite !N.compare_lt_iff. lia. Qed.

Lemma ascii_compare_refl a : Ascii.compare a a = Eq.
Proof. unfold Ascii.compare. apply N.compare_refl. Qed.

Lemma compare_refl s : String.compare s s = Eq.
Proof. induction s as [|a s IH]; cbn; [reflexivity|]. rewrite ascii_compare_refl. exact IH. Qed.

Lemma compare_lt_trans : forall x y z, String.compare x y = Lt -> String.compare y z = Lt -> String.compare x z = Lt.
Proof.
  induction x as [|a x IH]; intros [|b y] [|c z]; cbn; try discriminate; auto.
  destruct (Ascii.compare a b) eqn:E1; try discriminate.
  - apply Ascii.compare_eq_iff in E1. subst b. intros H1. destruct (Ascii.compare a c); try discriminate; auto.
    intros H2. eapply IH; eauto.
  - intros _. destruct (Ascii.compare b c) eqn:E2; try discriminate.
    + apply Ascii.compare_eq_iff in E2. subst c. rewrite E1. reflexivity.
    + rewrite (ascii_compare_lt_trans _ _ _ E1 E2). reflexivity.
Qed.

Lemma ltb_lt x y : String.ltb x y = true <-> String.compare x y = Lt.
Proof. unfold String.ltb. destruct (String.compare x y); split; congruence. Qed.
Lemma ltb_irrefl x : String.ltb x x = false.
Proof. unfold String.ltb. rewrite compare_refl. reflexivity. Qed.
Lemma ltb_trans x y z : String.ltb x y = true -> String.ltb y z = true -> String.ltb x z = true.
Proof. rewrite !ltb_lt. apply compare_lt_trans. Qed.
Lemma ltb_neq x y : String.ltb x y = true -> x <> y.
Proof. intros H ->. rewrite ltb_irrefl in H. discriminate. Qed.
Lemma ltb_other x y : String.ltb x y = false -> x <> y -> String.ltb y x = true.
Proof.
  unfold String.ltb. rewrite (String.compare_antisym y x). destruct (String.compare x y) eqn:E; cbn; try congruence.
  apply String.compare_eq_iff in E. congruence.
Qed.

(** ** std::map<std::string, A>: entries in increasing order of names. *)
Definition smap (A : Type) := list (string * A).
Fixpoint sm_get {A} (m : smap A) (k : string) : option A :=
  match m with [] => None | (k', v) :: t => if String.eqb k k' then Some v else sm_get t k end.
Fixpoint sm_put {A} (m : smap A) (k : string) (v : A) : smap A :=
  match m with
  | [] => [(k, v)]
  | (k', v') :: t => if String.eqb k k' then (k, v) :: t
                     else if String.ltb k k' then (k, v) :: (k', v') :: t
                     else (k', v') :: sm_put t k v
  end.
Fixpoint sm_del {A} (m : smap A) (k : string) : smap A :=
  match m with [] => [] | (k', v) :: t => if String.eqb k k' then t else (k', v) :: sm_del t k end.

Fixpoint sm_ok {A} (m : smap A) : Prop :=
  match m with
  | [] => True
  | (k, _) :: t => Forall (fun e => String.ltb k (fst e) = true) t /\ sm_ok t
  end.

Lemma sm_put_in {A} (m : smap A) k v e : In e (sm_put m k v) -> e = (k, v) \/ In e m.
Proof.
  induction m as [|[k' v'] t IH]; cbn; [intuition|].
  destruct (String.eqb k k'); cbn; [intuition|]. destruct (String.ltb k k'); cbn; [intuition|]. intuition.
Qed.
Lemma sm_put_ok {A} (m : smap A) k v : sm_ok m -> sm_ok (sm_put m k v).
Proof.
  induction m as [|[k' v'] t IH]; cbn; [auto|]. intros (F & O).
  destruct (String.eqb_spec k k') as [->|N]; [cbn; auto|].
  destruct (String.ltb k k') eqn:L; cbn.
  - split; [|auto]. constructor; [exact L|]. eapply Forall_impl; [|exact F]. intros e He. eapply ltb_trans; eauto.
  - split; [|auto]. apply Forall_forall. intros e He. apply sm_put_in in He. destruct He as [->|He].
    + apply ltb_other; auto.
    + rewrite Forall_forall in F. auto.
Qed.
Lemma sm_del_in {A} (m : smap A) k e : In e (sm_del m k) -> In e m.
Proof. induction m as [|[k' v'] t IH]; cbn; [auto|]. destruct (String.eqb k k'); cbn; intuition. Qed.
Lemma sm_del_ok {A} (m : smap A) k : sm_ok m -> sm_ok (sm_del m k).
Proof.
  induction m as [|[k' v'] t IH]; cbn; [auto|]. intros (F & O). destruct (String.eqb k k'); [auto|]. cbn. split; [|auto].
  rewrite Forall_forall in *. intros e He. apply F. eapply sm_del_in; eauto.
Qed.
Lemma sm_get_put {A} (m : smap A) k v k' : sm_get (sm_put m k v) k' = if String.eqb k' k then Some v else sm_get m k'.
Proof.
  induction m as [|[a b] t IH]; cbn; [reflexivity|].
  destruct (String.eqb_spec k a) as [->|N]; cbn.
  - destruct (String.eqb k' a); reflexivity.
  - destruct (String.ltb k a); cbn; [reflexivity|]. rewrite IH.
    destruct (String.eqb_spec k' a) as [->|N']; [|reflexivity].
    destruct (String.eqb_spec a k); [congruence|reflexivity].
Qed.
Lemma sm_get_fresh {A} (m : smap A) k : Forall (fun e => String.ltb k (fst e) = true) m -> sm_get m k = None.
Proof.
  induction 1 as [|[a b] t H F IH]; cbn; [reflexivity|]. cbn in H. apply ltb_neq in H.
  destruct (String.eqb_spec k a); [congruence|exact IH].
Qed.
Lemma sm_get_del {A} (m : smap A) k k' : sm_ok m -> sm_get (sm_del m k) k' = if String.eqb k' k then None else sm_get m k'.
Proof.
  induction m as [|[a b] t IH]; cbn; [destruct (String.eqb k' k); reflexivity|]. intros (F & O).
  destruct (String.eqb_spec k a) as [->|N].
  - destruct (String.eqb_spec k' a) as [E|N']; [rewrite E; apply sm_get_fresh, F|reflexivity].
  - cbn. rewrite IH by exact O. destruct (String.eqb_spec k' a) as [->|N']; [|reflexivity].
    destruct (String.eqb_spec a k); [congruence|reflexivity].
Qed.
Lemma sm_get_in {A} (m : smap A) k v : sm_get m k = Some v -> In (k, v) m.
Proof.
  induction m as [|[a b] t IH]; cbn; [discriminate|]. destruct (String.eqb_spec k a) as [->|N].
  - intros [= ->]. auto.
  - auto.
Qed.
Lemma sm_in_get {A} (m : smap A) k v : sm_ok m -> In (k, v) m -> sm_get m k = Some v.
Proof.
  induction m as [|[a b] t IH]; cbn; [intuition|]. intros (F & O) [H|H].
  - injection H as -> ->. rewrite String.eqb_refl. reflexivity.
  - destruct (String.eqb_spec k a) as [->|N]; [|auto]. rewrite Forall_forall in F. specialize (F _ H). cbn in F.
    rewrite ltb_irrefl in F. discriminate.
Qed.
Lemma sm_nodup {A} (m : smap A) : sm_ok m -> NoDup (map fst m).
Proof.
  induction m as [|[a b] t IH]; cbn; [constructor|]. intros (F & O). constructor; [|auto].
  intros H. apply in_map_iff in H. destruct H as ([k v] & E & H). cbn in E. subst k. rewrite Forall_forall in F.
  specialize (F _ H). cbn in F. rewrite ltb_irrefl in F. discriminate.
Qed.
