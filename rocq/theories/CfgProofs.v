(** Reading settings from messages. *)
From Coq Require Import String Ascii.
From Verif Require Import Base JsonModel JsonSpec JsonProofs JsonProps PrcModel PrcReply PrcSet CfgModel CfgSpec.
Local Open Scope string_scope.
Local Open Scope list_scope.
Local Open Scope Z_scope.

(** ** Values that are given *)
Lemma given_at {A} x q (rd : json -> option A) old new : given x q rd old new <-> match at_path q x with Some y => rd y = Some new | None => new = old end.
Proof.
  unfold given. split.
  - intros [(y & L & R)|(N & ->)]; [apply leads_at in L; rewrite L; exact R|]. destruct (at_path q x) as [y|] eqn:E; [|reflexivity]. apply leads_at in E. destruct (N y E).
  - destruct (at_path q x) as [y|] eqn:E; intros H; [left; exists y; split; [apply leads_at, E|exact H]|right; split; [apply no_lead, E|exact H]].
Qed.
Lemma given_in {A} a q x z (rd : json -> option A) old new : at_path [a] x = Some z -> given z q rd old new -> given x (a :: q) rd old new.
Proof. intros E. rewrite !given_at, (at1 _ _ _ _ E). auto. Qed.
Lemma given_out {A} a q x (rd : json -> option A) old : at_path [a] x = None -> given x (a :: q) rd old old.
Proof. intros E. apply given_at. destruct (at_path (a :: q) x) as [y|] eqn:Y; [|reflexivity]. apply leads_at in Y. destruct (no_lead_more [a] q x E y Y). Qed.
Lemma given_map {A B} (f : A -> B) x q rd old new : given x q rd old new -> given x q (omap f rd) (f old) (f new).
Proof. rewrite !given_at. unfold omap. destruct (at_path q x); intros H; [rewrite H|subst]; reflexivity. Qed.
Lemma given_twice {A} x q (rd : json -> option A) a b c : given x q rd a b -> given x q rd b c -> given x q rd a c.
Proof. rewrite !given_at. destruct (at_path q x); congruence. Qed.
Lemma as_list_map {A B} (f : A -> B) rd y : as_list (omap f rd) y = omap (map f) (as_list rd) y.
Proof. unfold omap at 2, as_list. destruct y; try reflexivity. induction l as [|e l IH]; [reflexivity|]. cbn. rewrite IH. unfold omap. destruct (rd e); [|reflexivity]. destruct (all_some (map rd l)); reflexivity. Qed.

(** ** Getters *)
Definition name_ok (k : string) : Prop := no_slash k /\ no_nul k.
Definition reads {A} (get : msg -> string -> outcome ipcexc A) (rd : json -> option A) : Prop :=
  forall m x k a, name_ok k -> params_of m = Some x -> (get m k = Ret a <-> exists y, at_path [k] x = Some y /\ rd y = Some a).
Lemma raw_one m x k y : name_ok k -> params_of m = Some x -> (get_raw m k = Ret y <-> at_path [k] x = Some y).
Proof. intros (S & N) E. change k with (slashed [k]) at 1. rewrite (get_raw_holds m [k] y (one_path _ S N)). apply holds_part, E. Qed.
Lemma reads_by {A} g (rd : json -> option A) (f : JsonModel.result -> A) : (forall y a, (exists r, get_value g y = Ret r /\ f r = a) <-> rd y = Some a) -> reads (fun m k => bind (get_param g m k) (fun r => Ret (f r))) rd.
Proof.
  intros H m x k a N E. unfold get_param. split.
  - destruct (get_raw m k) as [y| |] eqn:G; try discriminate. apply (raw_one m x) in G; [|assumption..]. destruct (get_value g y) as [r| |] eqn:V; try discriminate. cbn. intros X. injection X as <-. exists y. split; [exact G|]. apply H. eauto.
  - intros (y & Y & R). apply (raw_one m x) in Y; [|assumption..]. rewrite Y. apply H in R as (r & V & <-). rewrite V. reflexivity.
Qed.
Ltac rr := intros y a; split; [intros (r & V & <-); destruct y; try discriminate; cbn in V|].
Lemma reads_number g lo hi : (forall z, get_value g (JInt z) = in_range lo hi z) -> (forall y, (forall z, y <> JInt z) -> forall r, get_value g y = Ret r -> False) -> reads (fun m k => bind (get_param g m k) (fun r => Ret (match r with RInt z => z | _ => 0 end))) (number_in lo hi).
Proof.
  intros H1 H2. apply reads_by. intros y a. split.
  - intros (r & V & <-). destruct y; try (edestruct H2; [|exact V]; intros; discriminate). rewrite H1 in V. unfold in_range in V. cbn. destruct ((lo <=? z) && (z <? hi)); [injection V as <-; reflexivity|discriminate].
  - destruct y; try discriminate. cbn. destruct ((lo <=? z) && (z <? hi)) eqn:R; [|discriminate]. intros X. injection X as <-. exists (RInt z). rewrite H1. unfold in_range. rewrite R. split; reflexivity.
Qed.
Lemma reads_u64 : reads u64 as_u64. Proof. apply reads_number; [reflexivity|]. intros y N r V. destruct y; try discriminate. eapply N; reflexivity. Qed.
Lemma reads_uint : reads uint as_uint. Proof. apply reads_number; [reflexivity|]. intros y N r V. destruct y; try discriminate. eapply N; reflexivity. Qed.
Lemma reads_int : reads int as_int. Proof. apply reads_number; [reflexivity|]. intros y N r V. destruct y; try discriminate. eapply N; reflexivity. Qed.
Lemma reads_bool : reads boolean as_bool.
Proof. apply reads_by. intros y a. split; [intros (r & V & <-); destruct y; try discriminate; injection V as <-; reflexivity|]. destruct y; try discriminate. intros X. injection X as <-. eexists. split; reflexivity. Qed.
Lemma reads_text : reads text as_text.
Proof. apply reads_by. intros y a. split; [intros (r & V & <-); destruct y; try discriminate; injection V as <-; reflexivity|]. destruct y; try discriminate. intros X. injection X as <-. eexists. split; reflexivity. Qed.
Lemma ref_one m x k y : name_ok k -> params_of m = Some x -> (get_ref m k = Ret y <-> at_path [k] x = Some y).
Proof.
  intros N E. rewrite <- (raw_one m x k y N E). unfold get_ref. rewrite (pieces_no_slash k (proj1 N)). destruct (get_raw m k); split; congruence.
Qed.
Lemma reads_part now : reads (part now) (fun y => Some (msg_of_value y TIllegal VIllegal true now)).
Proof.
  intros m x k a N E. unfold part. split.
  - destruct (get_ref m k) as [y| |] eqn:G; try discriminate. apply (ref_one m x) in G; [|assumption..]. cbn. intros X. injection X as <-. eauto.
  - intros (y & Y & X). injection X as <-. apply (ref_one m x) in Y; [|assumption..]. rewrite Y. reflexivity.
Qed.
Lemma u64s_all l a : u64s l = Ret a <-> all_some (map as_u64 l) = Some a.
Proof.
  revert a. induction l as [|y l IH]; intros a; cbn [u64s map all_some]; [split; intros H; injection H as <-; reflexivity|].
  assert (V : match get_value GUint64 y with Ret (RInt z) => as_u64 y = Some z | Ret _ => False | _ => as_u64 y = None end).
  { destruct y; try reflexivity. unfold get_value, in_range, as_u64, number_in. destruct ((0 <=? z) && (z <? 2 ^ 64)); reflexivity. }
  destruct (get_value GUint64 y) as [[]|e|]; try contradiction; rewrite V; cbn [bind]; try (split; discriminate).
  destruct (u64s l) as [t| |]; cbn [bind].
  - rewrite (proj1 (IH t) eq_refl). split; intros H; injection H as <-; reflexivity.
  - destruct (all_some (map as_u64 l)) as [t|]; [specialize (proj2 (IH t) eq_refl); discriminate|]. split; discriminate.
  - destruct (all_some (map as_u64 l)) as [t|]; [specialize (proj2 (IH t) eq_refl); discriminate|]. split; discriminate.
Qed.
Lemma reads_array : reads u64_array (as_list as_u64).
Proof.
  intros m x k a N E. unfold u64_array. split.
  - destruct (get_ref m k) as [y| |] eqn:G; try discriminate. apply (ref_one m x) in G; [|assumption..]. cbn. destruct y; try discriminate. intros H. apply u64s_all in H. eauto.
  - intros (y & Y & R). apply (ref_one m x) in Y; [|assumption..]. rewrite Y. cbn. destruct y; try discriminate. apply u64s_all, R.
Qed.

Section Steps.
  Context {S : Type}.
  Notation C := (C S).
  Lemma cseq_ret {A B} (a : C A) (f : A -> C B) s r s1 r1 b : cseq a f s r = (s1, r1, Ret b) -> exists x s0 r0, a s r = (s0, r0, Ret x) /\ f x s0 r0 = (s1, r1, Ret b).
  Proof. unfold cseq. destruct (a s r) as ((s0 & r0) & [x|e|]); try discriminate. eauto 6. Qed.
  Lemma cseq_go {A B} (a : C A) (f : A -> C B) s r s0 r0 x : a s r = (s0, r0, Ret x) -> cseq a f s r = f x s0 r0. Proof. unfold cseq. intros ->. reflexivity. Qed.
  Lemma has_one {B} k m x (f : bool -> C B) s r s1 r1 b : name_ok k -> params_of m = Some x -> cseq (clift (has_param m k)) f s r = (s1, r1, Ret b) ->
    f (match at_path [k] x with Some _ => true | None => false end) s r = (s1, r1, Ret b).
  Proof.
    intros (N & U) E H. apply cseq_ret in H as (h & s0 & r0 & HH & H). unfold clift in HH. destruct (has_param m k) as [h0| |] eqn:HP; try discriminate. injection HH as <- <- ->. destruct (c33_has m [k] h (one_path _ N U) HP) as (T & _).
    replace (match at_path [k] x with Some _ => true | None => false end) with h; [exact H|]. destruct (at_path [k] x) as [y|] eqn:Y.
    - apply (proj2 T). exists y. apply (holds_part m x); assumption.
    - destruct h; [|reflexivity]. destruct (proj1 T eq_refl) as (y & L). apply (holds_part m x) in L; [|exact E]. congruence.
  Qed.
  Lemma has_go k m l : name_ok k -> params_of m = Some (JObj l) -> has_param m k = Ret (match at_path [k] (JObj l) with Some _ => true | None => false end).
  Proof. intros (N & U) E. unfold has_param. rewrite E, (pieces_no_slash _ N). cbn. rewrite (cstr_id _ U). destruct (find_member k l); reflexivity. Qed.
  Lemma setting_ret {A} (get : msg -> string -> outcome ipcexc A) rd k m x (f : A -> C unit) s r s1 r1 : reads get rd -> name_ok k -> params_of m = Some x -> setting m k get f s r = (s1, r1, Ret tt) ->
    match at_path [k] x with Some y => exists a, rd y = Some a /\ f a s r = (s1, r1, Ret tt) | None => s1 = s /\ r1 = r end.
  Proof.
    intros R N E H. unfold setting in H. apply (has_one k m x) in H; [|assumption..]. destruct (at_path [k] x) as [y|] eqn:Y; [|injection H as -> ->; split; reflexivity].
    apply cseq_ret in H as (a & s0 & r0 & HH & H). unfold clift in HH. destruct (get m k) as [a0| |] eqn:G; try discriminate. injection HH as <- <- ->. apply (R m x k a N E) in G as (z & Z & RZ). rewrite Y in Z. injection Z as <-. eauto.
  Qed.
  Lemma local_ret {A} (get : msg -> string -> outcome ipcexc A) rd k m x (s : S) r (s1 : S) r1 o : reads get rd -> name_ok k -> params_of m = Some x -> local m k get s r = (s1, r1, Ret o) ->
    s1 = s /\ r1 = r /\ match at_path [k] x with Some y => exists a, rd y = Some a /\ o = Some a | None => o = None end.
  Proof.
    intros R N E H. unfold local in H. apply (has_one k m x) in H; [|assumption..]. destruct (at_path [k] x) as [y|] eqn:Y; [|injection H as -> -> ->; auto].
    apply cseq_ret in H as (a & s0 & r0 & HH & H). unfold clift in HH. destruct (get m k) as [a0| |] eqn:G; try discriminate. injection HH as <- <- ->. injection H as <- <- <-. apply (R m x k a N E) in G as (z & Z & RZ). rewrite Y in Z. injection Z as <-. eauto.
  Qed.
  (** A setting that is stored with [U]; [V]: its value *)
  Lemma setting_upd {A} (get : msg -> string -> outcome ipcexc A) rd k m x (f : A -> C unit) (U : A -> S -> S) (V : S -> A) s r s1 r1 : reads get rd -> name_ok k -> params_of m = Some x ->
    (forall a s r s1 r1, f a s r = (s1, r1, Ret tt) -> s1 = U a s /\ r1 = r) -> (forall s, U (V s) s = s) -> setting m k get f s r = (s1, r1, Ret tt) -> exists a, s1 = U a s /\ r1 = r /\ given x [k] rd (V s) a.
  Proof.
    intros R N E F UV H. apply (setting_ret get rd k m x) in H; [|assumption..]. destruct (at_path [k] x) as [y|] eqn:Y.
    - destruct H as (a & RY & H). apply F in H as (-> & ->). exists a. split; [reflexivity|]. split; [reflexivity|]. apply given_at. rewrite Y. exact RY.
    - destruct H as (-> & ->). exists (V s). split; [symmetry; apply UV|]. split; [reflexivity|]. apply given_at. rewrite Y. reflexivity.
  Qed.
  (** The other way round *)
  Lemma setting_go {A} (get : msg -> string -> outcome ipcexc A) rd k m l y a (f : A -> C unit) s r : reads get rd -> name_ok k -> params_of m = Some (JObj l) -> at_path [k] (JObj l) = Some y -> rd y = Some a -> setting m k get f s r = f a s r.
  Proof. intros R N E Y RY. unfold setting, cseq, clift. rewrite (has_go k m l N E), Y. rewrite (proj2 (R m (JObj l) k a N E)); [reflexivity|eauto]. Qed.
  Lemma setting_off {A} (get : msg -> string -> outcome ipcexc A) k m l (f : A -> C unit) s r : name_ok k -> params_of m = Some (JObj l) -> at_path [k] (JObj l) = None -> setting m k get f s r = (s, r, Ret tt).
  Proof. intros N E Y. unfold setting, cseq, clift. rewrite (has_go k m l N E), Y. reflexivity. Qed.
  Lemma local_go {A} (get : msg -> string -> outcome ipcexc A) rd k m l y a (s : S) r : reads get rd -> name_ok k -> params_of m = Some (JObj l) -> at_path [k] (JObj l) = Some y -> rd y = Some a -> local m k get s r = (s, r, Ret (Some a)).
  Proof. intros R N E Y RY. unfold local, cseq, clift. rewrite (has_go k m l N E), Y. rewrite (proj2 (R m (JObj l) k a N E)); [reflexivity|eauto]. Qed.
  Lemma local_off {A} (get : msg -> string -> outcome ipcexc A) k m l (s : S) r : name_ok k -> params_of m = Some (JObj l) -> at_path [k] (JObj l) = None -> local m k get s r = (s, r, Ret None).
  Proof. intros N E Y. unfold local, cseq, clift. rewrite (has_go k m l N E), Y. reflexivity. Qed.
End Steps.
