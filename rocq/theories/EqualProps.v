(** C52: comparing messages. *)
From Coq Require Import String Permutation.
From Verif Require Import Base JsonModel JsonSpec JsonProofs JsonTextModel JsonTextSpec JsonTextProofs EqualModel EqualSpec.
Local Open Scope string_scope.
Local Open Scope list_scope.

Lemma find_in n l x : find_member n l = Some x -> In (n, x) l.
Proof. induction l as [|[k v] l IH]; cbn; [discriminate|]. destruct (String.eqb_spec k n) as [->|]; [intros E; injection E as ->; auto|auto]. Qed.
Lemma in_find n l x : NoDup (map fst l) -> In (n, x) l -> find_member n l = Some x.
Proof.
  induction l as [|[k v] l IH]; cbn; [intros _ []|]. intros ND [E|I]; [injection E as -> ->; rewrite String.eqb_refl; reflexivity|]. inversion ND as [|? ? NI ND']; subst. destruct (String.eqb_spec k n) as [->|]; [|auto]. exfalso. apply NI. apply (in_map fst) in I. exact I.
Qed.
Section Equal.
  Variable deq : json -> json -> bool.
  Variable num : json -> json -> Prop.
  Definition reflects : Prop := forall x y, is_number x -> is_number y -> deq x y = true <-> num x y.
  Lemma members_iff (P : json -> json -> Prop) (eqb : json -> json -> bool) l l' : NoDup (map fst l) -> NoDup (map fst l') -> (forall n x y, In (n, x) l -> In (n, y) l' -> eqb x y = true <-> P x y) ->
    (Nat.eqb (List.length l) (List.length l') = true /\ (forall n x, In (n, x) l -> match find_member n l' with Some w => eqb x w | None => false end = true) <->
     exists l'', Permutation l'' l' /\ Forall2 (fun a b => fst a = fst b /\ P (snd a) (snd b)) l l'').
  Proof.
    intros ND ND' EQ. split.
    - intros (LE & ALL). apply Nat.eqb_eq in LE.
      assert (G : forall k, (forall e, In e k -> In e l) -> exists k', Forall2 (fun a b => fst a = fst b /\ P (snd a) (snd b)) k k' /\ (forall e, In e k' -> In e l') /\ map fst k' = map fst k).
      { induction k as [|[n x] k IH]; intros SUB; [exists []; repeat split; [constructor|intros e []]|]. destruct (IH (fun e I => SUB e (or_intror I))) as (k' & F & S & M). pose proof (ALL n x (SUB _ (or_introl eq_refl))) as A. destruct (find_member n l') as [w|] eqn:FM; [|discriminate]. apply find_in in FM.
        exists ((n, w) :: k'). split; [constructor; [split; [reflexivity|apply (EQ n x w (SUB _ (or_introl eq_refl)) FM), A]|exact F]|]. split; [intros e [<-|I]; [exact FM|exact (S e I)]|]. cbn. f_equal. exact M. }
      destruct (G l (fun e I => I)) as (l'' & F & S & M). exists l''. split; [|exact F]. apply NoDup_Permutation_bis; [apply (NoDup_map_inv fst); rewrite M; exact ND| |exact S]. apply (f_equal (@List.length string)) in M. rewrite !map_length in M. lia.
    - intros (l'' & PM & F). assert (LE : List.length l = List.length l') by (rewrite <- (Permutation_length PM); clear - F; induction F; cbn; lia). split; [apply Nat.eqb_eq, LE|].
      intros n x I. assert (E : exists y, In (n, y) l'' /\ P x y). { clear - F I. induction F as [|[a b] [c d] l l'' (A & B) F IH]; [destruct I|]. cbn in *. subst c. destruct I as [E|I]; [injection E as -> ->; exists d; auto|]. destruct (IH I) as (y & J & Q). exists y. auto. }
      destruct E as (y & J & Q). assert (J' : In (n, y) l') by (eapply Permutation_in; eassumption). rewrite (in_find n l' y ND' J'). apply (EQ n x y I J'), Q.
  Qed.
  Lemma eqb_same : reflects -> forall x y, tidy x -> tidy y -> json_eqb deq x y = true <-> same num x y.
  Proof.
    intros R. unfold reflects in R. induction x as [x NA NO|l IH|l IH] using json_all; intros y TX TY.
    - destruct x as [|b|z|b|s|l|l]; try (exfalso; (eapply NA + eapply NO); reflexivity).
      + destruct y; cbn; split; try discriminate; try (intros H; inversion H; subst; try reflexivity). all: try constructor. all: match goal with H : is_number JNull |- _ => destruct H as [(? & H)|(? & H)]; discriminate end.
      + destruct y as [|b'|z|c|s|l|l]; cbn; split; try discriminate; try (intros H; inversion H; subst). all: try (match goal with H : is_number (JBool _) |- _ => destruct H as [(? & H)|(? & H)]; discriminate end). { apply eqb_prop in H. subst. constructor. } { apply eqb_reflx. }
      + destruct y as [|b'|z'|c|s|l|l]; cbn [json_eqb]; try (split; [discriminate|intros H; inversion H; subst; match goal with H : is_number _ |- _ => destruct H as [(? & H)|(? & H)]; discriminate end]).
        * split; [intros E; apply Z.eqb_eq in E; subst; constructor|]. intros H. inversion H as [| | |? ? N1 N2 [(b & D)|(b & D)] _| | |]; subst; try discriminate. apply Z.eqb_refl.
        * rewrite R by (unfold is_number, is_double; eauto). split; [intros Q; apply sm_double; unfold is_number, is_double; eauto|]. intros H. inversion H; subst. assumption.
      + destruct y as [|b'|z'|c|s|l|l]; cbn [json_eqb]; try (split; [discriminate|intros H; inversion H; subst; match goal with H : is_number _ |- _ => destruct H as [(? & H)|(? & H)]; discriminate end]).
        * rewrite R by (unfold is_number, is_double; eauto). split; [intros Q; apply sm_double; unfold is_number, is_double; eauto|]. intros H. inversion H; subst. assumption.
        * rewrite R by (unfold is_number, is_double; eauto). split; [intros Q; apply sm_double; unfold is_number, is_double; eauto|]. intros H. inversion H; subst. assumption.
      + destruct y as [|b'|z'|c|s'|l|l]; cbn [json_eqb]; try (split; [discriminate|intros H; inversion H; subst; match goal with H : is_number (JStr _) |- _ => destruct H as [(? & H)|(? & H)]; discriminate end]).
        rewrite String.eqb_eq. split; [intros ->; apply sm_str|]. intros H. inversion H; subst; [|reflexivity]. match goal with H : is_number (JStr _) |- _ => destruct H as [(? & H)|(? & H)]; discriminate end.
    - assert (NN : ~ is_number (JArr l)) by (intros [(? & H)|(? & H)]; discriminate).
      destruct y as [|b'|z'|c|s'|l'|l']; cbn [json_eqb]; try (split; [discriminate|intros H; inversion H; subst; contradiction]).
      inversion TX as [? X _|? FX|]; subst; [exfalso; exact (X _ eq_refl)|]. inversion TY as [? X _|? FY|]; subst; [exfalso; exact (X _ eq_refl)|].
      assert (G : (fix go l l' := match l, l' with [], [] => true | a :: r, b :: r' => json_eqb deq a b && go r r' | _, _ => false end) l l' = true <-> Forall2 (same num) l l').
      { clear TX TY NN. revert l' FY. induction l as [|a l IHl]; intros [|b l'] FY; try (split; [discriminate|intros H; inversion H]); [split; [constructor|reflexivity]|]. inversion FX; inversion FY; subst. rewrite andb_true_iff, (IH a (or_introl eq_refl)), IHl by (auto; intros y I; apply IH; right; exact I). split; [intros (A & B); constructor; assumption|intros H; inversion H; subst; auto]. }
      rewrite G. split; [apply sm_arr|]. intros H. inversion H; subst; [contradiction|assumption].
    - assert (NN : ~ is_number (JObj l)) by (intros [(? & H)|(? & H)]; discriminate).
      destruct y as [|b'|z'|c|s'|l'|l']; cbn [json_eqb]; try (split; [discriminate|intros H; inversion H; subst; contradiction]).
      inversion TX as [? _ X| |? NX FX]; subst; [exfalso; exact (X _ eq_refl)|]. inversion TY as [? _ X| |? NY FY]; subst; [exfalso; exact (X _ eq_refl)|]. rewrite Forall_forall in FX, FY.
      assert (G : (fix go l := match l with [] => true | (n, v) :: r => match find_member n l' with Some w => json_eqb deq v w | None => false end && go r end) l = true <-> forall n x, In (n, x) l -> match find_member n l' with Some w => json_eqb deq x w | None => false end = true).
      { clear. induction l as [|[n v] l IHl]; [split; [intros _ n x []|reflexivity]|]. rewrite andb_true_iff, IHl. split; [intros (A & B) n' x [E|I]; [injection E as <- <-; exact A|exact (B n' x I)]|]. intros H. split; [apply (H n v); left; reflexivity|intros n' x I; apply (H n' x); right; exact I]. }
      rewrite andb_true_iff, G, (members_iff (same num) (json_eqb deq) l l' NX NY).
      + split; [intros (l'' & PM & F); eapply sm_obj; eassumption|]. intros H. inversion H; subst; [contradiction|]. eauto.
      + intros n x y I J. apply (IH n x I y); [apply (FX _ I)|apply (FY _ J)].
  Qed.
End Equal.

(** The parameters of a message are a tidy object. *)
Definition has_tidy (m : msg) (l : list (string * json)) : Prop := holds m [] (JObj l) /\ tidy (JObj l).
(** Two messages are equal exactly if type, value and parameters are the same; id and time do not count. *)
Theorem c52_equal_partial deq num a b l l' : reflects deq num -> has_tidy a l -> has_tidy b l' ->
  msg_eqb deq a b = true <-> g_type a = g_type b /\ g_val a = g_val b /\ same num (JObj l) (JObj l').
Proof.
  intros R (HA & TA) (HB & TB). apply holds_at in HA, HB. cbn [at_path] in HA, HB. unfold msg_eqb, has_params. destruct (find_member "params" (g_doc a)); [|discriminate]. destruct (find_member "params" (g_doc b)); [|discriminate]. injection HA as ->. injection HB as ->. cbn [Bool.eqb].
  rewrite !andb_true_iff. assert (ET : msg_type_eqb (g_type a) (g_type b) = true <-> g_type a = g_type b) by (destruct (g_type a), (g_type b); cbn; split; congruence). assert (EV : Nat.eqb (val_index (g_val a)) (val_index (g_val b)) = true <-> g_val a = g_val b) by (rewrite Nat.eqb_eq; split; [|intros ->; reflexivity]; destruct (g_val a), (g_val b); cbn; congruence).
  rewrite ET, EV, <- (eqb_same deq num R (JObj l) (JObj l') TA TB). cbn [json_eqb]. rewrite andb_true_iff.
  assert (G : forallb (fun e => match find_member (cstr (fst e)) l' with Some w => json_eqb deq (snd e) w | None => false end) l = true <-> (fix go l := match l with [] => true | (n, v) :: r => match find_member n l' with Some w => json_eqb deq v w | None => false end && go r end) l = true).
  { inversion TA as [? _ X| |? NX FX]; subst; [exfalso; exact (X _ eq_refl)|]. clear - FX. induction FX as [|[n v] l (N & _) FX IH]; [tauto|]. cbn [forallb fst snd] in *. rewrite !andb_true_iff, IH, (cstr_id n N). tauto. }
  rewrite G. tauto.
Qed.
(** A message without an object of parameters equals only others without, of the same type and value. *)
Theorem c52_absent deq a b : (forall l, ~ holds a [] (JObj l)) -> (msg_eqb deq a b = true <-> g_type a = g_type b /\ g_val a = g_val b /\ forall l, ~ holds b [] (JObj l)) /\ (msg_eqb deq b a = true <-> g_type a = g_type b /\ g_val a = g_val b /\ forall l, ~ holds b [] (JObj l)).
Proof.
  intros NA. assert (P : forall m, (forall l, ~ holds m [] (JObj l)) <-> has_params (g_doc m) = false).
  { intros m. unfold has_params. split.
    - intros N. destruct (find_member "params" (g_doc m)) as [[| | | | | |l]|] eqn:F; try reflexivity. destruct (N l). apply holds_at. cbn [at_path]. rewrite F. reflexivity.
    - intros H l L. apply holds_at in L. cbn [at_path] in L. destruct (find_member "params" (g_doc m)) as [x|]; [|discriminate]. injection L as ->. discriminate. }
  assert (ET : forall a b, msg_type_eqb (g_type a) (g_type b) = true <-> g_type a = g_type b) by (intros x y; destruct (g_type x), (g_type y); cbn; split; congruence). assert (EV : forall a b, Nat.eqb (val_index (g_val a)) (val_index (g_val b)) = true <-> g_val a = g_val b) by (intros x y; rewrite Nat.eqb_eq; split; [|intros ->; reflexivity]; destruct (g_val x), (g_val y); cbn; congruence).
  pose proof (proj1 (P a) NA) as HA. rewrite (P b). unfold msg_eqb. rewrite !andb_true_iff, !ET, !EV, HA.
  assert (M : forall (f : list (string * json) -> list (string * json) -> bool), match find_member "params" (g_doc a) with Some (JObj l) => match find_member "params" (g_doc b) with Some (JObj l') => f l l' | _ => true end | _ => true end = true) by (intros f; unfold has_params in HA; destruct (find_member "params" (g_doc a)) as [[| | | | | |l]|]; try reflexivity; discriminate).
  assert (M' : forall (f : list (string * json) -> list (string * json) -> bool), match find_member "params" (g_doc b) with Some (JObj l) => match find_member "params" (g_doc a) with Some (JObj l') => f l l' | _ => true end | _ => true end = true) by (intros f; unfold has_params in HA; destruct (find_member "params" (g_doc b)) as [[| | | | | |l]|]; try reflexivity; destruct (find_member "params" (g_doc a)) as [[| | | | | |l']|]; try reflexivity; discriminate).
  rewrite M, M'. destruct (has_params (g_doc b)); cbn; intuition congruence.
Qed.
Example c52_absent_case deq : msg_eqb deq (msg_of_value (JInt 1) TCmd VConfigure false 0) (msg_of_value (JObj []) TCmd VConfigure false 0) = false /\ forall l, ~ holds (msg_of_value (JInt 1) TCmd VConfigure false 0) [] (JObj l).
Proof. split; [reflexivity|]. intros l H. apply holds_at in H. discriminate. Qed.
(** So the order of the operands does not matter. *)
Lemma same_sym (num : json -> json -> Prop) : (forall x y, num x y -> num y x) -> forall x y, same num x y -> same num y x.
Proof.
  intros NS. induction x as [x NA NO|l IH|l IH] using json_all; intros y H.
  - inversion H; subst; [apply sm_null|apply sm_bool|apply sm_int|apply sm_double; [assumption|assumption|tauto|apply NS; assumption]|apply sm_str|exfalso; eapply NA; reflexivity|exfalso; eapply NO; reflexivity].
  - inversion H as [| | |? ? N1 N2 D N| |? l' F|]; subst; [apply sm_double; auto; tauto|]. apply sm_arr. clear H. induction F as [|a b l l' S F IHF]; constructor; [apply IH; [left; reflexivity|exact S]|]. apply IHF. intros y I. apply IH. right. exact I.
  - inversion H as [| | |? ? N1 N2 D N| | |? l' l'' PM F]; subst; [apply sm_double; auto; tauto|].
    assert (F' : Forall2 (fun a b => fst a = fst b /\ same num (snd a) (snd b)) l'' l). { clear - F IH. induction F as [|[n a] [k b] l l' (E & S) F IHF]; constructor; [cbn in *; subst k; split; [reflexivity|apply (IH n a); [left; reflexivity|exact S]]|]. apply IHF. intros m y I. apply (IH m y). right. exact I. }
    clear - F' PM. assert (G : exists k, Permutation k l /\ Forall2 (fun a b => fst a = fst b /\ same num (snd a) (snd b)) l' k).
    { revert l F'. induction PM as [|x l1 l2 PM IH|x y l1|l1 l2 l3 P1 IH1 P2 IH2]; intros l F.
      - inversion F; subst. exists []. split; constructor.
      - inversion F as [|? b ? l0 A F0]; subst. destruct (IH l0 F0) as (k & P & Q). exists (b :: k). split; [constructor; exact P|constructor; assumption].
      - inversion F as [|? b ? l0 A F0]; subst. inversion F0 as [|? c ? l2 A2 F2]; subst. exists (c :: b :: l2). split; [apply perm_swap|constructor; [exact A2|constructor; [exact A|exact F2]]].
      - destruct (IH1 l F) as (k & P & Q). destruct (IH2 k Q) as (k2 & P' & Q'). exists k2. split; [etransitivity; eassumption|exact Q']. }
    destruct G as (k & P & Q). eapply sm_obj; eassumption.
Qed.
Theorem c52_symmetric_partial deq num a b l l' : reflects deq num -> (forall x y, num x y -> num y x) -> has_tidy a l -> has_tidy b l' -> msg_eqb deq a b = msg_eqb deq b a.
Proof.
  intros R NS HA HB. assert (G : forall a b l l', has_tidy a l -> has_tidy b l' -> msg_eqb deq a b = true -> msg_eqb deq b a = true).
  { clear - R NS. intros a b l l' HA HB E. apply (c52_equal_partial deq num a b l l' R HA HB) in E as (T & V & S). apply (c52_equal_partial deq num b a l' l R HB HA). repeat split; auto. apply same_sym; assumption. }
  destruct (msg_eqb deq a b) eqn:E1, (msg_eqb deq b a) eqn:E2; auto; [rewrite (G a b l l' HA HB E1) in E2; discriminate|rewrite (G b a l' l HB HA E2) in E1; discriminate].
Qed.
(** A message is equal to itself if the doubles in it are. *)
Inductive numbers_ok (num : json -> json -> Prop) : json -> Prop :=
| no_leaf x : (forall l, x <> JArr l) -> (forall l, x <> JObj l) -> (is_double x -> num x x) -> numbers_ok num x
| no_arr l : Forall (numbers_ok num) l -> numbers_ok num (JArr l)
| no_obj l : Forall (fun e => numbers_ok num (snd e)) l -> numbers_ok num (JObj l).
Lemma same_refl num x : numbers_ok num x -> same num x x.
Proof.
  induction x as [x NA NO|l IH|l IH] using json_all; intros N.
  - destruct x as [|b|z|b|s|l|l]; [apply sm_null|apply sm_bool|apply sm_int| |apply sm_str|exfalso; eapply NA; reflexivity|exfalso; eapply NO; reflexivity].
    inversion N as [? _ _ H| |]; subst. apply sm_double; unfold is_number, is_double in *; eauto.
  - inversion N as [? X _ _|? F|]; subst; [exfalso; exact (X _ eq_refl)|]. apply sm_arr. clear N. induction F; constructor; [apply IH; [left; reflexivity|assumption]|]. apply IHF. intros y I. apply IH. right. exact I.
  - inversion N as [? _ X _| |? F]; subst; [exfalso; exact (X _ eq_refl)|]. apply (sm_obj num l l l); [reflexivity|]. clear N. induction F as [|[n x] l Hx F IHF]; constructor; [split; [reflexivity|apply (IH n x); [left; reflexivity|assumption]]|]. apply IHF. intros m y I. apply (IH m y). right. exact I.
Qed.
Theorem c52_reflexive_partial deq num a l : reflects deq num -> has_tidy a l -> numbers_ok num (JObj l) -> msg_eqb deq a a = true.
Proof. intros R H N. apply (c52_equal_partial deq num a a l l R H H). repeat split. apply same_refl, N. Qed.

(** ** Where it fails: with a name twice, equality depends on the order. *)
Theorem c52_duplicate_refuted : exists a b, forall deq, msg_eqb deq a b = true /\ msg_eqb deq b a = false.
Proof. exists (msg_of_value (JObj [("x", JInt 1); ("x", JInt 1)]) TCmd VConfigure false 0), (msg_of_value (JObj [("x", JInt 1); ("y", JInt 2)]) TCmd VConfigure false 0). intros deq. split; vm_compute; reflexivity. Qed.
(** Parameters that are no objects are all equal. *)
Theorem c52_no_object_refuted : exists a b, forall deq, holds a [] (JInt 1) /\ holds b [] (JInt 2) /\ msg_eqb deq a b = true.
Proof. exists (msg_of_value (JInt 1) TCmd VConfigure false 0), (msg_of_value (JInt 2) TCmd VConfigure false 0). intros deq. repeat split; try (apply holds_at; reflexivity). Qed.

(** Not transitive: two integers that are the same double as a third number. *)
Theorem c52_transitive_refuted : exists a b c, forall deq d, deq (JInt 9007199254740992) (JDouble d) = true -> deq (JDouble d) (JInt 9007199254740993) = true ->
  msg_eqb deq a (b d) = true /\ msg_eqb deq (b d) c = true /\ msg_eqb deq a c = false.
Proof.
  exists (msg_of_value (JObj [("x", JInt 9007199254740992)]) TCmd VConfigure false 0), (fun d => msg_of_value (JObj [("x", JDouble d)]) TCmd VConfigure false 0), (msg_of_value (JObj [("x", JInt 9007199254740993)]) TCmd VConfigure false 0).
  intros deq d A B. unfold msg_eqb. cbn [msg_of_value g_type g_val g_doc]. cbn [has_params find_member String.eqb Ascii.eqb Bool.eqb fst snd forallb cstr List.length Nat.eqb json_eqb]. repeat split; try reflexivity; cbn; [rewrite A|rewrite B]; reflexivity.
Qed.

(** ** Cases *)
Definition exact_eq : json -> json -> bool := fun x y => match x, y with JDouble a, JDouble b => Z.eqb a b | _, _ => false end.
Example c52_case : let a := msg_of_value (JObj [("first", JArr [JInt 1; JDouble 7]); ("second", JObj [("p", JStr "x"); ("q", JNull)])]) TCmd VConfigure false 0 in
  let b := msg_of_value (JObj [("second", JObj [("q", JNull); ("p", JStr "x")]); ("first", JArr [JInt 1; JDouble 7])]) TCmd VConfigure false 5 in
  msg_eqb exact_eq a b = true /\ exists l, has_tidy a l.
Proof.
  cbv zeta. split; [reflexivity|]. eexists. split; [apply holds_at; reflexivity|]. assert (P : forall s, forallb (fun c => negb (Ascii.eqb c Ascii.zero)) (chars s) = true -> no_nul s). { intros s H I. rewrite forallb_forall in H. specialize (H _ I). discriminate. }
  repeat first [apply td_obj; [cbn; repeat constructor; cbn; intuition discriminate|] | apply td_arr | apply Forall_cons | apply Forall_nil | split; [apply P; reflexivity|] | apply td_leaf; intros ? X; discriminate X].
Qed.
Example c52_case_doubles : reflects exact_eq (fun x y => exists b, x = JDouble b /\ y = JDouble b).
Proof. intros x y X Y. unfold exact_eq. split; [destruct x, y; try discriminate; intros E; apply Z.eqb_eq in E; subst; eauto|]. intros (b & -> & ->). apply Z.eqb_refl. Qed.

Print Assumptions c52_equal_partial.
Print Assumptions c52_absent.
Print Assumptions c52_symmetric_partial.
Print Assumptions c52_reflexive_partial.
Print Assumptions c52_duplicate_refuted.
Print Assumptions c52_no_object_refuted.
Print Assumptions c52_transitive_refuted.
