(** Lemmas about the start of the frame processor. *)
From Coq Require Import String Ascii Lia.
From Verif Require Import Base StrOrder PluginModel CtrlModel JsonModel JsonSpec JsonProofs MessageProps JsonReadModel JsonDoubleModel PrcModel PrcSpec PrcProofs PrcMoves PrcExec AppModel AppSpec.
Local Open Scope string_scope.
Local Open Scope list_scope.

Section App.
  Context {P : Type}.
  Variable v : env P.
  Notation st := (prc P).
  Definition value_msg (x : json) : msg := msg_of_value x TCmd VConfigure true (v_now v).
  Lemma not_refused (s s1 : st) l : p_out s1 = p_out s ++ l -> Forall (fun e => is_reply e = false) l -> ~ refused s s1.
  Proof.
    intros E F (l' & d & E'). rewrite E in E'. apply app_inv_head in E'. subst l. rewrite Forall_forall in F. specialize (F (FNobody d)). discriminate F. apply in_or_app. right. left. reflexivity.
  Qed.
  Lemma controller_eq n x s : configure_controller v n (value_msg x) s =
    match configure v n (value_msg x) (w_reply (new_msg TIllegal VIllegal true (v_now v)) s) with (s1, Throw (PFault (XRun _))) => (s1, Ret tt) | r => r end.
  Proof. unfold configure_controller. destruct (configure v n (value_msg x) _) as (s1, [a|[[?|?|]|]|]); reflexivity. Qed.
  Lemma no_object n x s : ~ object x -> configure v n (value_msg x) s = (s, Throw PDeep) \/ configure v n (value_msg x) s = (s, Throw (PFault (XIpc EAssert))).
  Proof.
    intros NO. destruct n as [|n]; [left; reflexivity|right]. cbn [configure]. unfold configure_once. unfold seq at 1, set_master. unfold seq at 1, lift.
    assert (HP : has_param (value_msg x) "hdf/master" = Throw EAssert). { unfold has_param. cbn. destruct x; try reflexivity. exfalso. apply NO. eexists. reflexivity. }
    rewrite HP. reflexivity.
  Qed.
  Lemma each_submits (B : behaved v) n c l : forall texts s s', alike s s' -> Forall2 (sent_as v) texts l ->
    let '(s1, o) := each l (fun x => configure_controller v n (value_msg x)) s in
    exists s2 b, submits v n c texts s' s2 b /\ alike s1 s2 /\ (b = true <-> o = Ret tt).
  Proof.
    induction l as [|x l IH]; intros texts s s' A F; inversion F as [|t ? texts' ? C F']; subst; cbn [each].
    - exists s', true. split; [constructor|]. split; [exact A|tauto].
    - unfold seq. rewrite controller_eq. set (s0 := w_reply (new_msg TIllegal VIllegal true (v_now v)) s).
      assert (A0 : alike s0 s') by (apply (alike_trans s0 s s'); [apply reply_alike|exact A]).
      destruct C as [C|(NO & e & MT)].
      2:{ assert (HH : exists o, handle_ctrl v n c t s' = (s', o)) by (unfold handle_ctrl; rewrite MT; destruct e; eauto). destruct HH as (o & HH).
          assert (NA : ~ answered c s' s') by (apply (not_answered c s' s' []); [rewrite app_nil_r; reflexivity|constructor]).
          assert (NR : ~ refused s' s') by (apply (not_refused s' s' []); [rewrite app_nil_r; reflexivity|constructor]).
          destruct (no_object n x s0 NO) as [-> | ->]; exists s', false; (split; [eapply su_stop; eassumption|]; split; [exact A0|split; discriminate]). }
      destruct (carried v t x C) as (m & MT & T & V & PX).
      assert (SR : same_request (value_msg x) m) by (repeat split; [rewrite PX; reflexivity|rewrite T; reflexivity|rewrite V; reflexivity]).
      assert (A' : alike s0 (started v m s')) by (eapply alike_trans; [exact A0|apply started_alike]).
      destruct (resp_configure v B n _ _ SR s0 (started v m s') A') as (AV & AO). destruct (configure v n m (started v m s')) as (s1', o') eqn:CF. destruct (configure v n (value_msg x) s0) as (s1, o). cbn in AV, AO. subst o'.
      assert (R : request v n t m (begun v m s') = (s1', o)) by (rewrite <- CF; unfold request, started, begun; cbv zeta; rewrite T, V; reflexivity).
      pose proof (handle_request v (proj1 B) n c t m s' s1' o MT R) as H.
      pose proof (does_configure v n m (started v m s')) as MV. rewrite CF in MV. cbn [fst] in MV. destruct (moves_out _ _ _ _ MV) as (k & OUT & FR). change (p_out (started v m s')) with (p_out s') in OUT.
      assert (NA : ~ answered c s' s1') by (eapply not_answered; [exact OUT|apply no_reply_other, FR]).
      assert (NR : ~ refused s' s1') by (eapply not_refused; [exact OUT|exact FR]).
      assert (STOP : forall o2, handle_ctrl v n c t s' = (s1', o2) -> forall q : outcome pexc unit, q <> Ret tt -> exists s2 b, submits v n c (t :: texts') s' s2 b /\ alike s1 s2 /\ (b = true <-> q = Ret tt)).
      { intros o2 HC q Q. exists s1', false. split; [eapply su_stop; eassumption|]. split; [exact AV|]. split; [discriminate|contradiction]. }
      destruct o as [[]|[[e|w|]|]|].
      + destruct H as (d & EN & H). set (s2 := w_out (p_out s1' ++ [FReply c d]) s1') in *.
        specialize (IH texts' s1 s2 ltac:(apply (alike_trans _ s1'); [exact AV|apply alike_sym, told_alike; reflexivity]) F'). destruct (each l _ s1) as (s3, o3). destruct IH as (s4 & b & SD & AL & BO). exists s4, b. split; [|auto].
        eapply su_next; [exact H| |exact SD]. left. exists k, d. cbn. rewrite OUT, app_assoc. reflexivity.
      + assert (HC : exists o2, handle_ctrl v n c t s' = (s1', o2)) by (destruct e; eauto). destruct HC as (o2 & HC). apply (STOP o2 HC). discriminate.
      + destruct H as (d & r & _ & H). set (s2 := w_out (p_out s1' ++ [FNobody d]) (w_reply r s1')) in *.
        assert (A2 : alike s1 s2). { apply (alike_trans _ s1'); [exact AV|]. apply alike_sym. apply (alike_trans _ (w_reply r s1')); [apply (told_alike (FNobody d) (w_reply r s1')); reflexivity|apply reply_alike]. }
        specialize (IH texts' s1 s2 A2 F'). destruct (each l _ s1) as (s3, o3). destruct IH as (s4 & b & SD & AL & BO). exists s4, b. split; [|auto].
        eapply su_next; [exact H| |exact SD]. right. exists k, d. cbn. rewrite OUT, app_assoc. reflexivity.
      + apply (STOP _ H). discriminate.
      + apply (STOP _ H). discriminate.
      + apply (STOP _ H). discriminate.
  Qed.

  (** The start with and without a file *)
  Lemma start_with n ctrl t s s1 : processor_run v n ctrl None s = (s1, Runs) ->
    processor_run v n ctrl (Some t) s = match load_file v n t s1 with (s2, Ret _) => (s2, Runs) | (s2, Throw (PFault _)) => (s2, Ends 1) | (s2, _) => (s2, Dies) end.
  Proof.
    unfold processor_run, processor_start. destruct (set_param _ _ _) as (m, o). unfold seq. destruct o as [[]|e|]; cbn; [|discriminate..]. destruct (configure v n m _) as (s2, [[]|[f|]|]); cbn; try discriminate. intros H. injection H as ->. reflexivity.
  Qed.
  Lemma empty_nothing n s : p_objs s = [] -> configure v (S n) (new_msg TIllegal VIllegal true (v_now v)) s = (s, Ret tt).
  Proof.
    intros E. cbn [configure]. unfold configure_once.
    repeat (rewrite (skip_seq _ _ s tt) by reflexivity). unfold pass_on, each_plugin. rewrite (skip_seq _ _ s []) by (unfold get; rewrite E; reflexivity). reflexivity.
  Qed.
  Lemma silent_out n m (s : st) : silent s (fst (configure v n m s)).
  Proof. destruct (moves_out _ _ _ _ (does_configure v n m s)) as (l & E & F). exists l. split; [exact E|]. apply Forall_forall. exact F. Qed.
  Lemma silent_refl (s : st) : silent s s. Proof. exists []. rewrite app_nil_r. split; [reflexivity|]. intros e []. Qed.
  Lemma silent_trans (a b c : st) : silent a b -> silent b c -> silent a c.
  Proof. intros (l & E & F) (l' & E' & F'). exists (l ++ l'). rewrite E', E, app_assoc. split; [reflexivity|]. intros e I. apply in_app_or in I. destruct I; auto. Qed.
  Lemma silent_controller n m s : silent s (fst (configure_controller v n m s)).
  Proof.
    unfold configure_controller. pose proof (silent_out n m (w_reply (new_msg TIllegal VIllegal true (v_now v)) s)) as S. destruct (configure v n m _) as (s1, [a|[[?|?|]|]|]); cbn in *; try exact S.
    unfold seq, lift. destruct (encode (v_clock v) m); exact S.
  Qed.
  Lemma silent_load n t s : silent s (fst (load_file v n t s)).
  Proof.
    unfold load_file. destruct t; [apply silent_refl|]. destruct (parse _) as [[| | | | |l|]|]; try apply silent_controller; [|apply silent_refl]. revert s. induction l as [|x l IH]; intros s; [apply silent_refl|].
    cbn. unfold seq. pose proof (silent_controller n (value_msg x) s) as S. unfold value_msg in S. destruct (configure_controller v n _ s) as (s1, [[]|e|]); cbn in *; try exact S. eapply silent_trans; [exact S|apply IH].
  Qed.
  Lemma silent_run n ctrl f s : silent s (fst (processor_run v n ctrl f s)).
  Proof.
    assert (S : silent s (fst (processor_start v n ctrl f s))).
    { unfold processor_start. destruct (set_param _ _ _) as (m, o). unfold seq. destruct o as [[]|e|]; cbn; try apply silent_refl.
      pose proof (silent_out n m (w_reply (new_msg TIllegal VIllegal true (v_now v)) s)) as S. destruct (configure v n m _) as (s1, [[]|e|]); cbn in *; try exact S. all: try exact S. { destruct f as [t|]; [|exact S]. apply (silent_trans _ s1); [exact S|apply silent_load]. } all: apply (silent_refl s). }
    unfold processor_run. destruct (processor_start v n ctrl f s) as (s1, [[]|[e|]|]); exact S.
  Qed.
End App.

(** ** Line numbers *)
Local Open Scope Z_scope.
Lemma find_newline_none l : forall i, find_newline i l = None -> count_occ ascii_dec l newline = 0%nat.
Proof. induction l as [|c r IH]; intros i H; [reflexivity|]. cbn in *. destruct (Ascii.eqb_spec c newline) as [->|N]; [discriminate|]. destruct (ascii_dec c newline); [contradiction|]. apply (IH (i + 1)), H. Qed.
Lemma find_newline_some l : forall i k, find_newline i l = Some k -> exists a b, l = a ++ newline :: b /\ count_occ ascii_dec a newline = 0%nat /\ k = i + Z.of_nat (List.length a).
Proof.
  induction l as [|c r IH]; intros i k H; [discriminate|]. cbn in *. destruct (Ascii.eqb_spec c newline) as [->|N].
  - injection H as <-. exists [], r. cbn. split; [reflexivity|]. split; [reflexivity|lia].
  - destruct (IH (i + 1) k H) as (a & b & -> & Z & ->). exists (c :: a), b. split; [reflexivity|]. cbn. destruct (ascii_dec c newline); [contradiction|]. split; [exact Z|lia].
Qed.
Lemma occ_nil l n : count_occ ascii_dec l newline = 0%nat -> count_occ ascii_dec (firstn n l) newline = 0%nat.
Proof. intros H. rewrite <- (firstn_skipn n l), count_occ_app in H. lia. Qed.
Lemma count_lines_eq l p : forall n x y no, l = x ++ y -> (List.length y < n)%nat -> (List.length x <= p)%nat \/ count_occ ascii_dec y newline = 0%nat ->
  count_lines n no (newline_from (Z.of_nat (List.length x)) l) (Z.of_nat p) l = no + Z.of_nat (count_occ ascii_dec (firstn (p - List.length x) y) newline).
Proof.
  induction n as [|n IH]; intros x y no E L D; [lia|]. unfold newline_from at 1. rewrite Nat2Z.id. subst l. rewrite skipn_app, skipn_all, Nat.sub_diag. cbn [skipn app].
  cbn [count_lines]. destruct (find_newline (Z.of_nat (List.length x)) y) as [k|] eqn:F.
  - destruct (find_newline_some _ _ _ F) as (a & b & -> & Z & ->). destruct D as [D|D]; [|rewrite count_occ_app in D; cbn in D; destruct (ascii_dec newline newline); [lia|congruence]].
    rewrite app_length in L. cbn in L. destruct (Z.ltb_spec (Z.of_nat (List.length x) + Z.of_nat (List.length a)) (Z.of_nat p)) as [LT|GE].
    + replace (Z.of_nat (List.length x) + Z.of_nat (List.length a) + 1) with (Z.of_nat (List.length (x ++ a ++ [newline]))) by (rewrite !app_length; cbn; lia).
      rewrite (IH (x ++ a ++ [newline]) b); [|rewrite <- !app_assoc; reflexivity|lia|left; rewrite !app_length; cbn; lia].
      rewrite firstn_app, count_occ_app. rewrite (firstn_all2 a) by lia. rewrite Z. replace (p - List.length x - List.length a)%nat with (S (p - List.length (x ++ a ++ [newline])))%nat by (rewrite !app_length; cbn; lia).
      cbn [firstn count_occ]. destruct (ascii_dec newline newline); [lia|congruence].
    + rewrite firstn_app, count_occ_app, (occ_nil a _ Z). replace (p - List.length x - List.length a)%nat with 0%nat by lia. cbn. lia.
  - rewrite (occ_nil y _ (find_newline_none _ _ F)). lia.
Qed.
Lemma last_newline_spec l : forall i f, match last_newline i l f with
  | Some k => (exists a b, l = a ++ newline :: b /\ count_occ ascii_dec b newline = 0%nat /\ k = i + Z.of_nat (List.length a)) \/ (f = Some k /\ count_occ ascii_dec l newline = 0%nat)
  | None => f = None /\ count_occ ascii_dec l newline = 0%nat end.
Proof.
  induction l as [|c r IH]; intros i f; [cbn; destruct f; auto|]. cbn [last_newline]. specialize (IH (i + 1) (if Ascii.eqb c newline then Some i else f)). destruct (last_newline (i + 1) r _) as [k|].
  - destruct IH as [(a & b & -> & Z & ->)|(E & Z)].
    + left. exists (c :: a), b. split; [reflexivity|]. split; [exact Z|]. cbn [List.length]. lia.
    + destruct (Ascii.eqb_spec c newline) as [->|N].
      * injection E as <-. left. exists [], r. split; [reflexivity|]. split; [exact Z|]. cbn. lia.
      * right. split; [exact E|]. cbn. destruct (ascii_dec c newline); [contradiction|exact Z].
  - destruct IH as (E & Z). destruct (Ascii.eqb_spec c newline) as [->|N]; [discriminate|]. split; [exact E|]. cbn. destruct (ascii_dec c newline); [contradiction|exact Z].
Qed.
Lemma nth_newline a b : nth_error (a ++ newline :: b) (List.length a) = Some newline.
Proof. rewrite nth_error_app2, Nat.sub_diag by lia. reflexivity. Qed.
Lemma no_newline l k : count_occ ascii_dec l newline = 0%nat -> nth_error l k <> Some newline.
Proof. intros H E. apply nth_error_In, (count_occ_In ascii_dec) in E. lia. Qed.
Lemma nth_skip {A} (l : list A) n k : nth_error (skipn n l) k = nth_error l (n + k).
Proof. revert l. induction n as [|n IH]; intros l; [reflexivity|]. destruct l; [destruct k; reflexivity|]. cbn. apply IH. Qed.
Lemma newline_from_at l p f : (p <= f)%nat -> nth_error l f = Some newline -> (forall k, (p <= k < f)%nat -> nth_error l k <> Some newline) -> newline_from (Z.of_nat p) l = Some (Z.of_nat f).
Proof.
  intros L N B. unfold newline_from. rewrite Nat2Z.id. destruct (find_newline (Z.of_nat p) (skipn p l)) as [k|] eqn:F.
  - apply find_newline_some in F. destruct F as (a & b & E & Z & ->). f_equal. assert (T : (p + List.length a < f \/ p + List.length a = f \/ f < p + List.length a)%nat) by lia. destruct T as [T|[T|T]]; [|lia|].
    + exfalso. apply (B (p + List.length a)%nat); [lia|]. rewrite <- nth_skip, E. apply nth_newline.
    + exfalso. apply (no_newline a (f - p)%nat Z). assert (X : nth_error (skipn p l) (f - p) = Some newline) by (rewrite nth_skip; replace (p + (f - p))%nat with f by lia; exact N). rewrite E, nth_error_app1 in X by lia. exact X.
  - exfalso. apply find_newline_none in F. apply (no_newline _ (f - p)%nat F). rewrite nth_skip. replace (p + (f - p))%nat with f by lia. exact N.
Qed.
Lemma nth_first {A} (l : list A) n k : (k < n)%nat -> nth_error (firstn n l) k = nth_error l k.
Proof. revert l k. induction n as [|n IH]; intros l k H; [lia|]. destruct l; [reflexivity|]. destruct k; [reflexivity|]. cbn. apply IH. lia. Qed.
Lemma newline_from_none l p : (forall k, (p <= k)%nat -> nth_error l k <> Some newline) -> newline_from (Z.of_nat p) l = None.
Proof.
  intros B. unfold newline_from. rewrite Nat2Z.id. destruct (find_newline (Z.of_nat p) (skipn p l)) as [k|] eqn:F; [|reflexivity]. exfalso.
  apply find_newline_some in F. destruct F as (a & b & E & _). apply (B (p + List.length a)%nat); [lia|]. rewrite <- nth_skip, E. apply nth_newline.
Qed.
