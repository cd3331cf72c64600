(** Property C83: what a reader of an open file sees (SWMR). *)
From Coq Require Import String.
From Verif Require Import Base SwmrModel SwmrSpec.
From Coq Require Import Sorting.Sorted.
Local Open Scope list_scope.
Local Open Scope Z_scope.

Lemma due_quot a t : (flush_rate <? Z.quot (a - t) 1000) = (t + 1001000 <=? a).
Proof.
  unfold flush_rate. pose proof (Z.quot_rem' (a - t) 1000).
  destruct (Z.le_gt_cases 0 (a - t)).
  - pose proof (Z.rem_bound_pos (a - t) 1000 ltac:(lia) ltac:(lia)).
    destruct (Z.ltb_spec 1000 (Z.quot (a - t) 1000)); destruct (Z.leb_spec (t + 1001000) a); try reflexivity; lia.
  - pose proof (Z.rem_bound_pos_neg (a - t) 1000 ltac:(lia) ltac:(lia)).
    destruct (Z.ltb_spec 1000 (Z.quot (a - t) 1000)); destruct (Z.leb_spec (t + 1001000) a); try reflexivity; lia.
Qed.

Lemma run_app e : forall a s b, hrun e s (a ++ b)
  = (fst (hrun e (fst (hrun e s a)) b), snd (hrun e s a) ++ snd (hrun e (fst (hrun e s a)) b)).
Proof.
  induction a as [|c r IH]; intros s b; simpl.
  - destruct (hrun e s b); reflexivity.
  - destruct (hstep e s c) as [[s1 e1] k]. rewrite (IH s1 b).
    destruct (hrun e s1 r) as [s2 e2]. simpl. rewrite app_assoc. reflexivity.
Qed.

Lemma run_cons e s c r : hrun e s (c :: r)
  = (fst (hrun e (fst (fst (hstep e s c))) r), snd (fst (hstep e s c)) ++ snd (hrun e (fst (fst (hstep e s c))) r)).
Proof. simpl. destruct (hstep e s c) as [[s1 e1] k]. simpl. destruct (hrun e s1 r). reflexivity. Qed.

Lemma last_in d t : forall m, last_of d m = Some t -> In t (map snd m).
Proof.
  induction m as [|[k u] r IH]; simpl; [discriminate|]. destruct (String.eqb k d); intros H.
  - injection H as ->. left. reflexivity.
  - right. apply IH, H.
Qed.

(** A step either leaves the times alone or puts one of its own readings in front. *)
Lemma step_last e s c : h_last (fst (fst (hstep e s c))) = h_last s
  \/ (exists d o v now again pre wr sp fl t, c = Param d o v now again pre wr sp fl
      /\ h_last (fst (fst (hstep e s c))) = (d, t) :: h_last s
      /\ ((last_of d (h_last s) = None /\ t = now)
          \/ exists u, last_of d (h_last s) = Some u /\ u + 1001000 <= now /\ t = again)
      /\ (e = false -> fl = true -> In (EvFlush d) (snd (fst (hstep e s c))))).
Proof.
  destruct c as [d o v pre wr fl | d o v now again pre wr sp fl | ok]; simpl.
  - left. destruct (negb _); [reflexivity|]. destruct e; [reflexivity|]. destruct fl; reflexivity.
  - destruct (negb _); [left; reflexivity|]. destruct sp; simpl; [|left; reflexivity].
    unfold flush_due. destruct (last_of d (h_last s)) as [u|] eqn:L.
    + rewrite due_quot. destruct (Z.leb_spec (u + 1001000) now) as [G|G]; simpl.
      * right. exists d, o, v, now, again, pre, wr, true, fl, again. split; [reflexivity|].
        split; [destruct e; simpl; [reflexivity|]; destruct fl; reflexivity|].
        split; [right; exists u; repeat split; auto|].
        intros -> ->. simpl. auto.
      * left. reflexivity.
    + right. exists d, o, v, now, again, pre, wr, true, fl, now. split; [reflexivity|].
      split; [destruct e; simpl; [reflexivity|]; destruct fl; reflexivity|].
      split; [left; split; auto|].
      intros -> ->. simpl. auto.
  - left. destruct (h_open s); reflexivity.
Qed.

Lemma run_last e : forall cs s t, In t (map snd (h_last (fst (hrun e s cs)))) ->
  In t (map snd (h_last s)) \/ In t (flat_map readings cs).
Proof.
  induction cs as [|c r IH]; intros s t H; [left; exact H|].
  rewrite run_cons in H. cbn [fst] in H. apply IH in H. destruct H as [H|H].
  - destruct (step_last e s c) as [E | (d & o & v & now & again & pre & wr & sp & fl & t' & -> & E & C & _)]; rewrite E in H.
    + left. exact H.
    + simpl in H. destruct H as [<-|H]; [|left; exact H]. right. simpl.
      destruct C as [[_ ->] | (u & _ & _ & ->)]; auto.
  - right. simpl. apply in_or_app. right. exact H.
Qed.

(** Without a flush of [d] in between, the time of [d] stays. *)
Lemma run_same d : forall cs s, Forall flushes_work cs -> ~ In (EvFlush d) (snd (hrun false s cs)) ->
  last_of d (h_last (fst (hrun false s cs))) = last_of d (h_last s).
Proof.
  induction cs as [|c r IH]; intros s F N; [reflexivity|]. inversion F as [|? ? F1 F2]; subst.
  rewrite run_cons in N |- *. cbn [fst snd] in N |- *. rewrite in_app_iff in N. rewrite IH by tauto.
  destruct (step_last false s c) as [E | (d' & o & v & now & again & pre & wr & sp & fl & t' & -> & E & _ & K)]; rewrite E; [reflexivity|].
  simpl in F1. simpl last_of. destruct (String.eqb_spec d' d) as [->|]; [|reflexivity].
  exfalso. apply N. left. apply K; auto.
Qed.

(** C83: a frame whose call returned can be seen from then on. *)
Theorem c83_frame : forall s d o v pre wr fl s' evs,
  hstep false s (Frame d o v pre wr fl) = (s', evs, true) -> exists b, evs = EvWrite d o v :: b /\ visible d b.
Proof.
  intros s d o v pre wr fl s' evs. unfold hstep. destruct (negb _); [discriminate|]. destruct fl; [|discriminate].
  intros H. injection H as <- <-. exists [EvFlush d]. split; [reflexivity|]. left. simpl. auto.
Qed.
Print Assumptions c83_frame.

(** C83: so can the first value of a parameter whose call returned. *)
Theorem c83_first : forall cs d o v now again pre wr sp fl s' evs,
  (forall o' v' now' again' pre' wr' sp' fl', ~ In (Param d o' v' now' again' pre' wr' sp' fl') cs) ->
  hstep false (fst (hrun false hst0 cs)) (Param d o v now again pre wr sp fl) = (s', evs, true) ->
  exists b, evs = EvWrite d o v :: b /\ visible d b.
Proof.
  intros cs d o v now again pre wr sp fl s' evs N.
  assert (L : last_of d (h_last (fst (hrun false hst0 cs))) = None).
  { change None with (last_of d (h_last hst0)). generalize hst0. revert N. induction cs as [|c r IH]; intros N s; [reflexivity|].
    rewrite run_cons. cbn [fst]. rewrite IH by (intros ? ? ? ? ? ? ? ? G; eapply N; right; exact G).
    destruct (step_last false s c) as [E | (d' & o' & v' & now' & again' & pre' & wr' & sp' & fl' & t' & -> & E & _)]; rewrite E; [reflexivity|].
    simpl. destruct (String.eqb_spec d' d) as [->|]; [|reflexivity]. exfalso. eapply N. left. reflexivity. }
  unfold hstep. destruct (negb _); [discriminate|]. destruct (negb sp); [discriminate|]. unfold flush_due. rewrite L. simpl.
  destruct fl; [|discriminate]. intros H. injection H as <- <-. exists [EvFlush d]. split; [reflexivity|]. left. simpl. auto.
Qed.
Print Assumptions c83_first.

(** C83, partial: with a clock that is not set back and flushes that work, every value of a parameter can be seen once a
    further value of that parameter is written 1.001 s later.  Missing: without a further value, with a clock set back or
    after a failed flush, see the refutations below. *)
Theorem c83_param_partial : forall cs d o v now again mid o2 v2 now2 again2 s1 ev1 s2 ev2,
  clock_forward (cs ++ Param d o v now again true true true true :: mid ++ [Param d o2 v2 now2 again2 true true true true]) ->
  Forall flushes_work mid ->
  hstep false (fst (hrun false hst0 cs)) (Param d o v now again true true true true) = (s1, ev1, true) ->
  hstep false (fst (hrun false s1 mid)) (Param d o2 v2 now2 again2 true true true true) = (s2, ev2, true) ->
  now + 1001000 <= now2 ->
  exists b, ev1 ++ snd (hrun false s1 mid) ++ ev2 = EvWrite d o v :: b /\ visible d b.
Proof.
  intros cs d o v now again mid o2 v2 now2 again2 s1 ev1 s2 ev2 C F H1 H2 G.
  set (s := fst (hrun false hst0 cs)) in *.
  assert (O1 : h_open s = true). { destruct (h_open s) eqn:E; [reflexivity|]. unfold hstep in H1. rewrite E in H1. discriminate. }
  unfold hstep in H1. rewrite O1 in H1. simpl in H1.
  unfold flush_due in H1. destruct (last_of d (h_last s)) as [t|] eqn:L.
  2:{ simpl in H1. injection H1 as <- <-. eexists. split; [reflexivity|]. left. simpl. auto. }
  rewrite due_quot in H1. destruct (Z.leb_spec (t + 1001000) now) as [D|D]; simpl in H1; injection H1 as <- <-.
  { eexists. split; [reflexivity|]. left. simpl. auto. }
  eexists. split; [reflexivity|]. left. rewrite in_app_iff.
  destruct (in_dec (fun a b : hev => ltac:(repeat decide equality) : {a = b} + {a <> b}) (EvFlush d) (snd (hrun false (Hst (h_last s) (h_open s)) mid))) as [I|N].
  { rewrite <- O1. left. exact I. }
  right. pose proof (run_same d mid _ F N) as R. simpl h_last in R. rewrite O1 in R.
  set (sm := fst (hrun false (Hst (h_last s) true) mid)) in *. rewrite L in R.
  assert (T : t <= now).
  { assert (I : In t (flat_map readings cs)).
    { destruct (run_last false cs hst0 t) as [I|I]; [apply (last_in d); exact L | destruct I | exact I]. }
    unfold clock_forward in C. rewrite flat_map_app in C. clear - C I.
    induction (flat_map readings cs) as [|x r IH]; [destruct I|]. simpl in C. inversion C as [|? ? C1 C2]; subst.
    destruct I as [->|I]; [|apply IH; assumption].
    rewrite Forall_forall in C2. apply C2. apply in_or_app. right. simpl. auto. }
  fold s in H2. rewrite ?O1 in H2. fold sm in H2.
  unfold hstep in H2. destruct (negb _); [discriminate|]. simpl negb in H2. cbv iota in H2. unfold flush_due in H2. rewrite R, due_quot in H2.
  destruct (Z.leb_spec (t + 1001000) now2); [|lia]. simpl in H2. injection H2 as <- <-. simpl. auto.
Qed.
Print Assumptions c83_param_partial.

(** C83: between two flushes that values of the same parameter cause, more than a second passes on the clock. *)
Theorem c83_rate : forall cs d o v now again pre wr sp fl mid o2 v2 now2 again2 pre2 wr2 sp2 fl2,
  Forall (fun c => match c with Param _ _ _ a b _ _ _ _ => a <= b | _ => True end)
    (Param d o v now again pre wr sp fl :: mid) ->
  let s := fst (hrun false hst0 cs) in
  let s1 := fst (hrun false s [Param d o v now again pre wr sp fl]) in
  In (EvFlush d) (snd (hrun false s [Param d o v now again pre wr sp fl])) ->
  In (EvFlush d) (snd (hrun false (fst (hrun false s1 mid)) [Param d o2 v2 now2 again2 pre2 wr2 sp2 fl2])) ->
  now + 1001000 <= now2.
Proof.
  intros cs d o v now again pre wr sp fl mid o2 v2 now2 again2 pre2 wr2 sp2 fl2 F s s1 H1 H2.
  inversion F as [|? ? F1 F2]; subst.
  assert (A : exists t, last_of d (h_last s1) = Some t /\ now <= t).
  { subst s1. rewrite run_cons in H1 |- *. cbn [hrun fst snd] in H1 |- *. rewrite app_nil_r in H1. unfold hstep in *.
    destruct (negb _); [destruct H1|]. destruct (negb sp). { destruct H1 as [H|[]]; discriminate. }
    unfold flush_due in *. destruct (last_of d (h_last s)) as [u|].
    - destruct (_ <? _).
      + exists again. split; [|exact F1]. destruct fl; simpl; rewrite String.eqb_refl; reflexivity.
      + simpl in H1. destruct H1 as [H|[]]; discriminate.
    - exists now. split; [|lia]. destruct fl; simpl; rewrite String.eqb_refl; reflexivity. }
  assert (B : exists t, last_of d (h_last (fst (hrun false s1 mid))) = Some t /\ now <= t).
  { clear H1 H2. revert A F2. generalize s1. clear. induction mid as [|c r IH]; intros s1 A F2; [exact A|].
    inversion F2 as [|? ? G1 G2]; subst. rewrite run_cons. cbn [fst]. apply IH; [|exact G2].
    destruct A as (t & A & B).
    destruct (step_last false s1 c) as [E | (d' & o & v & now' & again & pre & wr & sp & fl & t' & -> & E & K & _)]; rewrite E.
    { exists t. auto. }
    simpl. destruct (String.eqb_spec d' d) as [->|]; [|exists t; auto].
    exists t'. split; [reflexivity|]. rewrite A in K. destruct K as [[K _]|(u & K & K1 & ->)]; [discriminate|].
    injection K as <-. lia. }
  destruct B as (t & B1 & B2). rewrite run_cons in H2. cbn [hrun fst snd] in H2. rewrite app_nil_r in H2. unfold hstep in H2.
  destruct (negb _); [destruct H2|]. destruct (negb sp2). { destruct H2 as [H|[]]; discriminate. }
  unfold flush_due in H2. rewrite B1, due_quot in H2. destruct (Z.leb_spec (t + 1001000) now2); [lia|].
  simpl in H2. destruct H2 as [Hx|[]]; discriminate.
Qed.
Print Assumptions c83_rate.

(** C83, refuted: that every value of a parameter is seen some time after it is written while the file is open.  Once
    [d] has been flushed at [t], nothing written to it is, as long as the clock seen by writers of [d] is below
    [t] + 1.001 s: be it that no further value is written or that the clock has been set back. *)
Theorem c83_stale_refuted : forall cs s d t, last_of d (h_last s) = Some t -> Forall (quiet d (t + 1001000)) cs ->
  ~ visible d (snd (hrun false s cs)).
Proof.
  induction cs as [|c r IH]; intros s d t L Q; [intros [[]|[]]|]. inversion Q as [|? ? Q1 Q2]; subst.
  rewrite run_cons. cbn [snd]. unfold visible. rewrite !in_app_iff.
  assert (S : last_of d (h_last (fst (fst (hstep false s c)))) = Some t /\ ~ visible d (snd (fst (hstep false s c)))).
  { unfold visible. destruct c as [d' o v pre wr fl | d' o v now again pre wr sp fl | ok]; [| |destruct Q1]; simpl in Q1; simpl.
    - destruct (negb _); [split; [exact L|simpl; tauto]|]. destruct fl; simpl; (split; [exact L|]); intuition congruence.
    - destruct (negb _); [split; [exact L|simpl; tauto]|]. destruct sp; simpl; [|split; [exact L|intuition congruence]].
      unfold flush_due. destruct (String.eqb_spec d' d) as [->|Nd].
      + specialize (Q1 eq_refl). rewrite L, due_quot. destruct (Z.leb_spec (t + 1001000) now); [lia|]. simpl. split; [exact L|intuition congruence].
      + assert (E : String.eqb d' d = false) by (apply String.eqb_neq; exact Nd).
        destruct (last_of d' (h_last s)); [destruct (_ <? _)|]; simpl; try (destruct fl; simpl); rewrite ?E; (split; [exact L|]); intuition congruence. }
  destruct S as [S1 S2]. pose proof (IH _ d t S1 Q2) as N. unfold visible in S2, N. tauto.
Qed.
Print Assumptions c83_stale_refuted.

(** C83, refuted: that a flush that failed is made up for by the next value.  The time is kept although the flush
    failed: values of the next second return normally and are not seen. *)
Theorem c83_failed_refuted : forall d o v now again cs,
  Forall (quiet d (now + 1001000)) cs ->
  snd (hstep false hst0 (Param d o v now again true true true false)) = false
  /\ ~ visible d (snd (hrun false hst0 (Param d o v now again true true true false :: cs))).
Proof.
  intros d o v now again cs Q. split; [reflexivity|]. rewrite run_cons. cbn [snd]. unfold visible. rewrite !in_app_iff.
  assert (L : last_of d (h_last (fst (fst (hstep false hst0 (Param d o v now again true true true false))))) = Some now)
    by (simpl; rewrite String.eqb_refl; reflexivity).
  pose proof (c83_stale_refuted cs _ d now L Q) as N. unfold visible in N. simpl in N |- *. intuition congruence.
Qed.
Print Assumptions c83_failed_refuted.

(** C83: with the earliest version of the file format nothing is flushed; all is seen once the file is closed, and a
    successful close of an open file shows everything in either mode. *)
Theorem c83_earliest : forall cs s d, ~ In (EvFlush d) (snd (hrun true s cs)).
Proof.
  induction cs as [|c r IH]; intros s d; [intros []|]. rewrite run_cons. cbn [snd]. rewrite in_app_iff. intros [H|H]; [|exact (IH _ _ H)].
  destruct c as [d' o v pre wr fl | d' o v now again pre wr sp fl | ok]; simpl in H.
  - destruct (negb _); simpl in H; intuition congruence.
  - destruct (negb _); simpl in H; [exact H|]. destruct (negb sp); simpl in H; [intuition congruence|].
    destruct (flush_due _ _ _ _) as [b m]. rewrite Bool.andb_false_r in H. simpl in H. intuition congruence.
  - destruct (h_open s), ok; simpl in H; intuition congruence.
Qed.
Print Assumptions c83_earliest.

Theorem c83_close : forall e cs s d, h_open (fst (hrun e s cs)) = true ->
  visible d (snd (hrun e s (cs ++ [Close true]))).
Proof.
  intros e cs s d H. rewrite run_app. cbn [snd]. right. apply in_or_app. right. rewrite run_cons. simpl. rewrite H. simpl. auto.
Qed.
Print Assumptions c83_close.

(** C83: after a close nothing more is written. *)
Theorem c83_closed : forall e cs s ok, snd (hrun e (fst (hrun e s [Close ok])) cs) = [].
Proof.
  intros e cs s ok. assert (H : h_open (fst (hrun e s [Close ok])) = false).
  { simpl. destruct (h_open s) eqn:E; [reflexivity|exact E]. }
  revert H. generalize (fst (hrun e s [Close ok])). clear. induction cs as [|c r IH]; intros s H; [reflexivity|].
  rewrite run_cons. cbn [snd]. destruct c; simpl; rewrite H; simpl; apply IH; exact H.
Qed.
Print Assumptions c83_closed.

Local Open Scope string_scope.
(** Three values of a parameter within a second, one later: the first and the last are flushed. *)
Example c83_case : snd (hrun false hst0
    [Param "uid" 0 7 0 5 true true true true; Frame "data" 0 9 true true true; Param "uid" 1 8 500000 500005 true true true true;
     Param "uid" 2 9 1000999 1001005 true true true true; Param "uid" 3 10 1001000 1001009 true true true true])
  = [EvWrite "uid" 0 7; EvFlush "uid"; EvWrite "data" 0 9; EvFlush "data"; EvWrite "uid" 1 8; EvWrite "uid" 2 9;
     EvWrite "uid" 3 10; EvFlush "uid"].
Proof. vm_compute. reflexivity. Qed.
(** These calls meet the hypotheses of [c83_param_partial] with the second value and a fourth at 1.6 s. *)
Example c83_hypotheses : clock_forward ([Param "uid" 0 7 0 5 true true true true] ++ Param "uid" 1 8 500000 500005 true true true true
    :: [Frame "data" 0 9 true true true] ++ [Param "uid" 2 9 1600000 1600005 true true true true])
  /\ 500000 + 1001000 <= 1600000.
Proof. split; [|lia]. unfold clock_forward. simpl. repeat constructor; lia. Qed.
(** The clock is set back an hour (local time in autumn): values of the next 59 minutes. *)
Example c83_autumn : Forall (quiet "uid" (3600000000 + 1001000))
    [Param "uid" 1 8 1000000 1000005 true true true true; Param "uid" 2 8 3540000000 3540000005 true true true true].
Proof. repeat constructor; simpl; lia. Qed.
