(** C24: the worker of a plugin processes what is queued for it. *)
From Coq Require Import Permutation.
From Verif Require Import Base QueueModel WorkerModel WorkerSpec WorkerProofs.

(** Whatever is called when: frames are taken off in the order queued, none twice, none invented; each frame taken is
    processed to the end or being processed, by at most as many threads as were started. *)
Theorem c24_each_once F (tr : list (wlab F)) s : wrun tr s ->
  (exists rest, queued tr = taken tr ++ rest) /\
  (exists now, Permutation (taken tr) (finished tr ++ now) /\ length now <= starts tr).
Proof.
  intros R. split; [eexists; apply (taken_prefix _ _ R)|]. exists (calls (w_threads s)). split; [apply (taken_calls _ _ R)|].
  rewrite <- (threads_starts _ _ R). clear. unfold calls. induction (w_threads s) as [|p l IH]; [cbn; lia|]. cbn [flat_map]. rewrite app_length. destruct p; cbn [length]; lia.
Qed.

(** A worker started once processes frames in the order queued, one at a time. *)
Theorem c24_in_order_partial F (tr : list (wlab F)) s : wrun tr s -> starts tr <= 1 ->
  exists now rest, queued tr = finished tr ++ now ++ rest /\ taken tr = finished tr ++ now /\ length now <= 1.
Proof.
  intros R L. exists (calls (w_threads s)), (frames (w_items s)). rewrite (taken_prefix _ _ R), (one_thread _ _ R L), app_assoc.
  repeat split. pose proof (threads_starts _ _ R) as T. destruct (w_threads s) as [|p [|]]; cbn in *; try lia. destruct p; cbn; lia.
Qed.

(** Until it is stopped it processes everything: it can only make so many steps, and when it can make none all that was queued
    has been processed. *)
Theorem c24_all_processed_partial F (tr : list (wlab F)) s : wrun tr s -> starts tr >= 1 -> ~ stopped tr ->
  exists bound, forall l s', wworks s l s' -> length l <= bound /\ (idle s' -> finished (tr ++ l) = queued tr).
Proof.
  intros R L N. exists (meas s). intros l s' W. split; [pose proof (works_meas _ _ _ W); lia|]. intros I.
  assert (E : wrun (tr ++ l) s' /\ queued (tr ++ l) = queued tr /\ ~ stopped (tr ++ l) /\ starts (tr ++ l) = starts tr).
  { clear I L. revert tr R N. induction W as [s|a s s1 l s2 S B W IH]; intros tr R N.
    - rewrite app_nil_r. auto.
    - change (a :: l) with ([a] ++ l). rewrite app_assoc. destruct (IH (tr ++ [a])) as (A1 & A2 & A3 & A4).
      + econstructor; eassumption.
      + intros X. apply in_app_or in X as [X|[->|[]]]; [contradiction|discriminate].
      + repeat split; auto; rewrite ?A2, ?A4, ?queued_app, ?starts_app; destruct a; try discriminate; cbn; rewrite ?app_nil_r; auto. }
  destruct E as (E1 & E2 & E3 & E4). rewrite <- E2. apply (idle_unstopped _ s'); auto. destruct (unstopped _ _ E1 E3) as (_ & _ & _ & D). lia.
Qed.

(** After stop at most one more frame is taken, per thread. *)
Theorem c24_stop_takes F (tr1 tr2 : list (wlab F)) s : wrun (tr1 ++ Stop :: tr2) s -> starts tr2 = 0 -> length (taken tr2) <= starts tr1.
Proof.
  intros R N. apply wrun_app in R as (s1 & R1 & R2). inversion R2 as [|a x s2 l y S W]; subst. inversion S; subst.
  destruct (stopped_takes _ _ _ W eq_refl N) as (A & _). rewrite <- (threads_starts _ _ R1). cbn.
  pose proof (nrem_le (Worker false q ts (Datatypes.S n))) as B. cbn in B, A. unfold nrem in *. cbn in *. lia.
Qed.

(** Once stop has returned and the thread cannot move, it has ended. *)
Theorem c24_ends_partial F (tr : list (wlab F)) s : wrun tr s -> starts tr <= 1 -> stopped tr -> w_stops s = 0 -> idle s ->
  forall p, In p (w_threads s) -> p = WDone.
Proof.
  intros R L X Z I p H. destruct (ended_inv _ _ R L X) as (_ & A). destruct (idle_threads s p I H) as [->|(-> & Q)]; [reflexivity|].
  exfalso. specialize (A H Z). rewrite Q in A. destruct A.
Qed.

Definition demo : list (wlab nat) := [Queue 1; Start; Tau 0; Queue 2; Take 0 1; Finish 0 1; Tau 0; Take 0 2; Queue 3].
Example c24_case : exists s, wrun demo s /\ starts demo = 1 /\ ~ stopped demo /\ queued demo = [1; 2; 3] /\ finished demo = [1].
Proof.
  destruct (runs demo) as [s|] eqn:E; [|vm_compute in E; discriminate]. exists s. split; [apply runs_ok, E|].
  repeat split; try reflexivity. unfold stopped, demo. cbn. intuition discriminate.
Qed.
Definition demo_stop : list (wlab nat) := [Start; Queue 1; Tau 0; Take 0 1; Queue 2; Queue 3; Stop; Null; Finish 0 1; Tau 0].
Example c24_stop_case : exists s, wrun demo_stop s /\ stopped demo_stop /\ w_stops s = 0 /\ w_threads s = [WDone].
Proof.
  destruct (runs demo_stop) as [s|] eqn:E; [|vm_compute in E; discriminate]. exists s. split; [apply runs_ok, E|].
  vm_compute in E. injection E as <-. repeat split. unfold stopped, demo_stop. cbn. auto 10.
Qed.

(** Frames still queued when the worker is stopped are never processed (they stay in the queue). *)
Theorem c24_stop_discards_refuted : exists tr s, wrun tr s /\ starts tr = 1 /\ idle s /\ w_stops s = 0 /\ queued tr = [1; 2; 3] /\ finished tr = [1].
Proof.
  exists demo_stop. destruct (runs demo_stop) as [s|] eqn:E; [|vm_compute in E; discriminate]. exists s. split; [apply runs_ok, E|].
  vm_compute in E. injection E as <-. repeat split; try reflexivity. intros a s' S.
  inversion S; subst; try reflexivity; destruct i as [|[|]]; discriminate.
Qed.

(** stop() followed by start() before the thread has looked at working_: two threads, and the order of frames is lost. *)
Theorem c24_restart_refuted : exists tr s, wrun tr s /\ queued tr = [1; 2] /\ finished tr = [2; 1] /\
  w_threads s = [WTest; WTest] /\ w_working s = true.
Proof.
  pose (tr := [Start; Queue 1; Queue 2; Tau 0; Take 0 1; Stop; Null; Start; Tau 1; Take 1 2; Finish 1 2; Finish 0 1]).
  exists tr. destruct (runs tr) as [s|] eqn:E; [|vm_compute in E; discriminate]. exists s. split; [apply runs_ok, E|].
  vm_compute in E. injection E as <-. repeat split.
Qed.

(** stop() with a full queue can wait for ever: the thread sees working_ reset and ends, nobody takes anything off the queue,
    and the null pointer is never added. *)
Theorem c24_stop_hangs_refuted : exists (tr : list (wlab nat)) s, wrun tr s /\ stopped tr /\ w_stops s = 1 /\
  forall tr2 s2, wrun (tr ++ tr2) s2 -> starts tr2 = 0 -> ~ In Null tr2 /\ taken tr2 = [].
Proof.
  pose (tr := [Start; Queue 0; Queue 1; Queue 2; Queue 3; Queue 4; Queue 5; Queue 6; Queue 7; Stop; Tau 0]).
  exists tr. destruct (runs tr) as [s|] eqn:E; [|vm_compute in E; discriminate]. pose proof (runs_ok _ _ E) as R. vm_compute in E. injection E as <-.
  eexists. split; [exact R|]. split; [unfold stopped, tr; cbn; auto 20|]. split; [reflexivity|].
  assert (G : forall l (s : worker nat) s2, wsteps s l s2 -> w_working s = false -> w_threads s = [WDone] -> 8 <= length (w_items s) -> starts l = 0 -> ~ In Null l /\ taken l = []).
  { clear. induction 1 as [|a s s1 l s2 S W IH]; intros W0 T L N; [auto|]. change (a :: l) with ([a] ++ l) in *. rewrite starts_app in N. assert (N' : starts l = 0) by lia. rewrite taken_app.
    inversion S; subst; cbn [w_working w_threads w_items] in *; try discriminate.
    - destruct IH as (A & B); auto. { rewrite app_length. lia. } rewrite B. split; [|reflexivity]. intros [X|X]; [discriminate|auto].
    - unfold max_queue_size in *. lia.
    - subst ts. destruct i as [|[|]]; discriminate.
    - subst ts. destruct i as [|[|]]; discriminate.
    - subst ts. destruct i as [|[|]]; discriminate.
    - subst ts. destruct i as [|[|]]; discriminate. }
  intros tr2 s2 R2 N. apply wrun_app in R2 as (s1 & R1 & W).
  assert (D : forall l (s a b : worker nat), wsteps s l a -> wsteps s l b -> (forall x, In x l -> by_thread x = false \/ exists i, x = Tau i) -> a = b).
  { clear. intros l s a b H. revert b. induction H as [|x s s1 l s2 S W IH]; intros b H2 Hl; inversion H2 as [|x' s' s1' l' s2' S' W']; subst; [reflexivity|].
    apply IH; [|intros y Hy; apply Hl; right; exact Hy]. replace s1 with s1'; [assumption|]. clear -S S' Hl. specialize (Hl x (or_introl eq_refl)).
    inversion S; subst; inversion S'; subst; try reflexivity; try congruence; destruct Hl as [Hl|(j & Hl)]; discriminate. }
  assert (E2 : exists s0, wrun (F := nat) [] s0 /\ wsteps s0 tr s1) by (apply wrun_app; exact R1).
  assert (E3 : exists s0, wrun (F := nat) [] s0 /\ wsteps s0 tr {| w_working := false; w_items := [Some 0; Some 1; Some 2; Some 3; Some 4; Some 5; Some 6; Some 7]; w_threads := [WDone]; w_stops := 1 |}) by (apply wrun_app; exact R).
  destruct E2 as (i1 & I1 & E2), E3 as (i2 & I2 & E3).
  assert (Z : forall i, wrun (F := nat) [] i -> i = worker_init).
  { clear. intros i H. remember [] as t eqn:Et in H. destruct H as [|t s a s' R S]; [reflexivity|]. apply app_eq_nil in Et as (_ & Et). discriminate. }
  apply Z in I1 as ->. apply Z in I2 as ->.
  assert (s1 = {| w_working := false; w_items := [Some 0; Some 1; Some 2; Some 3; Some 4; Some 5; Some 6; Some 7]; w_threads := [WDone]; w_stops := 1 |}).
  { eapply D; [exact E2|exact E3|]. unfold tr. cbn. intros x Hx. repeat (destruct Hx as [<-|Hx]; [cbn; eauto|]). destruct Hx. }
  subst s1. eapply G; [exact W|reflexivity..|cbn; lia|exact N].
Qed.

Print Assumptions c24_each_once.
Print Assumptions c24_in_order_partial.
Print Assumptions c24_all_processed_partial.
Print Assumptions c24_stop_takes.
Print Assumptions c24_ends_partial.
Print Assumptions c24_stop_discards_refuted.
Print Assumptions c24_restart_refuted.
Print Assumptions c24_stop_hangs_refuted.
