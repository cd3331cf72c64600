From Verif Require Import Base QueueModel WorkerModel WorkerSpec.
From Coq Require Import Permutation.

Definition frames {F} (q : list (option F)) : list F := flat_map (fun x => match x with Some f => [f] | None => [] end) q.
Definition calls {F} (ts : list (wpos F)) : list F := flat_map (fun p => match p with WCall f => [f] | _ => [] end) ts.

Lemma frames_app {F} (a b : list (option F)) : frames (a ++ b) = frames a ++ frames b. Proof. apply flat_map_app. Qed.
Lemma queued_app {F} (a b : list (wlab F)) : queued (a ++ b) = queued a ++ queued b. Proof. apply flat_map_app. Qed.
Lemma taken_app {F} (a b : list (wlab F)) : taken (a ++ b) = taken a ++ taken b. Proof. apply flat_map_app. Qed.
Lemma finished_app {F} (a b : list (wlab F)) : finished (a ++ b) = finished a ++ finished b. Proof. apply flat_map_app. Qed.
Lemma starts_app {F} (a b : list (wlab F)) : starts (a ++ b) = starts a + starts b.
Proof. unfold starts. rewrite filter_app, app_length. reflexivity. Qed.

Lemma set_nth_length {A} i (x : A) l : length (set_nth i x l) = length l.
Proof. revert i. induction l; intros [|i]; cbn; auto. Qed.
Lemma set_nth_split {A} i (x y : A) l : nth_error l i = Some y -> exists a b, l = a ++ y :: b /\ set_nth i x l = a ++ x :: b /\ length a = i.
Proof.
  revert i. induction l as [|z l IH]; intros [|i] H; try discriminate; cbn in *.
  - injection H as ->. exists [], l. auto.
  - apply IH in H as (a & b & -> & E & L). exists (z :: a), b. cbn. rewrite E. auto.
Qed.

(** Everything queued has been taken, in this order, or is in the queue. *)
Lemma taken_prefix {F} (tr : list (wlab F)) s : wrun tr s -> queued tr = taken tr ++ frames (w_items s).
Proof.
  induction 1 as [|tr s a s' R IH S]; [reflexivity|]. rewrite queued_app, taken_app, IH.
  inversion S; subst; cbn [w_items queued taken flat_map app] in *; rewrite ?frames_app, ?app_nil_r; cbn [frames flat_map app]; rewrite ?app_nil_r, <- ?app_assoc; reflexivity.
Qed.

(** What is taken is finished or being processed. *)
Lemma taken_calls {F} (tr : list (wlab F)) s : wrun tr s -> Permutation (taken tr) (finished tr ++ calls (w_threads s)).
Proof.
  induction 1 as [|tr s a s' R IH S]; [reflexivity|]. rewrite taken_app, finished_app.
  inversion S; subst; cbn [taken finished flat_map w_threads app] in *; rewrite ?app_nil_r; auto.
  - unfold calls. rewrite flat_map_app. cbn. rewrite app_nil_r. exact IH.
  - destruct (set_nth_split i WRemove WTest ts) as (ta & tb & -> & -> & _); auto. unfold calls in *. rewrite flat_map_app in *. exact IH.
  - destruct (set_nth_split i WDone WTest ts) as (ta & tb & -> & -> & _); auto. unfold calls in *. rewrite flat_map_app in *. exact IH.
  - destruct (set_nth_split i (WCall f) WRemove ts) as (ta & tb & -> & -> & _); auto. unfold calls in *. rewrite flat_map_app in *. cbn in *.
    rewrite IH, <- app_assoc. apply Permutation_app_head. rewrite <- app_assoc. apply Permutation_app_head. symmetry. apply Permutation_cons_append.
  - destruct (set_nth_split i WTest WRemove ts) as (ta & tb & -> & -> & _); auto. unfold calls in *. rewrite flat_map_app in *. exact IH.
  - destruct (set_nth_split i WTest (WCall f) ts) as (ta & tb & -> & -> & _); auto. unfold calls in *. rewrite flat_map_app in *. cbn in *.
    rewrite IH, <- !app_assoc. apply Permutation_app_head. cbn. symmetry. apply Permutation_middle.
Qed.

Lemma threads_starts {F} (tr : list (wlab F)) s : wrun tr s -> length (w_threads s) = starts tr.
Proof.
  induction 1 as [|tr s a s' R IH S]; [reflexivity|]. rewrite starts_app.
  inversion S; subst; cbn in *; rewrite ?set_nth_length, ?app_length; cbn; lia.
Qed.

(** With one thread the order is kept to the end. *)
Lemma one_thread {F} (tr : list (wlab F)) s : wrun tr s -> starts tr <= 1 -> taken tr = finished tr ++ calls (w_threads s).
Proof.
  induction 1 as [|tr s a s' R IH S]; [reflexivity|]. intros L. rewrite starts_app in L. rewrite taken_app, finished_app.
  pose proof (threads_starts _ _ R) as TL. specialize (IH ltac:(lia)).
  inversion S; subst; cbn [taken finished flat_map w_threads app] in *; rewrite ?app_nil_r; auto.
  - unfold calls. rewrite flat_map_app. cbn. rewrite app_nil_r. exact IH.
  - destruct (set_nth_split i WRemove WTest ts) as (ta & tb & -> & -> & _); auto. unfold calls in *. rewrite flat_map_app in *. exact IH.
  - destruct (set_nth_split i WDone WTest ts) as (ta & tb & -> & -> & _); auto. unfold calls in *. rewrite flat_map_app in *. exact IH.
  - destruct (set_nth_split i (WCall f) WRemove ts) as (ta & tb & -> & -> & _); auto. rewrite app_length in TL. cbn in TL.
    destruct ta; cbn in TL; [|lia]. destruct tb; cbn in TL; [|lia]. cbn in *. rewrite app_nil_r in IH. rewrite IH. reflexivity.
  - destruct (set_nth_split i WTest WRemove ts) as (ta & tb & -> & -> & _); auto. unfold calls in *. rewrite flat_map_app in *. exact IH.
  - destruct (set_nth_split i WTest (WCall f) ts) as (ta & tb & -> & -> & _); auto. rewrite app_length in TL. cbn in TL.
    destruct ta; cbn in TL; [|lia]. destruct tb; cbn in TL; [|lia]. cbn in *. rewrite app_nil_r. exact IH.
Qed.

(** While nobody calls stop: one thread at most, never ended. *)
Lemma unstopped {F} (tr : list (wlab F)) s : wrun tr s -> ~ stopped tr ->
  w_stops s = 0 /\ ~ In None (w_items s) /\ ~ In WDone (w_threads s) /\
  (w_working s = false /\ starts tr = 0 \/ w_working s = true /\ starts tr = 1).
Proof.
  induction 1 as [|tr s a s' R IH S]; [cbn; intuition|]. intros N.
  assert (N' : ~ stopped tr) by (intros X; apply N, in_or_app; auto).
  assert (Na : a <> Stop) by (intros ->; apply N, in_or_app; right; left; reflexivity).
  destruct (IH N') as (A & B & C & D). rewrite starts_app.
  inversion S; subst; cbn [w_stops w_items w_threads w_working starts filter length] in *; try congruence; try discriminate.
  - repeat split; auto. { rewrite in_app_iff. cbn. intuition discriminate. } destruct D as [(D1 & D2)|(D1 & D2)]; [left|right]; cbn; split; auto; lia.
  - repeat split; auto. { rewrite in_app_iff. cbn. intuition discriminate. } destruct D as [(D1 & D2)|(D1 & D2)]; [right; cbn; split; [auto|lia]|discriminate].
  - destruct (set_nth_split i WRemove WTest ts) as (x & y & -> & -> & _); auto. repeat split; auto.
    { intros X. apply C. rewrite in_app_iff in *. cbn in *. intuition discriminate. } right. split; [auto|]. cbn. destruct D as [(D1 & D2)|(D1 & D2)]; [discriminate|lia].
  - destruct (set_nth_split i WDone WTest ts) as (x & y & -> & -> & _); auto. pose proof (threads_starts _ _ R) as TL. cbn in TL. rewrite app_length in TL. cbn in TL. destruct D as [(D1 & D2)|(D1 & D2)]; [lia|discriminate].
  - destruct (set_nth_split i (WCall f) WRemove ts) as (x & y & -> & -> & _); auto. repeat split; auto.
    { intros X. apply B. right. exact X. } { intros X. apply C. rewrite in_app_iff in *. cbn in *. intuition discriminate. }
    destruct D as [(D1 & D2)|(D1 & D2)]; [left|right]; cbn; split; auto; lia.
  - exfalso. apply B. left. reflexivity.
  - destruct (set_nth_split i WTest (WCall f) ts) as (x & y & -> & -> & _); auto. repeat split; auto.
    { intros X. apply C. rewrite in_app_iff in *. cbn in *. intuition discriminate. }
    destruct D as [(D1 & D2)|(D1 & D2)]; [left|right]; cbn; split; auto; lia.
Qed.

(** A thread can move unless it has ended, or waits on an empty queue. *)
Lemma idle_threads {F} (s : worker F) p : idle s -> In p (w_threads s) -> p = WDone \/ (p = WRemove /\ w_items s = []).
Proof.
  intros I H. destruct s as [b q ts n]. cbn in *. apply In_nth_error in H as (i & H). destruct p as [ | |f| ]; auto.
  - exfalso. destruct b; [specialize (I (Tau i) _ (w_enter i q ts n H))|specialize (I (Tau i) _ (w_exit i q ts n H))]; discriminate.
  - right. split; [auto|]. destruct q as [|[f|] q]; auto; exfalso;
      [specialize (I (Take i f) _ (w_take i f b q ts n H))|specialize (I (Tau i) _ (w_skip i b q ts n H))]; discriminate.
  - exfalso. specialize (I (Finish i f) _ (w_return i f b q ts n H)). discriminate.
Qed.

Lemma idle_unstopped {F} (tr : list (wlab F)) s : wrun tr s -> ~ stopped tr -> starts tr = 1 -> idle s -> finished tr = queued tr.
Proof.
  intros R N L I. destruct (unstopped _ _ R N) as (_ & _ & D & W). pose proof (threads_starts _ _ R) as TL.
  rewrite (taken_prefix _ _ R), (one_thread _ _ R) by lia. rewrite L in TL. destruct (w_threads s) as [|p [|]] eqn:E; try discriminate.
  destruct (idle_threads s p I) as [->|(-> & Q)].
  - rewrite E. left. reflexivity.
  - exfalso. apply D. left. reflexivity.
  - rewrite Q. cbn. rewrite !app_nil_r. reflexivity.
Qed.

(** Steps of the worker threads come to an end. *)
Definition cost {F} (p : wpos F) : nat := match p with WTest => 1 | WRemove => 0 | WCall _ => 2 | WDone => 0 end.
Definition meas {F} (s : worker F) : nat := 3 * length (w_items s) + list_sum (map cost (w_threads s)).
Lemma step_meas {F} (a : wlab F) s s' : wstep a s s' -> by_thread a = true -> meas s' < meas s.
Proof.
  intros S B. inversion S; subst; try discriminate; unfold meas; cbn [w_items w_threads length];
    match goal with H : nth_error ?ts ?i = Some ?y |- context [set_nth ?i ?x ?ts] =>
      destruct (set_nth_split i x y ts H) as (p & r & -> & -> & _) end;
    rewrite !map_app, !list_sum_app; cbn; lia.
Qed.
Lemma works_meas {F} (s : worker F) l s' : wworks s l s' -> length l + meas s' <= meas s.
Proof. induction 1; [cbn; lia|]. pose proof (step_meas _ _ _ H H0). cbn [length]. lia. Qed.

(** After stop. *)
Inductive wsteps {F} : worker F -> list (wlab F) -> worker F -> Prop :=
| wss_nil s : wsteps s [] s
| wss_cons a s s1 l s2 : wstep a s s1 -> wsteps s1 l s2 -> wsteps s (a :: l) s2.
Definition nrem {F} (s : worker F) : nat := length (filter (fun p => match p with WRemove => true | _ => false end) (w_threads s)).
Lemma stopped_takes {F} (s : worker F) l s' : wsteps s l s' -> w_working s = false -> starts l = 0 ->
  length (taken l) + nrem s' <= nrem s /\ w_working s' = false.
Proof.
  induction 1 as [|a s s1 l s2 S R IH]; intros W N; [cbn; auto|].
  change (a :: l) with ([a] ++ l) in N |- *. rewrite starts_app in N. rewrite taken_app.
  inversion S; subst; cbn [w_working] in *; try discriminate; try (cbn in N; lia);
    (destruct IH as (A & B); [first [assumption | reflexivity]|cbn in N; lia|split; [|exact B]]); cbn [taken flat_map app length] in *; unfold nrem in *; cbn [w_threads] in *; auto;
    match goal with H : nth_error ?ts ?i = Some ?y |- _ =>
      match goal with A : context [set_nth i ?x ts] |- _ => destruct (set_nth_split i x y ts H) as (p & r & -> & E & _); rewrite E in A end end;
    rewrite filter_app, app_length in *; cbn in *; lia.
Qed.
Lemma nrem_le {F} (s : worker F) : nrem s <= length (w_threads s).
Proof. unfold nrem. induction (w_threads s) as [|p l IH]; cbn; [lia|]. destruct p; cbn; lia. Qed.

Lemma wrun_app {F} (l1 l2 : list (wlab F)) s : wrun (l1 ++ l2) s -> exists s1, wrun l1 s1 /\ wsteps s1 l2 s.
Proof.
  revert s. induction l2 as [|a l2 IH] using rev_ind; intros s H.
  - rewrite app_nil_r in H. exists s. split; [auto|constructor].
  - rewrite app_assoc in H. inversion H as [E|tr s0 b s' R S E]; subst.
    + symmetry in E. apply app_eq_nil in E as (_ & E). discriminate.
    + apply app_inj_tail in E as (-> & ->). apply IH in R as (s1 & R1 & R2). exists s1. split; [auto|].
      clear -R2 S. induction R2; cbn; [econstructor; [eassumption|constructor]|econstructor; eauto].
Qed.

Lemma working_started {F} (tr : list (wlab F)) s : wrun tr s -> w_working s = true -> starts tr >= 1.
Proof. induction 1 as [|tr s a s' R IH S]; [discriminate|]. rewrite starts_app. intros N. inversion S; subst; cbn in *; try discriminate; try lia; specialize (IH N); lia. Qed.
Lemma stopped_started {F} (tr : list (wlab F)) s : wrun tr s -> stopped tr -> starts tr >= 1.
Proof.
  induction 1 as [|tr s a s' R IH S]; [intros []|]. rewrite starts_app. intros D. apply in_app_or in D as [D|[->|[]]]; [specialize (IH D); lia|].
  inversion S; subst. pose proof (working_started _ _ R eq_refl). lia.
Qed.

(** The single thread has ended once stop has added its null pointer. *)
Lemma ended_inv {F} (tr : list (wlab F)) s : wrun tr s -> starts tr <= 1 -> stopped tr -> w_working s = false /\
  (In WRemove (w_threads s) -> w_stops s = 0 -> In None (w_items s)).
Proof.
  induction 1 as [|tr s a s' R IH S]; [intros _ []|]. intros L X. rewrite starts_app in L. pose proof (threads_starts _ _ R) as TL.
  assert (D : stopped tr \/ ~ stopped tr).
  { clear. unfold stopped. induction tr as [|x l [I|I]]; [right; intros []|left; right; auto|].
    destruct x; try (right; intros [Y|Y]; [discriminate|auto]; fail). left. left. reflexivity. }
  destruct D as [D|D].
  - destruct IH as (W & IH); auto; [lia|].
    inversion S; subst; cbn [w_stops w_items w_threads w_working] in *; try discriminate.
    + split; [auto|]. intros Y Z. apply in_or_app. left. auto.
    + exfalso. pose proof (stopped_started _ _ R D).
      cbn in L. lia.
    + split; [auto|]. intros _ _. apply in_or_app. right. left. reflexivity.
    + split; [auto|]. destruct (set_nth_split i WDone WTest ts) as (x & y & -> & -> & _); auto.
      intros Y Z. apply IH; auto. rewrite in_app_iff in *. cbn in *. intuition discriminate.
    + split; [auto|]. destruct (set_nth_split i (WCall f) WRemove ts) as (x & y & -> & -> & _); auto.
      rewrite app_length in TL. cbn in TL. destruct x; cbn in TL; [|lia]. destruct y; cbn in TL; [|lia]. cbn. intuition discriminate.
    + split; [auto|]. destruct (set_nth_split i WTest WRemove ts) as (x & y & -> & -> & _); auto.
      rewrite app_length in TL. cbn in TL. destruct x; cbn in TL; [|lia]. destruct y; cbn in TL; [|lia]. cbn. intuition discriminate.
    + split; [auto|]. destruct (set_nth_split i WTest (WCall f) ts) as (x & y & -> & -> & _); auto.
      intros Y Z. apply IH; auto. rewrite in_app_iff in *. cbn in *. intuition discriminate.
  - apply in_app_or in X as [X|[->|[]]]; [contradiction|]. inversion S; subst. cbn. split; [auto|]. intros _ Z. discriminate.
Qed.

(** The step with a given label, if there is one (to build runs). *)
Definition exec1 {F} (eqb : F -> F -> bool) (a : wlab F) (s : worker F) : option (worker F) :=
  let '(Worker b q ts n) := s in
  match a with
  | Queue f => if length q <? max_queue_size then Some (Worker b (q ++ [Some f]) ts n) else None
  | Start => if b then None else Some (Worker true q (ts ++ [WTest]) n)
  | Stop => if b then Some (Worker false q ts (S n)) else None
  | Null => match n with S m => if length q <? max_queue_size then Some (Worker b (q ++ [None]) ts m) else None | O => None end
  | Tau i => match nth_error ts i, q with
             | Some WTest, _ => Some (Worker b q (set_nth i (if b then WRemove else WDone) ts) n)
             | Some WRemove, None :: q' => Some (Worker b q' (set_nth i WTest ts) n)
             | _, _ => None
             end
  | Take i f => match nth_error ts i, q with
                | Some WRemove, Some g :: q' => if eqb f g then Some (Worker b q' (set_nth i (WCall f) ts) n) else None
                | _, _ => None
                end
  | Finish i f => match nth_error ts i with
                  | Some (WCall g) => if eqb f g then Some (Worker b q (set_nth i WTest ts) n) else None
                  | _ => None
                  end
  end.
Fixpoint execs {F} (eqb : F -> F -> bool) (l : list (wlab F)) (s : worker F) : option (worker F) :=
  match l with [] => Some s | a :: t => match exec1 eqb a s with Some s' => execs eqb t s' | None => None end end.
Lemma exec1_ok {F} (eqb : F -> F -> bool) : (forall x y, eqb x y = true -> x = y) -> forall a s s', exec1 eqb a s = Some s' -> wstep a s s'.
Proof.
  intros E a [b q ts n] s' H. destruct a as [f|i f|i f| | |i| ]; cbn [exec1] in H.
  - destruct (Nat.ltb_spec (length q) max_queue_size); [injection H as <-|discriminate]. apply w_queue with (ig := false). auto.
  - destruct (nth_error ts i) as [[ | |g| ]|] eqn:G; try discriminate. destruct q as [|[g|] q]; try discriminate.
    destruct (eqb f g) eqn:K; [|discriminate]. apply E in K as ->. injection H as <-. constructor. exact G.
  - destruct (nth_error ts i) as [[ | |g| ]|] eqn:G; try discriminate.
    destruct (eqb f g) eqn:K; [|discriminate]. apply E in K as ->. injection H as <-. constructor. exact G.
  - destruct b; [discriminate|]. injection H as <-. constructor.
  - destruct b; [|discriminate]. injection H as <-. constructor.
  - destruct (nth_error ts i) as [[ | |g| ]|] eqn:G; try discriminate.
    + injection H as <-. destruct b; constructor; exact G.
    + destruct q as [|[g|] q]; try discriminate. injection H as <-. constructor. exact G.
  - destruct n; [discriminate|]. destruct (Nat.ltb_spec (length q) max_queue_size); [injection H as <-|discriminate]. constructor. auto.
Qed.
Lemma execs_ok {F} (eqb : F -> F -> bool) : (forall x y, eqb x y = true -> x = y) -> forall l tr s s', wrun tr s -> execs eqb l s = Some s' -> wrun (tr ++ l) s'.
Proof.
  intros E. induction l as [|a l IH]; intros tr s s' R H; cbn in H.
  - injection H as <-. rewrite app_nil_r. exact R.
  - destruct (exec1 eqb a s) as [s1|] eqn:X; [|discriminate]. apply (exec1_ok eqb E) in X. change (a :: l) with ([a] ++ l). rewrite app_assoc.
    eapply IH; [econstructor; eassumption|exact H].
Qed.
Definition runs (l : list (wlab nat)) : option (worker nat) := execs Nat.eqb l worker_init.
Lemma runs_ok l s : runs l = Some s -> wrun l s.
Proof. intros H. change l with ([] ++ l). eapply execs_ok; [|constructor|exact H]. apply Nat.eqb_eq. Qed.
