(** C75: the reactor calls the callbacks of what is ready. *)
From Coq Require Import Lia.
From Verif Require Import Base PollModel PollSpec PollProofs.
Local Open Scope Z_scope.

(** Once around the loop, the callbacks called are those of the ready channels and sockets that were registered at its beginning, each
    once, channels first.  What the callbacks register or remove counts from the next time on. *)
Theorem c75_calls h ws w r cs r' c f : run ws (do_ops h reactor_init) = (r, cs, Going) -> Forall quiet ws -> quiet w -> turn w r = (r', c, Going) -> w_poll w = Ready f ->
  called (h ++ history ws cs) f c.
Proof. intros R Q Q1 T P. exact (proj1 (proj2 (rep_turn _ _ _ _ _ (rep_run ws h _ _ _ (rep_ops h [] _ rep_init) Q R) Q1 T)) f P). Qed.
(** No callback is called when nothing is ready. *)
Theorem c75_silent w r r' c s : turn w r = (r', c, s) -> (forall f, w_poll w <> Ready f) -> c = [].
Proof.
  intros T N. unfold turn in T. destruct (r_stop r); [injection T as <- <- <-; reflexivity|]. destruct (_ && _)%bool; [injection T as <- <- <-; reflexivity|].
  destruct (w_poll w) as [f| | |] eqn:P; [destruct (N f eq_refl)|..]; [destruct (caught _ _) as (r2, s2)|..]; injection T as <- <- <-; reflexivity.
Qed.
(** A callback that throws: the callbacks before it were called in order, those after it are not.  An interrupted call ends the loop with
    -1, other exceptions leave run. *)
Theorem c75_thrown h ws w r cs r' c s f : run ws (do_ops h reactor_init) = (r, cs, Going) -> Forall quiet ws -> snd (w_after w) = Fine -> turn w r = (r', c, s) -> w_poll w = Ready f ->
  r_stop r = false -> (exists i cb, registered (h ++ history ws cs) i cb) ->
  (exists rest, called (h ++ history ws cs) f (c ++ rest) /\ (rest = [] \/ exists d x, c = d ++ [x] /\ snd (w_acts w (fst x) (snd x)) <> Fine)) /\
  (forall d x, c = d ++ [x] -> (forall y, In y d -> snd (w_acts w (fst y) (snd y)) = Fine) /\ (snd (w_acts w (fst x) (snd x)) = Intr -> s = Going /\ forall w', turn w' r' = (r', [], Ended (-1))) /\ (snd (w_acts w (fst x) (snd x)) = Zmq \/ snd (w_acts w (fst x) (snd x)) = Other -> s = Thrown)).
Proof.
  intros R Q QA T P ST (i0 & cb0 & RG). pose proof (rep_run ws h _ _ _ (rep_ops h [] _ rep_init) Q R) as RP. cbn [app] in RP. unfold turn in T. rewrite ST, (p_rebuild _ _ RP) in T.
  assert (NE : (Nat.eqb (length (r_items (rebuild r))) 0 && Nat.eqb (r_timers (rebuild r)) 0)%bool = false).
  { apply (whole_in _ _ _ _ RP) in RG. change (r_items (rebuild r)) with (whole r). destruct (whole r); [destruct RG|reflexivity]. }
  rewrite NE, P in T. clear NE. pose proof (called_filter _ _ f RP) as CF. change (r_items (rebuild r)) with (whole r) in T. destruct (calls f (w_acts w) (whole r) (rebuild r)) as ((r1, c1), e) eqn:K.
  assert (FS : forall (l : list (item * nat)) d x, l = d ++ [x] -> forall d' x', l = d' ++ [x'] -> d = d' /\ x = x') by (intros l d x -> d' x' E; apply app_inj_tail in E; exact E).
  destruct e.
  - rewrite QA in T. cbn [caught] in T. injection T as <- <- <-.
    assert (A : c1 = filter (fun x => f (fst x)) (whole r) /\ forall y, In y c1 -> snd (w_acts w (fst y) (snd y)) = Fine).
    { clear - K. revert K. generalize (rebuild r). revert c1 r1. induction (whole r) as [|[i cb] l IH]; intros c1 r1 r0 K; cbn [calls] in K; [injection K as <- <-; split; [reflexivity|intros y []]|]. cbn [filter fst]. destruct (f i); [|exact (IH _ _ _ K)].
      destruct (snd (w_acts w i cb)) eqn:A; try discriminate. destruct (calls f _ l _) as ((r2, c2), e2) eqn:K2. injection K as <- <- ->. destruct (IH _ _ _ K2) as (-> & B). split; [reflexivity|]. intros y [<-|I]; [exact A|exact (B y I)]. }
    destruct A as (-> & A). split; [exists []; rewrite app_nil_r; auto|]. intros d x E. split; [intros y I; apply A; rewrite E; apply in_or_app; auto|]. assert (X : snd (w_acts w (fst x) (snd x)) = Fine) by (apply A; rewrite E; apply in_or_app; right; left; reflexivity). rewrite X. split; [discriminate|intros [Y|Y]; discriminate].
  - destruct (calls_cut _ _ _ _ _ _ _ K ltac:(discriminate)) as (d & x & E & A & B & t & F). cbn [caught] in T. injection T as <- <- <-. rewrite F in CF. split; [exists t; split; [exact CF|right; exists d, x; split; [exact E|congruence]]|].
    intros d' x' E'. destruct (FS c1 d x E d' x' E') as (<- & <-). split; [exact B|]. rewrite A. split; [intros _; split; [reflexivity|intros w'; reflexivity]|intros [Y|Y]; discriminate].
  - destruct (calls_cut _ _ _ _ _ _ _ K ltac:(discriminate)) as (d & x & E & A & B & t & F). cbn [caught] in T. injection T as <- <- <-. rewrite F in CF. split; [exists t; split; [exact CF|right; exists d, x; split; [exact E|congruence]]|].
    intros d' x' E'. destruct (FS c1 d x E d' x' E') as (<- & <-). split; [exact B|]. rewrite A. split; [discriminate|reflexivity].
  - destruct (calls_cut _ _ _ _ _ _ _ K ltac:(discriminate)) as (d & x & E & A & B & t & F). cbn [caught] in T. injection T as <- <- <-. rewrite F in CF. split; [exists t; split; [exact CF|right; exists d, x; split; [exact E|congruence]]|].
    intros d' x' E'. destruct (FS c1 d x E d' x' E') as (<- & <-). split; [exact B|]. rewrite A. split; [discriminate|reflexivity].
Qed.
(** The loop ends, with 0, exactly when stop was called or nothing is left to wait for. *)
Theorem c75_ends h ws w r cs : run ws (do_ops h reactor_init) = (r, cs, Going) -> Forall quiet ws -> quiet w ->
  ((exists r' c rc, turn w r = (r', c, Ended rc)) <-> In Stop (h ++ history ws cs) \/ ((forall i cb, ~ registered (h ++ history ws cs) i cb) /\ timers (h ++ history ws cs) 0)) /\
  (forall r' c rc, turn w r = (r', c, Ended rc) -> c = [] /\ rc = 0) /\ (forall r' c, turn w r <> (r', c, Thrown)).
Proof.
  intros R Q ((Q1 & Q2) & Q3 & Q4). pose proof (rep_run ws h _ _ _ (rep_ops h [] _ rep_init) Q R) as RP. cbn [app] in RP. unfold turn. rewrite (p_rebuild _ _ RP). change (r_items (rebuild r)) with (whole r). change (r_timers (rebuild r)) with (r_timers r).
  destruct (r_stop r) eqn:ST.
  { split; [|split].
    - split; [intros _; left; apply (p_stop _ _ RP), ST|intros _; eexists _, _, _; reflexivity].
    - intros r' c rc E. injection E as <- <- <-. split; [reflexivity|exact (p_rc _ _ RP)].
    - intros r' c. discriminate. }
  assert (NS : ~ In Stop (h ++ history ws cs)) by (intros I; apply (p_stop _ _ RP) in I; congruence).
  assert (TU : forall n, timers (h ++ history ws cs) n -> n = r_timers r).
  { intros n N. pose proof (p_timers _ _ RP) as M. revert N M. generalize (r_timers r) (h ++ history ws cs). clear. intros m l. induction l as [|o l IH] using rev_ind; intros N M.
    - assert (Z : forall k, timers [] k -> k = 0%nat) by (intros k [(a & b & E & _)|(E & _)]; [destruct a; discriminate|exact E]). rewrite (Z _ N), (Z _ M). reflexivity.
    - apply timers_snoc in N, M. destruct N as [N|(N1 & N)], M as [M|(M1 & M)]; [congruence|destruct (M1 n N)|destruct (N1 m M)|exact (IH N M)]. }
  destruct (Nat.eqb (length (whole r)) 0 && Nat.eqb (r_timers r) 0)%bool eqn:EM.
  { apply andb_prop in EM. destruct EM as (E1 & E2). apply Nat.eqb_eq in E1, E2. apply length_zero_iff_nil in E1. split; [|split].
    - split; [|intros _; eexists _, _, _; reflexivity]. intros _. right. split; [intros i cb RG; apply (whole_in _ _ _ _ RP) in RG; rewrite E1 in RG; exact RG|]. rewrite <- E2. exact (p_timers _ _ RP).
    - intros r' c rc E. injection E as <- <- <-. auto.
    - intros r' c. discriminate. }
  assert (GO : exists r2 c2, (let '(r1, c, e) := match w_poll w with Ready f => calls f (w_acts w) (whole r) (rebuild r) | Nothing => (rebuild r, [], Fine) | Signal => (rebuild r, [], Intr) | Error => (rebuild r, [], Zmq) end in
      match e with Fine => let '(r2, s) := caught (snd (w_after w)) (do_ops (fst (w_after w)) r1) in (r2, c, s) | _ => let '(r2, s) := caught e r1 in (r2, c, s) end) = (r2, c2, Going)).
  { destruct (w_poll w) as [f| | |] eqn:P; try congruence; [rewrite (calls_fine _ _ _ _ Q3)|]; rewrite Q4; cbn [caught]; eexists _, _; reflexivity. }
  destruct GO as (r2 & c2 & GO). split; [|split].
  - split; [intros (r' & c & rc & E); exfalso; cbv zeta in *; rewrite GO in E; discriminate|]. intros [I|(N & T)]; [contradiction|]. exfalso. apply andb_false_iff in EM. destruct EM as [EM|EM].
    + destruct (whole r) as [|[i cb] l] eqn:W; [discriminate|]. apply (N i cb), (whole_in _ _ _ _ RP). rewrite W. left. reflexivity.
    + apply TU in T. rewrite <- T in EM. discriminate.
  - intros r' c rc E. exfalso. cbv zeta in *. rewrite GO in E. discriminate.
  - intros r' c E. cbv zeta in *. rewrite GO in E. discriminate.
Qed.
(** A signal while polling ends the loop with -1, before any further callback. *)
Theorem c75_signal w r r' c s : turn w r = (r', c, s) -> w_poll w = Signal -> c = [] /\ (s = Going -> forall w', turn w' r' = (r', [], Ended (-1))).
Proof.
  intros T P. unfold turn in T. destruct (r_stop r); [injection T as <- <- <-; split; [reflexivity|discriminate]|]. destruct (_ && _)%bool; [injection T as <- <- <-; split; [reflexivity|discriminate]|].
  rewrite P in T. cbn [caught] in T. injection T as <- <- <-. split; [reflexivity|]. intros _ w'. reflexivity.
Qed.
(** What was removed is not called any more, the next times around.  Missing: the same time around, see below. *)
Theorem c75_removed_partial h ws w r cs r' c f i : run ws (do_ops h reactor_init) = (r, cs, Going) -> Forall quiet ws -> quiet w -> turn w r = (r', c, Going) -> w_poll w = Ready f ->
  (exists a o b, h ++ history ws cs = a ++ o :: b /\ concerns o i /\ (forall cb, ~ registers o i cb) /\ forall o' cb, In o' b -> ~ registers o' i cb) -> forall cb, ~ In (i, cb) c.
Proof.
  intros R Q Q1 T P (a & o & b & E & C & NR & NB) cb I. destruct (c75_calls _ _ _ _ _ _ _ _ R Q Q1 T P) as (_ & K). apply K in I. destruct I as ((a' & o' & b' & E' & R' & N') & _). rewrite E in E'. clear - E' C NR NB R' N'.
  revert a' E'. induction a as [|x a IH]; intros [|y a'] E'; cbn in E'; injection E' as ? ?; subst.
  - exact (NR cb R').
  - exact (NB o' cb ltac:(apply in_or_app; right; left; reflexivity) R').
  - exact (N' o ltac:(apply in_or_app; right; left; reflexivity) C).
  - eapply IH; eassumption.
Qed.
(** In the same time around it is called: a callback removes a channel that is ready too, and then that channel's callback is called.
    So it is when FrameProcessorController replaces its SharedMemoryController (FrameProcessorController.cpp, setupFrameReceiverInterface): the callback belongs to an object that is
    gone. *)
Definition remover : world := World (Ready (fun _ => true)) (fun i _ => match i with Chan 1 => ([RemChan 2; Stop], Fine) | _ => ([], Fine) end) ([], Fine).
Theorem c75_removed_refuted : exists r', turn remover (do_ops [RegChan 1 10; RegChan 2 20] reactor_init) = (r', [(Chan 1, 10%nat); (Chan 2, 20%nat)], Going) /\ quiet remover /\ ~ registered ([RegChan 1 10; RegChan 2 20] ++ [RemChan 2]) (Chan 2) 20.
Proof.
  eexists. split; [reflexivity|]. split; [split; [split; discriminate|split; [|reflexivity]]|].
  - intros [p|p] cb; cbn; [|reflexivity]. destruct p as [|[p|p|]|p]; reflexivity.
  - intros RG. apply (registered_snoc [RegChan 1 10; RegChan 2 20]) in RG. cbn in RG. destruct RG as [RG|(RG & _)]; [discriminate|apply RG; reflexivity].
Qed.
(** stop, called by a callback, does not keep back the callbacks after it. *)
Theorem c75_stop_refuted : exists r' r'', turn remover (do_ops [RegChan 1 10; RegChan 2 20] reactor_init) = (r', [(Chan 1, 10%nat); (Chan 2, 20%nat)], Going) /\ In Stop (asked_by remover [(Chan 1, 10%nat)]) /\ turn remover r' = (r'', [], Ended 0).
Proof. eexists _, _. split; [reflexivity|]. split; [right; left; reflexivity|reflexivity]. Qed.

(** Cases: a channel and a socket; the callback of the socket registers another channel, which is called the next time. *)
Definition all : world := World (Ready (fun _ => true)) (fun i _ => match i with Sock 7 => ([RegChan 3 30; RemSock 7], Fine) | _ => ([], Fine) end) ([], Fine).
Lemma all_quiet : quiet all. Proof. split; [split; discriminate|split; [|reflexivity]]. intros [p|p] cb; [reflexivity|]. cbn. destruct p as [|[[[p|p|]|[p|p|]|]|[p|p|]|]|p]; reflexivity. Qed.
Example c75_calls_case : exists r cs r', run [all] (do_ops [RegSock 7 70; RegChan 5 50] reactor_init) = (r, cs, Going) /\ cs = [[(Chan 5, 50%nat); (Sock 7, 70%nat)]] /\ turn all r = (r', [(Chan 3, 30%nat); (Chan 5, 50%nat)], Going).
Proof. eexists _, _, _. repeat split; reflexivity. Qed.
Example c75_removed_case : history [all] [[(Chan 5, 50%nat); (Sock 7, 70%nat)]] = [RegChan 3 30; RemSock 7] /\ concerns (RemSock 7) (Sock 7). Proof. split; reflexivity. Qed.
Example c75_ends_case : (exists r' c, turn all (do_ops [RegChan 1 10; RemChan 1] reactor_init) = (r', c, Ended 0)) /\ exists r' c, turn all (do_ops [RegChan 1 10; Stop] reactor_init) = (r', c, Ended 0). Proof. split; eexists _, _; reflexivity. Qed.
Definition throws : world := World (Ready (fun _ => true)) (fun i _ => ([], match i with Chan 2 => Intr | _ => Fine end)) ([], Fine).
Example c75_thrown_case : exists r', turn throws (do_ops [RegChan 1 10; RegChan 2 20; RegChan 3 30] reactor_init) = (r', [(Chan 1, 10%nat); (Chan 2, 20%nat)], Going) /\ turn throws r' = (r', [], Ended (-1)). Proof. eexists. split; reflexivity. Qed.

Print Assumptions c75_calls.
Print Assumptions c75_silent.
Print Assumptions c75_thrown.
Print Assumptions c75_ends.
Print Assumptions c75_signal.
Print Assumptions c75_removed_partial.
Print Assumptions c75_removed_refuted.
Print Assumptions c75_stop_refuted.
