(** C21 and C22: the work queue. *)
From Verif Require Import Base QueueModel QueueSpec QueueProofs.

(** ** C21 *)

(** Whatever the schedule: what has been removed, followed by what is in the queue, is what has been added, in order. *)
Theorem c21_fifo {T} (tr : list (lab T)) s : qrun wq_init tr s -> added tr = removed tr ++ q_items s.
Proof. exact (fifo tr s). Qed.

(** A thread's items are added in the order it asked for; at most its last one is still waiting. *)
Theorem c21_program_order {T} (tr : list (lab T)) s t : qrun wq_init tr s ->
  exists rest, asked t tr = added_by t tr ++ rest /\ List.length rest <= 1 /\ (q_th s t = Out -> rest = []).
Proof.
  intros R. exists (pending (q_th s t)). split; [apply program_order, R|]. split; [destruct (q_th s t); cbn; lia|intros ->; reflexivity].
Qed.

(** The limit is kept if no call asks to ignore it. *)
Theorem c21_limit {T} (tr : list (lab T)) s : qrun wq_init tr s -> all_limited tr -> List.length (q_items s) <= 8.
Proof. intros R L. exact (proj1 (limited_inv tr s R L)). Qed.

(** ** C22 *)

(** One consumer and at most 15 threads that respect the limit (and any number that do not): nobody is left asleep with
    work or space at hand and no wake-up on its way. *)
Theorem c22_never_stuck_partial {T} (ps : list nat) (c : nat) (tr : list (lab T)) s :
  ~ In c ps -> List.length ps <= 15 ->
  qrun wq_init tr s -> Forall (roles ps c) tr -> ~ stuck s.
Proof.
  intros C L R F. apply (not_stuck ps c s), (run_inv ps c C) with (tr := tr); auto. unfold max_queue_size. lia.
Qed.

(** Then, if the consumer keeps removing, everything asked for is added and removed after finitely many steps. *)
Theorem c22_drains_partial {T} (ps : list nat) (c : nat) (tr : list (lab T)) s :
  ~ In c ps -> List.length ps <= 15 ->
  qrun wq_init tr s -> Forall (roles ps c) tr ->
  Acc (fun s' s => drain_step c s s') s /\
  forall tr' s', qrun wq_init (tr ++ tr') s' -> Forall (draining c) tr' -> (forall s'', ~ drain_step c s' s'') ->
    removed (tr ++ tr') = added (tr ++ tr') /\ forall t, asked t (tr ++ tr') = added_by t (tr ++ tr').
Proof.
  intros C L R F. assert (L' : List.length ps < 2 * max_queue_size) by (unfold max_queue_size; lia).
  split; [apply (drain_acc ps c C L' tr s R F)|]. intros tr' s' R' D E.
  assert (F' : Forall (roles ps c) (tr ++ tr')).
  { apply Forall_app. split; [exact F|]. eapply Forall_impl; [|exact D]. intros a. apply drain_roles. }
  destruct (drained ps c C L' s' (run_inv ps c C L' _ _ R' F') E) as (Q & Hc & O). split.
  - rewrite (fifo _ _ R'), Q, app_nil_r. reflexivity.
  - intros t. rewrite (program_order _ _ t R'). destruct (Nat.eq_dec t c) as [->|Ht]; [rewrite Hc|rewrite (O t Ht)]; apply app_nil_r.
Qed.

(** *** Runs on concrete threads, for the examples: who acts, and whom its signal wakes. *)
Inductive act := AddBy (t x : nat) (ignore : bool) | RemBy (t : nat) | Go (t : nat) (wake : list nat).
Definition wake1 (m : nat -> th nat) (w : list nat) : nat -> th nat :=
  fun t => if existsb (Nat.eqb t) w then woken (m t) else m t.
Definition sig_ok (n : nat) (m : nat -> th nat) (w : list nat) : bool :=
  existsb (fun t => asleep (m t)) w || forallb (fun t => negb (asleep (m t))) (seq 0 n).
Definition exec (n : nat) (a : act) (s : wq nat) : option (wq nat) :=
  let '(Wq q m) := s in
  match a with
  | AddBy t x ig => match m t with Out => if t <? n then Some (Wq q (set_th m t (InAdd x ig))) else None | _ => None end
  | RemBy t => match m t with Out => if t <? n then Some (Wq q (set_th m t InRem)) else None | _ => None end
  | Go t w =>
    let m1 := set_th m t Out in
    match m t with
    | InAdd x ig => if ig || (List.length q <? max_queue_size) then if sig_ok n m1 w then Some (Wq (q ++ [x]) (wake1 m1 w)) else None
                    else Some (Wq q (set_th m t (SleepAdd x)))
    | WokeAdd x => if List.length q <? max_queue_size then if sig_ok n m1 w then Some (Wq (q ++ [x]) (wake1 m1 w)) else None
                   else Some (Wq q (set_th m t (SleepAdd x)))
    | InRem | WokeRem => match q with
                         | [] => Some (Wq [] (set_th m t SleepRem))
                         | x :: q' => if sig_ok n m1 w then Some (Wq q' (wake1 m1 w)) else None
                         end
    | _ => None
    end
  end.
Definition bounded (n : nat) (s : wq nat) : Prop := forall t, n <= t -> q_th s t = Out.
Lemma sig_ok_signal n m w : (forall t, n <= t -> m t = Out) -> sig_ok n m w = true -> signal m (wake1 m w).
Proof.
  intros B H. split; [intros t; unfold wake1; destruct (existsb _ w); auto|]. intros (t & Ht). unfold sig_ok in H. apply orb_prop in H as [H|H].
  - apply existsb_exists in H as (u & Hu & Eu). exists u. split; [exact Eu|]. unfold wake1.
    destruct (existsb (Nat.eqb u) w) eqn:X; [reflexivity|]. rewrite <- not_true_iff_false in X. destruct X. apply existsb_exists. exists u. split; [exact Hu|apply Nat.eqb_refl].
  - destruct (Nat.lt_ge_cases t n) as [L|L]; [|rewrite B in Ht by exact L; discriminate].
    rewrite forallb_forall in H. specialize (H t ltac:(apply in_seq; lia)). rewrite Ht in H. discriminate.
Qed.
Lemma bounded_set n m t (x : th nat) : (forall t, n <= t -> m t = Out) -> x = Out \/ t < n -> forall u, n <= u -> set_th m t x u = Out.
Proof. intros B H u Hu. unfold set_th. destruct (Nat.eqb_spec u t) as [->|]; [destruct H; [assumption|lia]|auto]. Qed.
Lemma bounded_wake n m w : (forall t, n <= t -> m t = @Out nat) -> forall u, n <= u -> wake1 m w u = Out.
Proof. intros B u Hu. unfold wake1. rewrite B by exact Hu. destruct (existsb _ w); reflexivity. Qed.
Lemma exec_step n a s s' : bounded n s -> exec n a s = Some s' -> bounded n s' /\ exists l, qstep l s s' /\
  match a, l with AddBy t x ig, _ => l = CallAdd t x ig | RemBy t, _ => l = CallRem t | Go _ _, (CallAdd _ _ _ | CallRem _ | Spurious _) => False | _, _ => True end.
Proof.
  unfold bounded. destruct s as [q m]. cbn [q_th exec]. intros B E. destruct a as [t x ig|t|t w].
  - destruct (m t) eqn:M; try discriminate. destruct (Nat.ltb_spec t n); [|discriminate]. injection E as <-. cbn.
    split; [apply bounded_set; auto|]. eexists. split; [apply q_call_add; exact M|reflexivity].
  - destruct (m t) eqn:M; try discriminate. destruct (Nat.ltb_spec t n); [|discriminate]. injection E as <-. cbn.
    split; [apply bounded_set; auto|]. eexists. split; [apply q_call_rem; exact M|reflexivity].
  - pose proof (bounded_set n m t Out B (or_introl eq_refl)) as B1.
    assert (Lt : m t <> Out -> t < n) by (intros K; destruct (Nat.lt_ge_cases t n); [assumption|]; rewrite B in K by assumption; congruence).
    destruct (m t) as [|x ig|x|x| | |] eqn:M; try discriminate; assert (t < n) by (apply Lt; congruence); clear Lt.
    + destruct (ig || _) eqn:G.
      * destruct (sig_ok n _ w) eqn:Sg; [|discriminate]. injection E as <-. cbn. split; [apply bounded_wake, B1|].
        exists (Added t x). split; [|exact I]. eapply q_add; [left; exact M| |apply (sig_ok_signal n); auto].
        apply orb_prop in G as [G|G]; [auto|right; apply Nat.ltb_lt, G].
      * injection E as <-. cbn. split; [apply bounded_set; auto|]. exists (Slept t). split; [|exact I].
        apply orb_false_elim in G as (-> & G). apply q_add_wait; [auto|apply Nat.ltb_ge, G].
    + destruct (Nat.ltb_spec (List.length q) max_queue_size).
      * destruct (sig_ok n _ w) eqn:Sg; [|discriminate]. injection E as <-. cbn. split; [apply bounded_wake, B1|].
        exists (Added t x). split; [|exact I]. eapply q_add; [right; split; [exact M|reflexivity]|auto|apply (sig_ok_signal n); auto].
      * injection E as <-. cbn. split; [apply bounded_set; auto|]. exists (Slept t). split; [|exact I]. apply q_add_wait; auto.
    + destruct q as [|x q].
      * injection E as <-. cbn. split; [apply bounded_set; auto|]. exists (Slept t). split; [|exact I]. apply q_rem_wait; auto.
      * destruct (sig_ok n _ w) eqn:Sg; [|discriminate]. injection E as <-. cbn. split; [apply bounded_wake, B1|].
        exists (Removed t x). split; [|exact I]. apply q_rem; [auto|apply (sig_ok_signal n); auto].
    + destruct q as [|x q].
      * injection E as <-. cbn. split; [apply bounded_set; auto|]. exists (Slept t). split; [|exact I]. apply q_rem_wait; auto.
      * destruct (sig_ok n _ w) eqn:Sg; [|discriminate]. injection E as <-. cbn. split; [apply bounded_wake, B1|].
        exists (Removed t x). split; [|exact I]. apply q_rem; [auto|apply (sig_ok_signal n); auto].
Qed.
Fixpoint execs (n : nat) (l : list act) (s : wq nat) : option (wq nat) :=
  match l with [] => Some s | a :: t => match exec n a s with Some s' => execs n t s' | None => None end end.
Definition act_ok (ps : list nat) (c : nat) (a : act) : bool :=
  match a with AddBy t _ false => existsb (Nat.eqb t) ps | AddBy t _ true => negb (t =? c) | RemBy t => t =? c | Go _ _ => true end.
Lemma execs_run n ps c l : forall tr s s', qrun wq_init tr s -> Forall (roles ps c) tr -> bounded n s -> execs n l s = Some s' -> forallb (act_ok ps c) l = true ->
  bounded n s' /\ exists tr', qrun wq_init tr' s' /\ Forall (roles ps c) tr'.
Proof.
  induction l as [|a l IH]; intros tr s s' R F B E K; cbn in *; [injection E as <-; split; [exact B|eauto]|].
  destruct (exec n a s) as [s1|] eqn:X; [|discriminate]. apply andb_prop in K as (K1 & K2).
  destruct (exec_step n a s s1 B X) as (B1 & la & St & Sh). apply (IH (tr ++ [la]) s1); auto.
  - econstructor; eassumption.
  - apply Forall_app. split; [exact F|]. constructor; [|constructor].
    destruct a as [t x ig|t|t w]; [subst la|subst la|]; cbn in *.
    + destruct ig; [intros ->; rewrite Nat.eqb_refl in K1; discriminate|]. apply existsb_exists in K1 as (u & Hu & Eu). apply Nat.eqb_eq in Eu. congruence.
    + apply Nat.eqb_eq, K1.
    + destruct la; try exact I; destruct Sh.
Qed.

(** Non-trivial run of two producers and a consumer: producer 1 fills the queue and sleeps, is woken and goes on. *)
Definition busy9 : list act :=
  [RemBy 0; Go 0 []; AddBy 2 99 true; Go 2 [0]; Go 0 []] ++ flat_map (fun i => [AddBy 1 i false; Go 1 []]) (seq 0 9) ++ [RemBy 0; Go 0 [1]].
Example c22_case : exists (tr : list (lab nat)) s, qrun wq_init tr s /\ Forall (roles [1] 0) tr /\ q_th s 1 = WokeAdd 8 /\ q_items s = seq 1 7.
Proof.
  assert (G : option_map (fun s => (q_th s 1, q_items s)) (execs 3 busy9 wq_init) = Some (WokeAdd 8, seq 1 7)) by (vm_compute; reflexivity).
  revert G. destruct (execs 3 busy9 wq_init) as [s|] eqn:E; [|discriminate]. intros G. cbn [option_map] in G. injection G as G1 G2.
  destruct (execs_run 3 [1] 0 busy9 [] wq_init s) as (B & tr & R & F); [constructor|constructor|intros t _; reflexivity|exact E|vm_compute; reflexivity|].
  exists tr, s. auto.
Qed.

(** Sixteen producers (1..16) and a consumer (0): all seventeen are asleep, for ever, with the queue full. *)
Definition deadly : list act :=
  flat_map (fun i => [AddBy i i false; Go i []]) (seq 1 8) ++            (* the queue is full *)
  flat_map (fun i => [AddBy i i false; Go i []]) (seq 1 16) ++           (* everybody sleeps *)
  flat_map (fun i => [RemBy 0; Go 0 [i]]) (seq 9 8) ++                   (* it is emptied; each time one of 9..16 is woken *)
  [RemBy 0; Go 0 []] ++                                                  (* the consumer sleeps *)
  flat_map (fun i => [Go i [i - 8]]) (seq 9 8) ++                        (* they add; each signal wakes one of 1..8 *)
  flat_map (fun i => [Go i []]) (seq 1 8) ++                             (* which find the queue full *)
  flat_map (fun i => [AddBy i i false; Go i []]) (seq 9 8).              (* and 9..16 have more to add *)
Theorem c22_deadlock_refuted : exists (tr : list (lab nat)) s, qrun wq_init tr s /\ Forall (roles (seq 1 16) 0) tr /\ stuck s /\
  (forall t, t <= 16 -> asleep (q_th s t) = true) /\ q_th s 0 = SleepRem /\ List.length (q_items s) = 8.
Proof.
  assert (G : option_map (fun s : wq nat => (forallb (fun t => asleep (q_th s t)) (seq 0 17), q_th s 0, List.length (q_items s))) (execs 17 deadly wq_init)
              = Some (true, SleepRem, 8)) by (vm_compute; reflexivity).
  revert G. destruct (execs 17 deadly wq_init) as [s|] eqn:E; [|discriminate]. intros G. cbn [option_map] in G.
  assert (G1 : forallb (fun t => asleep (q_th s t)) (seq 0 17) = true) by congruence.
  assert (G2 : q_th s 0 = SleepRem) by congruence. assert (G3 : List.length (q_items s) = 8) by congruence.
  destruct (execs_run 17 (seq 1 16) 0 deadly [] wq_init s) as (B & tr & R & F); [constructor|constructor|intros t _; reflexivity|exact E|vm_compute; reflexivity|].
  exists tr, s. split; [exact R|]. split; [exact F|].
  assert (A : forall t, t <= 16 -> asleep (q_th s t) = true).
  { rewrite forallb_forall in G1. intros t Ht. apply G1, in_seq. lia. }
  split; [|auto]. split.
  - exists 0. left. split; [exact G2|]. destruct (q_items s); discriminate.
  - intros t. destruct (Nat.le_gt_cases t 16) as [L|L]; [|rewrite B by lia; reflexivity]. specialize (A t L). destruct (q_th s t); try discriminate; reflexivity.
Qed.

Print Assumptions c21_fifo.
Print Assumptions c21_program_order.
Print Assumptions c21_limit.
Print Assumptions c22_never_stuck_partial.
Print Assumptions c22_drains_partial.
Print Assumptions c22_deadlock_refuted.
