(** C32: timers of the reactor. *)
From Verif Require Import Base ReactorModel ReactorSpec ReactorProofs.
Local Open Scope Z_scope.

(** The k-th firing (from 1) is not before registration + k times the delay; times up to 2^63 ms. *)
Theorem c32_never_early_partial now ls r id d n t k f :
  0 <= now -> typed ls -> rrun now ls r -> In (ERegister id d n t) (r_log r) ->
  nth_error (fires id (r_log r)) k = Some f -> t + Z.of_nat (S k) * d < 2 ^ 63 -> t + Z.of_nat (S k) * d <= f.
Proof.
  intros H0 TY R RG N B. destruct (run_rinv _ _ _ H0 TY R) as [(ts & T & _) _]. replace (Z.of_nat (S k)) with (Z.of_nat k + 1) in * by lia. exact (proj2 (i_fires _ _ _ _ T _ _ _ _ RG) k f N B).
Qed.

(** Never more than the number asked for; an id belongs to one registration. *)
Theorem c32_at_most now ls r id d n t :
  0 <= now -> typed ls -> rrun now ls r -> In (ERegister id d n t) (r_log r) ->
  (0 < n -> Z.of_nat (length (fires id (r_log r))) <= n) /\
  forall d' n' t', In (ERegister id d' n' t') (r_log r) -> d' = d /\ n' = n /\ t' = t.
Proof.
  intros H0 TY R RG. destruct (run_rinv _ _ _ H0 TY R) as [(ts & T & _) _]. split; [exact (proj1 (i_fires _ _ _ _ T _ _ _ _ RG))|]. intros d' n' t' X. exact (i_one _ _ _ _ T _ _ _ _ _ _ _ RG X).
Qed.

(** With [K] turns over the timers begun at or after registration + K times the delay, it has fired K times (n = 0, or K up to n),
    unless it was removed; not while in a turn.  With K = n and [c32_at_most]: exactly n times. *)
Theorem c32_enough_turns_partial now ls r id d n t l1 l2 K :
  0 <= now -> typed ls -> rrun now ls r -> r_log r = l1 ++ ERegister id d n t :: l2 -> ~ removed id (r_log r) ->
  n = 0 \/ Z.of_nat K <= n -> t + Z.of_nat K * d < 2 ^ 63 -> r_phase r <> Dead -> (forall s rest, r_phase r <> Pass s rest) ->
  (K <= passes (t + Z.of_nat K * d) l2)%nat -> (K <= length (fires id (r_log r)))%nat.
Proof.
  intros H0 TY R LG NR KN B ND NP P. destruct (run_kept _ _ _ id d n t K H0 TY R KN B l1 l2 LG NR ND) as [A|[A|((s & rest & A & _) & _)]]; [exact A|lia|destruct (NP _ _ A)].
Qed.
Theorem c32_exactly_partial now ls r id d n t l1 l2 :
  0 <= now -> typed ls -> rrun now ls r -> r_log r = l1 ++ ERegister id d n t :: l2 -> ~ removed id (r_log r) ->
  0 < n -> t + n * d < 2 ^ 63 -> r_phase r <> Dead -> (forall s rest, r_phase r <> Pass s rest) ->
  n <= Z.of_nat (passes (t + n * d) l2) -> Z.of_nat (length (fires id (r_log r))) = n /\ tm_get (r_timers r) id = None.
Proof.
  intros H0 TY R LG NR N0 B ND NP P. assert (RG : In (ERegister id d n t) (r_log r)) by (rewrite LG; apply in_or_app; right; left; reflexivity).
  pose proof (proj1 (c32_at_most _ _ _ _ _ _ _ H0 TY R RG) N0) as U. pose proof (Z2Nat.id n ltac:(lia)) as I.
  assert (L : (Z.to_nat n <= length (fires id (r_log r)))%nat) by (eapply (c32_enough_turns_partial now ls r id d n t l1 l2 (Z.to_nat n)); try eassumption; rewrite ?I; try lia; assumption).
  assert (E : Z.of_nat (length (fires id (r_log r))) = n) by lia. split; [exact E|].
  pose proof (rinv_tinv _ (run_rinv _ _ _ H0 TY R) ND) as T. destruct (tm_get (r_timers r) id) eqn:TG; [|reflexivity]. exfalso. apply (i_gone _ _ _ _ T _ _ _ _ RG N0 E). apply tm_get_in. eauto.
Qed.

(** Whenever the reactor starts to sleep it is to wake by the time at which any timer it holds is due, or is already late, and
    within an hour. *)
Theorem c32_wakes_partial now ls r d r' deadline id d' n t :
  0 <= now -> typed ls -> rrun now ls r -> rstep (LLoop d) r = Some r' -> r_phase r' = Poll deadline ->
  deadline <= Z.max (r_now r') (r_now r + 3600000) /\
  (In (ERegister id d' n t) (r_log r) -> ~ removed id (r_log r) -> n = 0 \/ Z.of_nat (length (fires id (r_log r))) < n ->
   t + Z.of_nat (S (length (fires id (r_log r)))) * d' < 2 ^ 63 ->
   deadline <= Z.max (r_now r') (t + Z.of_nat (S (length (fires id (r_log r)))) * d')).
Proof.
  intros H0 TY R S P. cbn [rstep] in S. destruct (r_phase r) eqn:PH; try discriminate. assert (T : tinv (r_now r) (r_next r) (r_timers r) (r_log r)) by (apply rinv_tinv; [exact (run_rinv _ _ _ H0 TY R)|congruence]).
  destruct (r_term r); [injection S as <-; discriminate|].
  assert (E : r_now r' = r_now r + d /\ 0 <= d /\ deadline = Z.max (tickless (r_now r) (r_timers r)) (r_now r + d)).
  { assert (X : (if 0 <=? d then Some (at_phase (Poll (Z.max (tickless (r_now r) (r_timers r)) (r_now r + d))) (tick d r)) else None) = Some r' -> r_now r' = r_now r + d /\ 0 <= d /\ deadline = Z.max (tickless (r_now r) (r_timers r)) (r_now r + d)).
    { destruct (Z.leb_spec 0 d); [|discriminate]. intros X. injection X as <-. cbn in P. injection P as <-. auto. }
    destruct (r_chans r); [|auto]. destruct (r_timers r); [injection S as <-; discriminate|auto]. }
  destruct E as (E1 & D & ->). rewrite E1. split; [pose proof (tickless_max (r_now r) (r_timers r)); lia|].
  intros RG NR LT B. assert (IN : In id (map fst (r_timers r))) by (eapply i_there; eauto). apply tm_get_in in IN as (tm & TG). destruct (i_map _ _ _ _ T _ _ _ _ _ TG RG) as (_ & EQ). destruct (i_reg _ _ _ _ T _ _ _ _ RG) as (_ & G1 & G2 & _).
  pose proof (tickless_le (r_now r) _ _ _ (tm_get_some _ _ _ TG)) as L. rewrite EQ in L. cbn [t_when] in L. unfold nf in L. replace (Z.of_nat (Datatypes.S (length (fires id (r_log r))))) with (Z.of_nat (length (fires id (r_log r))) + 1) in * by lia.
  assert (0 <= (Z.of_nat (length (fires id (r_log r))) + 1) * d') by nia. rewrite i64_small in L by lia. lia.
Qed.

(** The reactor is never stuck unless it returned or a timer callback changed the timers: time aside, the thread has a next step. *)
Definition of_thread (a : label) : bool := match a with LLoop _ | LTimeout | LEvent | LCalled | LInterrupt | LVisit _ | LUnlock => true | _ => false end.
Theorem c32_goes_on_partial now ls r :
  0 <= now -> typed ls -> rrun now ls r -> (forall rc, r_phase r <> Done rc) -> r_phase r <> Dead ->
  exists d a r1 r2, rstep (LTick d) r = Some r1 /\ of_thread a = true /\ a <> LInterrupt /\ rstep a r1 = Some r2.
Proof.
  intros H0 TY R ND NDD. pose proof (run_rinv _ _ _ H0 TY R) as I. destruct (r_phase r) as [|dl| |s rest|rc|] eqn:P; [..|destruct (ND rc eq_refl)|congruence].
  - exists 0, (LLoop 0). cbn [rstep]. eexists. destruct (r_term r) eqn:T; [|destruct (r_chans r) eqn:C; [destruct (r_timers r) eqn:M|]]; eexists; (split; [reflexivity|]); (split; [reflexivity|]); (split; [discriminate|]);
      cbn [tick r_phase r_term r_chans r_timers r_now]; rewrite P, T, ?C, ?M; reflexivity.
  - exists (Z.max 0 (dl - r_now r)), LTimeout. cbn [rstep]. destruct (Z.leb_spec 0 (Z.max 0 (dl - r_now r))); [|lia]. do 2 eexists. split; [reflexivity|]. split; [reflexivity|]. split; [discriminate|]. cbn [tick r_phase r_now]. rewrite P.
    destruct (Z.leb_spec dl (r_now r + Z.max 0 (dl - r_now r))); [reflexivity|lia].
  - exists 0, LCalled. cbn [rstep]. do 2 eexists. split; [reflexivity|]. split; [reflexivity|]. split; [discriminate|]. cbn [tick r_phase]. rewrite P. reflexivity.
  - destruct rest as [|id rest].
    + exists 0, LUnlock. cbn [rstep]. do 2 eexists. split; [reflexivity|]. split; [reflexivity|]. split; [discriminate|]. cbn [tick r_phase]. rewrite P. reflexivity.
    + destruct (r_pass _ I _ _ P) as (_ & _ & S3). destruct (proj2 (tm_get_in _ _) (S3 id (or_introl eq_refl))) as (tm & TG).
      exists 0, (LVisit ANothing). cbn [rstep]. eexists. destruct (t_when tm <=? r_now r + 0) eqn:W; eexists; (split; [reflexivity|]); (split; [reflexivity|]); (split; [discriminate|]); cbn [tick r_phase r_timers r_now]; rewrite P, TG, W; reflexivity.
Qed.

(** Every sleep but one that was interrupted or is still going on is followed by a turn over the timers. *)
Definition sleeps (ls : list label) : nat := length (filter (fun a => match a with LTimeout | LEvent => true | _ => false end) ls).
Theorem c32_turn_after_sleep now ls r :
  0 <= now -> rrun now ls r -> length (filter (fun e => match e with EPass _ => true | _ => false end) (r_log r)) = match r_phase r with Chans => pred (sleeps ls) | _ => sleeps ls end /\ (r_phase r = Chans -> sleeps ls <> O).
Proof.
  intros H0 R. induction R as [|ls r a r' R IH S]; [split; [reflexivity|discriminate]|]. destruct IH as (IH & IC). set (ps := fun e => match e with EPass _ => true | _ => false end) in *.
  assert (SL : sleeps (ls ++ [a]) = (sleeps ls + match a with LTimeout | LEvent => 1 | _ => 0 end)%nat) by (unfold sleeps; rewrite filter_app, app_length; f_equal; destruct a; reflexivity).
  rewrite SL. clear SL. destruct a; cbn [rstep] in S; rewrite ?Nat.add_0_r.
  - destruct (0 <=? d); [|discriminate]. injection S as <-. split; assumption.
  - destruct (_ && _); [|discriminate]. injection S as <-. cbn [emit r_log r_phase]. rewrite filter_app. cbn [filter ps]. rewrite app_nil_r. split; assumption.
  - destruct (free _); [|discriminate]. injection S as <-. cbn [emit with_timers r_log r_phase]. rewrite filter_app. cbn [filter ps]. rewrite app_nil_r. split; assumption.
  - injection S as <-. split; assumption.
  - injection S as <-. split; assumption.
  - destruct (r_phase r) eqn:P; try discriminate. destruct (r_term r), (r_chans r), (r_timers r), (0 <=? d); try discriminate; injection S as <-; (split; [exact IH|discriminate]).
  - destruct (r_phase r) eqn:P; try discriminate. destruct (_ <=? _); [|discriminate]. injection S as <-. cbn [emit at_phase r_log r_phase]. rewrite filter_app, app_length, IH. split; [reflexivity|discriminate].
  - destruct (r_phase r) eqn:P; try discriminate. destruct (r_chans r); [discriminate|]. injection S as <-. cbn [at_phase r_log r_phase]. split; [rewrite IH; lia|intros _; lia].
  - destruct (r_phase r) eqn:P; try discriminate. injection S as <-. cbn [emit at_phase r_log r_phase]. rewrite filter_app, app_length, IH. specialize (IC eq_refl). split; [cbn; lia|discriminate].
  - destruct (r_phase r) eqn:P; try discriminate. injection S as <-. split; [exact IH|discriminate].
  - destruct (r_phase r) as [| | |s [|id rest]| |] eqn:P; try discriminate. destruct (tm_get _ _); [|discriminate]. destruct (_ <=? _); [|injection S as <-; split; [exact IH|discriminate]].
    destruct a; injection S as <-; cbn [at_phase with_timers terminate emit r_log r_phase]; rewrite filter_app; cbn [filter ps]; rewrite app_nil_r; (split; [exact IH|discriminate]).
  - destruct (r_phase r) as [| | |s [|id rest]| |] eqn:P; try discriminate. injection S as <-. split; [exact IH|discriminate].
  - destruct (_ <? _); [|discriminate]. injection S as <-. split; assumption.
Qed.

(** A timer that was removed fires no more.  (A callback of it may be running: remove_timer waits.) *)
Theorem c32_removed now ls r id d n t l1 l2 : 0 <= now -> typed ls -> rrun now ls r -> r_log r = l1 ++ ERemove id :: l2 -> In (ERegister id d n t) l1 -> fires id l2 = [].
Proof.
  intros H0 TY R LG RG. enough (G : forall l1 l2, r_log r = l1 ++ ERemove id :: l2 -> In (ERegister id d n t) l1 -> fires id l2 = [] /\ ~ In id (map fst (r_timers r))) by (eapply G; eassumption).
  clear l1 l2 LG RG. revert TY. induction R as [|ls r a r' R IH S]; intros TY l1 l2 LG RG; [destruct l1; discriminate|]. specialize (IH (typed_app _ _ TY)). pose proof (run_rinv _ _ _ H0 (typed_app _ _ TY) R) as I.
  assert (SAME : r_log r' = r_log r -> r_timers r' = r_timers r -> fires id l2 = [] /\ ~ In id (map fst (r_timers r'))) by (intros E1 E2; rewrite E1 in LG; rewrite E2; eapply IH; eassumption).
  assert (EMIT : forall e, r_log r' = r_log r ++ [e] -> e <> ERemove id -> exists l2', l2 = l2' ++ [e] /\ fires id l2' = [] /\ ~ In id (map fst (r_timers r))).
  { intros e E NE. rewrite E in LG. apply snoc_split in LG as [(_ & X)|(l2' & -> & X)]; [congruence|]. exists l2'. split; [reflexivity|]. eapply IH; eassumption. }
  destruct a; cbn [rstep] in S.
  - destruct (0 <=? d0); [|discriminate]. injection S as <-. apply SAME; reflexivity.
  - destruct (free (r_phase r)) eqn:F; [|discriminate]. cbn [andb] in S. destruct (_ <? _); [|discriminate]. injection S as <-. pose proof (rinv_tinv r I (free_not_dead _ F)) as T. destruct (EMIT _ eq_refl ltac:(discriminate)) as (l2' & -> & A & B).
    cbn [emit r_timers]. rewrite fires_app, A. split; [reflexivity|]. rewrite map_app. intros X. apply in_app_or in X as [X|[X|[]]]; [contradiction|]. cbn in X. cbn [emit r_log] in LG.
    change (l1 ++ ERemove id :: l2' ++ [ERegister (r_next r) delay times (r_now r)]) with (l1 ++ (ERemove id :: l2') ++ [ERegister (r_next r) delay times (r_now r)]) in LG. rewrite app_assoc in LG. apply app_inj_tail in LG as (LG & _).
    assert (RL : In (ERegister id d n t) (r_log r)) by (rewrite LG; apply in_or_app; auto). destruct (i_reg _ _ _ _ T _ _ _ _ RL). lia.
  - destruct (free (r_phase r)); [|discriminate]. injection S as <-. cbn [emit with_timers r_log r_timers] in *. destruct (Z.eq_dec id0 id) as [->|NE].
    + split; [|rewrite tm_del_in; tauto]. apply snoc_split in LG as [(-> & _)|(l2' & -> & X)]; [reflexivity|]. rewrite fires_app, (proj1 (IH _ _ X RG)). reflexivity.
    + destruct (EMIT _ eq_refl ltac:(congruence)) as (l2' & -> & A & B). rewrite fires_app, A, tm_del_in. split; [reflexivity|tauto].
  - injection S as <-. apply SAME; reflexivity.
  - injection S as <-. apply SAME; reflexivity.
  - destruct (r_phase r); try discriminate. destruct (r_term r); [injection S as <-; apply SAME; reflexivity|].
    assert (X : (if 0 <=? d0 then Some (at_phase (Poll (Z.max (tickless (r_now r) (r_timers r)) (r_now r + d0))) (tick d0 r)) else None) = Some r' -> fires id l2 = [] /\ ~ In id (map fst (r_timers r'))) by (destruct (0 <=? d0); [|discriminate]; intros E; injection E as <-; apply SAME; reflexivity).
    destruct (r_chans r); [|auto]. destruct (r_timers r) eqn:E; [injection S as <-; apply SAME; [reflexivity|exact E]|auto].
  - destruct (r_phase r); try discriminate. destruct (_ <=? _); [|discriminate]. injection S as <-. destruct (EMIT _ eq_refl ltac:(discriminate)) as (l2' & -> & A & B). rewrite fires_app, A. split; [reflexivity|exact B].
  - destruct (r_phase r); try discriminate. destruct (r_chans r); [discriminate|]. injection S as <-. apply SAME; reflexivity.
  - destruct (r_phase r); try discriminate. injection S as <-. destruct (EMIT _ eq_refl ltac:(discriminate)) as (l2' & -> & A & B). rewrite fires_app, A. split; [reflexivity|exact B].
  - destruct (r_phase r); try discriminate. injection S as <-. apply SAME; reflexivity.
  - destruct (r_phase r) as [| | |s [|j rest]| |] eqn:P; try discriminate. destruct (tm_get (r_timers r) j) as [tm|] eqn:TG; [|discriminate]. destruct (_ <=? _); [|injection S as <-; apply SAME; reflexivity].
    assert (LR : r_log r' = r_log r ++ [EFire j (r_now r)]) by (destruct a; injection S as <-; reflexivity). destruct (EMIT _ LR ltac:(discriminate)) as (l2' & -> & A & B).
    assert (NE : j <> id) by (intros ->; apply B, tm_get_in; eauto). rewrite fires_app, A. cbn [fires flat_map]. destruct (Z.eqb_spec j id); [contradiction|]. split; [reflexivity|].
    destruct a; injection S as <-; cbn [at_phase with_timers emit r_timers]; try exact B; destruct (_ && _); rewrite ?tm_del_in, ?tm_set_keys; tauto.
  - destruct (r_phase r) as [| | |s [|j rest]| |]; try discriminate. injection S as <-. apply SAME; reflexivity.
  - destruct (_ <? _); [|discriminate]. injection S as <-. apply SAME; reflexivity.
Qed.

(** run() returns 0 only if it was told to stop or had neither a channel nor a timer left. *)
Theorem c32_ends now ls r a r' rc : 0 <= now -> typed ls -> rrun now ls r -> (forall rc', r_phase r <> Done rc') -> rstep a r = Some r' -> r_phase r' = Done rc ->
  rc = -1 /\ a = LInterrupt \/ rc = 0 /\ (r_term r = true \/ r_chans r = O /\ forall id d n t, In (ERegister id d n t) (r_log r) -> ~ removed id (r_log r) -> 0 < n /\ Z.of_nat (length (fires id (r_log r))) = n).
Proof.
  intros H0 TY R ND S P. destruct a; cbn [rstep] in S.
  - destruct (0 <=? d); [|discriminate]. injection S as <-. destruct (ND _ P).
  - destruct (_ && _); [|discriminate]. injection S as <-. destruct (ND _ P).
  - destruct (free _); [|discriminate]. injection S as <-. destruct (ND _ P).
  - injection S as <-. destruct (ND _ P).
  - injection S as <-. destruct (ND _ P).
  - destruct (r_phase r) eqn:PH; try discriminate. right. destruct (r_term r); [injection S as <-; injection P as <-; auto|].
    destruct (r_chans r); [|destruct (0 <=? d); [|discriminate]; injection S as <-; discriminate].
    destruct (r_timers r) eqn:TS; [|destruct (0 <=? d); [|discriminate]; injection S as <-; discriminate]. injection S as <-. injection P as <-. split; [reflexivity|]. right. split; [reflexivity|]. intros id d' n t RG NR.
    assert (T : tinv (r_now r) (r_next r) (r_timers r) (r_log r)) by (apply rinv_tinv; [exact (run_rinv _ _ _ H0 TY R)|congruence]). rewrite TS in T. destruct (i_reg _ _ _ _ T _ _ _ _ RG) as (_ & _ & _ & N0).
    pose proof (fun X => i_there _ _ _ _ T _ _ _ _ RG NR X) as J. cbn in J. pose proof (proj1 (i_fires _ _ _ _ T _ _ _ _ RG)) as U. unfold nf in *.
    destruct (Z.eq_dec n 0) as [->|N]; [destruct (J (or_introl eq_refl))|]. split; [lia|]. destruct (Z.lt_ge_cases (Z.of_nat (length (fires id (r_log r)))) n) as [L|L]; [destruct (J (or_intror L))|]. specialize (U ltac:(lia)). lia.
  - destruct (r_phase r) eqn:PH; try discriminate. destruct (_ <=? _); [|discriminate]. injection S as <-. discriminate.
  - destruct (r_phase r) eqn:PH; try discriminate. destruct (r_chans r); [discriminate|]. injection S as <-. discriminate.
  - destruct (r_phase r) eqn:PH; try discriminate. injection S as <-. discriminate.
  - destruct (r_phase r) eqn:PH; try discriminate. injection S as <-. injection P as <-. left. auto.
  - destruct (r_phase r) as [| | |s [|id rest]| |] eqn:PH; try discriminate. destruct (tm_get _ _); [|discriminate]. destruct (_ <=? _); [|injection S as <-; discriminate]. destruct a; injection S as <-; discriminate.
  - destruct (r_phase r) as [| | |s [|id rest]| |] eqn:PH; try discriminate. injection S as <-. discriminate.
  - destruct (_ <? _); [|discriminate]. injection S as <-. destruct (ND _ P).
Qed.

(** Runs that can be computed. *)
Fixpoint rgo (r : reactor) (ls : list label) : option reactor := match ls with [] => Some r | a :: m => match rstep a r with Some r' => rgo r' m | None => None end end.
Definition rafter (now : Z) (ls : list label) : reactor := match rgo (reactor_init now) ls with Some r => r | None => reactor_init now end.
Lemma rgo_run now ls0 r ls r' : rrun now ls0 r -> rgo r ls = Some r' -> rrun now (ls0 ++ ls) r'.
Proof. revert ls0 r. induction ls as [|a ls IH]; intros ls0 r R H; cbn in H; [injection H as <-; rewrite app_nil_r; exact R|]. destruct (rstep a r) eqn:S; [|discriminate]. replace (ls0 ++ a :: ls) with ((ls0 ++ [a]) ++ ls) by (rewrite <- app_assoc; reflexivity). eapply IH; [eapply rr_step; eassumption|exact H]. Qed.
Lemma rafter_run now ls : (match rgo (reactor_init now) ls with Some _ => true | None => false end) = true -> rrun now ls (rafter now ls).
Proof. unfold rafter. intros H. destruct (rgo (reactor_init now) ls) as [r|] eqn:E; [|discriminate]. apply (rgo_run now [] (reactor_init now)); [constructor|exact E]. Qed.
Definition typed_check (ls : list label) : bool := forallb (fun a => match a with LRegister d n => (0 <=? d) && (d <? 2 ^ 64) && (0 <=? n) && (n <? 2 ^ 64) | _ => true end) ls.
Lemma typed_check_ok ls : typed_check ls = true -> typed ls.
Proof. intros H d n X. unfold typed_check in H. rewrite forallb_forall in H. specialize (H _ X). cbn in H. rewrite !andb_true_iff, !Z.leb_le, !Z.ltb_lt in H. lia. Qed.

(** Two timers: 10 ms twice, 25 ms forever. *)
Definition two_timers : list label :=
  [LRegister 10 2; LRegister 25 0; LLoop 0; LTick 11; LTimeout; LVisit ANothing; LVisit ANothing; LUnlock; LLoop 0; LTick 9; LTimeout; LVisit ANothing; LVisit ANothing; LUnlock; LLoop 1; LTick 40; LTimeout; LVisit ANothing; LUnlock; LLoop 0].
Example c32_case : rrun 1000 two_timers (rafter 1000 two_timers) /\ typed two_timers /\ r_log (rafter 1000 two_timers) = [ERegister 0 10 2 1000; ERegister 1 25 0 1000; EPass 1011; EFire 0 1011; EPass 1020; EFire 0 1020; EPass 1061; EFire 1 1061] /\
  fires 0 (r_log (rafter 1000 two_timers)) = [1011; 1020] /\ passes (1000 + 1 * 25) (skipn 2 (r_log (rafter 1000 two_timers))) = 1%nat /\ r_phase (rafter 1000 two_timers) = Poll 1061.
Proof. split; [apply rafter_run; vm_compute; reflexivity|]. split; [apply typed_check_ok; vm_compute; reflexivity|]. vm_compute. repeat split. Qed.
(** Two turns began at or after 1020. *)
Example c32_exactly_case : let r := rafter 1000 two_timers in Z.of_nat (passes (1000 + 2 * 10) (skipn 1 (r_log r))) = 2 /\ Z.of_nat (length (fires 0 (r_log r))) = 2 /\ ~ removed 0 (r_log r) /\ tm_get (r_timers r) 0 = None.
Proof. vm_compute. repeat split. intros H. repeat (destruct H as [H|H]; [discriminate|]). exact H. Qed.

Definition removed_timer : list label := [LRegister 10 0; LChannels 1; LLoop 0; LTick 10; LTimeout; LVisit ANothing; LUnlock; LRemove 0; LLoop 0; LTick 30; LEvent; LCalled; LUnlock].
Example c32_removed_case : rrun 0 removed_timer (rafter 0 removed_timer) /\ r_log (rafter 0 removed_timer) = [ERegister 0 10 0 0; EPass 10; EFire 0 10] ++ ERemove 0 :: [EPass 40].
Proof. split; [apply rafter_run; vm_compute; reflexivity|vm_compute; reflexivity]. Qed.

(** The sleep does pass the due time of a timer that another thread registers during the sleep: for up to an hour, with a channel
    on which nothing arrives, although the timer is due after 10 ms. *)
Theorem c32_register_while_asleep_refuted : exists ls r, typed ls /\ rrun 0 ls r /\ In (ERegister 0 10 1 0) (r_log r) /\ ~ removed 0 (r_log r) /\ r_now r = 3599999 /\ r_phase r = Poll 3600000 /\ rstep LTimeout r = None /\ fires 0 (r_log r) = [].
Proof.
  exists [LChannels 1; LLoop 0; LRegister 10 1; LTick 3599999]. eexists. split; [apply typed_check_ok; vm_compute; reflexivity|]. split; [apply rafter_run; vm_compute; reflexivity|]. vm_compute. repeat split; [auto|]. intros [H|[]]. discriminate.
Qed.
(** A delay of 2^63 ms or more is taken for a time in the past. *)
Theorem c32_huge_delay_refuted : exists ls r, typed ls /\ rrun 0 ls r /\ In (ERegister 0 (2 ^ 64 - 1) 1 0) (r_log r) /\ fires 0 (r_log r) = [0].
Proof.
  exists [LRegister (2 ^ 64 - 1) 1; LLoop 0; LTimeout; LVisit ANothing; LUnlock]. eexists. split; [apply typed_check_ok; vm_compute; reflexivity|]. split; [apply rafter_run; vm_compute; reflexivity|]. vm_compute. repeat split; auto.
Qed.
Lemma dead_stays r a r' : r_phase r = Dead -> rstep a r = Some r' -> of_thread a = false /\ r_phase r' = Dead /\ r_timers r' = r_timers r /\ r_log r' = r_log r.
Proof.
  intros P. destruct a; cbn [rstep]; rewrite ?P; cbn [free andb]; try discriminate; try (destruct (0 <=? d); [|discriminate]); try (destruct (_ <? _); [|discriminate]); intros H; injection H as <-; repeat split; exact P.
Qed.
(** A timer callback that registers or removes a timer never returns: the reactor waits for the lock it holds, for ever. *)
Theorem c32_callback_deadlock_refuted : exists ls r, typed ls /\ rrun 0 ls r /\ r_phase r = Dead /\ fires 0 (r_log r) = [1] /\
  forall a r', rstep a r = Some r' -> of_thread a = false /\ r_phase r' = Dead /\ r_timers r' = r_timers r /\ r_log r' = r_log r.
Proof.
  exists [LRegister 1 0; LLoop 0; LTick 1; LTimeout; LVisit ATimers]. eexists. split; [apply typed_check_ok; vm_compute; reflexivity|]. split; [apply rafter_run; vm_compute; reflexivity|]. split; [vm_compute; reflexivity|]. split; [vm_compute; reflexivity|].
  intros a r'. apply dead_stays. vm_compute. reflexivity.
Qed.

Print Assumptions c32_never_early_partial.
Print Assumptions c32_at_most.
Print Assumptions c32_enough_turns_partial.
Print Assumptions c32_exactly_partial.
Print Assumptions c32_wakes_partial.
Print Assumptions c32_goes_on_partial.
Print Assumptions c32_turn_after_sleep.
Print Assumptions c32_removed.
Print Assumptions c32_ends.
Print Assumptions c32_register_while_asleep_refuted.
Print Assumptions c32_huge_delay_refuted.
Print Assumptions c32_callback_deadlock_refuted.
