(** C71: the watchdog of the calls into HDF5. *)
From Coq Require Import String.
From Verif Require Import Base ReactorModel ReactorSpec ReactorProofs PluginModel DogModel DogSpec DogProofs DogTime.
Local Open Scope Z_scope.
Local Open Scope list_scope.

Ltac step_cases S w :=
  repeat match type of S with
  | context [if 0 <=? ?d then _ else _] => destruct (Z.leb_spec 0 d); [|discriminate]
  | context [match w_hb w with _ => _ end] => destruct (w_hb w); try discriminate
  | context [if booted w then _ else _] => destruct (booted w); [|discriminate]
  | context [match rstep ?x ?y with _ => _ end] => destruct (rstep x y) eqn:?; [|discriminate]
  | context [if ?c then _ else _] => destruct c; try discriminate
  | context [match r_phase ?x with _ => _ end] => destruct (r_phase x); try discriminate
  end.

(** ** Reports. *)
(** Never without cause: a report names a call that is in progress and has lasted for its timeout (in whole ms of the clock), and it is
    the only one for that call. *)
Theorem c71_report g ns w a m t b : 0 <= ns -> wrun g ns w -> w_ns w < 2 ^ 62 -> w_log w = a ++ HReport m t :: b -> justified a m t.
Proof. intros N R B. exact (v_reports _ _ (wrun_inv g ns w N R B) a m t b). Qed.

(** ** Steps seen from the log. *)
Lemma flag_pos g ns w : wrun g ns w -> (w_flag w = false <-> w_pos w = Ending \/ w_pos w = Gone).
Proof.
  induction 1 as [|w a w' R IH S]; [cbn; split; [discriminate|intros [H|H]; discriminate]|].
  unfold wstep in S. destruct (w_pos w) eqn:PS; try discriminate; destruct a; try discriminate; unfold worker, inner in S;
  try (match type of S with context [visit w] => apply visit_cases in S as (s & id & rest & t & P & G & BO & [(D & ->)|[(D & E & r' & -> & R')|(D & E & r' & R' & ->)]]); cbn [say with_msgs with_r w_flag w_pos]; rewrite ?PS; exact IH end);
  step_cases S w; try injection S as <-; cbn [say with_pos with_ns with_r with_msgs w_flag w_pos]; rewrite ?PS; try exact IH;
  try (split; [intros X; apply IH in X as [X|X]; discriminate|intros [X|X]; discriminate]); try (split; auto; fail); split; auto; intros _; apply IH; auto.
Qed.
(** A call whose start_timer returned, with a timeout, that is neither finished nor reported has its timer. *)
Lemma has_timer g ns w : 0 <= ns -> wrun g ns w -> w_ns w < 2 ^ 62 -> forall a name T s t b, w_log w = a ++ HBegan name T s t :: b -> 0 < T -> unanswered b ->
  w_pos w = Busy /\ tm_get (r_timers (w_r w)) (w_id w) = Some (Timer T 1 (t + T)).
Proof.
  intros N R. induction R as [|w x w' R IH S]; intros B a name T s t b LG T0 U; [destruct a; discriminate|].
  assert (B0 : w_ns w < 2 ^ 62) by (pose proof (step_ns _ _ _ S); lia). specialize (IH B0). pose proof (wrun_inv g ns w N R B0) as V.
  assert (SAME : w_log w' = w_log w -> (w_pos w = Busy -> w_pos w' = Busy) -> (w_pos w = Busy -> w_id w' = w_id w) -> (forall tm, w_pos w = Busy -> tm_get (r_timers (w_r w)) (w_id w) = Some tm -> tm_get (r_timers (w_r w')) (w_id w) = Some tm) ->
    w_pos w' = Busy /\ tm_get (r_timers (w_r w')) (w_id w') = Some (Timer T 1 (t + T))).
  { intros E1 E2 E3 E4. rewrite E1 in LG. destruct (IH _ _ _ _ _ _ LG T0 U) as (I1 & I2). split; [auto|]. rewrite (E3 I1). auto. }
  assert (NGO : w_pos w <> Gone) by (intros E; unfold wstep in S; rewrite E in S; discriminate).
  assert (EMIT : forall e, w_log w' = w_log w ++ [e] -> (forall n T s t, e <> HBegan n T s t) -> match e with HReport _ _ | HDone _ => False | _ => True end /\ w_pos w = Busy /\ tm_get (r_timers (w_r w)) (w_id w) = Some (Timer T 1 (t + T))).
  { intros e E NB. rewrite E in LG. apply snoc_cases in LG as [(_ & X & _)|(b' & -> & X)]; [destruct (NB _ _ _ _ X)|]. split; [exact (U e ltac:(apply in_or_app; right; left; reflexivity))|]. eapply IH; [exact X|exact T0|]. intros y Y. apply U, in_or_app. auto. }
  destruct x.
  - unfold wstep, inner in S. cbn [rstep] in S. destruct (0 <=? ns0); [|destruct (w_pos w); discriminate]. destruct (0 <=? _); [|destruct (w_pos w); discriminate]. assert (W : w' = with_ns (w_ns w + ns0) (with_r (tick (ticks ns0 w) (w_r w)) w)) by (destruct (w_pos w); congruence). subst w'. apply SAME; auto.
  - unfold wstep, inner in S. cbn [rstep] in S. destruct (_ <? _); [|destruct (w_pos w); discriminate]. assert (W : exists r', w' = with_r r' w /\ r_timers r' = r_timers (w_r w)) by (eexists; split; [destruct (w_pos w); [symmetry; injection S as S; exact S..|congruence]|reflexivity]). destruct W as (r' & -> & E). apply SAME; auto. intros tm _ X. cbn [with_r w_r]. congruence.
  - assert (S2 : w' = say HClear (with_msgs (clear_errors (w_msgs w)) w)) by (unfold wstep in S; destruct (w_pos w); congruence). subst w'. destruct (EMIT HClear eq_refl ltac:(discriminate)) as (_ & H). exact H.
  - unfold wstep, inner in S. destruct (w_hb w) eqn:HB; [destruct (w_pos w); discriminate|]. cbn [rstep] in S. destruct (free _ && _); [|destruct (w_pos w); discriminate]. set (r1 := emit _ _) in S. assert (W : w' = Wd r1 (w_ns w) (w_flag w) (Some (r_next (w_r w))) (w_names w) (w_pos w) (w_start w) (w_timeout w) (w_name w) (w_id w) (w_msgs w) (w_log w)) by (destruct (w_pos w); try congruence; injection S as <-; reflexivity). subst w'. apply SAME; auto.
    intros tm _ X. cbn [w_r]. unfold r1. cbn [emit r_timers]. rewrite tm_get_app, X. reflexivity.
  - unfold wstep, worker, inner in S. destruct (0 <=? ns0); [|destruct (w_pos w); discriminate]. destruct (booted w); [|destruct (w_pos w); discriminate]. destruct (rstep (LLoop (ticks ns0 w)) (w_r w)) as [r'|] eqn:RS; [|destruct (w_pos w); discriminate].
    assert (ET : r_timers r' = r_timers (w_r w)). { cbn [rstep] in RS. destruct (r_phase (w_r w)); try discriminate. destruct (r_term (w_r w)); [injection RS as <-; reflexivity|]. destruct (r_chans (w_r w)), (r_timers (w_r w)) eqn:TS; try (injection RS as <-; exact TS); destruct (0 <=? ticks ns0 w); try discriminate; injection RS as <-; exact TS. }
    assert (W : w_log w' = w_log w /\ w_pos w' = w_pos w /\ w_id w' = w_id w /\ w_r w' = r') by (destruct (w_pos w) eqn:PS; try congruence; injection S as <-; cbn [with_r w_r]; destruct (r_phase r'); cbn [with_ns with_r w_log w_pos w_id w_r]; auto).
    destruct W as (W1 & W2 & W3 & W4). apply SAME; [exact W1|congruence|auto|]. intros tm _ X. rewrite W4, ET. exact X.
  - unfold wstep, worker, inner in S. destruct (booted w); [|destruct (w_pos w); discriminate]. cbn [rstep] in S. destruct (r_phase (w_r w)); try (destruct (w_pos w); discriminate). destruct (_ <=? _); [|destruct (w_pos w); discriminate].
    assert (W : exists r', w' = with_r r' w /\ r_timers r' = r_timers (w_r w)) by (eexists; split; [destruct (w_pos w); [symmetry; injection S as S; exact S..|congruence]|reflexivity]). destruct W as (r' & -> & E). apply SAME; auto. intros tm _ X. cbn [with_r w_r]. congruence.
  - assert (S2 : visit w = Some w') by (unfold wstep in S; destruct (w_pos w); [exact S..|congruence]). clear S. apply visit_cases in S2 as (s0 & id & rest & t1 & P & G & BO & [(D & ->)|[(D & E & r' & -> & R')|(D & E & r' & R' & ->)]]).
    + apply SAME; auto.
    + apply (fired _ _ _ s0 id rest t1) in R'; try assumption; [|destruct (w_flag w); discriminate]. destruct (v_tm _ _ V id t1 G) as [(_ & t2 & T1 & T2)|(X & _)]; [|congruence]. rewrite T1 in R'. cbn [t_times t_delay t_when] in R'. change (0 <? 0) with false in R'. cbv iota zeta in R'. cbn [andb] in R'. subst r'. apply SAME; auto.
      intros tm PB X. cbn [with_r w_r r_timers]. rewrite tm_set_get, G. destruct (Z.eqb_spec (w_id w) id) as [EQ|EQ]; [|exact X]. exfalso. destruct (IH _ _ _ _ _ _ LG T0 U) as (_ & I2). rewrite EQ, G in I2. injection I2 as I2. subst t1. discriminate.
    + destruct (EMIT _ eq_refl ltac:(discriminate)) as ([] & _).
  - unfold wstep, worker, inner in S. destruct (booted w); [|destruct (w_pos w); discriminate]. cbn [rstep] in S. destruct (r_phase (w_r w)) as [| | |? [|]| |]; try (destruct (w_pos w); discriminate).
    assert (W : exists r', w' = with_r r' w /\ r_timers r' = r_timers (w_r w)) by (eexists; split; [destruct (w_pos w); [symmetry; injection S as S; exact S..|congruence]|reflexivity]). destruct W as (r' & -> & E). apply SAME; auto. intros tm _ X. cbn [with_r w_r]. congruence.
  - unfold wstep, worker, inner in S. destruct (booted w); [|destruct (w_pos w); discriminate]. cbn [rstep] in S. destruct (r_phase (w_r w)); try (destruct (w_pos w); discriminate).
    assert (W : exists r', w' = with_r r' w /\ r_timers r' = r_timers (w_r w)) by (eexists; split; [destruct (w_pos w); [symmetry; injection S as S; exact S..|congruence]|reflexivity]). destruct W as (r' & -> & E). apply SAME; auto. intros tm _ X. cbn [with_r w_r]. congruence.
  - unfold wstep in S. destruct (w_pos w) eqn:PS; try discriminate. destruct (_ && _); [|discriminate]. injection S as <-. apply SAME; try reflexivity; intros; congruence.
  - unfold wstep in S. destruct (w_pos w) eqn:PS; try discriminate. destruct (Z.ltb_spec 0 (w_timeout w)) as [T1|T1].
    + cbn [rstep] in S. destruct (free _ && _); [|discriminate]. injection S as <-. cbn [w_log] in LG. apply snoc_cases in LG as [(-> & X & ->)|(b' & -> & X)].
      * injection X as <- <- <- <-. split; [reflexivity|]. cbn [w_r w_id emit r_timers]. rewrite tm_get_app. pose proof (rinv_tinv _ (v_rinv _ _ V) (v_dead _ _ V)) as TI. pose proof (ms_small (w_ns w)) as SM. pose proof (v_now _ _ V) as NOW. pose proof (v_ns _ _ V) as NS. specialize (SM ltac:(lia)).
        destruct (v_starting _ _ V PS) as (Q1 & _). destruct (tm_get (r_timers (w_r w)) (r_next (w_r w))) as [tm'|] eqn:G; [assert (r_next (w_r w) < r_next (w_r w)) by (apply (i_keys_lt _ _ _ _ TI), tm_get_in; eauto); lia|]. cbn [fst snd]. rewrite Z.eqb_refl. rewrite i64_small by lia. reflexivity.
      * assert (I1 : Starting = Busy) by (eapply IH; [exact X|exact T0|]; intros y Y; apply U, in_or_app; auto). discriminate.
    + injection S as <-. cbn [say with_pos w_log] in LG. apply snoc_cases in LG as [(-> & X & ->)|(b' & -> & X)]; [injection X as <- <- <- <-; lia|]. assert (I1 : Starting = Busy) by (eapply IH; [exact X|exact T0|]; intros y Y; apply U, in_or_app; auto). discriminate.
  - unfold wstep, inner in S. destruct (w_pos w) eqn:PS; try discriminate. destruct (rstep _ _); [|discriminate]. injection S as <-. destruct (EMIT _ eq_refl ltac:(discriminate)) as ([] & _).
  - unfold wstep in S. destruct (w_pos w) eqn:PS; try discriminate. injection S as <-. destruct (EMIT _ eq_refl ltac:(discriminate)) as (_ & X & _). congruence.
  - unfold wstep in S. destruct (w_pos w) eqn:PS; try discriminate. injection S as <-. destruct (EMIT _ eq_refl ltac:(discriminate)) as (_ & X & _). congruence.
  - unfold wstep in S. destruct (w_pos w) eqn:PS; try discriminate. destruct (r_phase (w_r w)); try discriminate. destruct (booted w); [|discriminate]. injection S as <-. destruct (EMIT _ eq_refl ltac:(discriminate)) as (_ & X & _). congruence.
Qed.

(** In time: with a worker that is at most [e] ms late, a call that has taken [timeout + 1 + 3 * e] ms has been reported.  Missing:
    the value of the member timer_id_ before its first use must not be the id of the heartbeat's timer ([c71_zero_timeout_refuted]),
    and no signal may interrupt the worker's sleep ([c71_signal_refuted]). *)
Theorem c71_in_time_partial e g ns w p l a name timeout s t b : 0 <= e -> 0 <= ns -> prun e g ns w p l -> w_ns w < 2 ^ 62 -> w_hb w <> Some g ->
  w_log w = a ++ HBegan name timeout s t :: b -> 0 < timeout -> unanswered b -> r_now (w_r w) < t + timeout + 1 + 3 * e.
Proof.
  intros E0 N R B NG LG T0 U. pose proof (prun_wrun _ _ _ _ _ _ R) as WR. destruct (has_timer g ns w N WR B _ _ _ _ _ _ LG T0 U) as (I1 & I2). pose proof (prun_inv _ _ _ _ _ _ E0 N R B NG) as J. pose proof (wrun_inv g ns w N WR B) as V.
  assert (FL : w_flag w = true) by (destruct (w_flag w) eqn:F; [reflexivity|apply (flag_pos _ _ _ WR) in F; destruct F; congruence]).
  assert (NH : w_hb w <> Some (w_id w)). { destruct (v_tm _ _ V _ _ I2) as [(_ & t2 & X & _)|(X & _)]; [discriminate|exact X]. }
  replace (t + timeout) with (t_when (Timer timeout 1 (t + timeout))) by reflexivity. eapply soon_now; [exact E0|exact J| |exact (j_call _ _ _ _ J _ NH I2)]. intros rc P. pose proof (j_act _ _ _ _ J) as A. rewrite P in A. congruence.
Qed.

(** ** Events and messages, step by step. *)
Lemma log_step a w w' : wstep a w = Some w' -> (w_log w' = w_log w /\ w_msgs w' = w_msgs w) \/ exists e, w_log w' = w_log w ++ [e] /\
  match e with
  | HReport m _ => w_msgs w' = set_warning m (w_msgs w)
  | HClear => w_msgs w' = Msgs [] []
  | HEnding _ => w_msgs w' = w_msgs w /\ w_pos w = Idle
  | _ => w_msgs w' = w_msgs w
  end.
Proof.
  intros S. unfold wstep in S. destruct (w_pos w) eqn:PS; try discriminate; destruct a; try discriminate; unfold worker, inner in S;
  try (match type of S with context [visit w] => apply visit_cases in S as (s & id & rest & t & P & G & BO & [(D & ->)|[(D & E & r' & -> & R')|(D & E & r' & R' & ->)]]); [left; split; reflexivity..|right; eexists; split; reflexivity] end);
  step_cases S w; try injection S as <-; first [left; split; reflexivity|right; eexists; split; [reflexivity|]; first [reflexivity|split; reflexivity]].
Qed.

(** What is shown: the warnings of the plugin are the texts of the reports since the messages were last cleared, each once. *)
Theorem c71_shown g ns w m : wrun g ns w -> (In m (w_list (w_msgs w)) <-> shown m (w_log w)) /\ NoDup (w_list (w_msgs w)).
Proof.
  intros R. split; [|induction R as [|w a w' R IH S]; [constructor|]].
  - revert m. induction R as [|w a w' R IH S]; intros m; [split; [intros []|intros (l1 & t & l2 & X & _); destruct l1; discriminate]|]. destruct (log_step _ _ _ S) as [(-> & ->)|(e & L & M)]; [apply IH|].
    assert (OTHER : (forall m t, e <> HReport m t) -> e <> HClear -> shown m (w_log w') <-> shown m (w_log w)).
    { intros N1 N2. rewrite L. split; intros (l1 & t & l2 & X & Y).
      - apply snoc_cases in X as [(_ & X & _)|(l2' & -> & X)]; [destruct (N1 _ _ X)|]. exists l1, t, l2'. split; [exact X|]. intros Z. apply Y, in_or_app. auto.
      - exists l1, t, (l2 ++ [e]). split; [rewrite X, <- app_assoc; reflexivity|]. intros Z. apply in_app_or in Z as [Z|[Z|[]]]; [auto|congruence]. }
    destruct e; try (rewrite OTHER by discriminate; rewrite <- (IH m); try destruct M as (M & _); rewrite M; reflexivity).
    + rewrite M, L. cbn [set_warning w_list]. unfold add_once. assert (B : In m (if existsb (String.eqb text) (w_list (w_msgs w)) then w_list (w_msgs w) else w_list (w_msgs w) ++ [text]) <-> m = text \/ In m (w_list (w_msgs w))).
      { destruct (existsb _ _) eqn:X; [apply existsb_exists in X as (y & Y1 & Y2); apply String.eqb_eq in Y2; subst y; split; [auto|intros [->|Z]; auto]|]. rewrite in_app_iff. cbn [In]. intuition auto. }
      rewrite B, (IH m). split.
      * intros [->|(l1 & t & l2 & X & Y)]; [exists (w_log w), ns0, []; split; [reflexivity|intros []]|]. exists l1, t, (l2 ++ [HReport text ns0]). split; [rewrite X, <- app_assoc; reflexivity|]. intros Z. apply in_app_or in Z as [Z|[Z|[]]]; [auto|discriminate].
      * intros (l1 & t & l2 & X & Y). apply snoc_cases in X as [(_ & X & _)|(l2' & -> & X)]; [left; congruence|right]. exists l1, t, l2'. split; [exact X|]. intros Z. apply Y, in_or_app. auto.
    + rewrite M, L. split; [intros []|]. intros (l1 & t & l2 & X & Y). apply snoc_cases in X as [(_ & X & _)|(l2' & -> & X)]; [discriminate|]. apply Y, in_or_app. right. left. reflexivity.
  - destruct (log_step _ _ _ S) as [(_ & ->)|(e & _ & M)]; [exact IH|]. destruct e; try destruct M as (M & _); rewrite M; try exact IH; [|constructor]. cbn [set_warning w_list]. unfold add_once. destruct (existsb _ _) eqn:X; [exact IH|].
    apply NoDup_app_snoc; [exact IH|]. intros Y. assert (Z : existsb (String.eqb text) (w_list (w_msgs w)) = true) by (apply existsb_exists; exists text; split; [exact Y|apply String.eqb_refl]). congruence.
Qed.

(** ** The thread. *)
Lemma prun_more e e' g ns w p l : e <= e' -> prun e g ns w p l -> prun e' g ns w p l.
Proof. intros H R. induction R; [constructor|]. econstructor; try eassumption. lia. Qed.
Lemma crun_prun g ns w : crun g ns w -> exists e p l, 0 <= e /\ prun e g ns w p l.
Proof.
  induction 1 as [|w a w' R (e & p & l & E & P) S NI]; [exists 0, (ns / 10 ^ 6), 0; split; [lia|constructor]|]. destruct (late a w w' p l) as [p' l'] eqn:L. exists (Z.max e l'), p', l'. split; [lia|].
  econstructor; [apply (prun_more e); [lia|exact P]|exact S|exact L|lia|exact NI].
Qed.
(** It serves calls until the destructor is called; missing as above. *)
Theorem c71_alive_partial g ns w rc : 0 <= ns -> crun g ns w -> w_ns w < 2 ^ 62 -> w_hb w <> Some g -> r_phase (w_r w) = Done rc -> exists t, In (HEnding t) (w_log w).
Proof.
  intros N C B NG P. destruct (crun_prun _ _ _ C) as (e & p & l & E & R). pose proof (prun_inv _ _ _ _ _ _ E N R B NG) as J. pose proof (j_act _ _ _ _ J) as A. rewrite P in A. destruct (j_end _ _ _ _ J A) as (t0 & l1 & l2 & X & _). exists t0. rewrite X. apply in_or_app. right. left. reflexivity.
Qed.
Lemma ending_stays a w w' : wstep a w = Some w' -> w_pos w = Ending -> w_pos w' = Ending \/ w_pos w' = Gone.
Proof.
  intros S PS. unfold wstep in S. rewrite PS in S. destruct a; try discriminate; unfold worker, inner in S;
  try (match type of S with context [visit w] => apply visit_cases in S as (s & id & rest & t & P & G & BO & [(D & ->)|[(D & E & r' & -> & R')|(D & E & r' & R' & ->)]]); left; exact PS end);
  step_cases S w; injection S as <-; first [left; exact PS|left; reflexivity|right; reflexivity].
Qed.
Lemma ending_pos a w w' e : wstep a w = Some w' -> w_pos w = Idle -> w_log w' = w_log w ++ [HEnding e] -> w_pos w' = Ending.
Proof.
  intros S PS E. unfold wstep in S. rewrite PS in S. destruct a; try discriminate; unfold worker, inner in S;
  try (match type of S with context [visit w] => apply visit_cases in S as (s & id & rest & t & P & G & BO & [(D & ->)|[(D & E' & r' & -> & R')|(D & E' & r' & R' & ->)]]) end);
  step_cases S w; try injection S as <-; try reflexivity; exfalso; cbn [say with_pos with_msgs with_ns with_r w_log] in E; try (apply (f_equal (@length _)) in E; rewrite app_length in E; cbn in E; lia); apply app_inj_tail in E as (_ & E); discriminate.
Qed.
Lemma ending_once g ns w : wrun g ns w -> (forall t, In (HEnding t) (w_log w) -> w_pos w = Ending \/ w_pos w = Gone) /\ forall t t', In (HEnding t) (w_log w) -> In (HEnding t') (w_log w) -> t = t'.
Proof.
  intros R. induction R as [|w a w' R (K & U) S]; [split; [intros t []|intros t t' []]|]. assert (NG : w_pos w <> Gone) by (intros P; unfold wstep in S; rewrite P in S; discriminate).
  destruct (log_step _ _ _ S) as [(E & _)|(e & E & M)]; rewrite E; split.
  - intros t X. destruct (K t X) as [P|P]; [|contradiction]. eapply ending_stays; eassumption.
  - exact U.
  - intros t X. apply in_app_or in X as [X|[->|[]]]; [destruct (K t X) as [P|P]; [|contradiction]; eapply ending_stays; eassumption|]. destruct M as (_ & M). left. eapply ending_pos; eassumption.
  - intros t t' X Y. apply in_app_or in X as [X|[->|[]]]; apply in_app_or in Y as [Y|[Y|[]]]; [eauto|..].
    + subst e. destruct M as (_ & M). destruct (K t X); congruence.
    + destruct M as (_ & M). destruct (K t' Y); congruence.
    + congruence.
Qed.
(** The destructor: the thread ends, and the destructor can return, at most [2 + 4 * e] ms after it was called; missing as above. *)
Theorem c71_ends_partial e g ns w p l t : 0 <= e -> 0 <= ns -> prun e g ns w p l -> w_ns w < 2 ^ 62 -> w_hb w <> Some g -> In (HEnding t) (w_log w) ->
  r_now (w_r w) < t + 2 + 4 * e \/ w_pos w = Gone \/ exists w', wstep WJoin w = Some w'.
Proof.
  intros E0 N R B NG X. pose proof (prun_wrun _ _ _ _ _ _ R) as WR. pose proof (prun_inv _ _ _ _ _ _ E0 N R B NG) as J. pose proof (wrun_inv g ns w N WR B) as V. destruct (ending_once _ _ _ WR) as (K & U).
  destruct (K t X) as [PS|PS]; [|auto]. pose proof (proj2 (flag_pos _ _ _ WR) (or_introl PS)) as FL. destruct (j_end _ _ _ _ J FL) as (t0 & l1 & l2 & LG & C). assert (t0 = t) by (apply U; [rewrite LG; apply in_or_app; right; left; reflexivity|exact X]). subst t0.
  pose proof (j_act _ _ _ _ J) as A. pose proof (j_l _ _ _ _ J) as JL.
  assert (REST : (forall rc, r_phase (w_r w) <> Done rc) -> r_now (w_r w) < t + 2 + 4 * e).
  { intros ND. destruct (w_hb w) as [h|] eqn:HB.
    - pose proof (v_alive _ _ V h HB ltac:(congruence)) as AL. destruct (proj2 (tm_get_in _ _) AL) as (tm & G). destruct (r_term (w_r w)) eqn:T.
      + destruct (r_phase (w_r w)) as [|dl| |s rest|rc|] eqn:P; try contradiction; [lia|destruct A as (_ & _ & A); discriminate|lia|destruct (ND rc eq_refl)].
      + assert (SN : soon e w p h (t + 1 + e)) by (destruct (r_phase (w_r w)) as [|dl| |s rest|rc|] eqn:P; try contradiction; try (apply (C tm G)); destruct (ND rc eq_refl)). pose proof (soon_now e w p l h (t + 1 + e) E0 J ND SN). lia.
    - destruct (v_new _ _ V HB) as (P & _). rewrite P in A, C. lia. }
  destruct (r_phase (w_r w)) as [|dl| |s rest|rc|] eqn:P; try (left; apply REST; discriminate). right. right. unfold wstep. rewrite PS, P. destruct (w_hb w) as [h|] eqn:HB; [|destruct (v_new _ _ V HB); congruence]. unfold booted. rewrite HB. eexists. reflexivity.
Qed.

(** ** Durations. *)
Lemma near_error a b : 0 < b -> - b <= 2 * (near a b * b - a) <= b.
Proof.
  intros B. unfold near. pose proof (Z.div_mod a b ltac:(lia)) as D. pose proof (Z.mod_pos_bound a b B) as M. set (q := a / b) in *. set (r := a mod b) in *. destruct (Z.ltb_spec (2 * r) b); [nia|]. destruct (Z.ltb_spec b (2 * r)); [nia|]. destruct (Z.even q); nia.
Qed.
Lemma to_dbl_small z : 0 <= z < 2 ^ 53 -> to_dbl z = z.
Proof.
  intros H. unfold to_dbl. destruct (Z.leb_spec (Z.log2 z - 52) 0); [reflexivity|]. exfalso. destruct (Z.eq_dec z 0) as [->|]; [cbn in *; lia|]. destruct H as (H1 & H2). apply Z.log2_lt_pow2 in H2; lia.
Qed.
Lemma to_dbl_error z : 0 <= z < 2 ^ 62 + 2 ^ 40 -> Z.abs (to_dbl z - z) <= 2 ^ 9.
Proof.
  intros H. unfold to_dbl. destruct (Z.leb_spec (Z.log2 z - 52) 0) as [L|L]; [rewrite Z.sub_diag; cbn; lia|]. assert (LZ : Z.log2 z <= 62) by (assert (Z.log2 z <= Z.log2 (2 ^ 62 + 2 ^ 40)) by (apply Z.log2_le_mono; lia); change (Z.log2 (2 ^ 62 + 2 ^ 40)) with 62 in *; lia).
  set (k := Z.log2 z - 52) in *. assert (P : 0 < 2 ^ k) by (apply Z.pow_pos_nonneg; lia). pose proof (near_error z (2 ^ k) P) as E. assert (2 ^ k <= 2 ^ 10) by (apply Z.pow_le_mono_r; lia). change (2 ^ 10) with 1024 in *. change (2 ^ 9) with 512. lia.
Qed.
(** The quotient, rounded to a double, has the same integral part as long as it is below 2^32. *)
Lemma div1000_floor x : x < 1000 * 2 ^ 33 -> div1000 x = if x <=? 0 then 0 else x / 1000.
Proof.
  intros H. unfold div1000. destruct (Z.leb_spec x 0) as [|X]; [reflexivity|]. assert (L : Z.log2 x <= 42) by (assert (Z.log2 x <= Z.log2 (1000 * 2 ^ 33)) by (apply Z.log2_le_mono; lia); change (Z.log2 (1000 * 2 ^ 33)) with 42 in *; lia). cbv zeta.
  set (k := if _ <? _ then _ else _). assert (K : 10 < k) by (unfold k; destruct (_ <? _); lia). clearbody k. clear L. pose proof (Z.div_mod x 1000 ltac:(lia)) as D. pose proof (Z.mod_pos_bound x 1000 ltac:(lia)) as M. set (q := x / 1000) in *. set (r := x mod 1000) in *.
  assert (P : 2 ^ 11 <= 2 ^ k) by (apply Z.pow_le_mono_r; lia). change (2 ^ 11) with 2048 in P. pose proof (near_error (x * 2 ^ k) 1000 ltac:(lia)) as E. set (n := near (x * 2 ^ k) 1000) in *. set (w := 2 ^ k) in *. clearbody n w q r. symmetry. apply (Z.div_unique n w q (n - w * q)); [left; nia|lia].
Qed.
Lemma to_dbl_pos z : 0 <= z -> 0 <= to_dbl z.
Proof.
  intros H. unfold to_dbl. destruct (_ <=? _) eqn:L; [exact H|]. assert (P : 0 < 2 ^ (Z.log2 z - 52)) by (apply Z.pow_pos_nonneg; apply Z.leb_gt in L; lia). apply Z.mul_nonneg_nonneg; [|lia]. unfold near. pose proof (Z.div_pos z _ H P). destruct (_ <? _); [assumption|]. destruct (_ <? _); [lia|]. destruct (Z.even _); lia.
Qed.
Lemma dbl_ns_error t : 0 <= t < 2 ^ 62 -> Z.abs (dbl_ns t - t) <= 2 ^ 10.
Proof.
  intros H. unfold dbl_ns. pose proof (Z.div_mod t (10 ^ 9) ltac:(lia)) as D. pose proof (Z.mod_pos_bound t (10 ^ 9) ltac:(lia)) as M. pose proof (Z.div_pos t (10 ^ 9) ltac:(lia) ltac:(lia)) as Q. set (r := t mod 10 ^ 9) in *. set (u := t / 10 ^ 9 * 10 ^ 9).
  assert (U : 0 <= u /\ u + r = t) by (unfold u; lia). clearbody r u. clear D Q. pose proof (to_dbl_error u ltac:(lia)) as E1. pose proof (to_dbl_pos u ltac:(lia)) as P1. set (a := to_dbl u) in *. clearbody a. assert (S : 2 ^ 9 + 10 ^ 9 < 2 ^ 40) by reflexivity.
  pose proof (to_dbl_error (a + r) ltac:(lia)) as E2. replace (2 ^ 10) with (2 ^ 9 + 2 ^ 9) by reflexivity. lia.
Qed.
(** Up to 104 days after the start of the system's clock: the duration in us, rounded down. *)
Theorem c71_duration s n : 0 <= s <= n -> n < 2 ^ 53 -> n - s < 1000 * 2 ^ 32 -> elapsed_us s n = Some ((n - s) / 1000).
Proof.
  intros H N D. assert (E : forall t, 0 <= t < 2 ^ 53 -> dbl_ns t = t).
  { intros t T. unfold dbl_ns. pose proof (Z.div_mod t (10 ^ 9) ltac:(lia)) as D1. pose proof (Z.mod_pos_bound t (10 ^ 9) ltac:(lia)) as M. pose proof (Z.div_pos t (10 ^ 9) ltac:(lia) ltac:(lia)) as Q. rewrite (to_dbl_small (t / 10 ^ 9 * 10 ^ 9)) by lia. replace (t / 10 ^ 9 * 10 ^ 9 + t mod 10 ^ 9) with t by lia. apply to_dbl_small, T. }
  unfold elapsed_us. rewrite !E by lia. rewrite to_dbl_small by lia. rewrite div1000_floor by lia. destruct (Z.leb_spec (n - s) 0) as [L|L].
  - replace (n - s) with 0 by lia. reflexivity.
  - assert (Q : (n - s) / 1000 < 2 ^ 32) by (apply Z.div_lt_upper_bound; lia). destruct (Z.ltb_spec ((n - s) / 1000) (2 ^ 32)); [reflexivity|lia].
Qed.
(** Later, up to 146 years: wrong by at most 3 us.  Missing: calls of more than 71 minutes ([c71_duration_refuted]). *)
Theorem c71_duration_partial s n : 0 <= s <= n -> n < 2 ^ 62 -> n - s < 1000 * 2 ^ 32 - 4096 -> exists d, elapsed_us s n = Some d /\ Z.abs (d - (n - s) / 1000) <= 3.
Proof.
  intros H N D. pose proof (dbl_ns_error s ltac:(lia)) as E1. pose proof (dbl_ns_error n ltac:(lia)) as E2. unfold elapsed_us. set (x := dbl_ns n - dbl_ns s). assert (X : Z.abs (x - (n - s)) <= 2048) by (unfold x; change (2 ^ 10) with 1024 in *; lia). clearbody x. clear E1 E2.
  assert (F : div1000 (to_dbl x) = if x <=? 0 then 0 else x / 1000).
  { destruct (Z.leb_spec x 0) as [L|L].
    - unfold to_dbl. assert (LG : Z.log2 x = 0) by (destruct x; [reflexivity|lia|reflexivity]). rewrite LG. change (0 - 52 <=? 0) with true. cbv zeta iota. unfold div1000. destruct (Z.leb_spec x 0); [reflexivity|lia].
    - rewrite to_dbl_small by lia. rewrite div1000_floor by lia. destruct (Z.leb_spec x 0); [lia|reflexivity]. }
  rewrite F. pose proof (Z.div_mod (n - s) 1000 ltac:(lia)) as D1. pose proof (Z.mod_pos_bound (n - s) 1000 ltac:(lia)) as M1. destruct (Z.leb_spec x 0) as [L|L].
  - exists 0. split; [reflexivity|]. lia.
  - pose proof (Z.div_mod x 1000 ltac:(lia)) as D2. pose proof (Z.mod_pos_bound x 1000 ltac:(lia)) as M2. exists (x / 1000). destruct (Z.ltb_spec (x / 1000) (2 ^ 32)); [|lia]. split; [reflexivity|lia].
Qed.
(** A call of 71 minutes and 35 seconds: the number does not fit, and the conversion is undefined. *)
Theorem c71_duration_refuted : exists s n, 0 <= s <= n /\ n < 2 ^ 53 /\ n - s = 4295 * 10 ^ 9 /\ elapsed_us s n = None.
Proof. exists 0, (4295 * 10 ^ 9). repeat split; try (vm_compute; congruence). Qed.
Lemma start_step a w w' : wstep a w = Some w' -> match w_pos w' with
  | Starting => w_pos w = Idle /\ w_start w' = w_ns w \/ w_pos w = Starting /\ w_start w' = w_start w
  | Busy | Finishing => w_start w' = w_start w /\
      (w_pos w = Starting /\ (exists n T t, w_log w' = w_log w ++ [HBegan n T (w_start w) t]) \/
       (w_pos w = Busy \/ w_pos w = Finishing) /\ (w_log w' = w_log w \/ exists e, w_log w' = w_log w ++ [e] /\ forall n T s t, e <> HBegan n T s t))
  | _ => True
  end.
Proof.
  intros S. unfold wstep in S. destruct (w_pos w) eqn:PS; try discriminate; destruct a; try discriminate; unfold worker, inner in S;
  try (match type of S with context [visit w] => apply visit_cases in S as (s & id & rest & t & P & G & BO & [(D & ->)|[(D & E & r' & -> & R')|(D & E & r' & R' & ->)]]) end);
  step_cases S w; try injection S as <-; cbn [say with_pos with_ns with_r with_msgs w_pos w_start w_log]; rewrite ?PS; try exact Logic.I; try (split; [reflexivity|]);
  first [right; split; [auto; fail|]; first [reflexivity|left; reflexivity|right; eexists; split; [reflexivity|discriminate]]|left; split; [reflexivity|]; first [reflexivity|do 3 eexists; reflexivity]].
Qed.
Lemma start_inv g ns w : 0 <= ns -> wrun g ns w -> 0 <= w_ns w /\ match w_pos w with
  | Starting => 0 <= w_start w <= w_ns w
  | Busy | Finishing => 0 <= w_start w <= w_ns w /\ exists a name T t b, w_log w = a ++ HBegan name T (w_start w) t :: b /\ forall n T s t, ~ In (HBegan n T s t) b
  | _ => True
  end.
Proof.
  intros N R. induction R as [|w a w' R (I0 & IH) S]; [split; [exact N|exact Logic.I]|]. pose proof (step_ns _ _ _ S) as NS. pose proof (start_step _ _ _ S) as C. split; [lia|].
  assert (K : w_start w' = w_start w /\
      (w_pos w = Starting /\ (exists n T t, w_log w' = w_log w ++ [HBegan n T (w_start w) t]) \/
       (w_pos w = Busy \/ w_pos w = Finishing) /\ (w_log w' = w_log w \/ exists e, w_log w' = w_log w ++ [e] /\ forall n T s t, e <> HBegan n T s t)) ->
    0 <= w_start w' <= w_ns w' /\ exists a name T t b, w_log w' = a ++ HBegan name T (w_start w') t :: b /\ forall n T s t, ~ In (HBegan n T s t) b).
  { intros (-> & [(P & n & T & t & L)|(P & L)]).
    - rewrite P in IH. split; [lia|]. exists (w_log w), n, T, t, []. split; [exact L|]. intros ? ? ? ? [].
    - assert (IH' : 0 <= w_start w <= w_ns w /\ exists a name T t b, w_log w = a ++ HBegan name T (w_start w) t :: b /\ forall n T s t, ~ In (HBegan n T s t) b) by (destruct P as [P|P]; rewrite P in IH; exact IH). destruct IH' as (B & l1 & n & T & t & b & E & F). split; [lia|].
      destruct L as [->|(e & -> & L)]; [exists l1, n, T, t, b; auto|]. exists l1, n, T, t, (b ++ [e]). split; [rewrite E, <- app_assoc; reflexivity|]. intros n1 T1 s1 t1 X. apply in_app_or in X as [X|[X|[]]]; [eapply F; eassumption|eapply L; eassumption]. }
  destruct (w_pos w'); try exact Logic.I; try exact (K C). destruct C as [(P & ->)|(P & ->)]; [lia|]. rewrite P in IH. lia.
Qed.
(** finish_timer returns the time since the start_timer before it, in whole us. *)
Theorem c71_returned g ns w w' a us : 0 <= ns -> wrun g ns w -> wstep a w = Some w' -> w_log w' = w_log w ++ [HReturned us] -> w_ns w < 2 ^ 53 ->
  exists l1 name timeout s t l2, w_log w = l1 ++ HBegan name timeout s t :: l2 /\ (forall n T s t, ~ In (HBegan n T s t) l2) /\
    0 <= s <= w_ns w /\ (w_ns w - s < 1000 * 2 ^ 32 -> us = Some ((w_ns w - s) / 1000)).
Proof.
  intros N R S L B. pose proof (start_inv g ns w N R) as (_ & I). assert (C : w_pos w = Finishing /\ us = elapsed_us (w_start w) (w_ns w)).
  { unfold wstep in S. destruct (w_pos w) eqn:PS; try discriminate; destruct a; try discriminate; unfold worker, inner in S;
    try (match type of S with context [visit w] => apply visit_cases in S as (s & id & rest & t & P & G & BO & [(D & ->)|[(D & E & r' & -> & R')|(D & E & r' & R' & ->)]]) end);
    step_cases S w; try injection S as <-; cbn [say with_pos with_ns with_r with_msgs w_log] in L; try (exfalso; apply (f_equal (@List.length _)) in L; rewrite app_length in L; cbn in L; lia); apply app_inj_tail in L as (_ & L); try discriminate; injection L as <-; auto. }
  destruct C as (P & ->). rewrite P in I. destruct I as (I1 & l1 & n & T & t & l2 & E & F). exists l1, n, T, (w_start w), t, l2. split; [exact E|]. split; [exact F|]. split; [exact I1|]. intros D. apply c71_duration; lia.
Qed.

(** ** The constructor. *)
Inductive later : boot -> boot -> Prop :=
| lt_refl b : later b b
| lt_step b a b' c : bstep a b = Some b' -> later b' c -> later b c.
(** If the thread begins when both members exist, the constructor returns (two more steps of the thread's start suffice), with the flag
    up, and the reactor is used only when it exists.  Missing: nothing makes the thread wait ([c71_constructor_refuted]). *)
Theorem c71_constructor_partial memory b : later (Boot MSpin TFlag false true false) b ->
  bgo [BMain; BMain] (boot_init memory) = Some (Boot MSpin TFlag false true false) /\
  b_undef b = false /\ (b_main b = MBack -> b_flag b = true) /\ exists l b', bgo l b = Some b' /\ b_main b' = MBack /\ b_undef b' = false.
Proof.
  intros L. split; [destruct memory; reflexivity|]. assert (K : match b with Boot MSpin TFlag false true false | Boot MSpin TRegister true true false | Boot MSpin TRun true true false | Boot MBack TRegister true true false | Boot MBack TRun true true false => True | _ => False end).
  { remember (Boot MSpin TFlag false true false) as b0 eqn:E. assert (K0 : match b0 with Boot MSpin TFlag false true false | Boot MSpin TRegister true true false | Boot MSpin TRun true true false | Boot MBack TRegister true true false | Boot MBack TRun true true false => True | _ => False end) by (rewrite E; exact Logic.I). clear E.
    induction L as [b|b a b' c S L IH]; [exact K0|apply IH]. destruct b as [[] [] [] [] []]; try contradiction; destruct a; try discriminate; injection S as <-; exact Logic.I. }
  destruct b as [[] [] [] [] []]; try contradiction; cbn [b_undef b_main b_flag]; (split; [reflexivity|]); (split; [auto; discriminate|]).
  - exists [BWork; BMain]. eexists. split; [reflexivity|split; reflexivity].
  - exists [BMain]. eexists. split; [reflexivity|split; reflexivity].
  - exists [BMain]. eexists. split; [reflexivity|split; reflexivity].
  - exists []. eexists. split; [reflexivity|split; reflexivity].
  - exists []. eexists. split; [reflexivity|split; reflexivity].
Qed.
(** A thread that is quicker: its flag is overwritten and the constructor never returns; or it registers with a reactor that is not
    there. *)
Theorem c71_constructor_refuted memory :
  (exists l b, bgo l (boot_init memory) = Some b /\ b_undef b = false /\ forall c, later b c -> b_main c <> MBack) /\
  (exists l b, bgo l (boot_init memory) = Some b /\ b_undef b = true).
Proof.
  split; [|exists [BWork; BWork]; eexists; split; reflexivity]. exists [BWork; BMain; BMain]. eexists. split; [reflexivity|]. split; [reflexivity|]. intros c L.
  remember (Boot MSpin TRegister false true false) as b0 eqn:E. assert (K : b_main b0 = MSpin /\ b_work b0 <> TFlag /\ b_flag b0 = false) by (rewrite E; repeat split; discriminate). clear E.
  induction L as [b|b a b' c S L IH]; [destruct K as (-> & _); discriminate|]. apply IH. destruct b as [m t f d u]. cbn [b_main b_work b_flag] in K. destruct K as (-> & K & ->). destruct a, t; try contradiction; try discriminate; injection S as <-; repeat split; discriminate.
Qed.

(** ** A worker that has ended. *)
Lemma done_step a w w' rc : wstep a w = Some w' -> r_phase (w_r w) = Done rc -> r_phase (w_r w') = Done rc /\ exists l, w_log w' = w_log w ++ l /\ forall m t, ~ In (HReport m t) l.
Proof.
  intros S D. unfold wstep in S. destruct (w_pos w) eqn:PS; try discriminate; destruct a; try discriminate; unfold worker, inner in S;
  try (match type of S with context [visit w] => apply visit_cases in S as (s & id & rest & t & P & G & BO & _); congruence end);
  cbn [rstep] in S; rewrite ?D in S;
  repeat match type of S with
  | context [match w_hb w with _ => _ end] => destruct (w_hb w); try discriminate
  | context [if booted w then _ else _] => destruct (booted w); try discriminate
  | context [if ?c then _ else _] => destruct c; try discriminate
  end; try discriminate; injection S as <-; cbn [say with_pos with_ns with_r with_msgs w_r w_log r_phase emit tick with_timers]; (split; [first [exact D|reflexivity]|]);
  first [exists []; split; [symmetry; apply app_nil_r|intros ? ? []]|eexists; split; [reflexivity|]; intros ? ? [X|[]]; discriminate].
Qed.
Lemma done_silent w w' rc : r_phase (w_r w) = Done rc -> wmore w w' -> r_phase (w_r w') = Done rc /\ exists l, w_log w' = w_log w ++ l /\ forall m t, ~ In (HReport m t) l.
Proof.
  intros D M. induction M as [|u a v M (P & l & E & F) S]; [split; [exact D|]; exists []; split; [symmetry; apply app_nil_r|intros ? ? []]|].
  destruct (done_step _ _ _ _ S P) as (P' & l2 & E2 & F2). split; [exact P'|]. exists (l ++ l2). split; [rewrite E2, E, app_assoc; reflexivity|]. intros m t X. apply in_app_or in X as [X|X]; [eapply F|eapply F2]; exact X.
Qed.
Fixpoint wgo (l : list wlabel) (w : wd) : option wd := match l with [] => Some w | a :: r => match wstep a w with Some w' => wgo r w' | None => None end end.
Definition signal (a : wlabel) : bool := match a with WInterrupt => true | _ => false end.
Lemma wgo_run g ns l w : wrun g ns w -> forall w', wgo l w = Some w' -> wrun g ns w'.
Proof.
  revert w. induction l as [|a l IH]; intros w R w' G; cbn [wgo] in G; [injection G as <-; exact R|]. destruct (wstep a w) as [u|] eqn:S; [|discriminate]. eapply IH; [|exact G]. econstructor; eassumption.
Qed.
Lemma wgo_crun g ns l w : existsb signal l = false -> crun g ns w -> forall w', wgo l w = Some w' -> crun g ns w'.
Proof.
  revert w. induction l as [|a l IH]; intros w N R w' G; cbn [wgo existsb] in *; [injection G as <-; exact R|]. destruct (wstep a w) as [u|] eqn:S; [|discriminate]. apply orb_false_elim in N as (N1 & N2). eapply IH; [exact N2| |exact G]. econstructor; [exact R|exact S|]. intros ->. discriminate.
Qed.
Lemma wgo_more l w u : wmore w u -> forall w', wgo l u = Some w' -> wmore w w'.
Proof.
  revert u. induction l as [|a l IH]; intros u M w' G; cbn [wgo] in G; [injection G as <-; exact M|]. destruct (wstep a u) as [v|] eqn:S; [|discriminate]. eapply IH; [|exact G]. econstructor; eassumption.
Qed.
Definition wafter (g ns : Z) (l : list wlabel) : wd := match wgo l (winit g ns) with Some w => w | None => winit g ns end.

(** A file is made with a timeout of 0, and what happens to be in timer_id_ is the heartbeat's id: finish_timer removes the
    heartbeat and the worker ends.  No later call is reported, whatever its timeout: here one of an hour with a timeout of 1 s. *)
Definition zero_steps : list wlabel := [WBoot; WStart "H5Fcreate" 0; WReg; WRemove; WReturn; WLoop 0].
Definition hour_steps : list wlabel := [WStart "H5Dwrite" 1000; WReg; WTime (3600 * 10 ^ 9)].
Theorem c71_zero_timeout_refuted : exists g ns w, crun g ns w /\ w_flag w = true /\ w_pos w = Idle /\
  (forall w', wmore w w' -> exists l, w_log w' = w_log w ++ l /\ forall m t, ~ In (HReport m t) l) /\
  exists w' a s t b, wmore w w' /\ w_log w' = a ++ HBegan "H5Dwrite" 1000 s t :: b /\ unanswered b /\ r_now (w_r w') = t + 3600 * 1000.
Proof.
  exists 0, 0, (wafter 0 0 zero_steps). split; [refine (wgo_crun 0 0 zero_steps _ eq_refl (cr_init 0 0) _ _); vm_compute; reflexivity|]. split; [vm_compute; reflexivity|]. split; [vm_compute; reflexivity|]. split.
  - intros w' M. eapply (done_silent _ _ 0) in M; [exact (proj2 M)|vm_compute; reflexivity].
  - exists (wafter 0 0 (zero_steps ++ hour_steps)), [HBegan "H5Fcreate" 0 0 0; HDone 0; HReturned (Some 0)], 0, 0, []. split; [refine (wgo_more hour_steps _ _ (wm_refl _) _ _); vm_compute; reflexivity|]. split; [vm_compute; reflexivity|]. split; [intros ? []|vm_compute; reflexivity].
Qed.
(** A signal during the worker's sleep ends it. *)
Definition sig_steps : list wlabel := [WBoot; WLoop 0; WInterrupt].
Theorem c71_signal_refuted g : exists ns w, wrun g ns w /\ w_flag w = true /\ w_pos w = Idle /\
  (forall w', wmore w w' -> exists l, w_log w' = w_log w ++ l /\ forall m t, ~ In (HReport m t) l) /\
  exists w' a s t b, wmore w w' /\ w_log w' = a ++ HBegan "H5Dwrite" 1000 s t :: b /\ unanswered b /\ r_now (w_r w') = t + 3600 * 1000.
Proof.
  exists 0, (wafter g 0 sig_steps). split; [refine (wgo_run g 0 sig_steps _ (wr_init g 0) _ _); vm_compute; reflexivity|]. split; [vm_compute; reflexivity|]. split; [vm_compute; reflexivity|]. split.
  - intros w' M. eapply (done_silent _ _ (-1)) in M; [exact (proj2 M)|vm_compute; reflexivity].
  - exists (wafter g 0 (sig_steps ++ hour_steps)), [], 0, 0, []. split; [refine (wgo_more hour_steps _ _ (wm_refl _) _ _); vm_compute; reflexivity|]. split; [vm_compute; reflexivity|]. split; [intros ? []|vm_compute; reflexivity].
Qed.

(** ** Cases. *)
Fixpoint pgo (e : Z) (l : list wlabel) (w : wd) (p t : Z) : option (wd * Z * Z) :=
  match l with
  | [] => Some (w, p, t)
  | a :: r => match wstep a w with
              | Some w' => let (p', t') := late a w w' p t in if (t' <=? e) && negb (signal a) then pgo e r w' p' t' else None
              | None => None
              end
  end.
Lemma pgo_prun e g ns l : forall w p t w' p' t', prun e g ns w p t -> pgo e l w p t = Some (w', p', t') -> prun e g ns w' p' t'.
Proof.
  induction l as [|a l IH]; intros w p t w' p' t' R G; cbn [pgo] in G; [injection G as <- <- <-; exact R|]. destruct (wstep a w) as [u|] eqn:S; [|discriminate]. destruct (late a w u p t) as [p1 t1] eqn:L. destruct (Z.leb_spec t1 e); [|discriminate].
  destruct a; try discriminate; cbn [andb negb signal] in G; (eapply IH; [|exact G]; econstructor; [exact R|exact S|exact L|assumption|discriminate]).
Qed.
(** A round of the worker with [n] timers. *)
Definition round (n : nat) : list wlabel := [WLoop 0; WTime (10 ^ 6); WTimeout] ++ repeat WVisit n ++ [WUnlock].
(** A call with a timeout of 2 ms that takes 3 ms; the messages are cleared; a call that is quick; the end. *)
Definition day1 : list wlabel := [WBoot] ++ round 1 ++ [WStart "H5Dwrite" 2; WReg] ++ round 2.
Definition day2 : list wlabel := day1 ++ round 2.
Definition day3 : list wlabel := day2 ++ round 1 ++ [WRemove; WReturn].
Definition day4 : list wlabel := day3 ++ [WClear; WElsewhere; WStart "H5Fclose" 5; WReg; WTime 2500; WRemove; WReturn; WDestroy] ++ round 1 ++ [WLoop 0].
Lemma day_run l w : wgo l (winit (-1) 0) = Some w -> wrun (-1) 0 w. Proof. apply wgo_run. constructor. Qed.
Example c71_report_case : wrun (-1) 0 (wafter (-1) 0 day2) /\ w_log (wafter (-1) 0 day2) = [HBegan "H5Dwrite" 2 1000000 1] ++ HReport "H5Dwrite | Watchdog timed out" 3000000 :: [] /\
  justified [HBegan "H5Dwrite" 2 1000000 1] "H5Dwrite | Watchdog timed out" 3000000.
Proof.
  split; [apply (day_run day2); vm_compute; reflexivity|]. split; [vm_compute; reflexivity|]. exists [], "H5Dwrite"%string, 2, 1000000, 1, []. repeat split; try (vm_compute; congruence). constructor.
Qed.
Example c71_in_time_case : exists w p l, prun 0 (-1) 0 w p l /\ w_ns w < 2 ^ 62 /\ w_hb w = Some 0 /\ w_log w = [] ++ HBegan "H5Dwrite" 2 1000000 1 :: [] /\ unanswered [] /\ r_now (w_r w) = 2.
Proof.
  exists (wafter (-1) 0 day1), 2, 0. split; [apply (pgo_prun 0 (-1) 0 day1 _ _ _ _ _ _ (pr_init 0 (-1) 0)); vm_compute; reflexivity|]. split; [vm_compute; reflexivity|]. split; [vm_compute; reflexivity|]. split; [vm_compute; reflexivity|]. split; [intros ? []|vm_compute; reflexivity].
Qed.
Example c71_shown_case : wrun (-1) 0 (wafter (-1) 0 day3) /\ w_list (w_msgs (wafter (-1) 0 day3)) = ["H5Dwrite | Watchdog timed out"%string] /\ w_list (w_msgs (wafter (-1) 0 day4)) = [].
Proof. split; [apply (day_run day3); vm_compute; reflexivity|]. split; vm_compute; reflexivity. Qed.
Example c71_alive_case : exists w, crun (-1) 0 w /\ w_ns w < 2 ^ 62 /\ w_hb w = Some 0 /\ r_phase (w_r w) = Done 0.
Proof. exists (wafter (-1) 0 day4). split; [refine (wgo_crun (-1) 0 day4 _ eq_refl (cr_init (-1) 0) _ _); vm_compute; reflexivity|]. repeat split; vm_compute; reflexivity. Qed.
Example c71_ends_case : exists w p l, prun 0 (-1) 0 w p l /\ w_ns w < 2 ^ 62 /\ w_hb w = Some 0 /\ In (HEnding 4) (w_log w) /\ r_now (w_r w) = 5 /\ exists w', wstep WJoin w = Some w' /\
  w_log w' = [HBegan "H5Dwrite" 2 1000000 1; HReport "H5Dwrite | Watchdog timed out" 3000000; HDone 4; HReturned (Some 3000); HClear; HBegan "H5Fclose" 5 4000000 4; HDone 4; HReturned (Some 2); HEnding 4; HGone].
Proof.
  exists (wafter (-1) 0 day4), 5, 0. split; [apply (pgo_prun 0 (-1) 0 day4 _ _ _ _ _ _ (pr_init 0 (-1) 0)); vm_compute; reflexivity|]. split; [vm_compute; reflexivity|]. split; [vm_compute; reflexivity|]. split; [vm_compute; tauto|]. split; [vm_compute; reflexivity|]. eexists. split; vm_compute; reflexivity.
Qed.
Example c71_duration_case : elapsed_us 1000000 124456999 = Some 123456 /\ elapsed_us (86400 * 365 * 10 ^ 9) (86400 * 365 * 10 ^ 9 + 1500000) = Some 1500.
Proof. split; vm_compute; reflexivity. Qed.
Example c71_returned_case : exists w w', wrun (-1) 0 w /\ wstep WReturn w = Some w' /\ w_log w' = w_log w ++ [HReturned (Some 3000)] /\ w_ns w < 2 ^ 53.
Proof.
  exists (wafter (-1) 0 (day2 ++ round 1 ++ [WRemove])). eexists. split; [apply (day_run (day2 ++ round 1 ++ [WRemove])); vm_compute; reflexivity|]. split; [vm_compute; reflexivity|]. split; vm_compute; reflexivity.
Qed.
Example c71_constructor_case : later (Boot MSpin TFlag false true false) (Boot MBack TRegister true true false).
Proof. eapply (lt_step _ BWork); [reflexivity|]. eapply (lt_step _ BMain); [reflexivity|]. constructor. Qed.

Print Assumptions c71_report.
Print Assumptions c71_in_time_partial.
Print Assumptions c71_shown.
Print Assumptions c71_alive_partial.
Print Assumptions c71_ends_partial.
Print Assumptions c71_duration.
Print Assumptions c71_duration_partial.
Print Assumptions c71_duration_refuted.
Print Assumptions c71_returned.
Print Assumptions c71_constructor_partial.
Print Assumptions c71_constructor_refuted.
Print Assumptions c71_zero_timeout_refuted.
Print Assumptions c71_signal_refuted.
