(** The watchdog's thread is awake at least every ms, so timers are served in time. *)
From Coq Require Import String.
From Verif Require Import Base ReactorModel ReactorSpec ReactorProofs PluginModel DogModel DogSpec DogProofs.
Local Open Scope Z_scope.
Local Open Scope list_scope.

Lemma step_ns a w w' : wstep a w = Some w' -> w_ns w <= w_ns w'.
Proof.
  intros S. unfold wstep in S. destruct (w_pos w) eqn:PS; try discriminate; destruct a; try discriminate; unfold worker, inner in S;
  try (match type of S with context [visit w] => apply visit_cases in S as (s & id & rest & t & P & G & BO & [(D & ->)|[(D & E & r' & -> & R)|(D & E & r' & R & ->)]]); apply Z.le_refl end);
  repeat match type of S with
  | context [if 0 <=? ?d then _ else _] => destruct (Z.leb_spec 0 d); [|discriminate]
  | context [match w_hb w with _ => _ end] => destruct (w_hb w); try discriminate
  | context [if booted w then _ else _] => destruct (booted w); [|discriminate]
  | context [match rstep ?x ?y with _ => _ end] => destruct (rstep x y) eqn:?; [|discriminate]
  | context [if ?c then _ else _] => destruct c; try discriminate
  | context [match r_phase ?x with _ => _ end] => destruct (r_phase x); try discriminate
  end; try injection S as <-; cbn [say with_pos with_ns with_r with_msgs w_ns]; lia.
Qed.
Lemma step_hb a w w' h : wstep a w = Some w' -> w_hb w = Some h -> w_hb w' = Some h.
Proof.
  intros S H. unfold wstep in S. destruct (w_pos w) eqn:PS; try discriminate; destruct a; try discriminate; unfold worker, inner in S;
  try (match type of S with context [visit w] => apply visit_cases in S as (s & id & rest & t & P & G & BO & [(D & ->)|[(D & E & r' & -> & R)|(D & E & r' & R & ->)]]); exact H end);
  rewrite ?H in S; try discriminate;
  repeat match type of S with
  | context [if 0 <=? ?d then _ else _] => destruct (Z.leb_spec 0 d); [|discriminate]
  | context [if booted w then _ else _] => destruct (booted w); [|discriminate]
  | context [match rstep ?x ?y with _ => _ end] => destruct (rstep x y) eqn:?; [|discriminate]
  | context [if ?c then _ else _] => destruct c; try discriminate
  | context [match r_phase ?x with _ => _ end] => destruct (r_phase x); try discriminate
  end; try injection S as <-; cbn [say with_pos with_ns with_r with_msgs w_hb]; first [exact H|reflexivity].
Qed.
Lemma wrun_inv g ns w : 0 <= ns -> wrun g ns w -> w_ns w < 2 ^ 62 -> winv g w.
Proof.
  intros H R. induction R as [|w a w' R IH S]; intros B; [apply winv_init, H|]. eapply winv_step; [apply IH|exact S|exact B]. pose proof (step_ns _ _ _ S). lia.
Qed.
Lemma prun_wrun e g ns w p l : prun e g ns w p l -> wrun g ns w.
Proof. induction 1; [constructor|econstructor; eassumption]. Qed.

(** The timer [id], due at [W] at the latest, has been waiting for no longer than one turn. *)
Definition soon (e : Z) (w : wd) (p id W : Z) : Prop := p < W \/ exists rest, r_phase (w_r w) = Pass p rest /\ In id rest /\ p < W + 1 + 2 * e.
Definition closing (e : Z) (w : wd) (p : Z) : Prop :=
  exists t0 l1 l2, w_log w = l1 ++ HEnding t0 :: l2 /\
  match r_phase (w_r w), w_hb w with
  | Done _, _ => True
  | _, None => p < t0 + 1 + e /\ p <= t0
  | _, Some h => if r_term (w_r w) then p < t0 + 2 + 3 * e else forall tm, tm_get (r_timers (w_r w)) h = Some tm -> t_when tm <= t0 + 1 + e /\ soon e w p h (t0 + 1 + e)
  end.
Record jinv (e : Z) (w : wd) (p l : Z) : Prop := JInv {
  j_l : 0 <= l <= e; j_p : p <= r_now (w_r w);
  j_act : match r_phase (w_r w) with
          | Poll dl => dl <= p + e + 1 /\ r_now (w_r w) <= dl + e /\ r_term (w_r w) = false
          | Done _ => w_flag w = false
          | Pass s _ => s = p /\ r_now (w_r w) <= p + l
          | Top => r_now (w_r w) <= p + l
          | _ => False
          end;
  j_call : forall tm, w_hb w <> Some (w_id w) -> tm_get (r_timers (w_r w)) (w_id w) = Some tm -> soon e w p (w_id w) (t_when tm);
  j_flag : w_flag w = true -> r_term (w_r w) = false;
  j_end : w_flag w = false -> closing e w p }.

Lemma jinv_init e g ns : 0 <= e -> jinv e (winit g ns) (ns / 10 ^ 6) 0.
Proof.
  intros H. split; cbn [winit w_r w_flag w_hb w_id reactor_init r_now r_phase r_timers r_term tm_get]; try discriminate; try reflexivity; lia.
Qed.
(** The reactor is as it was but for the phase, which moves between those of the same turn; events are added to the log. *)
Lemma soon_same e w w' p id W : soon e w p id W -> r_phase (w_r w') = r_phase (w_r w) -> soon e w' p id W.
Proof. intros [H|(rest & H)] E; [left; exact H|right; exists rest; rewrite E; exact H]. Qed.
Lemma closing_same e w w' p x : closing e w p -> w_log w' = w_log w ++ x -> r_phase (w_r w') = r_phase (w_r w) -> r_term (w_r w') = r_term (w_r w) -> w_hb w' = w_hb w ->
  (forall h tm, w_hb w = Some h -> tm_get (r_timers (w_r w')) h = Some tm -> tm_get (r_timers (w_r w)) h = Some tm) -> closing e w' p.
Proof.
  intros (t0 & l1 & l2 & E & C) L P T H TM. exists t0, l1, (l2 ++ x). split; [rewrite L, E, <- app_assoc; reflexivity|]. rewrite P, T, H.
  destruct (r_phase (w_r w)) eqn:PH; try exact Logic.I; (destruct (w_hb w) as [h|] eqn:HB; [|exact C]); (destruct (r_term (w_r w)); [exact C|]); intros tm X; (destruct (C tm (TM _ _ eq_refl X)) as (C1 & C2); split; [exact C1|]); (eapply soon_same; [exact C2|congruence]).
Qed.

Lemma jinv_step e g a w p l w' p' l' : 0 <= e -> winv g w -> w_ns w' < 2 ^ 62 -> w_hb w' <> Some g -> jinv e w p l -> wstep a w = Some w' -> late a w w' p l = (p', l') -> l' <= e -> a <> WInterrupt -> jinv e w' p' l'.
Proof.
  intros E0 V B NG J S L LE NI. assert (NGO : w_pos w <> Gone) by (intros E; unfold wstep in S; rewrite E in S; discriminate).
  assert (NG0 : w_hb w <> Some g) by (intros X; apply NG; eapply step_hb; [exact S|exact X]).
  pose proof (winv_step _ _ _ _ V S B) as V'.
  destruct a; try congruence.
  - (* time *) assert (S2 : 0 <= ns /\ exists r', rstep (LTick (ticks ns w)) (w_r w) = Some r' /\ w' = with_ns (w_ns w + ns) (with_r r' w)).
    { unfold wstep, inner in S. destruct (Z.leb_spec 0 ns); [|destruct (w_pos w); discriminate]. split; [assumption|]. destruct (rstep (LTick (ticks ns w)) (w_r w)) as [r'|]; [|destruct (w_pos w); discriminate]. exists r'. split; [reflexivity|]. destruct (w_pos w); try discriminate; injection S as <-; reflexivity. }
    clear S. destruct S2 as (D & r' & R & ->). cbn [rstep] in R. destruct (Z.leb_spec 0 (ticks ns w)) as [D2|]; [|discriminate]. injection R as <-. cbn [late with_ns with_r w_r tick r_now] in L. destruct J.
    assert (EN : w_flag w = false -> closing e (with_ns (w_ns w + ns) (with_r (tick (ticks ns w) (w_r w)) w)) p) by (intros X; apply (closing_same e w _ p []); [apply j_end0, X|symmetry; apply app_nil_r|reflexivity..|auto]).
    split; cbn [with_ns with_r w_r w_flag w_hb w_id tick r_now r_phase r_timers r_term]; destruct (r_phase (w_r w)) eqn:P; injection L as <- <-; try assumption; try lia; try contradiction; try (intros tm X Y; eapply soon_same; [apply (j_call0 tm X Y)|reflexivity]).
  - (* elsewhere *) assert (S2 : exists r', rstep LElsewhere (w_r w) = Some r' /\ w' = with_r r' w).
    { unfold wstep, inner in S. destruct (rstep LElsewhere (w_r w)) as [r'|]; [|destruct (w_pos w); discriminate]. exists r'. split; [reflexivity|]. destruct (w_pos w); congruence. }
    clear S. destruct S2 as (r' & R & ->). cbn [rstep] in R. destruct (_ <? _); [|discriminate]. injection R as <-. cbn [late with_r w_r r_now] in L. rewrite Z.sub_diag, Z.add_0_r in L. injection L as <- <-. destruct J. split; try assumption.
  - (* clear *) assert (S2 : w' = say HClear (with_msgs (clear_errors (w_msgs w)) w)) by (unfold wstep in S; destruct (w_pos w); congruence). clear S. subst w'. cbn [late say with_msgs w_r r_now] in L. rewrite Z.sub_diag, Z.add_0_r in L. injection L as <- <-. destruct J. split; try assumption.
    intros X. apply (closing_same e w _ p [HClear]); [apply j_end0, X|reflexivity..|auto].
  - (* boot *) assert (S2 : w_hb w = None /\ exists r', rstep (LRegister 1 0) (w_r w) = Some r' /\ w' = Wd r' (w_ns w) (w_flag w) (Some (r_next (w_r w))) (w_names w) (w_pos w) (w_start w) (w_timeout w) (w_name w) (w_id w) (w_msgs w) (w_log w)).
    { unfold wstep, inner in S. destruct (w_hb w); [destruct (w_pos w); discriminate|]. split; [reflexivity|]. destruct (rstep (LRegister 1 0) (w_r w)) as [r'|]; [|destruct (w_pos w); discriminate]. exists r'. split; [reflexivity|]. destruct (w_pos w); try discriminate; injection S as <-; reflexivity. }
    clear S. destruct S2 as (HB & r' & R & ->). cbn [rstep] in R. destruct (v_new _ _ V HB) as (N1 & N2). rewrite N1 in R. cbn [free andb] in R. destruct (_ <? _); [|discriminate]. injection R as <-. cbn [late w_r emit r_now] in L. rewrite Z.sub_diag, Z.add_0_r in L. injection L as <- <-.
    pose proof (rinv_tinv _ (v_rinv _ _ V) (v_dead _ _ V)) as TI. pose proof (ms_small (w_ns w)) as SM. pose proof (v_now _ _ V) as NOW. pose proof (v_ns _ _ V) as NS. cbn [w_ns] in B. specialize (SM ltac:(lia)).
    destruct J. split; cbn [emit w_r w_flag w_hb w_id r_now r_phase r_timers r_term r_next] in *; try assumption.
    + rewrite N1 in j_act0. exact j_act0.
    + intros tm X Y. rewrite tm_get_app in Y. cbn [fst snd] in Y. destruct (tm_get (r_timers (w_r w)) (w_id w)) as [tm'|] eqn:G.
      * injection Y as <-. eapply soon_same; [apply (j_call0 tm'); [congruence|reflexivity]|symmetry; exact N1].
      * destruct (Z.eqb_spec (r_next (w_r w)) (w_id w)); [congruence|discriminate].
    + intros X. destruct (j_end0 X) as (t0 & l1 & l2 & C1 & C2). exists t0, l1, l2. split; [exact C1|]. cbn [emit w_r w_hb r_phase r_term r_timers]. rewrite N1, HB in C2. rewrite N2. rewrite N1 in j_act0. intros tm Y. rewrite tm_get_app in Y. cbn [fst snd] in Y.
      destruct (tm_get (r_timers (w_r w)) (r_next (w_r w))) as [tm'|] eqn:G; [assert (r_next (w_r w) < r_next (w_r w)) by (apply (i_keys_lt _ _ _ _ TI), tm_get_in; eauto); lia|]. rewrite Z.eqb_refl in Y. injection Y as <-. cbn [t_when]. rewrite i64_small by lia. split; [lia|left; lia].
  - (* loop *) assert (S2 : 0 <= ns /\ booted w = true /\ exists r', rstep (LLoop (ticks ns w)) (w_r w) = Some r' /\ w' = if match r_phase r' with Poll _ => true | _ => false end then with_ns (w_ns w + ns) (with_r r' w) else with_r r' w).
    { unfold wstep, worker, inner in S. destruct (Z.leb_spec 0 ns); [|destruct (w_pos w); discriminate]. destruct (booted w); [|destruct (w_pos w); discriminate]. destruct (rstep (LLoop (ticks ns w)) (w_r w)) as [r'|]; [|destruct (w_pos w); discriminate]. repeat split; try assumption. exists r'. split; [reflexivity|]. destruct (w_pos w); try discriminate; injection S as <-; reflexivity. }
    clear S. destruct S2 as (D & BO & r' & R & ->). cbn [rstep] in R. destruct (r_phase (w_r w)) eqn:P; try discriminate.
    destruct (w_hb w) as [h|] eqn:HB; [|unfold booted in BO; rewrite HB in BO; discriminate]. pose proof (v_alive _ _ V h HB ltac:(congruence)) as AL. destruct (r_term (w_r w)) eqn:T.
    + injection R as <-. cbn [at_phase r_phase] in *. cbn [late with_r w_r at_phase r_now] in L. rewrite Z.sub_diag, Z.add_0_r in L. injection L as <- <-. destruct J. rewrite P in *. assert (FL : w_flag w = false) by (destruct (w_flag w); [rewrite (j_flag0 eq_refl) in T; discriminate|reflexivity]).
      split; cbn [with_r w_r w_flag w_hb w_id at_phase r_now r_phase r_timers r_term]; try assumption.
      * intros tm X Y. destruct (j_call0 tm X Y) as [Z|(rest & Z & _)]; [left; exact Z|rewrite P in Z; discriminate].
      * intros _. destruct (j_end0 FL) as (t0 & l1 & l2 & C1 & C2). exists t0, l1, l2. split; [exact C1|]. exact Logic.I.
    + assert (NE : r_timers (w_r w) <> []) by (intros X; rewrite X in AL; destruct AL). destruct (r_timers (w_r w)) as [|x ts] eqn:TS; [congruence|]. rewrite <- TS in *. clear NE. rewrite (v_chans _ _ V) in R. destruct (Z.leb_spec 0 (ticks ns w)) as [D2|]; [|discriminate].
      assert (R2 : r' = at_phase (Poll (Z.max (tickless (r_now (w_r w)) (r_timers (w_r w))) (r_now (w_r w) + ticks ns w))) (tick (ticks ns w) (w_r w))) by (rewrite TS in *; congruence). clear R. subst r'. cbn [at_phase tick r_phase] in *. cbn [late with_ns with_r w_r at_phase tick r_now] in L. injection L as <- <-.
      destruct (proj2 (tm_get_in _ _) AL) as (tm & G). pose proof (tickless_le (r_now (w_r w)) _ _ _ (tm_get_some _ _ _ G)) as TL. destruct (v_tm _ _ V h tm G) as [(_ & t & -> & T2)|(X & _)]; [|congruence]. cbn [t_when] in TL.
      destruct J. rewrite P in *. split; cbn [with_ns with_r w_r w_flag w_hb w_id at_phase tick r_now r_phase r_timers r_term]; try assumption; try lia.
      * intros tm X Y. destruct (j_call0 tm X Y) as [Z|(rest & Z & _)]; [left; exact Z|rewrite P in Z; discriminate].
      * intros X. destruct (j_end0 X) as (t0 & l1 & l2 & C1 & C2). exists t0, l1, l2. split; [exact C1|]. cbn [with_ns with_r w_r w_hb at_phase tick r_phase r_term r_timers]. rewrite P, HB, T in *. intros tm Y. destruct (C2 tm Y) as (C3 & [C4|(rest & C4 & _)]); [|rewrite P in C4; discriminate]. split; [exact C3|left; exact C4].
  - (* timeout *) assert (S2 : booted w = true /\ exists r', rstep LTimeout (w_r w) = Some r' /\ w' = with_r r' w).
    { unfold wstep, worker, inner in S. destruct (booted w); [|destruct (w_pos w); discriminate]. destruct (rstep LTimeout (w_r w)) as [r'|]; [|destruct (w_pos w); discriminate]. split; [reflexivity|]. exists r'. split; [reflexivity|]. destruct (w_pos w); congruence. }
    clear S. destruct S2 as (BO & r' & R & ->). cbn [rstep] in R. destruct (r_phase (w_r w)) eqn:P; try discriminate. destruct (_ <=? _); [|discriminate]. injection R as <-. cbn [late with_r w_r at_phase emit r_now] in L. injection L as <- <-.
    destruct J. rewrite P in *. destruct j_act0 as (A1 & A2 & A3). split; cbn [with_r w_r w_flag w_hb w_id emit at_phase r_now r_phase r_timers r_term]; try assumption; try lia.
    + intros tm X Y. destruct (j_call0 tm X Y) as [Z|(rest & Z & _)]; [|rewrite P in Z; discriminate]. right. exists (map fst (r_timers (w_r w))). cbn [with_r w_r emit at_phase r_phase]. split; [reflexivity|]. split; [apply tm_get_in; eauto|lia].
    + intros X. destruct (j_end0 X) as (t0 & l1 & l2 & C1 & C2). exists t0, l1, l2. split; [exact C1|]. cbn [with_r w_r w_hb at_phase emit r_phase r_term r_timers]. rewrite P, A3 in *. destruct (w_hb w) as [h|] eqn:HB; [|unfold booted in BO; rewrite HB in BO; discriminate].
      intros tm Y. destruct (C2 tm Y) as (C3 & [C4|(rest & C4 & _)]); [|rewrite P in C4; discriminate]. split; [exact C3|]. right. exists (map fst (r_timers (w_r w))). cbn [with_r w_r emit at_phase r_phase]. split; [reflexivity|]. split; [apply tm_get_in; eauto|lia].
  - (* visit *) assert (S2 : visit w = Some w') by (unfold wstep in S; destruct (w_pos w); [exact S..|congruence]). clear S. apply visit_cases in S2 as (s & id & rest & t & P & G & BO & C).
    destruct (w_hb w) as [h|] eqn:HB; [|unfold booted in BO; rewrite HB in BO; discriminate]. pose proof (v_alive _ _ V h HB ltac:(congruence)) as AL. destruct J. rewrite P in j_act0. destruct j_act0 as (-> & A2).
    destruct (r_pass _ (v_rinv _ _ V) _ _ P) as (_ & ND & _). inversion ND as [|? ? ND1 ND2]; subst.
    (* a timer other than the one visited, or one not due *)
    assert (KEEP : forall w1 j W, (j <> id \/ p < W) -> soon e w p j W -> r_phase (w_r w1) = Pass p rest -> soon e w1 p j W).
    { intros w1 j W NE [H|(rest' & H1 & H2 & H3)] E; [left; exact H|]. destruct NE as [NE|NE]; [|left; exact NE]. rewrite P in H1. injection H1 as <-. destruct H2 as [H2|H2]; [congruence|]. right. exists rest. auto. }
    destruct C as [(D & ->)|[(D & E & r' & -> & R)|(D & E & r' & R & ->)]].
    + cbn [late with_r w_r at_phase r_now] in L. rewrite Z.sub_diag, Z.add_0_r in L. injection L as <- <-. split; cbn [with_r w_r w_flag w_hb w_id at_phase r_now r_phase r_timers r_term]; try assumption; try (split; [reflexivity|exact A2]).
      * rewrite HB in *. intros tm X Y. apply KEEP; [|apply (j_call0 tm X Y)|reflexivity]. destruct (Z.eq_dec (w_id w) id) as [EQ|EQ]; [right|left; exact EQ]. rewrite EQ, G in Y. injection Y as <-. lia.
      * intros X. destruct (j_end0 X) as (t0 & l1 & l2 & C1 & C2). exists t0, l1, l2. split; [exact C1|]. cbn [with_r w_r w_hb at_phase r_phase r_term r_timers]. rewrite P, HB in *. destruct (r_term (w_r w)); [exact C2|]. intros tm Y. destruct (C2 tm Y) as (C3 & C4). split; [exact C3|].
        apply KEEP; [|exact C4|reflexivity]. destruct (Z.eq_dec h id) as [EQ|EQ]; [right|left; exact EQ]. rewrite EQ, G in Y. injection Y as <-. lia.
    + injection E as ->. apply (fired _ _ _ p id rest t) in R; try assumption; [|destruct (w_flag w); discriminate]. destruct (v_tm _ _ V id t G) as [(_ & t1 & T1 & T2)|(X & _)]; [|congruence]. rewrite T1 in R, D. cbn [t_times t_delay t_when] in R, D. change (0 <? 0) with false in R. cbv iota zeta in R. cbn [andb] in R. subst r'.
      cbn [late with_r w_r r_now] in L. rewrite Z.sub_diag, Z.add_0_r in L. injection L as <- <-. split; cbn [with_r w_r w_flag w_hb w_id r_now r_phase r_timers r_term]; try assumption; try (split; [reflexivity|exact A2]).
      * rewrite HB in *. intros tm X Y. rewrite tm_set_get, G in Y. destruct (Z.eqb_spec (w_id w) id) as [EQ|EQ]; [congruence|]. cbn [andb] in Y. apply KEEP; [left; exact EQ|apply (j_call0 tm X Y)|reflexivity].
      * intros X. rewrite X. apply j_flag0, X.
      * intros X. destruct (j_end0 X) as (t0 & l1 & l2 & C1 & C2). exists t0, l1, l2. split; [exact C1|]. cbn [with_r w_r w_hb r_phase r_term r_timers]. rewrite P, HB in C2. rewrite X, HB. destruct (r_term (w_r w)); [exact C2|]. destruct (C2 t G) as (C3 & [C4|(rest' & _ & _ & C4)]); lia.
    + apply (fired _ _ _ p id rest t) in R; try assumption; [|discriminate]. destruct (v_tm _ _ V id t G) as [(X & _)|(_ & Y2 & Y3)]; [congruence|]. destruct Y3 as (Z1 & Z2 & Z3 & st & t1 & l1 & l2 & Z4 & Z5 & Z6 & Z7). rewrite Z7 in R, D. cbn [t_times t_delay t_when] in R, D.
      change (0 <? 1) with true in R. cbv iota zeta in R. change (1 - 1 =? 0) with true in R. cbn [andb] in R. subst r' id. cbn [late say with_msgs with_r w_r r_now] in L. rewrite Z.sub_diag, Z.add_0_r in L. injection L as <- <-.
      split; cbn [say with_msgs with_r w_r w_flag w_hb w_id r_now r_phase r_timers r_term]; try assumption; try (split; [reflexivity|exact A2]).
      * intros tm X Y. rewrite tm_del_get, Z.eqb_refl in Y. discriminate.
      * intros X. destruct (j_end0 X) as (t0 & m1 & m2 & C1 & C2). eexists t0, m1, (m2 ++ [_]). split; [cbn [say with_msgs with_r w_log]; rewrite C1, <- app_assoc; reflexivity|]. cbn [say with_msgs with_r w_r w_hb r_phase r_term r_timers]. rewrite P, HB in C2. rewrite HB. destruct (r_term (w_r w)); [exact C2|].
        intros tm Y. rewrite tm_del_get in Y. destruct (Z.eqb_spec h (w_id w)) as [EQ|EQ]; [discriminate|]. destruct (C2 tm Y) as (C3 & C4). split; [exact C3|]. apply KEEP; [left; exact EQ|exact C4|reflexivity].
  - (* unlock *) assert (S2 : booted w = true /\ exists r', rstep LUnlock (w_r w) = Some r' /\ w' = with_r r' w).
    { unfold wstep, worker, inner in S. destruct (booted w); [|destruct (w_pos w); discriminate]. destruct (rstep LUnlock (w_r w)) as [r'|]; [|destruct (w_pos w); discriminate]. split; [reflexivity|]. exists r'. split; [reflexivity|]. destruct (w_pos w); congruence. }
    clear S. destruct S2 as (BO & r' & R & ->). cbn [rstep] in R. destruct (r_phase (w_r w)) as [| | |s [|]| |] eqn:P; try discriminate. injection R as <-. cbn [late with_r w_r at_phase r_now] in L. rewrite Z.sub_diag, Z.add_0_r in L. injection L as <- <-.
    destruct J. rewrite P in *. destruct j_act0 as (A1 & A2). subst s. split; cbn [with_r w_r w_flag w_hb w_id at_phase r_now r_phase r_timers r_term]; try assumption.
    + intros tm X Y. destruct (j_call0 tm X Y) as [Z|(rest & Z & Z2 & _)]; [left; exact Z|rewrite P in Z; injection Z as <-; destruct Z2].
    + intros X. destruct (j_end0 X) as (t0 & l1 & l2 & C1 & C2). exists t0, l1, l2. split; [exact C1|]. cbn [with_r w_r w_hb at_phase r_phase r_term r_timers]. rewrite P in *. destruct (w_hb w) as [h|] eqn:HB; [|exact C2]. destruct (r_term (w_r w)); [exact C2|].
      intros tm Y. destruct (C2 tm Y) as (C3 & [C4|(rest & C4 & C5 & _)]); [split; [exact C3|left; exact C4]|rewrite P in C4; injection C4 as <-; destruct C5].
  - (* start *) unfold wstep in S. destruct (w_pos w) eqn:PS; try discriminate. destruct (_ && _); [|discriminate]. injection S as <-. cbn [late w_r] in L. rewrite Z.sub_diag, Z.add_0_r in L. injection L as <- <-. destruct J. split; try assumption.
  - (* register *) unfold wstep in S. destruct (w_pos w) eqn:PS; try discriminate. destruct (v_starting _ _ V PS) as (T1 & T2). destruct (Z.ltb_spec 0 (w_timeout w)) as [T0|T0].
    + cbn [rstep] in S. destruct (free (r_phase (w_r w))) eqn:FR; [|discriminate]. cbn [andb] in S. destruct (_ <? _); [|discriminate]. injection S as <-. cbn [late w_r emit r_now] in L. rewrite Z.sub_diag, Z.add_0_r in L. injection L as <- <-.
      pose proof (rinv_tinv _ (v_rinv _ _ V) (v_dead _ _ V)) as TI. pose proof (ms_small (w_ns w)) as SM. pose proof (v_now _ _ V) as NOW. pose proof (v_ns _ _ V) as NS. cbn [w_ns] in B. specialize (SM ltac:(lia)).
      destruct J. split; cbn [emit w_r w_flag w_hb w_id r_now r_phase r_timers r_term r_next] in *; try assumption.
      * intros tm X Y. rewrite tm_get_app in Y. cbn [fst snd] in Y. destruct (tm_get (r_timers (w_r w)) (r_next (w_r w))) as [tm'|] eqn:G; [assert (r_next (w_r w) < r_next (w_r w)) by (apply (i_keys_lt _ _ _ _ TI), tm_get_in; eauto); lia|].
        rewrite Z.eqb_refl in Y. injection Y as <-. cbn [t_when]. rewrite i64_small by lia. left. lia.
      * intros X. eapply closing_same; [apply j_end0, X|reflexivity..|]. cbn [w_r emit r_timers]. intros h tm HB Y. rewrite tm_get_app in Y. cbn [fst] in Y. destruct (tm_get (r_timers (w_r w)) h) as [tm'|] eqn:G; [exact Y|]. pose proof (v_hb _ _ V h HB). destruct (Z.eqb_spec (r_next (w_r w)) h); [lia|discriminate].
    + injection S as <-. cbn [late say with_pos w_r] in L. rewrite Z.sub_diag, Z.add_0_r in L. injection L as <- <-. destruct J. split; try assumption. intros X. eapply closing_same; [apply j_end0, X|reflexivity..|auto].
  - (* remove *) unfold wstep in S. destruct (w_pos w) eqn:PS; try discriminate. unfold inner in S. cbn [rstep] in S. destruct (free (r_phase (w_r w))) eqn:FR; [|discriminate]. injection S as <-. cbn [late say with_pos with_r emit with_timers w_r r_now] in L. rewrite Z.sub_diag, Z.add_0_r in L. injection L as <- <-.
    destruct J. split; try assumption.
    + cbn [say with_pos with_r emit with_timers w_r w_id w_hb r_timers]. intros tm X Y. rewrite tm_del_get, Z.eqb_refl in Y. discriminate.
    + intros X. eapply closing_same; [apply j_end0, X|reflexivity..|]. cbn [say with_pos with_r emit with_timers w_r r_timers]. intros h tm HB Y. rewrite tm_del_get in Y. destruct (_ =? _); [discriminate|exact Y].
  - (* return *) unfold wstep in S. destruct (w_pos w) eqn:PS; try discriminate. injection S as <-. cbn [late say with_pos w_r] in L. rewrite Z.sub_diag, Z.add_0_r in L. injection L as <- <-. destruct J. split; try assumption.
    intros X. eapply closing_same; [apply j_end0, X|reflexivity..|auto].
  - (* destroy *) unfold wstep in S. destruct (w_pos w) eqn:PS; try discriminate. injection S as <-. cbn [late w_r] in L. rewrite Z.sub_diag, Z.add_0_r in L. injection L as <- <-. destruct J. split; cbn [w_r w_flag w_hb w_id] in *; try assumption; try discriminate.
    + destruct (r_phase (w_r w)); try assumption; reflexivity.
    + intros _. exists (r_now (w_r w)), (w_log w), []. cbn [w_log w_r w_hb]. split; [reflexivity|]. destruct (r_phase (w_r w)); try exact Logic.I; (destruct (w_hb w) as [h|] eqn:HB; [|lia]); (destruct (r_term (w_r w)); [lia|]); intros tm Y; (destruct (v_tm _ _ V h tm Y) as [(_ & t & -> & Z)|(Z & _)]; [|congruence]; cbn [t_when]; split; [lia|left; lia]).
  - (* join *) unfold wstep in S. destruct (w_pos w) eqn:PS; try discriminate. destruct (r_phase (w_r w)) eqn:P; try discriminate. destruct (booted w); [|discriminate]. injection S as <-. cbn [late say with_pos w_r] in L. rewrite Z.sub_diag, Z.add_0_r in L. injection L as <- <-. destruct J. split; try assumption.
    intros X. eapply closing_same; [apply j_end0, X|reflexivity..|auto].
Qed.

Lemma prun_inv e g ns w p l : 0 <= e -> 0 <= ns -> prun e g ns w p l -> w_ns w < 2 ^ 62 -> w_hb w <> Some g -> jinv e w p l.
Proof.
  intros E0 N0 R. induction R as [|w p l a w' p' l' R IH S L LE NI]; intros B NG; [apply jinv_init, E0|]. pose proof (step_ns _ _ _ S) as M.
  eapply (jinv_step e g a w p l); try eassumption; [eapply wrun_inv; [exact N0|eapply prun_wrun, R|lia]|]. apply IH; [lia|]. intros X. apply NG. eapply step_hb; [exact S|exact X].
Qed.
(** No timer waits for longer than [1 + 3 * e] ms. *)
Lemma soon_now e w p l id W : 0 <= e -> jinv e w p l -> (forall rc, r_phase (w_r w) <> Done rc) -> soon e w p id W -> r_now (w_r w) < W + 1 + 3 * e.
Proof.
  intros E0 J ND [H|(rest & P & _ & H)]; destruct J.
  - destruct (r_phase (w_r w)) as [|dl| |s rest|rc|] eqn:PH; try contradiction; try lia. destruct (ND rc eq_refl).
  - rewrite P in j_act0. lia.
Qed.

