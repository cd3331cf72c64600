From Coq Require Import String.
From Verif Require Import Base ReactorModel ReactorSpec ReactorProofs PluginModel DogModel DogSpec.
Local Open Scope Z_scope.
Local Open Scope list_scope.

(** ** Invariant. *)
Definition reports_ok (l : list wevent) : Prop := forall a m t b, l = a ++ HReport m t :: b -> justified a m t.
(** The timer of the call in progress. *)
Definition call_timer (w : wd) (tm : timer) : Prop :=
  w_pos w = Busy /\ 0 < w_timeout w < 2 ^ 32 /\ name_of (w_names w) (w_id w) = w_name w /\
  exists s t l1 l2, w_log w = l1 ++ HBegan (w_name w) (w_timeout w) s t :: l2 /\ quiet l2 /\ s / 10 ^ 6 <= t <= r_now (w_r w) /\ tm = Timer (w_timeout w) 1 (t + w_timeout w).
Record winv (g : Z) (w : wd) : Prop := WInv {
  v_ns : 0 <= w_ns w; v_now : r_now (w_r w) = w_ns w / 10 ^ 6;
  v_rinv : rinv (w_r w); v_dead : r_phase (w_r w) <> Dead; v_chans : r_chans (w_r w) = O;
  v_hb : forall h, w_hb w = Some h -> 0 <= h < r_next (w_r w);
  v_id : w_id w = g \/ 0 <= w_id w < r_next (w_r w) /\ w_hb w <> Some (w_id w);
  v_named : Forall (fun e => fst e < r_next (w_r w)) (w_names w);
  v_tm : forall id tm, tm_get (r_timers (w_r w)) id = Some tm ->
    (w_hb w = Some id /\ exists t, tm = Timer 1 0 t /\ 0 <= t <= r_now (w_r w) + 1) \/ (w_hb w <> Some id /\ id = w_id w /\ call_timer w tm);
  v_alive : forall h, w_hb w = Some h -> h <> g -> In h (map fst (r_timers (w_r w)));
  v_new : w_hb w = None -> r_phase (w_r w) = Top /\ r_term (w_r w) = false;
  v_starting : w_pos w = Starting -> 0 <= w_timeout w < 2 ^ 32 /\ w_start w / 10 ^ 6 <= r_now (w_r w);
  v_reports : reports_ok (w_log w) }.


Lemma reports_snoc l e : reports_ok l -> (forall m t, e = HReport m t -> justified l m t) -> reports_ok (l ++ [e]).
Proof.
  intros H J a m t b E. apply snoc_split in E as [(-> & E)|(b' & -> & E)]; [|].
Abort.
Lemma snoc_cases {A} (l : list A) e a x b : l ++ [e] = a ++ x :: b -> (b = [] /\ e = x /\ a = l) \/ exists b', b = b' ++ [e] /\ l = a ++ x :: b'.
Proof.
  intros H. destruct (snoc_split _ _ _ _ _ H) as [(-> & ->)|X]; [|right; exact X]. left. apply app_inj_tail in H as (-> & _). auto.
Qed.
Lemma reports_snoc l e : reports_ok l -> (forall m t, e = HReport m t -> justified l m t) -> reports_ok (l ++ [e]).
Proof.
  intros H J a m t b E. apply snoc_cases in E as [(-> & E & ->)|(b' & -> & E)]; [apply J, E|eapply H; exact E].
Qed.
Lemma quiet_snoc l : quiet l -> quiet (l ++ [HClear]).
Proof. intros H. apply Forall_app. split; [exact H|repeat constructor]. Qed.

Lemma name_of_snoc l id n : Forall (fun e => fst e < id) l -> name_of (l ++ [(id, n)]) id = n.
Proof. induction 1 as [|[i m] l H _ IH]; cbn; [rewrite Z.eqb_refl; reflexivity|]. cbn in H. destruct (Z.eqb_spec i id); [lia|exact IH]. Qed.
Lemma ms_mono a b : a <= b -> a / 10 ^ 6 <= b / 10 ^ 6. Proof. intros H. apply Z.div_le_mono; lia. Qed.
Lemma ms_small a : 0 <= a < 2 ^ 62 -> 0 <= a / 10 ^ 6 < 2 ^ 43.
Proof. intros H. split; [apply Z.div_pos; lia|]. apply Z.div_lt_upper_bound; [reflexivity|]. assert (2 ^ 62 < 10 ^ 6 * 2 ^ 43) by reflexivity. lia. Qed.

Lemma winv_init g ns : 0 <= ns -> winv g (winit g ns).
Proof.
  intros H. assert (M : 0 <= ns / 10 ^ 6) by (apply Z.div_pos; lia). split; cbn [winit w_r w_ns w_hb w_id w_names w_pos w_log reactor_init r_now r_phase r_chans r_next r_timers r_term]; try discriminate; try (constructor; fail); auto.
  - split; [exists []; split; [apply tinv_init, M|reflexivity]|intros s rest X; discriminate].
  - intros a m t b E. destruct a; discriminate.
Qed.

(** The reactor's state changes, its timers and clock do not. *)
Lemma winv_same g w r' : winv g w -> rinv r' -> r_phase r' <> Dead -> r_now r' = r_now (w_r w) -> r_next (w_r w) <= r_next r' -> r_timers r' = r_timers (w_r w) -> r_chans r' = O ->
  (w_hb w = None -> r_phase r' = Top /\ r_term r' = false) -> winv g (with_r r' w).
Proof.
  intros V RI ND E1 E2 E3 E4 E5. destruct V. split; cbn [with_r w_r w_ns w_hb w_id w_names w_pos w_log w_start w_timeout]; try assumption.
  - congruence.
  - intros h X. specialize (v_hb0 h X). lia.
  - destruct v_id0 as [X|(X & Y)]; [auto|right; split; [lia|exact Y]].
  - eapply Forall_impl; [|exact v_named0]. cbn. lia.
  - rewrite E1, E3. intros id tm X. destruct (v_tm0 id tm X) as [Y|(Y1 & Y2 & Y3)]; [auto|right]. split; [exact Y1|]. split; [exact Y2|]. unfold call_timer in *. cbn [with_r w_r w_ns w_hb w_id w_names w_pos w_log w_start w_timeout w_name]. rewrite E1. exact Y3.
  - rewrite E3. exact v_alive0.
  - rewrite E1. exact v_starting0.
Qed.

(** What one turn of the loop over the timers does. *)
Lemma visit_cases w w' : visit w = Some w' -> exists s id rest t, r_phase (w_r w) = Pass s (id :: rest) /\ tm_get (r_timers (w_r w)) id = Some t /\ booted w = true /\
  ((r_now (w_r w) < t_when t /\ w' = with_r (at_phase (Pass s rest) (w_r w)) w) \/
   (t_when t <= r_now (w_r w) /\ w_hb w = Some id /\ exists r', w' = with_r r' w /\ rstep (LVisit (if w_flag w then ANothing else AStop)) (w_r w) = Some r') \/
   (t_when t <= r_now (w_r w) /\ w_hb w <> Some id /\ exists r', rstep (LVisit ANothing) (w_r w) = Some r' /\
    w' = say (HReport (String.append (name_of (w_names w) id) " | Watchdog timed out") (w_ns w)) (with_msgs (set_warning (String.append (name_of (w_names w) id) " | Watchdog timed out") (w_msgs w)) (with_r r' w)))).
Proof.
  unfold visit. destruct (r_phase (w_r w)) as [| | |s [|id rest]| |] eqn:P; try discriminate. destruct (tm_get (r_timers (w_r w)) id) as [t|] eqn:G; [|discriminate]. intros H. exists s, id, rest, t. split; [reflexivity|]. split; [exact G|].
  unfold worker, inner in H. assert (BO : booted w = true) by (destruct (booted w); [reflexivity|]; destruct (_ <=? _); [destruct (w_hb w) as [h|]; [destruct (_ =? _)|]|]; discriminate). split; [exact BO|]. rewrite BO in H.
  destruct (Z.leb_spec (t_when t) (r_now (w_r w))) as [D|D].
  - right. destruct (match w_hb w with Some h => id =? h | None => false end) eqn:E.
    + left. split; [exact D|]. assert (E2 : w_hb w = Some id) by (destruct (w_hb w) as [h|]; [apply Z.eqb_eq in E; congruence|discriminate]). split; [exact E2|]. destruct (rstep _ _) as [r'|]; [|discriminate]. injection H as <-. eauto.
    + right. split; [exact D|]. split; [intros X; rewrite X in E; rewrite Z.eqb_refl in E; discriminate|]. destruct (rstep _ _) as [r'|]; [|discriminate]. injection H as <-. eauto.
  - left. split; [exact D|]. cbn [rstep] in H. rewrite P, G in H. destruct (Z.leb_spec (t_when t) (r_now (w_r w))); [lia|]. injection H as <-. reflexivity.
Qed.
(** A timer that is due fires. *)
Lemma fired act r r' s id rest t : r_phase r = Pass s (id :: rest) -> tm_get (r_timers r) id = Some t -> t_when t <= r_now r -> act <> ATimers -> rstep (LVisit act) r = Some r' ->
  let times' := if 0 <? t_times t then t_times t - 1 else t_times t in
  r' = Reactor (r_now r) (r_next r) (if (0 <? t_times t) && (times' =? 0) then tm_del (r_timers r) id else tm_set (r_timers r) id (Timer (t_delay t) times' (i64 (t_when t + t_delay t))))
         (r_chans r) (match act with AStop => true | _ => r_term r end) (Pass s rest) (r_log r ++ [EFire id (r_now r)]).
Proof.
  intros P G D A H. cbn [rstep] in H. rewrite P, G in H. destruct (Z.leb_spec (t_when t) (r_now r)); [|lia]. destruct act; try congruence; injection H as <-; reflexivity.
Qed.

Lemma winv_step g a w w' : winv g w -> wstep a w = Some w' -> w_ns w' < 2 ^ 62 -> winv g w'.
Proof.
  intros V S B. assert (NG : w_pos w <> Gone) by (intros E; unfold wstep in S; rewrite E in S; discriminate).
  assert (RI : forall a r', rstep a (w_r w) = Some r' -> (forall d n, a = LRegister d n -> 0 <= d < 2 ^ 64 /\ 0 <= n < 2 ^ 64) -> rinv r') by (intros b r' X Y; eapply rinv_step; [apply (v_rinv _ _ V)|exact Y|exact X]).
  assert (ST : wstep a w = match a with
    | WTime d => if 0 <=? d then match inner (LTick (ticks d w)) w with Some w' => Some (with_ns (w_ns w + d) w') | None => None end else None
    | _ => wstep a w end) by (unfold wstep; destruct (w_pos w), a; try reflexivity; congruence).
  destruct a.
  - (* time *) rewrite ST in S. clear ST. destruct (Z.leb_spec 0 ns) as [D|]; [|discriminate]. unfold inner in S. destruct (rstep (LTick (ticks ns w)) (w_r w)) as [r'|] eqn:R; [|discriminate]. injection S as <-. assert (I : rinv r') by (apply (RI _ _ R); intros ? ? X; discriminate). cbn [rstep] in R.
    destruct (Z.leb_spec 0 (ticks ns w)) as [D2|]; [|discriminate]. injection R as <-. destruct V. split; cbn [tick with_ns with_r w_r w_ns w_hb w_id w_names w_pos w_log w_start w_timeout r_now r_next r_timers r_chans r_term r_phase] in *; try assumption; [lia|unfold ticks; lia|..].
    + intros id tm X. destruct (v_tm0 id tm X) as [(Y1 & t & Y2 & Y3)|(Y1 & Y2 & Y3)]; [left; split; [exact Y1|]; exists t; split; [exact Y2|lia]|right]. split; [exact Y1|]. split; [exact Y2|].
      destruct Y3 as (Z1 & Z2 & Z3 & s & t & l1 & l2 & Z4 & Z5 & Z6 & Z7). split; [exact Z1|]. split; [exact Z2|]. split; [exact Z3|]. exists s, t, l1, l2. cbn [tick with_ns with_r w_r w_log w_name w_timeout r_now]. repeat split; try assumption; lia.
    + intros X. destruct (v_starting0 X). split; [assumption|lia].
  - (* elsewhere *) assert (S2 : inner LElsewhere w = Some w') by (unfold wstep in S; destruct (w_pos w); [exact S..|congruence]). clear S ST. unfold inner in S2. destruct (rstep LElsewhere (w_r w)) as [r'|] eqn:R; [|discriminate]. injection S2 as <-.
    assert (I : rinv r') by (apply (RI _ _ R); intros ? ? X; discriminate). cbn [rstep] in R. destruct (_ <? _); [|discriminate]. injection R as <-. apply winv_same; cbn [r_now r_next r_timers r_chans r_term r_phase]; try reflexivity; try assumption; try apply V. lia.
  - (* clear *) assert (S2 : w' = say HClear (with_msgs (clear_errors (w_msgs w)) w)) by (unfold wstep in S; destruct (w_pos w); congruence). clear S ST. subst w'. destruct V. split; cbn [say with_msgs w_r w_ns w_hb w_id w_names w_pos w_log w_start w_timeout] in *; try assumption.
    + intros id tm X. destruct (v_tm0 id tm X) as [Y|(Y1 & Y2 & Y3)]; [left; exact Y|right]. split; [exact Y1|]. split; [exact Y2|].
      destruct Y3 as (Z1 & Z2 & Z3 & s & t & l1 & l2 & Z4 & Z5 & Z6 & Z7). split; [exact Z1|]. split; [exact Z2|]. split; [exact Z3|]. exists s, t, l1, (l2 ++ [HClear]). cbn [say with_msgs w_r w_log w_name w_timeout]. rewrite Z4, <- app_assoc. repeat split; try apply quiet_snoc; try assumption; lia.
    + apply reports_snoc; [assumption|discriminate].
  - (* boot *) assert (S2 : match w_hb w with Some _ => None | None => match inner (LRegister 1 0) w with
              | Some w' => Some (Wd (w_r w') (w_ns w) (w_flag w) (Some (r_next (w_r w))) (w_names w) (w_pos w) (w_start w) (w_timeout w) (w_name w) (w_id w) (w_msgs w) (w_log w))
              | None => None end end = Some w') by (unfold wstep in S; destruct (w_pos w); [exact S..|congruence]). clear S ST. destruct (w_hb w) as [h|] eqn:HB; [discriminate|]. unfold inner in S2.
    destruct (rstep (LRegister 1 0) (w_r w)) as [r'|] eqn:R; [|discriminate]. injection S2 as <-. assert (I : rinv r') by (apply (RI _ _ R); intros ? ? X; injection X as <- <-; lia). cbn [rstep] in R. destruct (v_new _ _ V HB) as (N1 & N2). rewrite N1 in R. cbn [free andb] in R.
    destruct (_ <? _); [|discriminate]. injection R as <-. pose proof (rinv_tinv _ (v_rinv _ _ V) (v_dead _ _ V)) as TI. pose proof (ms_small (w_ns w)) as SM. cbn [with_r w_ns] in B. destruct V. specialize (SM ltac:(lia)).
    split; cbn [emit with_r w_r w_ns w_hb w_id w_names w_pos w_log w_start w_timeout r_now r_next r_timers r_chans r_term r_phase] in *; try assumption; try discriminate.
    + intros h X. injection X as <-. pose proof (i_next _ _ _ _ TI). lia.
    + destruct v_id0 as [X|(X & Y)]; [auto|right]. split; [lia|]. intros Z. injection Z as Z. lia.
    + eapply Forall_impl; [|exact v_named0]. cbn. lia.
    + intros id tm X. rewrite tm_get_app in X. cbn [fst snd] in X. destruct (tm_get (r_timers (w_r w)) id) as [tm'|] eqn:G.
      * injection X as <-. assert (LT : id < r_next (w_r w)) by (apply (i_keys_lt _ _ _ _ TI); apply tm_get_in; eauto). destruct (v_tm0 id tm' G) as [(Y & _)|(Y1 & Y2 & Y3)]; [congruence|]. right. split; [intros Z; injection Z as Z; lia|]. split; [exact Y2|].
        destruct Y3 as (Z1 & Z2 & Z3 & s & t & l1 & l2 & Z4 & Z5 & Z6 & Z7). split; [exact Z1|]. split; [exact Z2|]. split; [exact Z3|]. exists s, t, l1, l2. cbn [emit w_r w_log w_name w_timeout r_now]. repeat split; try assumption; lia.
      * destruct (Z.eqb_spec (r_next (w_r w)) id) as [<-|]; [|discriminate]. injection X as <-. left. split; [reflexivity|]. eexists. split; [reflexivity|]. rewrite i64_small; lia.
    + intros h X Y. injection X as <-. rewrite map_app. apply in_or_app. right. left. reflexivity.
  - (* loop *) assert (S2 : 0 <= ns /\ booted w = true /\ exists r', rstep (LLoop (ticks ns w)) (w_r w) = Some r' /\ w' = if match r_phase r' with Poll _ => true | _ => false end then with_ns (w_ns w + ns) (with_r r' w) else with_r r' w).
    { unfold wstep, worker, inner in S. destruct (Z.leb_spec 0 ns); [|destruct (w_pos w); discriminate]. destruct (booted w); [|destruct (w_pos w); discriminate]. destruct (rstep (LLoop (ticks ns w)) (w_r w)) as [r'|]; [|destruct (w_pos w); discriminate]. repeat split; try assumption. exists r'. split; [reflexivity|]. destruct (w_pos w); try discriminate; injection S as <-; reflexivity. }
    clear S ST. destruct S2 as (D & BO & r' & R & ->). assert (I : rinv r') by (apply (RI _ _ R); intros ? ? X; discriminate). cbn [rstep] in R. destruct (r_phase (w_r w)) eqn:P; try discriminate.
    assert (HB : w_hb w <> None) by (unfold booted in BO; destruct (w_hb w); discriminate).
    assert (DN : r' = at_phase (Done 0) (w_r w) \/ r' = at_phase (Poll (Z.max (tickless (r_now (w_r w)) (r_timers (w_r w))) (r_now (w_r w) + ticks ns w))) (tick (ticks ns w) (w_r w))).
    { destruct (r_term (w_r w)); [left; congruence|]. destruct (r_chans (w_r w)), (r_timers (w_r w)); try (left; congruence); destruct (0 <=? ticks ns w); try discriminate; right; congruence. }
    destruct DN as [-> | ->]; cbn [at_phase tick r_phase] in *.
    + apply winv_same; cbn [at_phase r_now r_next r_timers r_chans r_term r_phase]; try reflexivity; try assumption; try apply V; try discriminate; try contradiction; lia.
    + pose proof (ms_mono (w_ns w) (w_ns w + ns) ltac:(lia)) as MM. destruct V. split; cbn [at_phase tick with_ns with_r w_r w_ns w_hb w_id w_names w_pos w_log w_start w_timeout r_now r_next r_timers r_chans r_term r_phase] in *; try assumption; try discriminate; try contradiction; [lia|unfold ticks; lia|..].
      * intros id tm X. destruct (v_tm0 id tm X) as [(Y1 & t & Y2 & Y3)|(Y1 & Y2 & Y3)]; [left; split; [exact Y1|]; exists t; split; [exact Y2|unfold ticks; lia]|right]. split; [exact Y1|]. split; [exact Y2|].
        destruct Y3 as (Z1 & Z2 & Z3 & s & t & l1 & l2 & Z4 & Z5 & Z6 & Z7). split; [exact Z1|]. split; [exact Z2|]. split; [exact Z3|]. exists s, t, l1, l2. cbn [at_phase tick with_ns with_r w_r w_log w_name w_timeout r_now]. repeat split; try assumption; unfold ticks; lia.
      * intros X. destruct (v_starting0 X). split; [assumption|unfold ticks; lia].
  - (* timeout *) assert (S2 : booted w = true /\ exists r', rstep LTimeout (w_r w) = Some r' /\ w' = with_r r' w).
    { unfold wstep, worker, inner in S. destruct (booted w); [|destruct (w_pos w); discriminate]. destruct (rstep LTimeout (w_r w)) as [r'|]; [|destruct (w_pos w); discriminate]. split; [reflexivity|]. exists r'. split; [reflexivity|]. destruct (w_pos w); congruence. }
    clear S ST. destruct S2 as (BO & r' & R & ->). assert (I : rinv r') by (apply (RI _ _ R); intros ? ? X; discriminate). cbn [rstep] in R. destruct (r_phase (w_r w)) eqn:P; try discriminate. destruct (_ <=? _); [|discriminate]. injection R as <-.
    assert (HB : w_hb w <> None) by (unfold booted in BO; destruct (w_hb w); discriminate). apply winv_same; cbn [at_phase emit r_now r_next r_timers r_chans r_term r_phase]; try reflexivity; try assumption; try apply V; try discriminate; try contradiction; lia.
  - (* visit *) assert (S2 : visit w = Some w') by (unfold wstep in S; destruct (w_pos w); [exact S..|congruence]). clear S ST. apply visit_cases in S2 as (s & id & rest & t & P & G & BO & C).
    assert (HB : w_hb w <> None) by (unfold booted in BO; destruct (w_hb w); discriminate). pose proof (ms_small (w_ns w)) as SM.
    destruct C as [(D & ->)|[(D & E & r' & -> & R)|(D & E & r' & R & ->)]].
    + assert (R : rstep (LVisit ANothing) (w_r w) = Some (at_phase (Pass s rest) (w_r w))) by (cbn [rstep]; rewrite P, G; destruct (Z.leb_spec (t_when t) (r_now (w_r w))); [lia|reflexivity]).
      assert (I : rinv (at_phase (Pass s rest) (w_r w))) by (apply (RI _ _ R); intros ? ? X; discriminate).
      apply winv_same; cbn [at_phase emit r_now r_next r_timers r_chans r_term r_phase]; try reflexivity; try assumption; try apply V; try discriminate; try contradiction; lia.
    + assert (I : rinv r') by (apply (RI _ _ R); intros ? ? X; discriminate). cbn [with_r w_ns] in B. pose proof (v_ns _ _ V). specialize (SM ltac:(lia)).
      apply (fired _ _ _ s id rest t) in R; try assumption; [|destruct (w_flag w); discriminate]. destruct (v_tm _ _ V id t G) as [(_ & t0 & T1 & T2)|(X & _)]; [|congruence]. rewrite T1 in R, D. cbn [t_times t_delay t_when] in R, D. change (0 <? 0) with false in R. cbv iota zeta in R. cbn [andb] in R. subst r'.
      pose proof (v_now _ _ V) as NOW. rewrite i64_small in I by lia. rewrite i64_small by lia. destruct V. split; cbn [with_r w_r w_ns w_hb w_id w_names w_pos w_log w_start w_timeout r_now r_next r_timers r_chans r_term r_phase] in *; try assumption; try discriminate; try contradiction.
      * intros j tm X. rewrite tm_set_get, G in X. rewrite andb_true_r in X. destruct (Z.eqb_spec j id) as [->|NE].
        -- injection X as <-. left. split; [exact E|]. eexists. split; [reflexivity|lia].
        -- destruct (v_tm0 j tm X) as [Y|Y]; [left; exact Y|right; exact Y].
      * rewrite tm_set_keys. exact v_alive0.
    + assert (I : rinv r') by (apply (RI _ _ R); intros ? ? X; discriminate). cbn [say with_msgs with_r w_ns] in B. pose proof (v_ns _ _ V). specialize (SM ltac:(lia)).
      apply (fired _ _ _ s id rest t) in R; try assumption; [|discriminate]. destruct (v_tm _ _ V id t G) as [(X & _)|(_ & Y2 & Y3)]; [congruence|]. destruct Y3 as (Z1 & Z2 & Z3 & st & t0 & l1 & l2 & Z4 & Z5 & Z6 & Z7). rewrite Z7 in R, D. cbn [t_times t_delay t_when] in R, D.
      change (0 <? 1) with true in R. cbv iota zeta in R. change (1 - 1 =? 0) with true in R. cbn [andb] in R. subst r' id. pose proof (v_now _ _ V) as NOW. destruct V. split; cbn [say with_msgs with_r w_r w_ns w_hb w_id w_names w_pos w_log w_start w_timeout r_now r_next r_timers r_chans r_term r_phase] in *; try assumption; try discriminate; try contradiction.
      * intros j tm X. rewrite tm_del_get in X. destruct (Z.eqb_spec j (w_id w)) as [->|NE]; [discriminate|]. destruct (v_tm0 j tm X) as [Y|(_ & Y & _)]; [left; exact Y|contradiction].
      * intros h X Y. apply tm_del_in. split; [apply v_alive0; assumption|congruence].
      * apply reports_snoc; [assumption|]. intros m t' X. injection X as <- <-. exists l1, (w_name w), (w_timeout w), st, t0, l2. rewrite Z3. repeat split; try assumption; lia.
  - (* unlock *) assert (S2 : booted w = true /\ exists r', rstep LUnlock (w_r w) = Some r' /\ w' = with_r r' w).
    { unfold wstep, worker, inner in S. destruct (booted w); [|destruct (w_pos w); discriminate]. destruct (rstep LUnlock (w_r w)) as [r'|]; [|destruct (w_pos w); discriminate]. split; [reflexivity|]. exists r'. split; [reflexivity|]. destruct (w_pos w); congruence. }
    clear S ST. destruct S2 as (BO & r' & R & ->). assert (I : rinv r') by (apply (RI _ _ R); intros ? ? X; discriminate). cbn [rstep] in R. destruct (r_phase (w_r w)) as [| | |? [|]| |] eqn:P; try discriminate. injection R as <-.
    assert (HB : w_hb w <> None) by (unfold booted in BO; destruct (w_hb w); discriminate). apply winv_same; cbn [at_phase emit r_now r_next r_timers r_chans r_term r_phase]; try reflexivity; try assumption; try apply V; try discriminate; try contradiction; lia.
  - (* interrupt *) assert (S2 : booted w = true /\ exists r', rstep LInterrupt (w_r w) = Some r' /\ w' = with_r r' w).
    { unfold wstep, worker, inner in S. destruct (booted w); [|destruct (w_pos w); discriminate]. destruct (rstep LInterrupt (w_r w)) as [r'|]; [|destruct (w_pos w); discriminate]. split; [reflexivity|]. exists r'. split; [reflexivity|]. destruct (w_pos w); congruence. }
    clear S ST. destruct S2 as (BO & r' & R & ->). assert (I : rinv r') by (apply (RI _ _ R); intros ? ? X; discriminate). cbn [rstep] in R. destruct (r_phase (w_r w)) eqn:P; try discriminate. injection R as <-.
    assert (HB : w_hb w <> None) by (unfold booted in BO; destruct (w_hb w); discriminate). apply winv_same; cbn [at_phase terminate emit r_now r_next r_timers r_chans r_term r_phase]; try reflexivity; try assumption; try apply V; try discriminate; try contradiction; lia.
  - (* start *) unfold wstep in S. destruct (w_pos w) eqn:PS; try discriminate. destruct (Z.leb_spec 0 timeout); [|discriminate]. destruct (Z.ltb_spec timeout (2 ^ 32)); [|discriminate]. cbn [andb] in S. injection S as <-. clear ST.
    destruct V. split; cbn [w_r w_ns w_hb w_id w_names w_pos w_log w_start w_timeout] in *; try assumption.
    + intros id tm X. destruct (v_tm0 id tm X) as [Y|(Y1 & Y2 & Y3 & _)]; [left; exact Y|congruence].
    + intros _. split; lia.
  - (* register *) unfold wstep in S. destruct (w_pos w) eqn:PS; try discriminate. clear ST. destruct (v_starting _ _ V PS) as (T1 & T2). destruct (Z.ltb_spec 0 (w_timeout w)) as [T0|T0].
    + destruct (rstep (LRegister (w_timeout w) 1) (w_r w)) as [r'|] eqn:R; [|discriminate]. injection S as <-. assert (I : rinv r') by (apply (RI _ _ R); intros ? ? X; injection X as <- <-; lia). cbn [rstep] in R. destruct (free (r_phase (w_r w))) eqn:FR; [|discriminate]. cbn [andb] in R.
      destruct (_ <? _); [|discriminate]. injection R as <-. pose proof (rinv_tinv _ (v_rinv _ _ V) (v_dead _ _ V)) as TI. pose proof (ms_small (w_ns w)) as SM. cbn [with_r w_ns] in B. destruct V. specialize (SM ltac:(lia)). pose proof (i_next _ _ _ _ TI) as NX.
      split; cbn [emit with_r w_r w_ns w_hb w_id w_names w_pos w_log w_start w_timeout r_now r_next r_timers r_chans r_term r_phase] in *; try assumption; try discriminate.
      * intros h X. specialize (v_hb0 h X). lia.
      * right. split; [lia|]. intros X. specialize (v_hb0 _ X). lia.
      * apply Forall_app. split; [eapply Forall_impl; [|exact v_named0]; cbn; lia|]. constructor; [cbn; lia|constructor].
      * intros id tm X. rewrite tm_get_app in X. cbn [fst snd] in X. destruct (tm_get (r_timers (w_r w)) id) as [tm'|] eqn:G.
        -- injection X as <-. destruct (v_tm0 id tm' G) as [Y|(Y1 & Y2 & Y3 & _)]; [left; exact Y|congruence].
        -- destruct (Z.eqb_spec (r_next (w_r w)) id) as [<-|]; [|discriminate]. injection X as <-. right. split; [intros Z; specialize (v_hb0 _ Z); lia|]. split; [reflexivity|].
           split; [reflexivity|]. split; [cbn [w_timeout]; lia|]. split; [cbn [w_names w_id w_name]; apply name_of_snoc, v_named0|]. exists (w_start w), (r_now (w_r w)), (w_log w), []. cbn [emit w_r w_log w_name w_timeout r_now]. repeat split; try (constructor; fail); try lia. rewrite i64_small by lia. reflexivity.
      * intros h X Y. rewrite map_app. apply in_or_app. left. apply v_alive0; assumption.
      * apply reports_snoc; [assumption|discriminate].
    + injection S as <-. destruct V. split; cbn [say with_pos w_r w_ns w_hb w_id w_names w_pos w_log w_start w_timeout] in *; try assumption; try discriminate.
      * intros id tm X. destruct (v_tm0 id tm X) as [Y|(Y1 & Y2 & Y3 & _)]; [left; exact Y|congruence].
      * apply reports_snoc; [assumption|discriminate].
  - (* remove *) unfold wstep in S. destruct (w_pos w) eqn:PS; try discriminate. clear ST. unfold inner in S. destruct (rstep (LRemove (w_id w)) (w_r w)) as [r'|] eqn:R; [|discriminate]. injection S as <-. assert (I : rinv r') by (apply (RI _ _ R); intros ? ? X; discriminate). cbn [rstep] in R.
    destruct (free (r_phase (w_r w))) eqn:FR; [|discriminate]. injection R as <-. destruct V. split; cbn [say with_pos emit with_timers with_r w_r w_ns w_hb w_id w_names w_pos w_log w_start w_timeout r_now r_next r_timers r_chans r_term r_phase] in *; try assumption; try discriminate.
    * intros id tm X. rewrite tm_del_get in X. destruct (Z.eqb_spec id (w_id w)) as [->|NE]; [discriminate|]. destruct (v_tm0 id tm X) as [Y|(Y1 & Y2 & _)]; [left; exact Y|contradiction].
    * intros h X Y. apply tm_del_in. split; [apply v_alive0; assumption|]. intros ->. destruct v_id0 as [Z|(_ & Z)]; congruence.
    * apply reports_snoc; [assumption|discriminate].
  - (* return *) unfold wstep in S. destruct (w_pos w) eqn:PS; try discriminate. clear ST. injection S as <-. destruct V. split; cbn [say with_pos w_r w_ns w_hb w_id w_names w_pos w_log w_start w_timeout] in *; try assumption; try discriminate.
    * intros id tm X. destruct (v_tm0 id tm X) as [Y|(Y1 & Y2 & Y3 & _)]; [left; exact Y|congruence].
    * apply reports_snoc; [assumption|discriminate].
  - (* destroy *) unfold wstep in S. destruct (w_pos w) eqn:PS; try discriminate. clear ST. injection S as <-. destruct V. split; cbn [say with_pos w_r w_ns w_hb w_id w_names w_pos w_log w_start w_timeout] in *; try assumption; try discriminate.
    * intros id tm X. destruct (v_tm0 id tm X) as [Y|(Y1 & Y2 & Y3 & _)]; [left; exact Y|congruence].
    * apply reports_snoc; [assumption|discriminate].
  - (* join *) unfold wstep in S. destruct (w_pos w) eqn:PS; try discriminate. clear ST. destruct (r_phase (w_r w)) eqn:P; try discriminate. destruct (booted w); [|discriminate]. injection S as <-. destruct V. split; cbn [say with_pos w_r w_ns w_hb w_id w_names w_pos w_log w_start w_timeout] in *; try assumption; try discriminate; try (rewrite P; assumption).
    * intros id tm X. destruct (v_tm0 id tm X) as [Y|(Y1 & Y2 & Y3 & _)]; [left; exact Y|congruence].
    * apply reports_snoc; [assumption|discriminate].
Qed.

