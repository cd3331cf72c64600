(** C72: start and end of the frame processor. *)
From Coq Require Import Lia.
From Verif Require Import Base QueueModel LifeModel LifeSpec LifeProofs LifeWoken.
Local Open Scope Z_scope.

(** ** Order. *)
Lemma course_tail n l r : l ++ r = [VSent; VCleared; VSelf; VReactor; VJoined; VClosed; VReleased; VTorn] -> prefix ((VWaiting :: map VStopped (seq 0 n)) ++ l) (course n).
Proof. intros E. exists r. rewrite <- app_assoc, E. reflexivity. Qed.
Lemma course_head n k : (k <= n)%nat -> prefix (VWaiting :: map VStopped (seq 0 k)) (course n).
Proof.
  intros K. exists (map VStopped (seq k (n - k)) ++ [VSent; VCleared; VSelf; VReactor; VJoined; VClosed; VReleased; VTorn]). unfold course. replace n with (k + (n - k))%nat at 1 by lia. rewrite seq_app, map_app, <- app_assoc. reflexivity.
Qed.
Lemma trail_course s : linv s -> prefix (trail (e_main s) (e_n s)) (course (e_n s)).
Proof.
  intros L. pose proof (l_k _ L) as K. destruct (e_main s) as [| | |k|k| |k| | | | | | | | |]; cbn [trail];
  try (exists (course (e_n s)); reflexivity); try (eapply course_tail; reflexivity); try (apply course_head; lia). exact (course_head (e_n s) 0 ltac:(lia)).
Qed.
(** With n plugins: each is stopped, in order, before workers that wait in the controller's callback are let go; then the plugins are
    dropped, the controller's own worker and the reactor are told to stop, its thread is joined, channels are closed, the pool is torn
    down.  Missing: requests that touch the plugins meanwhile ([c72_race_refuted], [c72_late_refuted]). *)
Theorem c72_order_partial c limit s : xrun c limit s -> e_race s = false -> prefix (own (e_log s)) (course (e_n s)) /\ (e_main s = MEnd <-> own (e_log s) = course (e_n s)).
Proof.
  intros R RC. pose proof (xrun_inv _ _ _ R RC) as L. rewrite (l_log _ L). split; [apply trail_course, L|]. split; [intros ->; reflexivity|]. intros E. pose proof (l_k _ L) as K.
  apply (f_equal (@length _)) in E. unfold course in E. destruct (e_main s) as [| | |k|k| |k| | | | | | | | |]; cbn [trail app] in E; try reflexivity; exfalso; cbn [length] in E; rewrite ?app_length, ?map_length, ?seq_length in E; cbn [length] in E; lia.
Qed.
(** At the end nothing is at work any more but callbacks that had begun: no plugin takes frames, the reactor's thread has ended, no worker
    is kept in the controller's callback. *)
Theorem c72_finished_partial c limit s : xrun c limit s -> e_race s = false -> e_main s = MEnd ->
  (forall m, (m < e_n s)%nat -> k_working (e_w s m) = false) /\ k_working (e_self s) = false /\ e_reactor s = RDone /\ e_sent s = true.
Proof.
  intros R RC E. pose proof (xrun_inv _ _ _ R RC) as [L1 L2 L3 L4 L5 L6 L7 L8 L9]. rewrite E in *. auto.
Qed.

(** A worker that was stopped, of a plugin or of the controller, does not take frames any more and is not left waiting for one: at an
    empty queue it is past its loop or in a callback. *)
Theorem c72_woken c limit s : xrun c limit s ->
  (forall m, In (VStopped m) (e_log s) -> k_working (e_w s m) = false /\ ~ (k_pos (e_w s m) = PRemove /\ k_queue (e_w s m) = [])) /\
  (In VSelf (e_log s) -> k_working (e_self s) = false /\ ~ (k_pos (e_self s) = PRemove /\ k_queue (e_self s) = [])).
Proof.
  intros R. destruct (winv_run _ _ _ R) as [_ P _ O]. split; [intros m I; destruct (P m I) as (_ & A & B)|intros I; destruct (O I) as (_ & A & B)]; (split; [exact A|intros (X & Y); exact (B X Y)]).
Qed.

(** ** Cause. *)
Lemma step_log c a s s' : xstep c a s = Some s' ->
  (e_log s' = e_log s /\ (ending (e_main s') = ending (e_main s)) /\ (e_main s' = MWait -> e_main s = MWait)) \/
  exists e, e_log s' = e_log s ++ [e] /\ (if cause e then (e_main s' = e_main (notify s)) /\ (e = VSpurious -> e_main s = MWait) else ending (e_main s') = ending (e_main s) /\ (e = VWaiting -> e_main s = MLock /\ e_main s' = MWait) /\ e_main s <> MWait /\ (e_main s' = MWait -> e = VWaiting)).
Proof.
  intros S. unfold xstep in S. destruct (e_main s) eqn:P; try discriminate; destruct a; try discriminate;
  try (match type of S with (if Nat.ltb ?m _ then work c ?m ?l s else None) = _ => destruct (Nat.ltb m (e_n s)); [|discriminate]; destruct (work_frame _ _ _ _ _ S) as (_ & _ & _ & _ & _ & _ & _ & _ & [(E & F)|(E & F)]); [left; rewrite E, F, P; auto|right; exists VLimit; rewrite E, F; cbn [cause]; split; [reflexivity|split; [reflexivity|discriminate]]] end);
  try (unfold main in S; rewrite P in S); cbv zeta in S;
  repeat match type of S with
  | (match ?x with _ => _ end) = _ => destruct x eqn:?; try discriminate
  end; try discriminate; injection S as <-;
  first [left; cbn; rewrite ?P; repeat split; auto; discriminate|right; eexists; unfold notify; cbn; rewrite ?P; split; [reflexivity|]; cbn; rewrite ?P; repeat split; auto; discriminate|idtac].
Qed.
(** The program ends only after an acknowledged request or the limit, while it waited.  Missing: the wait may end without
    ([c72_spurious_refuted]). *)
Theorem c72_cause_partial c limit s : xrun c limit s -> ending (e_main s) = true -> ~ In VSpurious (e_log s) ->
  exists a b e, e_log s = a ++ VWaiting :: b /\ In e b /\ (e = VAck \/ e = VLimit).
Proof.
  intros R. enough (K : (e_main s = MWait -> In VWaiting (e_log s)) /\ (ending (e_main s) = true -> ~ In VSpurious (e_log s) -> exists a b e, e_log s = a ++ VWaiting :: b /\ In e b /\ (e = VAck \/ e = VLimit))) by (apply K).
  induction R as [|s a s' R (I1 & I2) S]; [split; discriminate|]. destruct (step_log _ _ _ _ S) as [(E1 & E2 & E3)|(e & E1 & E2)]; rewrite E1.
  - split; [auto|]. rewrite E2. exact I2.
  - assert (OLD : ending (e_main s) = true -> ~ In VSpurious (e_log s ++ [e]) -> exists a b e0, e_log s ++ [e] = a ++ VWaiting :: b /\ In e0 b /\ (e0 = VAck \/ e0 = VLimit)).
    { intros EN NS. destruct (I2 EN) as (l1 & l2 & e0 & F1 & F2 & F3); [intros X; apply NS, in_or_app; auto|]. exists l1, (l2 ++ [e]), e0. rewrite F1, <- app_assoc. split; [reflexivity|]. split; [apply in_or_app; auto|exact F3]. }
    destruct (cause e) eqn:C.
    + destruct E2 as (E2 & E3). unfold notify in E2. destruct (e_main s) eqn:P; cbn [at_main e_main] in E2; rewrite ?P in E2; rewrite E2; cbn [ending] in *; (split; [intros X; try discriminate|]); try (intros X; discriminate); try (intros _; exact (OLD eq_refl)).
      intros _ NS. destruct (in_split _ _ (I1 eq_refl)) as (l1 & l2 & F). exists l1, (l2 ++ [e]), e. rewrite F, <- app_assoc. split; [reflexivity|]. split; [apply in_or_app; right; left; reflexivity|]. destruct e; try discriminate; auto. exfalso. apply NS, in_or_app. right. left. reflexivity.
    + destruct E2 as (E2 & E3 & E4 & E5). split; [intros X; rewrite (E5 X); apply in_or_app; right; left; reflexivity|]. rewrite E2. exact OLD.
Qed.

(** ** What the end waits for. *)
(** Once begun it goes on by itself but for two cases: the queue of the plugin to be stopped is full; the reactor has a request or its
    tick to come. *)
Theorem c72_blocked_partial c limit s : xrun c limit s -> e_race s = false -> ending (e_main s) = true -> e_main s <> MEnd ->
  xstep c XMain s <> None \/ (exists m, e_main s = MNull m /\ (m < e_n s)%nat /\ (8 <= length (k_queue (e_w s m)))%nat) \/
  (e_main s = MJoin /\ (xstep c XTick s <> None \/ xstep c XUsed s <> None)).
Proof.
  intros R RC EN NE. pose proof (xrun_inv _ _ _ R RC) as [L1 L2 L3 L4 L5 L6 L7 L8 L9]. unfold xstep, main.
  destruct (e_main s) as [| | |k|k| |k| | | | | | | | |] eqn:P; try discriminate; try (exfalso; congruence); try (left; discriminate).
  - left. destruct (Nat.ltb k (e_n s)); [destruct (k_working (e_w s k))|]; discriminate.
  - cbv zeta. change max_queue_size with 8%nat in *. destruct (Nat.ltb_spec (length (k_queue (e_w s k))) 8); [left; discriminate|right; left; exists k; auto].
  - left. destruct (Nat.ltb_spec k (e_n s)) as [K|K]; [|discriminate]. rewrite (L3 k K). discriminate.
  - left. cbv zeta. destruct (k_working (e_self s)); discriminate.
  - left. cbv zeta. rewrite L5. discriminate.
  - cbn [told] in L6. destruct (e_reactor s) eqn:RR; [right; right; split; [reflexivity|]; left; rewrite L6; discriminate|right; right; split; [reflexivity|]; right; discriminate|left; discriminate].
Qed.
Definition rank (p : mpos) (n : nat) : nat :=
  match p with
  | MConf | MLock | MWait => 3 * n + 11
  | MStop k => 2 * (n - k) + n + 11
  | MNull k => 2 * (n - k) + n + 10
  | MSent => n + 10
  | MCheck k => (n - k) + 9
  | MClear => 8 | MSelf => 7 | MSelfNull => 6 | MReactor => 5 | MJoin => 4 | MClose => 3 | MShm => 2 | MTear => 1 | MEnd => 0
  end.
Lemma main_rank c s s' : linv s -> main c s = Some s' -> (e_main s = MWait \/ ending (e_main s) = true) -> rank (e_main s) (e_n s) = S (rank (e_main s') (e_n s')) /\ ending (e_main s') = true.
Proof.
  intros [L1 L2 L3 L4 L5 L6 L7 L8 L9] M EN. unfold main in M. destruct (e_main s) as [| | |k|k| |k| | | | | | | | |] eqn:P; try discriminate; try (destruct EN; discriminate); cbv zeta in M.
  - destruct (Nat.ltb_spec k (e_n s)) as [K|K].
    + rewrite (L3 k K) in M. cbn [serving] in M. rewrite Nat.leb_refl in M. injection M as <-. cbn [at_main set_w e_main e_n rank ending]. split; [lia|reflexivity].
    + injection M as <-. cbn [at_main e_main e_n rank ending]. split; [lia|reflexivity].
  - destruct (Nat.ltb (length (k_queue (e_w s k))) max_queue_size); [|discriminate]. injection M as <-. cbn [at_main note set_w e_main e_n rank ending]. split; [lia|reflexivity].
  - injection M as <-. cbn [at_main note set_sent e_main e_n rank ending]. split; [lia|reflexivity].
  - destruct (Nat.ltb_spec k (e_n s)) as [K|K]; [destruct (k_working (e_w s k)); [discriminate|]|]; injection M as <-; cbn [at_main e_main e_n rank ending]; (split; [lia|reflexivity]).
  - injection M as <-. cbn. auto.
  - rewrite L4 in M. injection M as <-. cbn. auto.
  - destruct (Nat.ltb (length (k_queue (e_self s))) max_queue_size); [|discriminate]. injection M as <-. cbn. auto.
  - injection M as <-. cbn. auto.
  - destruct (e_reactor s); try discriminate. injection M as <-. cbn. auto.
  - injection M as <-. cbn. auto.
  - injection M as <-. cbn. auto.
  - injection M as <-. cbn. auto.
Qed.
(** Other steps leave it, but for the wake-up and a plugin loaded before. *)
Lemma other_rank c a s s' : xstep c a s = Some s' -> a <> XMain -> e_race s' = false -> (e_main s = MWait \/ ending (e_main s) = true) ->
  (e_main s' = MWait \/ ending (e_main s') = true) /\
  (e_main s = MWait /\ (e_main s' = MWait \/ e_main s' = MStop 0) \/ e_main s' = e_main s /\ e_n s' = e_n s).
Proof.
  intros S NM RC EN. unfold xstep in S. destruct (e_main s) eqn:P; try discriminate; try (destruct EN; discriminate); destruct a; try discriminate; try (exfalso; congruence);
  try (match type of S with (if Nat.ltb ?m _ then work c ?m ?l s else None) = _ => destruct (Nat.ltb m (e_n s)); [|discriminate]; destruct (work_frame _ _ _ _ _ S) as (N & _ & _ & _ & _ & _ & _ & _ & [(E & F)|(E & F)]); unfold notify in E; rewrite P in E; cbn in E; rewrite ?P in E; rewrite E, N; auto 6 end);
  cbv zeta in S;
  repeat match type of S with
  | (match ?x with _ => _ end) = _ => destruct x eqn:?; try discriminate
  end; try discriminate; injection S as <-; unfold notify; cbn in RC |- *; rewrite ?P in RC |- *; cbn in RC |- *; rewrite ?orb_true_r, ?P in *; try discriminate; cbn; auto 6; rewrite ?P; cbn; auto 6.
Qed.
Lemma counted_inv c limit s k s' : xrun c limit s -> e_main s = MWait -> counted c s k s' -> e_race s' = false ->
  xrun c limit s' /\ (e_main s' = MWait \/ ending (e_main s') = true) /\ (k + rank (e_main s') (e_n s') = 3 * e_n s' + 11)%nat.
Proof.
  intros R W C. induction C as [|k t u C IH S|k t a u C IH S NM]; intros RC.
  - split; [exact R|]. rewrite W. split; [left; reflexivity|reflexivity].
  - destruct (IH (race_step _ _ _ _ S RC)) as (R1 & E1 & K1). pose proof (xrun_inv _ _ _ R1 (race_step _ _ _ _ S RC)) as L.
    assert (M : main c t = Some u) by (unfold xstep in S; destruct (e_main t); try discriminate; exact S).
    destruct (main_rank _ _ _ L M E1) as (K2 & E2). split; [eapply xr_step; eassumption|]. split; [right; exact E2|].
    assert (N : e_n u = e_n t). { unfold main in M. cbv zeta in M. repeat match type of M with (match ?x with _ => _ end) = _ => destruct x eqn:?; try discriminate end; injection M as <-; reflexivity. }
    rewrite N in *. lia.
  - destruct (IH (race_step _ _ _ _ S RC)) as (R1 & E1 & K1). destruct (other_rank _ _ _ _ S NM RC E1) as (E2 & [(A & B)|(A & B)]).
    + split; [eapply xr_step; eassumption|]. split; [exact E2|]. rewrite A in K1. cbn [rank] in K1. destruct B as [B|B]; rewrite B; cbn [rank]; lia.
    + split; [eapply xr_step; eassumption|]. split; [exact E2|]. rewrite A, B. exact K1.
Qed.
(** It takes 3n + 11 steps of the main thread, whatever the others do. *)
Theorem c72_bounded_partial c limit s k s' : xrun c limit s -> e_main s = MWait -> counted c s k s' -> e_race s' = false ->
  (k <= 3 * e_n s' + 11)%nat /\ (e_main s' = MEnd <-> k = (3 * e_n s' + 11)%nat).
Proof.
  intros R W C RC. destruct (counted_inv _ _ _ _ _ R W C RC) as (R1 & E1 & K). split; [lia|]. split.
  - intros E. rewrite E in K. cbn [rank] in K. lia.
  - intros ->. assert (Z : rank (e_main s') (e_n s') = 0%nat) by lia. destruct (e_main s'); cbn [rank] in Z; try lia; reflexivity.
Qed.

(** ** An end without frames. *)
Definition resting (p : mpos) (m : nat) (w : wk) : Prop :=
  if serving p m then w = Wk true [] PRemove
  else match p with MNull k => if Nat.eqb k m then w = Wk false [] PRemove else w = Wk false [false] PRemove \/ w = Wk false [] PTest \/ w = Wk false [] PDone
       | _ => w = Wk false [false] PRemove \/ w = Wk false [] PTest \/ w = Wk false [] PDone end.
Definition rests (s : life) : Prop := forall m, (m < e_n s)%nat -> resting (e_main s) m (e_w s m).
Lemma rests_quiet p m w : resting p m w -> w = Wk true [] PRemove \/ w = Wk false [] PRemove \/ w = Wk false [false] PRemove \/ w = Wk false [] PTest \/ w = Wk false [] PDone.
Proof. unfold resting. destruct (serving p m); [auto|]. destruct p; try tauto. destruct (Nat.eqb k m); tauto. Qed.
Lemma rests_work c m l s s' : rests s -> (m < e_n s)%nat -> work c m l s = Some s' -> rests s' /\ e_main s' = e_main s /\ e_n s' = e_n s.
Proof.
  intros H M W. unfold work in W. pose proof (H m M) as HM. assert (Q : (e_w s m = Wk false [false] PRemove /\ s' = set_w m (Wk false [] PTest) s) \/ (e_w s m = Wk false [] PTest /\ s' = set_w m (Wk false [] PDone) s)).
  { destruct (rests_quiet _ _ _ HM) as [E|[E|[E|[E|E]]]]; rewrite E in W; cbn in W; try discriminate; injection W as <-; auto. }
  assert (N : serving (e_main s) m = false /\ (forall k, e_main s = MNull k -> k <> m)).
  { unfold resting in HM. destruct (serving (e_main s) m); [rewrite HM in Q; destruct Q as [(Q & _)|(Q & _)]; discriminate|]. split; [reflexivity|]. intros k E ->. rewrite E, Nat.eqb_refl in HM. rewrite HM in Q; destruct Q as [(Q & _)|(Q & _)]; discriminate. }
  assert (S' : exists w, s' = set_w m w s /\ (w = Wk false [false] PRemove \/ w = Wk false [] PTest \/ w = Wk false [] PDone)) by (destruct Q as [(_ & ->)|(_ & ->)]; eexists; split; [reflexivity|auto|reflexivity|auto]).
  destruct S' as (w & -> & HW). split; [|split; reflexivity]. intros k K. cbn [set_w e_main e_n e_w] in *. destruct (Nat.eqb_spec k m) as [->|NE]; [|exact (H k K)].
  unfold resting. destruct N as (N1 & N2). rewrite N1. destruct (e_main s); try exact HW. destruct (Nat.eqb_spec k m) as [->|]; [exfalso; eapply N2; reflexivity|exact HW].
Qed.
Lemma rests_main c s s' : linv s -> rests s -> main c s = Some s' -> rests s'.
Proof.
  intros [L1 L2 L3 L4 L5 L6 L7 L8 L9] H M. unfold main in M. destruct (e_main s) as [| | |k|k| |k| | | | | | | | |] eqn:P; try discriminate; cbv zeta in M; unfold rests in H; rewrite P in H.
  - injection M as <-. exact H.
  - injection M as <-. exact H.
  - destruct (Nat.ltb_spec k (e_n s)) as [K|K].
    + rewrite (L3 k K) in M. cbn [serving] in M. rewrite Nat.leb_refl in M. injection M as <-. intros m MM. cbn [at_main set_w e_main e_n e_w] in *. pose proof (H m MM) as HM. unfold resting in *. cbn [serving] in *.
      destruct (Nat.eqb_spec m k) as [->|NE]; [rewrite Nat.leb_refl in HM; rewrite HM, Nat.ltb_irrefl, Nat.eqb_refl; reflexivity|]. destruct (Nat.leb_spec k m), (Nat.ltb_spec k m); try lia; [exact HM|]. destruct (Nat.eqb_spec k m); [lia|exact HM].
    + injection M as <-. intros m MM. cbn [at_main e_main e_n e_w] in *. pose proof (H m MM) as HM. unfold resting in *. cbn [serving] in *. destruct (Nat.leb_spec k m); [lia|exact HM].
  - destruct (Nat.ltb (length (k_queue (e_w s k))) max_queue_size); [|discriminate]. injection M as <-. intros m MM. cbn [at_main note set_w e_main e_n e_w] in *. pose proof (H m MM) as HM. unfold resting in *. cbn [serving] in *.
    destruct (Nat.eqb_spec m k) as [->|NE]; [rewrite Nat.ltb_irrefl, Nat.eqb_refl in HM; rewrite HM; destruct (Nat.leb_spec (S k) k); [lia|auto]|]. destruct (Nat.leb_spec (S k) m), (Nat.ltb_spec k m); try lia; [exact HM|]. destruct (Nat.eqb_spec k m); [lia|exact HM].
  - injection M as <-. exact H.
  - destruct (Nat.ltb k (e_n s)); [destruct (k_working (e_w s k)); [discriminate|]|]; injection M as <-; exact H.
  - injection M as <-. exact H.
  - destruct (k_working (e_self s)); injection M as <-; exact H.
  - destruct (Nat.ltb (length (k_queue (e_self s))) max_queue_size); [|discriminate]. injection M as <-. exact H.
  - injection M as <-. exact H.
  - destruct (e_reactor s); try discriminate. injection M as <-. exact H.
  - injection M as <-. exact H.
  - injection M as <-. exact H.
  - injection M as <-. exact H.
Qed.
Lemma rests_step c a s s' : linv s -> rests s -> xstep c a s = Some s' -> outside a = false -> rests s'.
Proof.
  intros L H S O. assert (NE : e_main s <> MEnd) by (intros E; unfold xstep in S; rewrite E in S; discriminate).
  assert (WAKE : e_main s = MWait -> rests (at_main (MStop 0) s)).
  { intros E m MM. pose proof (H m MM) as HM. unfold resting in *. rewrite E in HM. exact HM. }
  destruct a; try discriminate.
  - eapply rests_main; [exact L|exact H|]. unfold xstep in S. destruct (e_main s); try contradiction; exact S.
  - unfold xstep in S. destruct (e_main s) eqn:P; try discriminate. injection S as <-. exact (WAKE eq_refl).
  - unfold xstep in S. assert (S2 : (if Nat.ltb m (e_n s) then work c m l s else None) = Some s') by (destruct (e_main s); try contradiction; exact S). destruct (Nat.ltb_spec m (e_n s)) as [M|]; [|discriminate]. eapply rests_work; eassumption.
  - unfold xstep in S. assert (S2 : match turn (e_self s) with Some w => Some (set_self w s) | None => None end = Some s') by (destruct (e_main s); try contradiction; exact S). destruct (turn (e_self s)); [|discriminate]. injection S2 as <-. exact H.
  - unfold xstep in S. assert (S2 : match e_reactor s with RLoop => Some (notify (note VAck s)) | _ => None end = Some s') by (destruct (e_main s); try contradiction; exact S). destruct (e_reactor s); try discriminate. injection S2 as <-. unfold notify. cbn [note e_main]. destruct (e_main s) eqn:P; try (unfold rests; cbn [note e_main e_n e_w]; rewrite ?P; unfold rests in H; rewrite P in H; exact H); try exact (WAKE eq_refl).
  - unfold xstep in S. assert (S2 : match e_reactor s with RLoop => Some (set_reactor RBusy s) | _ => None end = Some s') by (destruct (e_main s); try contradiction; exact S). destruct (e_reactor s); try discriminate. injection S2 as <-. exact H.
  - unfold xstep in S. assert (S2 : match e_reactor s with RBusy => Some (set_reactor RLoop s) | _ => None end = Some s') by (destruct (e_main s); try contradiction; exact S). destruct (e_reactor s); try discriminate. injection S2 as <-. exact H.
  - unfold xstep in S. assert (S2 : match e_reactor s with RLoop => if e_stop s then Some (set_reactor RDone s) else None | _ => None end = Some s') by (destruct (e_main s); try contradiction; exact S). destruct (e_reactor s); try discriminate. destruct (e_stop s); [|discriminate]. injection S2 as <-. exact H.
Qed.
Lemma calm_rests s : e_main s = MWait -> calm s -> rests s.
Proof. intros W C m M. unfold resting. rewrite W. exact (C m M). Qed.
Lemma still_inv c limit s s' : xrun c limit s -> e_main s = MWait -> calm s -> still c s s' -> e_race s' = false -> xrun c limit s' /\ rests s'.
Proof.
  intros R W C S. induction S as [|t a u S IH X O]; intros RC; [split; [exact R|apply calm_rests; assumption]|]. destruct (IH (race_step _ _ _ _ X RC)) as (R1 & H1). split; [eapply xr_step; eassumption|]. eapply rests_step; try eassumption. apply (xrun_inv _ _ _ R1). eapply race_step; eassumption.
Qed.
Lemma still_more c s t u : still c s t -> still c t u -> still c s u.
Proof. intros A B. induction B; [exact A|]. eapply st_step; eassumption. Qed.
Lemma reach_end c limit n : forall s, xrun c limit s -> e_race s = false -> rests s -> ending (e_main s) = true -> (rank (e_main s) (e_n s) <= n)%nat -> exists s', still c s s' /\ e_main s' = MEnd /\ e_race s' = false.
Proof.
  induction n as [|n IH]; intros s R RC H EN K.
  - exists s. split; [constructor|]. split; [|exact RC]. destruct (e_main s); cbn [rank] in K; try lia; reflexivity.
  - assert (ST : forall a t, xstep c a s = Some t -> outside a = false -> xrun c limit t) by (intros a t S _; eapply xr_step; eassumption).
    assert (BODY : forall t, still c s t -> xrun c limit t -> e_race t = false -> rests t -> ending (e_main t) = true -> (rank (e_main t) (e_n t) <= S n)%nat -> e_reactor t <> RBusy -> exists s', still c s s' /\ e_main s' = MEnd /\ e_race s' = false).
    { intros t ST1 R1 RC1 H1 EN1 K1 NB.
      assert (GO : forall u, xstep c XMain u = None -> still c s u -> xrun c limit u -> e_race u = false -> rests u -> ending (e_main u) = true -> e_main u <> MEnd -> e_main u = MJoin).
      { intros u XN _ R2 RC2 H2 EN2 NE2. destruct (c72_blocked_partial _ _ _ R2 RC2 EN2 NE2) as [A|[(m & A1 & A2 & A3)|(A & _)]]; [contradiction| |exact A]. exfalso. pose proof (H2 m A2) as HM. unfold resting in HM. rewrite A1 in HM. cbn [serving] in HM. rewrite Nat.ltb_irrefl, Nat.eqb_refl in HM. rewrite HM in A3. cbn in A3. lia. }
      assert (MAIN : forall u v, xstep c XMain u = Some v -> still c s u -> xrun c limit u -> e_race u = false -> rests u -> ending (e_main u) = true -> e_reactor u <> RBusy -> (rank (e_main u) (e_n u) <= S n)%nat -> exists s', still c s s' /\ e_main s' = MEnd /\ e_race s' = false).
      { intros u v X S2 R2 RC2 H2 EN2 NB2 K2. pose proof (xrun_inv _ _ _ R2 RC2) as L. assert (M : main c u = Some v) by (unfold xstep in X; destruct (e_main u); try discriminate; exact X).
        destruct (main_rank _ _ _ L M (or_intror EN2)) as (K3 & EN3).
        assert (RC3 : e_race v = false). { unfold main in M. cbv zeta in M. repeat match type of M with (match ?x with _ => _ end) = _ => destruct x eqn:?; try discriminate end; injection M as <-; cbn; rewrite ?RC2; try reflexivity; destruct (e_reactor u); [reflexivity|contradiction|reflexivity]. }
        destruct (IH v) as (s' & A1 & A2 & A3); [eapply xr_step; eassumption|exact RC3|exact (rests_main _ _ _ L H2 M)|exact EN3|lia|]. exists s'. split; [|auto]. eapply still_more; [|exact A1]. eapply st_step; [exact S2|exact X|reflexivity]. }
      destruct (e_main t) eqn:P; try discriminate; try (exists t; auto; fail);
      (destruct (xstep c XMain t) as [v|] eqn:X; [eapply (MAIN t v); try eassumption; rewrite P; assumption|]);
      (assert (J : e_main t = MJoin) by (apply GO; try assumption; rewrite P; [reflexivity|discriminate])); rewrite P in J; try discriminate J.
      (* MJoin *)
      pose proof (xrun_inv _ _ _ R1 RC1) as L. pose proof (l_stop _ L) as LS. rewrite P in LS. cbn [told] in LS.
      assert (RR : e_reactor t = RLoop). { unfold xstep, main in X. rewrite P in X. destruct (e_reactor t); [reflexivity|contradiction|discriminate]. }
      assert (XT : xstep c XTick t = Some (set_reactor RDone t)) by (unfold xstep; rewrite P, RR, LS; reflexivity).
      eapply (MAIN (set_reactor RDone t)); [unfold xstep, main; cbn [set_reactor e_main e_reactor]; rewrite P; reflexivity|eapply st_step; [exact ST1|exact XT|reflexivity]|eapply xr_step; eassumption|exact RC1|exact H1|cbn [set_reactor e_main]; rewrite P; reflexivity|discriminate|cbn [set_reactor e_main e_n]; rewrite P; exact K1]. }
    destruct (e_reactor s) eqn:RR.
    + apply (BODY s); auto; [constructor|congruence].
    + destruct (e_main s) eqn:P; try discriminate;
      try (assert (XU : xstep c XUsed s = Some (set_reactor RLoop s)) by (unfold xstep; rewrite P, RR; reflexivity); apply (BODY (set_reactor RLoop s)); [exact (st_step c s s XUsed _ (st_refl c s) XU eq_refl)|exact (ST XUsed _ XU eq_refl)|exact RC|exact H|cbn [set_reactor e_main]; rewrite P; reflexivity|cbn [set_reactor e_main e_n]; rewrite P; exact K|discriminate]).
      exists s. split; [constructor|auto].
    + apply (BODY s); auto; [constructor|congruence].
Qed.
(** When the plugins have no frames and get none, the end is reached from everywhere; with [c72_bounded_partial]: it is reached. *)
Theorem c72_ends_partial c limit s s' : xrun c limit s -> e_main s = MWait -> calm s -> still c s s' -> ending (e_main s') = true -> e_race s' = false ->
  (e_main s' = MEnd \/ e_main s' = MJoin \/ xstep c XMain s' <> None) /\ exists s'', still c s' s'' /\ e_main s'' = MEnd /\ e_race s'' = false.
Proof.
  intros R W C S EN RC. destruct (still_inv _ _ _ _ R W C S RC) as (R1 & H1). split; [|eapply reach_end; eauto].
  destruct (e_main s') eqn:P; try discriminate; auto;
  (destruct (c72_blocked_partial c limit s' R1 RC) as [A|[(m & A1 & A2 & A3)|(A & _)]]; [rewrite P; reflexivity|rewrite P; discriminate|auto| |rewrite P in A; discriminate A]); rewrite P in A1; try discriminate A1.
  exfalso. injection A1 as ->. pose proof (H1 m A2) as HM. unfold resting in HM. rewrite P in HM. cbn [serving] in HM. rewrite Nat.ltb_irrefl, Nat.eqb_refl in HM. rewrite HM in A3. cbn in A3. lia.
Qed.
Lemma lost_none c b s : rests s -> ending (e_main s) = true -> (forall k, e_main s <> MStop k) -> (forall k, e_main s <> MNull k) -> e_main s <> MEnd -> settled c s -> lost c b s = false.
Proof.
  intros H EN N1 N2 N3 S. unfold lost. destruct (existsb _ _) eqn:E; [|reflexivity]. exfalso. apply existsb_exists in E. destruct E as (m & M & E). apply in_seq in M. apply andb_prop in E. destruct E as (_ & E).
  assert (MM : (m < e_n s)%nat) by lia. pose proof (H m MM) as HM. pose proof (S m []) as SM. unfold xstep, work in SM.
  assert (SM2 : (if Nat.ltb m (e_n s) then work c m [] s else None) = None) by (unfold work; destruct (e_main s); try contradiction; exact SM). destruct (Nat.ltb_spec m (e_n s)); [|lia]. unfold work in SM2.
  assert (Q : e_w s m = Wk false [false] PRemove \/ e_w s m = Wk false [] PTest \/ e_w s m = Wk false [] PDone).
  { unfold resting in HM. destruct (e_main s) eqn:P; try discriminate; cbn [serving] in HM; try exact HM; exfalso; [eapply N1|eapply N2]; reflexivity. }
  destruct Q as [Q|[Q|Q]]; rewrite Q in SM2; cbn in SM2; try discriminate. rewrite Q in E. discriminate.
Qed.
(** No plugin is destroyed under its thread when the main thread is slower than all of them. *)
Theorem c72_safe_partial c limit s s' : xrun c limit s -> e_main s = MWait -> calm s -> patient c s s' -> e_race s' = false -> e_dangling s' = e_dangling s.
Proof.
  intros R W C P. enough (K : e_race s' = false -> still c s s' /\ e_dangling s' = e_dangling s) by (intros RC; apply (K RC)).
  induction P as [|t a u P IH X O PA]; intros RC; [split; [constructor|reflexivity]|]. pose proof (race_step _ _ _ _ X RC) as RC1. destruct (IH RC1) as (S1 & E1). split; [eapply st_step; eassumption|]. rewrite <- E1. clear IH E1.
  destruct (still_inv _ _ _ _ R W C S1 RC1) as (R1 & H1). pose proof X as X0. unfold xstep in X. destruct (e_main t) eqn:Q; try discriminate; destruct a; try discriminate;
  try (match type of X with (if Nat.ltb ?m _ then work c ?m ?l t else None) = _ => destruct (Nat.ltb m (e_n t)); [|discriminate]; destruct (work_frame _ _ _ _ _ X) as (_ & _ & _ & _ & _ & _ & E & _); exact E end);
  try (unfold main in X; rewrite Q in X); cbv zeta in X;
  repeat match type of X with
  | (match ?x with _ => _ end) = _ => destruct x eqn:?; try discriminate
  end; try discriminate; injection X as <-; unfold notify; cbn [at_main note set_w set_self set_reactor set_stop set_sent set_total race dangle e_dangling e_main]; rewrite ?Q; try reflexivity;
  cbn [at_main note set_w set_self set_reactor set_stop set_sent set_total race dangle e_dangling e_main]; try reflexivity.
  - change (lost c false (race _ t)) with (lost c false t). rewrite (lost_none c false t H1); try (rewrite Q; discriminate); try (intros ?; rewrite Q; discriminate); [apply orb_false_r|rewrite Q; reflexivity|exact (PA eq_refl)].
  - rewrite (lost_none c true t H1); try (rewrite Q; discriminate); try (intros ?; rewrite Q; discriminate); [apply orb_false_r|rewrite Q; reflexivity|exact (PA eq_refl)].
Qed.

(** ** The start. *)
Definition booted (b : boot) : Prop :=
  k_undef b = false /\ match k_main b with CThread | CReactor => False | CSpin => True | CMeta | CBack => k_running b = true end /\
  match k_thread b with IMake => k_reactor b = Null /\ k_running b = false | IFlag => k_reactor b = Made /\ k_running b = false | IRun => k_reactor b = Made /\ k_running b = true end.
Lemma booted_step a b b' : booted b -> bstep a b = Some b' -> booted b'.
Proof.
  destruct b as [c t r p u]. unfold booted. cbn [k_undef k_main k_thread k_running k_reactor]. intros (-> & M & T) S.
  destruct a, c, t; try contradiction; destruct T as (-> & ->); try discriminate M; cbn in S; try discriminate; injection S as <-; cbn; auto.
Qed.
Lemma booted_go l : forall b b', booted b -> bgo l b = Some b' -> booted b'.
Proof. induction l as [|a l IH]; intros b b' B G; cbn in G; [injection G as <-; exact B|]. destruct (bstep a b) as [t|] eqn:S; [|discriminate]. eapply IH; [eapply booted_step; eassumption|exact G]. Qed.
(** The constructor uses the reactor only when the thread has made it, and returns.  Missing: the thread comes to it before the members
    after it are made ([c72_start_refuted]). *)
Theorem c72_start_partial l b : bgo (BMain :: BMain :: l) boot_init = Some b ->
  k_undef b = false /\ (k_main b = CBack -> k_reactor b = Made /\ k_running b = true) /\ exists l' b', bgo l' b = Some b' /\ k_main b' = CBack.
Proof.
  intros G. change (bgo l (Boot CSpin IMake false Null false) = Some b) in G. assert (B : booted b) by (eapply booted_go; [|exact G]; unfold booted; cbn; auto). destruct b as [c t r p u]. unfold booted in B. cbn [k_undef k_main k_thread k_running k_reactor] in *. destruct B as (-> & M & T). split; [reflexivity|]. split.
  - intros ->. destruct t; destruct T as (-> & ->); try discriminate M; auto.
  - destruct c; try contradiction; [destruct t; destruct T as (-> & ->); [exists [BThread; BThread; BMain; BMain]|exists [BThread; BMain; BMain]|exists [BMain; BMain]]|exists [BMain]|exists []]; eexists; cbn; split; reflexivity.
Qed.
Theorem c72_start_refuted :
  (exists b, bgo [BMain; BThread] boot_init = Some b /\ k_undef b = true) /\
  (exists b, bgo [BMain; BThread; BMain] boot_init = Some b /\ forall l b', bgo l b = Some b' -> k_reactor b' = Null) /\
  (exists b, bgo [BMain; BThread; BMain; BThread; BMain; BMain] boot_init = Some b /\ k_main b = CBack /\ k_reactor b = Null).
Proof.
  split; [eexists; split; [reflexivity|reflexivity]|]. split; [|eexists; repeat split; reflexivity]. eexists. split; [reflexivity|].
  assert (K : forall l b b', k_reactor b = Null -> k_thread b <> IMake -> (k_main b <> CThread /\ k_main b <> CReactor) -> bgo l b = Some b' -> k_reactor b' = Null).
  { induction l as [|a l IH]; intros [c t r p u] b' H1 H2 H3 G; cbn [k_reactor k_thread k_main] in *; cbn [bgo] in G; [injection G as <-; exact H1|]. destruct (bstep a _) as [b1|] eqn:S; [|discriminate]. eapply IH; [| | |exact G]; subst p; destruct a, c, t; cbn in S; try discriminate; try (exfalso; tauto); injection S as <-; cbn; auto; try discriminate; try (split; discriminate); destruct r; try split; discriminate. }
  intros l b'. apply K; cbn; try discriminate; [reflexivity|split; discriminate].
Qed.

(** ** What goes wrong. *)
Lemma xgo_run c limit l : forall s s', xrun c limit s -> xgo c l s = Some s' -> xrun c limit s'.
Proof. induction l as [|a l IH]; intros s s' R G; cbn in G; [injection G as <-; exact R|]. destruct (xstep c a s) as [t|] eqn:S; [|discriminate]. eapply IH; [eapply xr_step; eassumption|exact G]. Qed.
Lemma xgo_still c l : forallb (fun a => negb (outside a)) l = true -> forall s s', xgo c l s = Some s' -> still c s s'.
Proof.
  intros O. assert (K : forall s t s', still c s t -> xgo c l t = Some s' -> still c s s').
  { induction l as [|a l IH]; intros s t s' R G; cbn in G; [injection G as <-; exact R|]. cbn in O. apply andb_prop in O. destruct O as (O1 & O2). destruct (xstep c a t) as [u|] eqn:S; [|discriminate]. eapply (IH O2); [eapply st_step; [exact R|exact S|destruct (outside a); [discriminate|reflexivity]]|exact G]. }
  intros s s' G. eapply K; [constructor|exact G].
Qed.
Lemma more_inv c (I : life -> Prop) : (forall a s s', I s -> xstep c a s = Some s' -> I s') -> forall s s', I s -> more c s s' -> I s'.
Proof. intros ST s s' H M. induction M as [|t a u M IH S]; [exact H|]. eapply ST; eauto. Qed.
Lemma more_log c s s' : more c s s' -> exists l, e_log s' = e_log s ++ l.
Proof. intros M. induction M as [|t a u M (l & E) S]; [exists []; rewrite app_nil_r; reflexivity|]. destruct (step_log _ _ _ _ S) as [(F & _)|(e & F & _)]; rewrite F, E; [exists l; reflexivity|exists (l ++ [e]); rewrite app_assoc; reflexivity]. Qed.
(** A request that is acknowledged before the wait begins is lost: nothing but a further cause ends the program. *)
Theorem c72_lost_refuted c limit : exists s, xgo c [XAck; XMain; XMain] (life_init limit) = Some s /\ In VAck (e_log s) /\
  forall s', more c s s' -> filter cause (e_log s') = filter cause (e_log s) -> e_main s' = MWait.
Proof.
  eexists. split; [vm_compute; reflexivity|]. split; [left; reflexivity|]. match goal with |- forall s', more c ?t s' -> _ => set (s0 := t); assert (W : e_main s0 = MWait) by reflexivity; clearbody s0 end.
  intros s' M. induction M as [|t a u M IH S]; intros F; [exact W|]. destruct (more_log _ _ _ M) as (l & E). destruct (step_log _ _ _ _ S) as [(F1 & F2 & F3)|(e & F1 & F2)].
  - rewrite F1 in F. pose proof (IH F) as P. rewrite P in F2. cbn in F2. clear IH. unfold xstep in S. rewrite P in S. destruct a; try discriminate;
    try (destruct (Nat.ltb m (e_n t)); [|discriminate]; destruct (work_frame _ _ _ _ _ S) as (_ & _ & _ & _ & _ & _ & _ & _ & [(A & B)|(A & B)]); [congruence|rewrite F1 in B; exfalso; apply (f_equal (@length _)) in B; rewrite app_length in B; cbn in B; lia]);
    try (unfold main in S; rewrite P in S; discriminate); cbv zeta in S; repeat match type of S with (match ?x with _ => _ end) = _ => destruct x eqn:?; try discriminate end; try discriminate; injection S as <-; try exact P;
    exfalso; unfold notify in F1; cbn in F1; rewrite ?P in F1; cbn in F1; apply (f_equal (@length _)) in F1; rewrite app_length in F1; cbn in F1; lia.
  - rewrite F1, filter_app in F. destruct (cause e) eqn:C.
    + exfalso. cbn [filter] in F. rewrite C in F. apply (f_equal (@length _)) in F. rewrite E, filter_app, !app_length in F. cbn in F. lia.
    + cbn [filter] in F. rewrite C, app_nil_r in F. destruct F2 as (_ & _ & F2 & _). exfalso. exact (F2 (IH F)).
Qed.
Definition shut : list xlabel := [XMain; XMain; XMain; XMain; XMain; XMain; XMain; XTick; XMain; XMain; XMain; XMain].
(** It ends although nobody asked and the limit was not reached. *)
Theorem c72_spurious_refuted c limit : exists s, xgo c ([XMain; XMain; XSpurious] ++ shut) (life_init limit) = Some s /\ e_main s = MEnd /\ e_race s = false /\ ~ In VAck (e_log s) /\ ~ In VLimit (e_log s).
Proof. eexists. split; [vm_compute; reflexivity|]. cbn. repeat split; intros H; repeat destruct H as [H|H]; try discriminate; exact H. Qed.
(** The limit is reached with eight more frames in the queue: the worker waits for the end, the end for room in the worker's queue. *)
Definition flood : list xlabel := [XLoad; XMain; XMain] ++ repeat (XInput 0) 9 ++ [XWork 0 []; XWork 0 []; XWork 0 [ACtrl true]; XWork 0 []; XMain].
Definition jammed (s : life) : Prop := e_main s = MNull 0 /\ (0 < e_n s)%nat /\ e_sent s = false /\ exists b q, e_w s 0%nat = Wk b q (PIn [ASpin]) /\ (8 <= length q)%nat.
Theorem c72_full_refuted : exists s, xgo plain flood (life_init 1) = Some s /\ e_race s = false /\ In VLimit (e_log s) /\ forall s', more plain s s' -> e_main s' = MNull 0.
Proof.
  eexists. split; [vm_compute; reflexivity|]. split; [reflexivity|]. split; [right; left; reflexivity|].
  intros s' M.
  enough (K : jammed s') by (apply K). refine (more_inv plain jammed _ _ s' _ M).
  2: { unfold jammed. cbn. repeat split; auto. eexists _, _. split; [reflexivity|cbn; lia]. }
  clear. intros a s s' (P & N & SE & b & q & W & Q) S. unfold xstep in S. rewrite P in S. destruct a; try discriminate.
  - unfold main in S. rewrite P, W in S. cbv zeta in S. cbn [k_queue] in S. change max_queue_size with 8%nat in S. destruct (Nat.ltb_spec (length q) 8); [lia|discriminate].
  - destruct (Nat.ltb_spec m (e_n s)) as [MN|]; [|discriminate]. destruct (Nat.eq_dec m 0) as [->|NZ].
    { exfalso. unfold work in S. rewrite W, SE in S. destruct q as [|[|] q]; discriminate. }
    unfold work in S. assert (KEEP : forall w t, e_main t = e_main s -> e_n t = e_n s -> e_sent t = e_sent s -> e_w t = e_w (set_w m w s) -> jammed t).
    { intros w t E1 E2 E3 E4. unfold jammed. rewrite E1, E2, E3, E4. cbn [set_w e_w]. destruct (Nat.eqb_spec 0 m); [congruence|]. repeat split; auto. exists b, q. auto. }
    destruct (e_w s m) as [b1 q1 p1] eqn:WM. destruct q1 as [|[|] q1], p1 as [| |[|[k|k|d|] r]|]; cbn [turn] in S; try discriminate;
    try (injection S as <-; eapply KEEP; reflexivity);
    try (destruct (forallb (allowed plain k) l); [|discriminate]; injection S as <-; eapply KEEP; reflexivity);
    try (destruct (e_sent s); [|discriminate]; discriminate SE);
    try (destruct (_ =? _) in S; injection S as <-; [unfold notify; cbn [note set_total set_w e_main]; rewrite P|]; eapply KEEP; try reflexivity; fail).
    all: destruct (Nat.ltb_spec (length (k_queue (e_w s k))) max_queue_size) as [LT|]; [|discriminate]; injection S as <-; (assert (k <> 0)%nat by (intros ->; rewrite W in LT; cbn [k_queue] in LT; change max_queue_size with 8%nat in LT; lia)); unfold jammed; cbn [set_w e_main e_n e_sent e_w]; (destruct (Nat.eqb_spec 0 k); [congruence|]); (destruct (Nat.eqb_spec 0 m); [congruence|]); (repeat split; auto); exists b, q; auto.
  - destruct (turn (e_self s)); [|discriminate]. injection S as <-. unfold jammed. cbn. repeat split; auto. eauto.
  - destruct (e_reactor s); try discriminate. destruct (Nat.ltb m (e_n s)); [|discriminate]. injection S as <-. unfold jammed. cbn [set_w e_main e_n e_sent e_w]. repeat split; auto. destruct (Nat.eqb_spec 0 m) as [<-|]; [|eauto]. rewrite W. cbn. eexists _, _. split; [reflexivity|rewrite app_length; lia].
  - destruct (e_reactor s); try discriminate. injection S as <-. unfold notify. cbn [note e_main]. rewrite P. unfold jammed. cbn. repeat split; auto. eauto.
  - destruct (e_reactor s); try discriminate. injection S as <-. unfold jammed. cbn. repeat split; auto. eauto.
  - destruct (e_reactor s); try discriminate. injection S as <-. unfold jammed. cbn. repeat split; auto. eauto.
  - destruct (e_reactor s); try discriminate. injection S as <-. unfold jammed. cbn [race set_w e_main e_n e_sent e_w]. repeat split; auto; try lia. destruct (Nat.eqb_spec 0 (e_n s)); [lia|]. eauto.
  - destruct (e_reactor s); try discriminate. destruct (e_stop s); try discriminate. injection S as <-. unfold jammed. cbn. repeat split; auto. eauto.
Qed.
Definition kept (s : life) : Prop := e_main s = MCheck 0 /\ (0 < e_n s)%nat /\ k_working (e_w s 0%nat) = true.
(** A request that loads a plugin while the end is under way: it waits for this plugin for ever. *)
Theorem c72_late_refuted c limit : exists s, xgo c [XMain; XMain; XAck; XUse; XMain; XLoad; XMain] (life_init limit) = Some s /\ e_race s = true /\ forall s', more c s s' -> e_main s' = MCheck 0.
Proof.
  eexists. split; [vm_compute; reflexivity|]. split; [reflexivity|].
  intros s' M.
  enough (K : kept s') by (apply K). refine (more_inv c kept _ _ s' _ M).
  2: { unfold kept. cbn. repeat split; auto. }
  clear. intros a s s' (P & N & W) S. unfold xstep in S. rewrite P in S. destruct a; try discriminate.
  - unfold main in S. rewrite P, W in S. destruct (Nat.ltb_spec 0 (e_n s)); [discriminate|lia].
  - destruct (Nat.ltb m (e_n s)); [|discriminate]. destruct (work_frame _ _ _ _ _ S) as (E1 & _ & _ & _ & _ & _ & _ & E2 & [(E3 & _)|(E3 & _)]); unfold kept; rewrite E1, E2, E3; [auto|]. unfold notify. rewrite P. auto.
  - destruct (turn (e_self s)); [|discriminate]. injection S as <-. unfold kept. cbn. auto.
  - destruct (e_reactor s); try discriminate. destruct (Nat.ltb m (e_n s)); [|discriminate]. injection S as <-. unfold kept. cbn [set_w e_main e_n e_w]. repeat split; auto. destruct (Nat.eqb_spec 0 m) as [<-|]; auto.
  - destruct (e_reactor s); try discriminate. injection S as <-. unfold notify. cbn [note e_main]. rewrite P. unfold kept. cbn. auto.
  - destruct (e_reactor s); try discriminate. injection S as <-. unfold kept. cbn. auto.
  - destruct (e_reactor s); try discriminate. injection S as <-. unfold kept. cbn. auto.
  - destruct (e_reactor s); try discriminate. injection S as <-. unfold kept. cbn [race set_w e_main e_n e_w]. repeat split; auto; try lia. destruct (Nat.eqb_spec 0 (e_n s)); [lia|]. auto.
  - destruct (e_reactor s); try discriminate. destruct (e_stop s); try discriminate. injection S as <-. unfold kept. cbn. auto.
Qed.
(** Requests are served until the reactor is told to stop: one may use plugins_ while it is cleared. *)
Theorem c72_race_refuted c limit : exists s, xgo c [XMain; XMain; XAck; XUse; XMain; XMain; XMain; XMain] (life_init limit) = Some s /\ e_main s = MSelf /\ e_reactor s = RBusy /\ e_race s = true.
Proof. eexists. split; [vm_compute; reflexivity|]. repeat split; reflexivity. Qed.
(** The usual end, all plugins waiting: working_ is false as soon as stop() was called, the thread has not ended when the plugin goes. *)
Definition usual : list xlabel := [XLoad; XWork 0 []; XMain; XMain].
Theorem c72_dangling_refuted : exists s s', xgo plain usual (life_init 0) = Some s /\ e_main s = MWait /\ calm s /\ still plain s s' /\ e_race s' = false /\ e_dangling s = false /\ e_dangling s' = true.
Proof.
  set (l := [XAck; XMain; XMain; XMain; XMain; XMain; XMain; XMain]).
  assert (K : exists s, xgo plain usual (life_init 0) = Some s /\ e_main s = MWait /\ calm s /\ e_dangling s = false /\ exists s', xgo plain l s = Some s' /\ e_race s' = false /\ e_dangling s' = true).
  { eexists. split; [vm_compute; reflexivity|]. split; [reflexivity|]. split; [intros m M; cbn in M; assert (m = 0)%nat as -> by lia; reflexivity|]. split; [reflexivity|]. eexists. split; [vm_compute; reflexivity|]. split; reflexivity. }
  destruct K as (s & K1 & K2 & K3 & K4 & s' & K5 & K6 & K7). exists s, s'. split; [exact K1|]. split; [exact K2|]. split; [exact K3|]. split; [eapply xgo_still; [|exact K5]; reflexivity|]. auto.
Qed.

(** ** Cases. *)
(** One plugin; a frame passes through it and is counted; a request; the plugin's thread ends before the plugin. *)
Definition visit : list xlabel := usual ++ [XSelf; XInput 0; XWork 0 []; XWork 0 [ACtrl true]; XWork 0 []; XWork 0 []; XWork 0 []].
Definition leave : list xlabel := [XUse; XUsed; XAck; XMain; XMain; XWork 0 []; XWork 0 []; XMain; XMain; XMain; XMain; XMain; XMain; XMain; XMain; XSelf; XSelf; XTick; XMain; XMain; XMain; XMain].
Example c72_order_case : exists s, xrun plain 5 s /\ e_race s = false /\ e_main s = MEnd /\ e_n s = 1%nat /\ e_total s = 1 /\ e_dangling s = false /\ e_log s = [VWaiting; VAck; VStopped 0; VSent; VCleared; VSelf; VReactor; VJoined; VClosed; VReleased; VTorn] /\ ~ In VSpurious (e_log s).
Proof.
  assert (K : exists s, xgo plain (visit ++ leave) (life_init 5) = Some s /\ e_race s = false /\ e_main s = MEnd /\ e_n s = 1%nat /\ e_total s = 1 /\ e_dangling s = false /\ e_log s = [VWaiting; VAck; VStopped 0; VSent; VCleared; VSelf; VReactor; VJoined; VClosed; VReleased; VTorn]).
  { eexists. split; [vm_compute; reflexivity|]. repeat split; reflexivity. }
  destruct K as (s & K & A & B & C & D & E & F). exists s. split; [exact (xgo_run plain 5 _ _ _ (xr_init plain 5) K)|]. repeat (split; [assumption|]). rewrite F. cbn. intuition discriminate.
Qed.
Definition quietly (s : life) : bool := forallb (fun m => match e_w s m with Wk _ [] PRemove | Wk _ _ PDone => true | _ => false end) (seq 0 (e_n s)).
Lemma quietly_settled c s : quietly s = true -> settled c s.
Proof.
  intros Q m l. unfold xstep. destruct (Nat.ltb_spec m (e_n s)) as [M|M]; [|destruct (e_main s); reflexivity]. unfold quietly in Q. rewrite forallb_forall in Q. specialize (Q m). rewrite in_seq in Q. specialize (Q (conj (Nat.le_0_l m) M)).
  unfold work. destruct (e_w s m) as [b [|[|] q] [| |[|? ?]|]]; try discriminate; destruct (e_main s); reflexivity.
Qed.
Fixpoint pgo (c : conf) (l : list xlabel) (s : life) : option life :=
  match l with [] => Some s | a :: r => if negb (outside a) && (match a with XMain => quietly s | _ => true end) then match xstep c a s with Some t => pgo c r t | None => None end else None end.
Lemma pgo_patient c l : forall s t s', patient c s t -> pgo c l t = Some s' -> patient c s s'.
Proof.
  induction l as [|a l IH]; intros s t s' P G; cbn [pgo] in G; [injection G as <-; exact P|]. destruct (outside a) eqn:O; [discriminate|]. cbn [negb andb] in G. destruct (match a with XMain => quietly t | _ => true end) eqn:Q; [|discriminate]. destruct (xstep c a t) as [u|] eqn:S; [|discriminate].
  eapply IH; [|exact G]. eapply pa_step; [exact P|exact S|exact O|]. intros ->. apply quietly_settled. exact Q.
Qed.
Example c72_ends_case : exists s s', xrun plain 5 s /\ e_main s = MWait /\ calm s /\ e_n s = 1%nat /\ patient plain s s' /\ still plain s s' /\ e_race s' = false /\ e_main s' = MEnd /\ e_dangling s' = false.
Proof.
  assert (K : exists s, xgo plain visit (life_init 5) = Some s /\ e_main s = MWait /\ calm s /\ e_n s = 1%nat /\ exists s', pgo plain leave s = Some s' /\ xgo plain leave s = Some s' /\ e_race s' = false /\ e_main s' = MEnd /\ e_dangling s' = false).
  { eexists. split; [vm_compute; reflexivity|]. split; [reflexivity|]. split; [intros m M; cbn in M; assert (m = 0)%nat as -> by lia; reflexivity|]. split; [reflexivity|]. eexists. split; [vm_compute; reflexivity|]. split; [vm_compute; reflexivity|]. repeat split; reflexivity. }
  destruct K as (s & K1 & K2 & K3 & K4 & s' & K5 & K6 & K7). exists s, s'. split; [exact (xgo_run plain 5 _ _ _ (xr_init plain 5) K1)|]. split; [exact K2|]. split; [exact K3|]. split; [exact K4|]. split; [exact (pgo_patient plain leave s s s' (pa_refl plain s) K5)|]. split; [eapply xgo_still; [|exact K6]; reflexivity|]. exact K7.
Qed.
Lemma xgo_counted c l : forall s k t s', counted c s k t -> xgo c l t = Some s' -> counted c s (k + length (filter (fun a => match a with XMain => true | _ => false end) l)) s'.
Proof.
  induction l as [|a l IH]; intros s k t s' C G; cbn [xgo] in G; [injection G as <-; cbn; rewrite Nat.add_0_r; exact C|]. destruct (xstep c a t) as [u|] eqn:S; [|discriminate].
  destruct a; cbn [filter length]; try (eapply IH; [eapply co_other; [exact C|exact S|discriminate]|exact G]). rewrite Nat.add_succ_r, <- Nat.add_succ_l. eapply IH; [eapply co_main; [exact C|exact S]|exact G].
Qed.
Example c72_bounded_case : exists s s', xrun plain 5 s /\ e_main s = MWait /\ counted plain s 14 s' /\ e_race s' = false /\ e_n s' = 1%nat /\ e_main s' = MEnd.
Proof.
  assert (K : exists s, xgo plain visit (life_init 5) = Some s /\ e_main s = MWait /\ exists s', xgo plain leave s = Some s' /\ e_race s' = false /\ e_n s' = 1%nat /\ e_main s' = MEnd).
  { eexists. split; [vm_compute; reflexivity|]. split; [reflexivity|]. eexists. split; [vm_compute; reflexivity|]. repeat split; reflexivity. }
  destruct K as (s & K1 & K2 & s' & K3 & K4). exists s, s'. split; [exact (xgo_run plain 5 _ _ _ (xr_init plain 5) K1)|]. split; [exact K2|]. split; [exact (xgo_counted plain leave s 0 s s' (co_refl plain s) K3)|exact K4].
Qed.
(** Both exceptions of [c72_blocked_partial]. *)
Example c72_blocked_case : (exists s, xrun plain 1 s /\ e_race s = false /\ e_main s = MNull 0 /\ xstep plain XMain s = None /\ length (k_queue (e_w s 0%nat)) = 8%nat) /\ (exists s, xrun plain 1 s /\ e_race s = false /\ e_main s = MJoin /\ xstep plain XMain s = None).
Proof.
  assert (K : (exists s, xgo plain flood (life_init 1) = Some s /\ e_race s = false /\ e_main s = MNull 0 /\ xstep plain XMain s = None /\ length (k_queue (e_w s 0%nat)) = 8%nat) /\ (exists s, xgo plain [XMain; XMain; XAck; XMain; XMain; XMain; XMain; XMain; XMain; XMain] (life_init 1) = Some s /\ e_race s = false /\ e_main s = MJoin /\ xstep plain XMain s = None)).
  { split; (eexists; split; [vm_compute; reflexivity|]; repeat split; reflexivity). }
  destruct K as ((s & A & B) & (t & C & D)). split; [exists s|exists t]; (split; [eapply xgo_run; [constructor|eassumption]|assumption]).
Qed.
Example c72_woken_case : exists s, xrun plain 5 s /\ In (VStopped 0) (e_log s) /\ In VSelf (e_log s) /\ k_pos (e_w s 0%nat) = PDone.
Proof.
  assert (K : exists s, xgo plain (visit ++ leave) (life_init 5) = Some s /\ In (VStopped 0) (e_log s) /\ In VSelf (e_log s) /\ k_pos (e_w s 0%nat) = PDone).
  { eexists. split; [vm_compute; reflexivity|]. repeat split; cbn; tauto. }
  destruct K as (s & K & A). exists s. split; [exact (xgo_run plain 5 _ _ _ (xr_init plain 5) K)|exact A].
Qed.
Example c72_start_case : exists b, bgo [BMain; BMain; BMain; BThread; BMain; BThread; BMain; BMain; BThread] boot_init = Some b /\ k_main b = CBack.
Proof. eexists. split; reflexivity. Qed.

Print Assumptions c72_woken.
Print Assumptions c72_order_partial.
Print Assumptions c72_finished_partial.
Print Assumptions c72_cause_partial.
Print Assumptions c72_blocked_partial.
Print Assumptions c72_bounded_partial.
Print Assumptions c72_ends_partial.
Print Assumptions c72_safe_partial.
Print Assumptions c72_start_partial.
Print Assumptions c72_start_refuted.
Print Assumptions c72_lost_refuted.
Print Assumptions c72_spurious_refuted.
Print Assumptions c72_full_refuted.
Print Assumptions c72_late_refuted.
Print Assumptions c72_race_refuted.
Print Assumptions c72_dangling_refuted.
