(** Property C82: the pace of the simulator. *)
From Verif Require Import Base PaceModel PaceSpec.
Local Open Scope list_scope.
Local Open Scope Z_scope.

Lemma wait_exact i s e : frame_wait (Some i) s e = Z.max 0 (i - (time_s e - time_s s) * second).
Proof. unfold frame_wait. cbv zeta. destruct (Z.ltb_spec 0 (i - (time_s e - time_s s) * second)); lia. Qed.
Lemma seconds s e : s <= e -> (time_s e - time_s s) * second < e - s + second /\ e - s - second < (time_s e - time_s s) * second /\ 0 <= time_s e - time_s s.
Proof.
  intros H. unfold time_s. assert (P : 0 < second) by reflexivity. pose proof (Z.div_mod e second ltac:(lia)). pose proof (Z.div_mod s second ltac:(lia)).
  pose proof (Z.mod_pos_bound e second P). pose proof (Z.mod_pos_bound s second P). pose proof (Z.div_le_mono s e second P H). lia.
Qed.
Lemma pauses_pos gap : forall n k p, packet_pauses gap n k = Ret p -> 0 <= p.
Proof.
  induction n as [|n IH]; intros k p; cbn [packet_pauses]; [intros [= <-]; lia|]. destruct gap as [g|]; [|intros [= <-]; lia].
  destruct (g =? 0); [discriminate|]. destruct (packet_pauses (Some g) n (k + 1)) as [r| |] eqn:E; try discriminate. intros [= <-]. specialize (IH _ _ E). destruct (_ =? 0); lia.
Qed.

Lemma pace_rows (R : Z -> Z -> Z -> Prop) i gap : (forall s e d, s <= e -> 0 <= d -> R s e (e + frame_wait i s e + d)) ->
  forall l now t e, Forall (fun x => 0 <= g_work x /\ 0 <= g_late x) l -> pace i gap l now = Ret (t, e) ->
  in_a_row R t /\ List.length t = List.length l /\ (forall s0 e0 r, t = (s0, e0) :: r -> s0 = now).
Proof.
  intros HR. induction l as [|x l IH]; intros now t e F H; cbn [pace] in H. { injection H as <- <-. cbn. split; [exact Logic.I|]. split; [reflexivity|discriminate]. }
  inversion F as [|? ? (F1 & F2) F3]; subst. destruct (packet_pauses gap (g_sent x) 0) as [p| |] eqn:P; try discriminate. cbv zeta in H.
  destruct (pace i gap l _) as [[t' e']| |] eqn:E; try discriminate. injection H as <- <-. apply IH in E; [|exact F3]. destruct E as (E1 & E2 & E3).
  split; [|split; [cbn; congruence|congruence]]. destruct t' as [|[s1 e1] t']; [exact Logic.I|]. pose proof (E3 s1 e1 t' eq_refl) as ->.
  split; [|exact E1]. apply HR; [|exact F2]. apply pauses_pos in P. lia.
Qed.

(** C82.  Whatever sending takes: two frames in a row start more than the interval less one second apart, and no frame
    starts before the one before it has been sent. *)
Theorem c82_interval : forall i gap l now t e, Forall (fun x => 0 <= g_work x /\ 0 <= g_late x) l -> pace (Some i) gap l now = Ret (t, e) ->
  List.length t = List.length l /\ in_a_row (fun s e s' => i - second < s' - s /\ e <= s' /\ s <= e) t.
Proof.
  intros i gap l now t e F H.
  destruct (pace_rows (fun s e s' => i - second < s' - s /\ e <= s' /\ s <= e) (Some i) gap) with (l := l) (now := now) (t := t) (e := e) as (A & B & _); auto.
  intros s e0 d Hs Hd. rewrite wait_exact. pose proof (seconds s e0 Hs). unfold second in *. lia.
Qed.
Print Assumptions c82_interval.

(** C82.  If sleeping takes exactly as long as asked for, they start less than a second later than the interval, or than
    the time it took to send the first if that is longer. *)
Theorem c82_late : forall i gap l now t e, 0 <= i -> Forall (fun x => 0 <= g_work x /\ g_late x = 0) l -> pace (Some i) gap l now = Ret (t, e) ->
  in_a_row (fun s e s' => s' - s < Z.max i (e - s) + second) t.
Proof.
  intros i gap l. induction l as [|x l IH]; intros now t e Hi F H; cbn [pace] in H. { injection H as <- <-. exact Logic.I. }
  inversion F as [|? ? (F1 & F2) F3]; subst. destruct (packet_pauses gap (g_sent x) 0) as [p| |] eqn:P; try discriminate. cbv zeta in H.
  destruct (pace (Some i) gap l _) as [[t' e']| |] eqn:E; try discriminate. injection H as <- <-. pose proof E as E'. apply IH in E; auto.
  destruct t' as [|[s1 e1] t']; [exact Logic.I|]. split; [|exact E].
  assert (s1 = now + g_work x + p + frame_wait (Some i) now (now + g_work x + p) + g_late x) as ->.
  { destruct l as [|y l]; cbn [pace] in E'; [discriminate|]. destruct (packet_pauses gap (g_sent y) 0); try discriminate. cbv zeta in E'. destruct (pace (Some i) gap l _) as [[]| |]; try discriminate. injection E' as <- _ _ _. reflexivity. }
  rewrite F2, wait_exact. apply pauses_pos in P. pose proof (seconds now (now + g_work x + p) ltac:(lia)). unfold second in *. lia.
Qed.
Print Assumptions c82_late.

(** C82, partial.  Within one second of the clock the pause is the whole interval, whatever sending took.  Missing: an
    exact interval (refuted below). *)
Theorem c82_pause_partial : forall i gap l now t e, 0 <= i -> Forall (fun x => 0 <= g_work x /\ 0 <= g_late x) l -> pace (Some i) gap l now = Ret (t, e) ->
  in_a_row (fun s e s' => s / 1000000000 = e / 1000000000 -> i <= s' - e) t.
Proof.
  intros i gap l now t e Hi F H.
  destruct (pace_rows (fun s e s' => s / 1000000000 = e / 1000000000 -> i <= s' - e) (Some i) gap) with (l := l) (now := now) (t := t) (e := e) as (A & B & _); auto.
  intros s e0 d Hs Hd E. rewrite wait_exact. unfold time_s, second. rewrite E. lia.
Qed.
Print Assumptions c82_pause_partial.

(** C82.  Without an interval, no frame starts before the one before it has been sent, and every frame is sent. *)
Theorem c82_none : forall gap l now t e, Forall (fun x => 0 <= g_work x /\ 0 <= g_late x) l -> pace None gap l now = Ret (t, e) ->
  List.length t = List.length l /\ in_a_row (fun s e s' => e <= s') t.
Proof.
  intros gap l now t e F H. destruct (pace_rows (fun s e s' => e <= s') None gap) with (l := l) (now := now) (t := t) (e := e) as (A & B & _); auto.
  intros s e0 d Hs Hd. cbn. lia.
Qed.
Print Assumptions c82_none.

Lemma rem_zero a g : g <> 0 -> (Z.rem a g =? 0) = (a mod Z.abs g =? 0).
Proof.
  intros G. assert (I1 : Z.rem a g = 0 <-> (g | a)) by (rewrite Z.rem_divide; tauto). assert (I2 : a mod Z.abs g = 0 <-> (Z.abs g | a)) by (rewrite Z.mod_divide by lia; tauto).
  rewrite Z.divide_abs_l in I2. destruct (Z.eqb_spec (Z.rem a g) 0), (Z.eqb_spec (a mod Z.abs g) 0); tauto.
Qed.
Lemma pauses_count g : g <> 0 -> forall n k, 0 <= k -> packet_pauses (Some g) n k = Ret (10000000 * ((k + Z.of_nat n) / Z.abs g - k / Z.abs g)).
Proof.
  intros G. induction n as [|n IH]; intros k K; cbn [packet_pauses]. { rewrite Z.add_0_r. f_equal. lia. }
  destruct (Z.eqb_spec g 0); [congruence|]. rewrite IH by lia. f_equal. rewrite rem_zero by exact G.
  assert (A : 0 < Z.abs g) by lia. replace (k + 1 + Z.of_nat n) with (k + Z.of_nat (S n)) by lia.
  pose proof (Z.div_mod (k + 1) (Z.abs g) ltac:(lia)). pose proof (Z.div_mod k (Z.abs g) ltac:(lia)). pose proof (Z.mod_pos_bound (k + 1) (Z.abs g) A). pose proof (Z.mod_pos_bound k (Z.abs g) A).
  destruct (Z.eqb_spec ((k + 1) mod Z.abs g) 0); nia.
Qed.

(** C82.  The pauses between packets: 10 ms after every [g] packets of a frame that were sent (a negative number counts
    like a positive one), so a frame takes at least that long; zero divides by zero at the first packet (C65). *)
Theorem c82_packets : forall g x i now t e, g <> 0 -> pace i (Some g) [x] now = Ret (t, e) ->
  t = [(now, now + g_work x + 10000000 * (Z.of_nat (g_sent x) / Z.abs g))].
Proof.
  intros g x i now t e G H. cbn [pace] in H. rewrite pauses_count in H by (auto; lia). rewrite Z.div_0_l, Z.sub_0_r, Z.add_0_l in H by lia. injection H as <- _. reflexivity.
Qed.
Print Assumptions c82_packets.

(** ** Refuted *)
(** With an interval of a second, a frame that is sent in 10 ms around the change of a second of the clock is followed by the
    next at once. *)
Theorem c82_short_refuted : exists now x y t e, g_work x = 10000000 /\ pace (Some second) None [x; y] now = Ret (t, e) /\
  exists s1 e1 s2 e2, t = [(s1, e1); (s2, e2)] /\ s2 - s1 = 10000000.
Proof. exists 999995000, (Sending 1 10000000 0), (Sending 1 0 0). do 2 eexists. split; [reflexivity|]. split; [vm_compute; reflexivity|]. do 4 eexists. split; reflexivity. Qed.
Print Assumptions c82_short_refuted.
(** Otherwise the time spent sending comes on top of the interval: 900 ms of sending and an interval of a second make 1.9. *)
Theorem c82_long_refuted : exists now x y t e, g_work x = 900000000 /\ g_late x = 0 /\ pace (Some second) None [x; y] now = Ret (t, e) /\
  exists s1 e1 s2 e2, t = [(s1, e1); (s2, e2)] /\ s2 - s1 = 1900000000.
Proof. exists 0, (Sending 1 900000000 0), (Sending 1 0 0). do 2 eexists. split; [reflexivity|]. split; [reflexivity|]. split; [vm_compute; reflexivity|]. do 4 eexists. split; reflexivity. Qed.
Print Assumptions c82_long_refuted.

(** Three frames of five packets, an interval of 0.5 s, a pause every two packets. *)
Example c82_case : pace (Some 500000000) (Some 2) [Sending 5 1000000 0; Sending 5 1000000 3; Sending 5 1000000 0] 0
  = Ret ([(0, 21000000); (521000000, 542000000); (1042000003, 1063000003)], 1563000003).
Proof. vm_compute. reflexivity. Qed.
