From Verif Require Import Base ReactorModel ReactorSpec.
Local Open Scope Z_scope.

(** Arguments are size_t. *)
Definition typed (ls : list label) : Prop := forall d n, In (LRegister d n) ls -> 0 <= d < 2 ^ 64 /\ 0 <= n < 2 ^ 64.

Definition nf (id : Z) (l : list event) : Z := Z.of_nat (length (fires id l)).
Record tinv (now next : Z) (ts : list (Z * timer)) (l : list event) : Prop := TInv {
  i_now : 0 <= now;
  i_next : 0 <= next;
  i_keys : NoDup (map fst ts);
  i_keys_lt : forall id, In id (map fst ts) -> 0 <= id < next;
  i_reg : forall id d n t, In (ERegister id d n t) l -> 0 <= id < next /\ 0 <= t <= now /\ 0 <= d /\ 0 <= n;
  i_one : forall id d n t d' n' t', In (ERegister id d n t) l -> In (ERegister id d' n' t') l -> d' = d /\ n' = n /\ t' = t;
  i_map : forall id tm d n t, tm_get ts id = Some tm -> In (ERegister id d n t) l ->
    (n = 0 \/ nf id l < n) /\ tm = Timer d (if n =? 0 then 0 else n - nf id l) (i64 (t + (nf id l + 1) * d));
  i_mapreg : forall id, In id (map fst ts) -> exists d n t, In (ERegister id d n t) l;
  i_there : forall id d n t, In (ERegister id d n t) l -> ~ removed id l -> n = 0 \/ nf id l < n -> In id (map fst ts);
  i_gone : forall id d n t, In (ERegister id d n t) l -> 0 < n -> nf id l = n -> ~ In id (map fst ts);
  i_fires : forall id d n t, In (ERegister id d n t) l -> (0 < n -> nf id l <= n) /\
    forall k f, nth_error (fires id l) k = Some f -> t + (Z.of_nat k + 1) * d < 2 ^ 63 -> t + (Z.of_nat k + 1) * d <= f;
  i_fresh : forall id, next <= id -> fires id l = [] }.

Lemma tm_get_in l id : (exists t, tm_get l id = Some t) <-> In id (map fst l).
Proof.
  induction l as [|[i t] l IH]; cbn; [split; [intros (t & H); discriminate|tauto]|]. destruct (Z.eqb_spec i id) as [->|N].
  - split; [auto|]. intros _. eauto.
  - rewrite IH. split; [auto|]. intros [H|H]; [congruence|exact H].
Qed.
Lemma tm_get_app l id x : tm_get (l ++ [x]) id = match tm_get l id with Some t => Some t | None => if fst x =? id then Some (snd x) else None end.
Proof. induction l as [|[i t] l IH]; cbn; [destruct x; reflexivity|]. destruct (i =? id); auto. Qed.
Lemma tm_del_get l id j : tm_get (tm_del l id) j = if j =? id then None else tm_get l j.
Proof.
  unfold tm_del.
  induction l as [|[i t] l IH]; cbn; [destruct (j =? id); reflexivity|]. destruct (Z.eqb_spec i id) as [->|N]; cbn.
  - rewrite IH. destruct (Z.eqb_spec j id) as [E|M]; [reflexivity|]. destruct (Z.eqb_spec id j); [congruence|reflexivity].
  - destruct (Z.eqb_spec i j) as [E|M]; [|exact IH]. destruct (Z.eqb_spec j id); [congruence|reflexivity].
Qed.
Lemma tm_del_in l id j : In j (map fst (tm_del l id)) <-> In j (map fst l) /\ j <> id.
Proof. rewrite <- !tm_get_in. setoid_rewrite tm_del_get. destruct (Z.eqb_spec j id) as [E|N]; [split; [intros (t & H); discriminate|tauto]|tauto]. Qed.
Lemma tm_del_nodup l id : NoDup (map fst l) -> NoDup (map fst (tm_del l id)).
Proof.
  unfold tm_del. induction l as [|[i t] l IH]; cbn; [auto|]. intros H. inversion H as [|? ? A B]; subst. destruct (negb (i =? id)); cbn; [|auto]. constructor; [|auto].
  intros X. apply A. apply (tm_del_in l id i) in X. apply X.
Qed.
Lemma tm_set_keys l id t : map fst (tm_set l id t) = map fst l.
Proof. unfold tm_set. rewrite map_map. apply map_ext. intros [i x]. cbn. destruct (Z.eqb_spec i id); cbn; congruence. Qed.
Lemma tm_set_get l id t j : tm_get (tm_set l id t) j = if (j =? id) && (match tm_get l id with Some _ => true | None => false end) then Some t else tm_get l j.
Proof.
  unfold tm_set. induction l as [|[i x] l IH]; cbn; [rewrite andb_false_r; reflexivity|]. destruct (Z.eqb_spec i id) as [->|N]; cbn.
  - destruct (Z.eqb_spec id j) as [->|M]; [rewrite Z.eqb_refl; reflexivity|]. rewrite IH. destruct (Z.eqb_spec j id); [congruence|reflexivity].
  - destruct (Z.eqb_spec i j) as [->|M]; [|exact IH]. destruct (Z.eqb_spec j id); [congruence|reflexivity].
Qed.
Lemma NoDup_app_snoc {A} (l : list A) x : NoDup l -> ~ In x l -> NoDup (l ++ [x]).
Proof. intros H N. apply NoDup_rev in H. rewrite <- (rev_involutive (l ++ [x])), rev_app_distr. apply NoDup_rev. cbn. constructor; [rewrite <- in_rev; exact N|exact H]. Qed.
Lemma i64_add a b : i64 (i64 a + b) = i64 (a + b).
Proof. unfold i64. f_equal. replace ((a + 2 ^ 63) mod 2 ^ 64 - 2 ^ 63 + b + 2 ^ 63) with ((a + 2 ^ 63) mod 2 ^ 64 + b) by lia. rewrite Z.add_mod_idemp_l by lia. f_equal. lia. Qed.
Lemma i64_small a : - 2 ^ 63 <= a < 2 ^ 63 -> i64 a = a.
Proof. intros H. unfold i64. rewrite Z.mod_small; lia. Qed.

Lemma fires_app id a b : fires id (a ++ b) = fires id a ++ fires id b. Proof. apply flat_map_app. Qed.
Lemma nf_app id a b : nf id (a ++ b) = nf id a + nf id b. Proof. unfold nf. rewrite fires_app, app_length. lia. Qed.
Lemma nf_one id e : nf id [e] = match e with EFire i t => if i =? id then 1 else 0 | _ => 0 end.
Proof. destruct e; try reflexivity. unfold nf. cbn. destruct (_ =? _); reflexivity. Qed.

Lemma tinv_init now : 0 <= now -> tinv now 0 [] [].
Proof. 
  intros H. split; cbn [map In fires flat_map tm_get]; try (constructor; fail); try (intros; discriminate); try (intros; contradiction); try lia; try reflexivity.
Qed.
Lemma tinv_tick now next ts l d : 0 <= d -> tinv now next ts l -> tinv (now + d) next ts l.
Proof.
  intros D [A B C E F G H I J K L M]. split; try assumption; [lia|]. intros id d' n t X. apply F in X. lia.
Qed.
Lemma tinv_next now next ts l : tinv now next ts l -> tinv now (next + 1) ts l.
Proof.
  intros [A B C E F G H I J K L M]. split; try assumption; [lia|..].
  - intros id X. apply E in X. lia.
  - intros id d n t X. apply F in X. lia.
  - intros id X. apply M. lia.
Qed.
(** Events that are neither registrations, removals nor firings change nothing. *)
Lemma tinv_pass now next ts l t : tinv now next ts l -> tinv now next ts (l ++ [EPass t]).
Proof.
  intros [A B C E F G H I J K L M].
  assert (R : forall id d n t', In (ERegister id d n t') (l ++ [EPass t]) -> In (ERegister id d n t') l) by (intros id d n t' X; apply in_app_or in X as [X|[X|[]]]; [exact X|discriminate]).
  assert (N : forall id, nf id (l ++ [EPass t]) = nf id l) by (intros id; rewrite nf_app, nf_one; lia).
  split; try assumption.
  - intros id d n t' X. exact (F id d n t' (R _ _ _ _ X)).
  - intros id d n t1 d' n' t2 X Y. eapply G; apply R; eassumption.
  - intros id tm d n t' X Y. rewrite N. eapply H; eauto.
  - intros id X. destruct (I id X) as (d & n & t' & Y). exists d, n, t'. apply in_or_app. auto.
  - intros id d n t' X Y. rewrite N. apply (J id d n t' (R _ _ _ _ X)). intros Z. apply Y, in_or_app. auto.
  - intros id d n t' X. rewrite N. exact (K id d n t' (R _ _ _ _ X)).
  - intros id d n t' X. rewrite N. rewrite fires_app. cbn. rewrite app_nil_r. exact (L id d n t' (R _ _ _ _ X)).
  - intros id X. rewrite fires_app. cbn. rewrite app_nil_r. apply M, X.
Qed.
Lemma tinv_remove now next ts l id : tinv now next ts l -> tinv now next (tm_del ts id) (l ++ [ERemove id]).
Proof.
  intros [A B C E F G H I J K L M].
  assert (R : forall id' d n t', In (ERegister id' d n t') (l ++ [ERemove id]) -> In (ERegister id' d n t') l) by (intros id' d n t' X; apply in_app_or in X as [X|[X|[]]]; [exact X|discriminate]).
  assert (N : forall id', nf id' (l ++ [ERemove id]) = nf id' l) by (intros id'; rewrite nf_app, nf_one; lia).
  split; try assumption.
  - apply tm_del_nodup, C.
  - intros id' X. apply tm_del_in in X. apply E, X.
  - intros id' d n t' X. exact (F id' d n t' (R _ _ _ _ X)).
  - intros id' d n t1 d' n' t2 X Y. eapply G; apply R; eassumption.
  - intros id' tm d n t' X Y. rewrite N. rewrite tm_del_get in X. destruct (_ =? _); [discriminate|]. eapply H; eauto.
  - intros id' X. apply tm_del_in in X. destruct (I id' (proj1 X)) as (d & n & t' & Y). exists d, n, t'. apply in_or_app. auto.
  - intros id' d n t' X Y. rewrite N. intros Z. apply tm_del_in. split.
    + apply (J id' d n t' (R _ _ _ _ X)); [|exact Z]. intros W. apply Y, in_or_app. auto.
    + intros ->. apply Y, in_or_app. right. left. reflexivity.
  - intros id' d n t' X Y Z W. rewrite N in Z. apply tm_del_in in W. apply (K id' d n t' (R _ _ _ _ X) Y Z), W.
  - intros id' d n t' X. rewrite N. rewrite fires_app. cbn. rewrite app_nil_r. exact (L id' d n t' (R _ _ _ _ X)).
  - intros id' X. rewrite fires_app. cbn. rewrite app_nil_r. apply M, X.
Qed.

Lemma tinv_register now next ts l d n : 0 <= d -> 0 <= n -> tinv now next ts l -> tinv now (next + 1) (ts ++ [(next, Timer d n (i64 (now + d)))]) (l ++ [ERegister next d n now]).
Proof.
  intros HD HN [A B C E F G H I J K L M].
  assert (R : forall id d' n' t', In (ERegister id d' n' t') (l ++ [ERegister next d n now]) -> In (ERegister id d' n' t') l /\ id <> next \/ id = next /\ d' = d /\ n' = n /\ t' = now).
  { intros id d' n' t' X. apply in_app_or in X as [X|[X|[]]]; [left|right; injection X; auto]. split; [exact X|]. apply F in X. lia. }
  assert (N : forall id, nf id (l ++ [ERegister next d n now]) = nf id l) by (intros id; rewrite nf_app, nf_one; lia).
  assert (NN : nf next l = 0) by (unfold nf; rewrite M by lia; reflexivity). assert (NI : ~ In next (map fst ts)) by (intros X; apply E in X; lia).
  split; try assumption.
  - lia.
  - rewrite map_app. cbn. apply NoDup_app_snoc; assumption.
  - intros id X. rewrite map_app in X. apply in_app_or in X as [X|[<-|[]]]; [apply E in X; lia|cbn; lia].
  - intros id d' n' t' X. destruct (R _ _ _ _ X) as [(Y & _)|(-> & -> & -> & ->)]; [apply F in Y; lia|lia].
  - intros id d1 n1 t1 d2 n2 t2 X Y. destruct (R _ _ _ _ X) as [(X1 & X2)|(-> & -> & -> & ->)], (R _ _ _ _ Y) as [(Y1 & Y2)|(Y1 & -> & -> & ->)]; try congruence; auto. eapply G; eassumption.
  - intros id tm d' n' t' X Y. rewrite N. rewrite tm_get_app in X. cbn [fst snd] in X. destruct (R _ _ _ _ Y) as [(Y1 & Y2)|(-> & -> & -> & ->)].
    + destruct (Z.eqb_spec next id); [congruence|]. destruct (tm_get ts id) as [t0|] eqn:TG; [|discriminate]. injection X as <-. eapply H; eauto.
    + destruct (tm_get ts next) as [t0|] eqn:TG; [exfalso; apply NI, tm_get_in; eauto|]. rewrite Z.eqb_refl in X. injection X as <-. rewrite NN. split; [lia|]. destruct (Z.eqb_spec n 0) as [->|]; f_equal; try lia; f_equal; lia.
  - intros id X. rewrite map_app in X. apply in_app_or in X as [X|[<-|[]]]; [destruct (I id X) as (d' & n' & t' & Y); exists d', n', t'; apply in_or_app; auto|]. exists d, n, now. apply in_or_app. right. left. reflexivity.
  - intros id d' n' t' X Y Z. rewrite N in Z. rewrite map_app. apply in_or_app. destruct (R _ _ _ _ X) as [(X1 & X2)|(-> & -> & -> & ->)]; [left|right; left; reflexivity].
    eapply J; eauto. intros W. apply Y, in_or_app. auto.
  - intros id d' n' t' X Y Z. rewrite N in Z. rewrite map_app. destruct (R _ _ _ _ X) as [(X1 & X2)|(-> & -> & -> & ->)]; [|lia]. intros W. apply in_app_or in W as [W|[W|[]]]; [eapply K; eauto|cbn in W; congruence].
  - intros id d' n' t' X. rewrite N. rewrite fires_app. cbn. rewrite app_nil_r. destruct (R _ _ _ _ X) as [(X1 & X2)|(-> & -> & -> & ->)]; [apply (L id d' n' t' X1)|]. rewrite NN. split; [lia|]. rewrite M by lia. intros [|k] f; discriminate.
  - intros id X. rewrite fires_app. cbn. rewrite app_nil_r. apply M. lia.
Qed.

(** A timer fires. *)
Definition times_left (n : Z) : Z := if 0 <? n then n - 1 else n.
Lemma tinv_fire now next ts l id tm : tinv now next ts l -> tm_get ts id = Some tm -> t_when tm <= now ->
  tinv now next (if (0 <? t_times tm) && (times_left (t_times tm) =? 0) then tm_del ts id else tm_set ts id (Timer (t_delay tm) (times_left (t_times tm)) (i64 (t_when tm + t_delay tm)))) (l ++ [EFire id now]).
Proof.
  intros [A B C E F G H I J K L M] TG DUE. assert (IK : In id (map fst ts)) by (apply tm_get_in; eauto). destruct (I id IK) as (d & n & t & RG). destruct (H id tm d n t TG RG) as (H1 & H2).
  destruct (F _ _ _ _ RG) as (F1 & F2 & F3 & F4). set (k := nf id l) in *. assert (K0 : 0 <= k) by (unfold k, nf; lia).
  assert (R : forall id' d' n' t', In (ERegister id' d' n' t') (l ++ [EFire id now]) -> In (ERegister id' d' n' t') l) by (intros id' d' n' t' X; apply in_app_or in X as [X|[X|[]]]; [exact X|discriminate]).
  assert (RM : forall id', removed id' (l ++ [EFire id now]) <-> removed id' l) by (intros id'; unfold removed; rewrite in_app_iff; cbn; intuition discriminate).
  assert (N : forall id', nf id' (l ++ [EFire id now]) = nf id' l + if id =? id' then 1 else 0) by (intros id'; rewrite nf_app, nf_one; reflexivity).
  set (ts' := if _ && _ then _ else _). set (gone := (0 <? t_times tm) && (times_left (t_times tm) =? 0)) in *.
  assert (GN : gone = true <-> 0 < n /\ k + 1 = n). { unfold gone, times_left. rewrite H2. cbn [t_times]. destruct (Z.eqb_spec n 0) as [->|]; [cbn; lia|]. destruct (Z.ltb_spec 0 (n - k)); [|lia]. cbn [andb]. rewrite Z.eqb_eq. lia. }
  assert (G1 : forall j, j <> id -> tm_get ts' j = tm_get ts j).
  { intros j Hj. unfold ts'. destruct gone; [rewrite tm_del_get|rewrite tm_set_get]; destruct (Z.eqb_spec j id); try congruence; reflexivity. }
  assert (G2 : tm_get ts' id = if gone then None else Some (Timer d (if n =? 0 then 0 else n - (k + 1)) (i64 (t + (k + 1 + 1) * d)))).
  { unfold ts'. destruct gone eqn:EG; [rewrite tm_del_get, Z.eqb_refl; reflexivity|]. rewrite tm_set_get, Z.eqb_refl, TG. cbn [andb]. rewrite H2. cbn [t_times t_delay t_when]. rewrite i64_add. f_equal. f_equal; [|f_equal; lia].
    unfold times_left. destruct (Z.eqb_spec n 0); [reflexivity|]. destruct (Z.ltb_spec 0 (n - k)); lia. }
  assert (KE : forall j, In j (map fst ts') <-> In j (map fst ts) /\ (j = id -> gone = false)).
  { intros j. unfold ts'. destruct gone; [rewrite tm_del_in; intuition congruence|rewrite tm_set_keys; tauto]. }
  clearbody gone.
  split; try assumption.
  - unfold ts'. destruct gone; [apply tm_del_nodup, C|rewrite tm_set_keys; exact C].
  - intros j X. apply KE in X. apply E, X.
  - intros id' d' n' t' X. exact (F id' d' n' t' (R _ _ _ _ X)).
  - intros id' d1 n1 t1 d2 n2 t2 X Y. eapply G; apply R; eassumption.
  - intros id' tm' d' n' t' X Y. apply R in Y. rewrite N. destruct (Z.eqb_spec id id') as [<-|NE].
    + destruct (G _ _ _ _ _ _ _ RG Y) as (-> & -> & ->). rewrite G2 in X. fold k. destruct gone; [discriminate|]. injection X as <-. split; [|reflexivity].
      destruct (Z.eq_dec (k + 1) n) as [E1|]; [|lia]. assert (false = true) by (apply GN; lia). discriminate.
    + rewrite G1 in X by congruence. rewrite Z.add_0_r. eapply H; eauto.
  - intros j X. apply KE in X. destruct (I j (proj1 X)) as (d' & n' & t' & Y). exists d', n', t'. apply in_or_app. auto.
  - intros id' d' n' t' X Y Z. apply R in X. rewrite RM in Y. rewrite N in Z. apply KE. destruct (Z.eqb_spec id id') as [<-|NE].
    + split; [exact IK|]. intros _. destruct (G _ _ _ _ _ _ _ RG X) as (-> & -> & ->). fold k in Z. destruct gone; [|reflexivity]. pose proof (proj1 GN eq_refl). lia.
    + rewrite Z.add_0_r in Z. split; [eapply J; eauto|congruence].
  - intros id' d' n' t' X Y Z W. apply R in X. rewrite N in Z. apply KE in W as (W1 & W2). destruct (Z.eqb_spec id id') as [<-|NE].
    + destruct (G _ _ _ _ _ _ _ RG X) as (-> & -> & ->). fold k in Z. specialize (W2 eq_refl). rewrite W2 in GN. assert (false = true) by (apply GN; lia). discriminate.
    + rewrite Z.add_0_r in Z. exact (K _ _ _ _ X Y Z W1).
  - intros id' d' n' t' X. apply R in X. rewrite N, fires_app. destruct (L _ _ _ _ X) as (L1 & L2). cbn [fires flat_map app]. destruct (Z.eqb_spec id id') as [<-|NE].
    + destruct (G _ _ _ _ _ _ _ RG X) as (-> & -> & ->). fold k. split; [lia|]. rewrite app_nil_r. intros j f Hj Hb. destruct (Nat.lt_ge_cases j (length (fires id l))) as [LT|GE].
      * rewrite nth_error_app1 in Hj by exact LT. eapply L2; eauto.
      * rewrite nth_error_app2 in Hj by exact GE. destruct (j - length (fires id l))%nat as [|m] eqn:EJ; [|destruct m; discriminate]. injection Hj as <-. assert (Z.of_nat j = k) by (unfold k, nf; lia). rewrite H0 in *.
        rewrite H2 in DUE. cbn [t_when] in DUE. rewrite i64_small in DUE by nia. exact DUE.
    + rewrite app_nil_r, Z.add_0_r. split; assumption.
  - intros j X. rewrite fires_app. cbn [fires flat_map]. rewrite M by exact X. destruct (Z.eqb_spec id j); [lia|reflexivity].
Qed.

(** All states of a run.  [ts]: the timers; in [Dead] those a fired timer was to leave. *)
Record rinv (r : reactor) : Prop := RInv {
  r_inv : exists ts, tinv (r_now r) (r_next r) ts (r_log r) /\ (r_phase r <> Dead -> ts = r_timers r);
  r_pass : forall s rest, r_phase r = Pass s rest -> s <= r_now r /\ NoDup rest /\ forall id, In id rest -> In id (map fst (r_timers r)) }.

Lemma rinv_tinv r : rinv r -> r_phase r <> Dead -> tinv (r_now r) (r_next r) (r_timers r) (r_log r).
Proof. intros [(ts & A & B) _] N. rewrite <- (B N). exact A. Qed.
Lemma free_not_dead p : free p = true -> p <> Dead. Proof. intros H ->. discriminate. Qed.
Lemma free_not_pass p s l : free p = true -> p <> Pass s l. Proof. intros H ->. discriminate. Qed.

Lemma rinv_step a r r' : rinv r -> (forall d n, a = LRegister d n -> 0 <= d < 2 ^ 64 /\ 0 <= n < 2 ^ 64) -> rstep a r = Some r' -> rinv r'.
Proof.
  intros R TY. destruct a; cbn [rstep]; intros H.
  - destruct (Z.leb_spec 0 d); [|discriminate]. injection H as <-. destruct R as [(ts & A & B) C]. split; cbn [tick r_now r_next r_log r_phase r_timers].
    + exists ts. split; [apply tinv_tick; assumption|exact B].
    + intros s rest X. destruct (C s rest X) as (C1 & C2). split; [lia|exact C2].
  - destruct (free (r_phase r)) eqn:F; [|discriminate]. cbn [andb] in H. destruct (_ <? _); [|discriminate]. injection H as <-. pose proof (rinv_tinv r R (free_not_dead _ F)) as T. destruct (TY delay times eq_refl) as (D1 & D2).
    split; cbn [emit r_now r_next r_log r_phase r_timers].
    + eexists. split; [apply tinv_register; [lia|lia|exact T]|reflexivity].
    + intros s rest X. destruct (free_not_pass _ s rest F X).
  - destruct (free (r_phase r)) eqn:F; [|discriminate]. injection H as <-. pose proof (rinv_tinv r R (free_not_dead _ F)) as T. split; cbn [emit with_timers r_now r_next r_log r_phase r_timers].
    + eexists. split; [apply tinv_remove; exact T|reflexivity].
    + intros s rest X. destruct (free_not_pass _ s rest F X).
  - injection H as <-. destruct R as [A C]. split; assumption.
  - injection H as <-. destruct R as [A C]. split; assumption.
  - destruct (r_phase r) eqn:P; try discriminate. assert (T : tinv (r_now r) (r_next r) (r_timers r) (r_log r)) by (apply rinv_tinv; [exact R|congruence]).
    assert (D : rinv (at_phase (Done 0) r)) by (split; cbn [at_phase r_now r_next r_log r_phase r_timers]; [eexists; split; [exact T|reflexivity]|intros; discriminate]).
    destruct (r_term r); [injection H as <-; exact D|].
    assert (X : (if 0 <=? d then Some (at_phase (Poll (Z.max (tickless (r_now r) (r_timers r)) (r_now r + d))) (tick d r)) else None) = Some r' -> rinv r').
    { destruct (Z.leb_spec 0 d); [|discriminate]. intros X. injection X as <-. split; cbn [at_phase tick r_now r_next r_log r_phase r_timers]; [eexists; split; [apply tinv_tick; eassumption|reflexivity]|intros; discriminate]. }
    destruct (r_chans r); [|auto]. destruct (r_timers r); [injection H as <-; exact D|auto].
  - destruct (r_phase r) eqn:P; try discriminate. assert (T : tinv (r_now r) (r_next r) (r_timers r) (r_log r)) by (apply rinv_tinv; [exact R|congruence]).
    destruct (_ <=? _); [|discriminate]. injection H as <-. split; cbn [emit at_phase r_now r_next r_log r_phase r_timers].
    + eexists. split; [apply tinv_pass; exact T|reflexivity].
    + intros s rest X. injection X as <- <-. split; [lia|]. split; [apply T|auto].
  - destruct (r_phase r) eqn:P; try discriminate. assert (T : tinv (r_now r) (r_next r) (r_timers r) (r_log r)) by (apply rinv_tinv; [exact R|congruence]).
    destruct (r_chans r); [discriminate|]. injection H as <-. split; cbn [at_phase r_now r_next r_log r_phase r_timers]; [eexists; split; [exact T|reflexivity]|intros; discriminate].
  - destruct (r_phase r) eqn:P; try discriminate. assert (T : tinv (r_now r) (r_next r) (r_timers r) (r_log r)) by (apply rinv_tinv; [exact R|congruence]).
    injection H as <-. split; cbn [emit at_phase r_now r_next r_log r_phase r_timers].
    + eexists. split; [apply tinv_pass; exact T|reflexivity].
    + intros s rest X. injection X as <- <-. split; [lia|]. split; [apply T|auto].
  - destruct (r_phase r) eqn:P; try discriminate. assert (T : tinv (r_now r) (r_next r) (r_timers r) (r_log r)) by (apply rinv_tinv; [exact R|congruence]).
    injection H as <-. split; cbn [at_phase terminate r_now r_next r_log r_phase r_timers]; [eexists; split; [exact T|reflexivity]|intros; discriminate].
  - destruct (r_phase r) as [| | |s rest| |] eqn:P; try discriminate. assert (T : tinv (r_now r) (r_next r) (r_timers r) (r_log r)) by (apply rinv_tinv; [exact R|congruence]).
    destruct (r_pass _ R _ _ P) as (S1 & S2 & S3). destruct rest as [|id rest]; [discriminate|]. inversion S2 as [|? ? N1 N2]; subst. destruct (tm_get (r_timers r) id) as [tm|] eqn:TG; [|discriminate].
    destruct (Z.leb_spec (t_when tm) (r_now r)) as [DUE|_].
    + pose proof (tinv_fire _ _ _ _ _ _ T TG DUE) as TF. unfold times_left in TF.
      set (l := if _ && _ then tm_del _ _ else _) in *.
      assert (KE : forall j, In j rest -> In j (map fst l)).
      { intros j J. unfold l. destruct (_ && _); [apply tm_del_in; split; [apply S3; right; exact J|intros ->; contradiction]|rewrite tm_set_keys; apply S3; right; exact J]. }
      assert (OK : forall r0, r_now r0 = r_now r -> r_next r0 = r_next r -> r_log r0 = r_log r ++ [EFire id (r_now r)] -> rinv (at_phase (Pass s rest) (with_timers l r0))).
      { intros r0 E1 E2 E3. split; cbn [at_phase with_timers r_now r_next r_log r_phase r_timers]; rewrite ?E1, ?E2, ?E3.
        - exists l. split; [exact TF|reflexivity].
        - intros s' rest' X. injection X as <- <-. auto. }
      destruct a; injection H as <-; try (apply OK; reflexivity).
      split; cbn [at_phase emit r_now r_next r_log r_phase r_timers]; [|intros; discriminate]. exists l. split; [exact TF|congruence].
    + injection H as <-. split; cbn [at_phase r_now r_next r_log r_phase r_timers]; [eexists; split; [exact T|reflexivity]|]. intros s' rest' X. injection X as <- <-. split; [exact S1|]. split; [exact N2|]. intros j J. apply S3. right. exact J.
  - destruct (r_phase r) as [| | |s rest| |] eqn:P; try discriminate. destruct rest; [|discriminate]. injection H as <-. assert (T : tinv (r_now r) (r_next r) (r_timers r) (r_log r)) by (apply rinv_tinv; [exact R|congruence]).
    split; cbn [at_phase r_now r_next r_log r_phase r_timers]; [eexists; split; [exact T|reflexivity]|intros; discriminate].
  - destruct (_ <? _); [|discriminate]. injection H as <-. destruct R as [(ts & A & B) C]. split; cbn [r_now r_next r_log r_phase r_timers]; [|exact C]. exists ts. split; [apply tinv_next, A|exact B].
Qed.

Lemma typed_app a b : typed (a ++ b) -> typed a. Proof. intros H d n X. apply H, in_or_app. auto. Qed.
Lemma run_rinv now ls r : 0 <= now -> typed ls -> rrun now ls r -> rinv r.
Proof.
  intros H0 TY R. induction R as [|ls r a r' R IH S]; [split; [eexists; split; [apply tinv_init, H0|reflexivity]|intros; discriminate]|].
  eapply rinv_step; [apply IH, (typed_app _ _ TY)| |exact S]. intros d n ->. apply TY, in_or_app. right. left. reflexivity.
Qed.

(** Enough turns, enough firings. *)
Definition pending (id T : Z) (p : phase) : Prop := exists s rest, p = Pass s rest /\ In id rest /\ T <= s.
Lemma passes_app t a b : passes t (a ++ b) = (passes t a + passes t b)%nat. Proof. unfold passes. rewrite filter_app, app_length. reflexivity. Qed.

Definition kept (id d n t : Z) (K : nat) (r : reactor) : Prop :=
  forall l1 l2, r_log r = l1 ++ ERegister id d n t :: l2 -> ~ removed id (r_log r) -> r_phase r <> Dead ->
  (K <= length (fires id (r_log r)))%nat \/ (passes (t + Z.of_nat K * d) l2 <= length (fires id (r_log r)))%nat \/
  pending id (t + Z.of_nat K * d) (r_phase r) /\ (passes (t + Z.of_nat K * d) l2 <= S (length (fires id (r_log r))))%nat.

Lemma snoc_split {A} (l : list A) e l1 x l2 : l ++ [e] = l1 ++ x :: l2 -> (l2 = [] /\ e = x) \/ exists l2', l2 = l2' ++ [e] /\ l = l1 ++ x :: l2'.
Proof.
  intros H. destruct (@exists_last _ (x :: l2) ltac:(discriminate)) as (q & z & Q). rewrite Q, app_assoc in H. apply app_inj_tail in H as (H1 & <-). destruct q as [|y q]; cbn in Q; injection Q as <- ->.
  - left. split; reflexivity.
  - right. exists q. split; [reflexivity|exact H1].
Qed.
Lemma removed_app id a b : removed id a -> removed id (a ++ b). Proof. intros H. apply in_or_app. auto. Qed.

Lemma kept_emit id d n t K r e p : kept id d n t K r -> (forall f, e <> EFire id f) -> (forall s, e = EPass s -> s < t + Z.of_nat K * d) ->
  (r_phase r <> Dead) -> (pending id (t + Z.of_nat K * d) (r_phase r) -> pending id (t + Z.of_nat K * d) p) ->
  forall r', r_log r' = r_log r ++ [e] -> r_phase r' = p -> kept id d n t K r'.
Proof.
  intros H NF NP ND PP r' E1 E2 l1 l2 X Y Z. rewrite E1 in *. rewrite E2.
  assert (F0 : fires id [e] = []) by (destruct e as [| |i f|]; cbn; try reflexivity; destruct (Z.eqb_spec i id) as [->|]; [destruct (NF f eq_refl)|reflexivity]).
  assert (F : fires id (r_log r ++ [e]) = fires id (r_log r)) by (rewrite fires_app, F0, app_nil_r; reflexivity). rewrite F.
  apply snoc_split in X as [(-> & _)|(l2' & -> & X)]; [right; left; apply Nat.le_0_l|].
  assert (P0 : passes (t + Z.of_nat K * d) [e] = 0%nat) by (destruct e as [| | |s]; cbn; try reflexivity; destruct (Z.leb_spec (t + Z.of_nat K * d) s); [specialize (NP s eq_refl); lia|reflexivity]).
  rewrite passes_app, P0, Nat.add_0_r. destruct (H l1 l2' X) as [A|[A|(A & B)]]; [intros W; apply Y, removed_app, W|exact ND|auto..].
Qed.
Lemma kept_same id d n t K r r' : kept id d n t K r -> r_log r' = r_log r -> r_phase r <> Dead -> (pending id (t + Z.of_nat K * d) (r_phase r) -> pending id (t + Z.of_nat K * d) (r_phase r')) -> kept id d n t K r'.
Proof.
  intros H E ND PP l1 l2 X Y Z. rewrite E in *. destruct (H l1 l2 X Y ND) as [A|[A|(A & B)]]; auto.
Qed.

(** A turn over the timers starts. *)
Lemma kept_start id d n t K r r' : rinv r -> kept id d n t K r -> n = 0 \/ Z.of_nat K <= n -> r_phase r <> Dead -> (forall s rest, r_phase r <> Pass s rest) ->
  r_log r' = r_log r ++ [EPass (r_now r)] -> r_phase r' = Pass (r_now r) (map fst (r_timers r)) -> kept id d n t K r'.
Proof.
  intros R H KN ND NP E1 E2 l1 l2 X Y Z. rewrite E1 in *. rewrite E2. pose proof (rinv_tinv _ R ND) as T.
  assert (F : fires id (r_log r ++ [EPass (r_now r)]) = fires id (r_log r)) by (rewrite fires_app; apply app_nil_r). rewrite F.
  apply snoc_split in X as [(-> & _)|(l2' & -> & X)]; [right; left; apply Nat.le_0_l|].
  assert (Y' : ~ removed id (r_log r)) by (intros W; apply Y, removed_app, W).
  destruct (H l1 l2' X Y' ND) as [A|[A|((s & rest & A & _) & _)]]; [left; exact A| |destruct (NP _ _ A)].
  destruct (le_lt_dec K (length (fires id (r_log r)))) as [L|L]; [left; exact L|right]. rewrite passes_app.
  assert (PE : passes (t + Z.of_nat K * d) [EPass (r_now r)] = if t + Z.of_nat K * d <=? r_now r then 1%nat else 0%nat) by (unfold passes; cbn [filter]; destruct (_ <=? _); reflexivity). rewrite PE.
  destruct (Z.leb_spec (t + Z.of_nat K * d) (r_now r)) as [D|D]; [right|left; lia]. split; [|lia]. exists (r_now r), (map fst (r_timers r)). repeat split; [|exact D].
  apply (i_there _ _ _ _ T id d n t); [rewrite X; apply in_or_app; right; left; reflexivity|exact Y'|unfold nf; lia].
Qed.

Lemma kept_step id d n t K a r r' : rinv r -> kept id d n t K r -> n = 0 \/ Z.of_nat K <= n -> t + Z.of_nat K * d < 2 ^ 63 -> rstep a r = Some r' -> kept id d n t K r'.
Proof.
  intros R H KN BD S. destruct a; cbn [rstep] in S.
  - destruct (0 <=? d0); [|discriminate]. injection S as <-. exact H.
  - destruct (free (r_phase r)) eqn:F; [|discriminate]. cbn [andb] in S. destruct (_ <? _); [|discriminate]. injection S as <-. apply (kept_emit id d n t K r (ERegister (r_next r) delay times (r_now r)) (r_phase r)); try reflexivity; [exact H|discriminate|discriminate|apply free_not_dead, F|auto].
  - destruct (free (r_phase r)) eqn:F; [|discriminate]. injection S as <-. apply (kept_emit id d n t K r (ERemove id0) (r_phase r)); try reflexivity; [exact H|discriminate|discriminate|apply free_not_dead, F|auto].
  - injection S as <-. exact H.
  - injection S as <-. exact H.
  - destruct (r_phase r) eqn:P; try discriminate.
    assert (C : forall r1, r_log r1 = r_log r -> kept id d n t K r1). { intros r1 E. apply (kept_same _ _ _ _ _ r); [exact H|exact E|congruence|]. rewrite P. intros (s & rest & X & _). discriminate. }
    destruct (r_term r); [injection S as <-; apply C; reflexivity|]. destruct (r_chans r), (r_timers r); try (injection S as <-; apply C; reflexivity); destruct (0 <=? d0); try discriminate; injection S as <-; apply C; reflexivity.
  - destruct (r_phase r) eqn:P; try discriminate. destruct (_ <=? _); [|discriminate]. injection S as <-. apply (kept_start _ _ _ _ _ r); try assumption; try congruence; reflexivity.
  - destruct (r_phase r) eqn:P; try discriminate. destruct (r_chans r); [discriminate|]. injection S as <-. apply (kept_same _ _ _ _ _ r); [exact H|reflexivity|congruence|]. rewrite P. intros (s & rest & X & _). discriminate.
  - destruct (r_phase r) eqn:P; try discriminate. injection S as <-. apply (kept_start _ _ _ _ _ r); try assumption; try congruence; reflexivity.
  - destruct (r_phase r) eqn:P; try discriminate. injection S as <-. apply (kept_same _ _ _ _ _ r); [exact H|reflexivity|congruence|]. rewrite P. intros (s & rest & X & _). discriminate.
  - destruct (r_phase r) as [| | |s rest| |] eqn:P; try discriminate. assert (ND : r_phase r <> Dead) by congruence. pose proof (rinv_tinv r R ND) as T.
    destruct (r_pass _ R _ _ P) as (S1 & S2 & S3). destruct rest as [|j rest]; [discriminate|]. inversion S2 as [|? ? N1 N2]; subst. destruct (tm_get (r_timers r) j) as [tm|] eqn:TG; [|discriminate].
    destruct (Z.leb_spec (t_when tm) (r_now r)) as [DUE|LATE].
    + assert (OK : forall r0, r_log r0 = r_log r ++ [EFire j (r_now r)] -> r_phase r0 = Pass s rest -> kept id d n t K r0).
      { intros r0 E1 E2. destruct (Z.eq_dec j id) as [->|NE].
        - intros l1 l2 X Y Z. rewrite E1 in *. rewrite E2. rewrite fires_app. cbn [fires flat_map]. rewrite Z.eqb_refl, app_nil_r, app_length. cbn [length].
          apply snoc_split in X as [(-> & X)|(l2' & -> & X)]; [discriminate|]. rewrite passes_app. change (passes _ [EFire id (r_now r)]) with 0%nat. rewrite Nat.add_0_r.
          destruct (H l1 l2' X) as [A|[A|(A & B)]]; [intros W; apply Y, removed_app, W|exact ND|left; lia|right; left; lia|right; left; lia].
        - apply (kept_emit id d n t K r (EFire j (r_now r)) (Pass s rest)); try assumption; [congruence|discriminate|]. rewrite P. intros (s' & rest' & X & X1 & X2). injection X as <- <-. exists s, rest. destruct X1 as [X1|X1]; [congruence|auto]. }
      destruct a; injection S as <-; try (apply OK; reflexivity). intros l1 l2 _ _ X. destruct (X eq_refl).
    + injection S as <-. intros l1 l2 X Y Z. cbn [at_phase r_log r_phase] in *. destruct (H l1 l2 X Y ND) as [A|[A|(A & B)]]; [auto|auto|].
      rewrite P in A. destruct A as (s' & rest' & X0 & X1 & X2). injection X0 as <- <-. destruct X1 as [<-|X1]; [|right; right; split; [exists s, rest; auto|exact B]].
      destruct (le_lt_dec K (length (fires j (r_log r)))) as [L|L]; [left; exact L|exfalso].
      assert (RG : In (ERegister j d n t) (r_log r)) by (rewrite X; apply in_or_app; right; left; reflexivity). destruct (i_map _ _ _ _ T _ _ _ _ _ TG RG) as (_ & E). destruct (i_reg _ _ _ _ T _ _ _ _ RG) as (_ & G1 & G2 & _).
      rewrite E in LATE. cbn [t_when] in LATE. unfold nf in LATE. assert (LE : t + (Z.of_nat (length (fires j (r_log r))) + 1) * d <= t + Z.of_nat K * d) by nia. assert (0 <= (Z.of_nat (length (fires j (r_log r))) + 1) * d) by nia. rewrite i64_small in LATE by lia. lia.
  - destruct (r_phase r) as [| | |s rest| |] eqn:P; try discriminate. destruct rest; [|discriminate]. injection S as <-. apply (kept_same _ _ _ _ _ r); [exact H|reflexivity|congruence|]. rewrite P. intros (s' & rest' & X & X1 & _). injection X as <- <-. destruct X1.
  - destruct (_ <? _); [|discriminate]. injection S as <-. exact H.
Qed.

Lemma run_kept now ls r id d n t K : 0 <= now -> typed ls -> rrun now ls r -> n = 0 \/ Z.of_nat K <= n -> t + Z.of_nat K * d < 2 ^ 63 -> kept id d n t K r.
Proof.
  intros H0 TY R KN BD. induction R as [|ls r a r' R IH S]; [intros l1 l2 X; destruct l1; discriminate|].
  eapply kept_step; [eapply run_rinv; [exact H0|exact (typed_app _ _ TY)|exact R]|apply IH, (typed_app _ _ TY)|exact KN|exact BD|exact S].
Qed.

Lemma tickless_le now l id t : In (id, t) l -> tickless now l <= t_when t.
Proof.
  unfold tickless. generalize (now + 1000 * 3600). induction l as [|[i x] l IH]; intros a H; [destruct H|]. cbn [fold_left snd].
  assert (M : forall (l : list (Z * timer)) a, fold_left (fun a e => if t_when (snd e) <? a then t_when (snd e) else a) l a <= a).
  { clear. induction l as [|e l IH]; intros a; cbn [fold_left]; [lia|]. specialize (IH (if t_when (snd e) <? a then t_when (snd e) else a)). destruct (Z.ltb_spec (t_when (snd e)) a); lia. }
  destruct H as [H|H]; [|apply IH, H]. injection H as -> ->. specialize (M l (if t_when t <? a then t_when t else a)). destruct (Z.ltb_spec (t_when t) a); lia.
Qed.
Lemma tickless_max now l : tickless now l <= now + 3600000.
Proof. unfold tickless. change (1000 * 3600) with 3600000. generalize (now + 3600000). induction l as [|e l IH]; intros a; cbn [fold_left]; [lia|]. specialize (IH (if t_when (snd e) <? a then t_when (snd e) else a)). destruct (Z.ltb_spec (t_when (snd e)) a); lia. Qed.
Lemma tm_get_some l id t : tm_get l id = Some t -> In (id, t) l.
Proof. induction l as [|[i x] l IH]; cbn; [discriminate|]. destruct (Z.eqb_spec i id) as [->|]; [intros [= ->]; auto|auto]. Qed.
