(** Frames through connected plugins: what is on the way. *)
From Verif Require Import Base QueueModel PipeModel PipeSpec PipeProofs.

Lemma place_spec {C} : forall (o : list (out C)) r n h n1 h1 l, place r n h o = (n1, h1, l) -> r < n ->
  n <= n1 /\ (forall x, x < n -> h1 x = h x) /\ map (fun p => (h1 (fst p), snd p)) l = map (shown (h r)) o /\ (forall x, In x (map fst l) -> x = r \/ n <= x < n1) /\
  count_occ Nat.eq_dec (map fst l) r = sames o /\ forall x, n <= x -> count_occ Nat.eq_dec (map fst l) x <= 1.
Proof.
  induction o as [|(w & to) o IH]; cbn [place]; intros r n h n1 h1 l E R.
  - injection E as <- <- <-. repeat split; cbn; try lia; intros; contradiction.
  - destruct w as [|i].
    + destruct (place r n h o) as ((n2 & h2) & l2) eqn:P. injection E as <- <- <-. destruct (IH _ _ _ _ _ _ P R) as (A & B & D & F & G & H). split; [exact A|]. split; [exact B|]. split; [cbn; unfold shown at 1; cbn; rewrite (B r R), D; reflexivity|].
      split; [cbn; intros x [<-|I]; [left; reflexivity|apply F, I]|]. split; [cbn [map fst count_occ]; destruct (Nat.eq_dec r r); [|contradiction]; unfold sames; cbn [filter o_what length]; fold (sames o); rewrite G; reflexivity|].
      intros x X. cbn [map fst count_occ]. destruct (Nat.eq_dec r x); [lia|apply H, X].
    + destruct (place r (S n) (on h n i) o) as ((n2 & h2) & l2) eqn:P. injection E as <- <- <-. destruct (IH _ _ _ _ _ _ P ltac:(lia)) as (A & B & D & F & G & H). split; [lia|]. split; [intros x X; rewrite B by lia; apply on_other; lia|].
      split; [cbn [map fst snd]; rewrite D, B by lia; rewrite on_same, on_other by lia; reflexivity|].
      split; [cbn; intros x [<-|I]; [right; lia|destruct (F x I); [left; assumption|right; lia]]|]. split; [cbn [map fst count_occ]; destruct (Nat.eq_dec n r); [lia|]; unfold sames; cbn [filter o_what length]; fold (sames o); exact G|].
      intros x X. cbn [map fst count_occ]. destruct (Nat.eq_dec n x) as [->|N]; [|apply H; lia]. assert (Z : count_occ Nat.eq_dec (map fst l2) x = 0); [|lia]. apply count_occ_not_In. intros I. destruct (F x I); lia.
Qed.
Lemma thread_dec (a b : option nat) : a = b \/ a <> b.
Proof. destruct (teq a b) eqn:E; [left; apply teq_spec, E|right; intros ->; rewrite (proj2 (teq_spec b b) eq_refl) in E; discriminate]. Qed.
Lemma count_filter (l : list (nat * option nat)) (f : nat * option nat -> bool) x : count_occ Nat.eq_dec (map fst (filter f l)) x <= count_occ Nat.eq_dec (map fst l) x.
Proof. induction l as [|p l IH]; [cbn; lia|]. cbn [filter]. destruct (f p); cbn [map count_occ]; destruct (Nat.eq_dec (fst p) x); lia. Qed.
Lemma for_k_app {C} k (a b : list (item C * option nat)) : for_k k (a ++ b) = for_k k a ++ for_k k b.
Proof. unfold for_k. rewrite filter_app, map_app. reflexivity. Qed.

Section Net.
Context {S C : Type} (nt : net S C) (T : tree nt) (frames : list (item C)).
Notation deep := (deep nt). Notation kids := (kids nt).
Lemma after_snoc m i : forall l s, after nt m s (l ++ [i]) = fst (alone nt m (after nt m s l) i).
Proof. induction l as [|x l IH]; intros s; [reflexivity|]. cbn. apply IH. Qed.
Lemma makes_snoc m i : forall l s, makes nt m s (l ++ [i]) = makes nt m s l ++ snd (alone nt m (after nt m s l) i).
Proof. induction l as [|x l IH]; intros s; [cbn; apply app_nil_r|]. cbn. rewrite IH, app_assoc. reflexivity. Qed.
Lemma makes_app m b : forall a s, makes nt m s (a ++ b) = makes nt m s a ++ makes nt m (after nt m s a) b.
Proof. induction a as [|x a IH]; intros s; [reflexivity|]. cbn. rewrite IH, app_assoc. reflexivity. Qed.
Lemma callback_alone m s i s1 i1 o : callback nt m s i = (s1, i1, o) -> fst (alone nt m s i) = s1 /\ snd (alone nt m s i) = map (shown i1) o.
Proof.
  destruct i as [c|]; unfold callback, alone.
  - destruct (p_process nt m s c) as ((s2 & c2) & o2). intros E. injection E as <- <- <-. split; reflexivity.
  - destruct (p_finish nt m s) as (s2 & o2). intros E. injection E as <- <- <-. split; [reflexivity|]. cbn [snd]. rewrite map_app, map_map. cbn. f_equal. induction o2 as [|(a & b) o2 IH]; [reflexivity|]. cbn. rewrite <- IH. reflexivity.
Qed.

(** Where the frames of a plugin come from: the thread *)
Definition fed (m : nat) (t : option nat) : Prop := (In m (p_roots nt) /\ t = None) \/ exists p d h, In m (kids p) /\ deep p d h /\ t = Some h.
Lemma fed_fun m t t' : fed m t -> fed m t' -> t = t'.
Proof.
  destruct T as (_ & _ & R & U). intros [(A & ->)|(p & d & h & I & D & ->)] [(A' & ->)|(p' & d' & h' & I' & D' & ->)]; [reflexivity|destruct (R _ _ I' A)|destruct (R _ _ I A')|].
  rewrite (U _ _ _ I I') in D. destruct (deep_fun nt T _ _ _ D _ _ D') as (_ & ->). reflexivity.
Qed.
Lemma fed_other m t : fed m t -> t <> Some m.
Proof. intros [(A & ->)|(p & d & h & I & D & ->)]; [discriminate|]. intros E. injection E as ->. apply (kid_not_host nt T _ _ _ _ D I eq_refl). Qed.
(** All that is on the way to a plugin, first first *)
Definition pend (z : pipe S C) (m : nat) (t : option nat) : list nat := refs_to m (thr z (Some m)) ++ q z m ++ refs_to m (thr z t).

(** What a step does to it *)
Lemma refs_where z m t u : threads nt z -> fed m t -> u <> Some m -> u <> t -> refs_to m (thr z u) = [].
Proof.
  intros TH F N1 N2. destruct (refs_to m (thr z u)) as [|r l] eqn:E; [reflexivity|]. exfalso. destruct u as [h|].
  - assert (NE : thr z (Some h) <> []) by (intros Z; rewrite Z in E; discriminate). destruct (th_worker _ _ TH h NE) as ((d & D) & [(r0 & W)|(cur & W)]).
    + rewrite W in E. cbn in E. destruct (Nat.eqb_spec h m) as [->|]; [contradiction|discriminate].
    + destruct (inside_deep nt _ _ _ W _ D) as (d1 & D1). destruct (refs_depth nt T _ _ _ W d1 m r D1) as (p & dp & I & D2 & _); [rewrite E; left; reflexivity|]. apply N2. apply (fed_fun m (Some h) t); [|exact F]. right. exists p, dp, h. split; [exact I|]. split; [exact D2|reflexivity].
  - assert (I : In r (refs_to m (thr z None))) by (rewrite E; left; reflexivity). unfold refs_to in I. apply in_flat_map in I as (a & I & J). destruct (th_main _ _ TH a I) as (x & r1 & -> & R). destruct (Nat.eqb_spec x m) as [->|]; [|destruct J]. apply N2. apply (fed_fun m None t); [left; split; [exact R|reflexivity]|exact F].
Qed.
Lemma pend_take z m r k x t : thr z (Some m) = [] -> q z m = r :: k -> threads nt z -> fed x t ->
  pend (Pipe (st z) (log z) (on (q z) m k) (heap z) (next z) (to_thread (thr z) (Some m) [Call m r])) x t = pend z x t.
Proof.
  intros E1 E2 TH F. unfold pend. cbn [thr q]. destruct (Nat.eq_dec x m) as [->|N].
  - rewrite to_same, on_same, E1, E2. rewrite to_other by (apply fed_other, F). cbn. rewrite Nat.eqb_refl. reflexivity.
  - rewrite (to_other (thr z) _ _ (Some x)) by congruence. rewrite on_other by exact N. do 2 f_equal. unfold to_thread. destruct (teq t (Some m)) eqn:E; [|reflexivity]. apply teq_spec in E as ->. rewrite E1. cbn. destruct (Nat.eqb_spec m x); [congruence|reflexivity].
Qed.
Lemma pend_add z u m r k x t : thr z u = Add m r :: k -> threads nt z -> fed x t ->
  pend (Pipe (st z) (log z) (on (q z) m (q z m ++ [r])) (heap z) (next z) (to_thread (thr z) u k)) x t = pend z x t.
Proof.
  intros E TH F. unfold pend. cbn [thr q]. destruct (Nat.eq_dec x m) as [->|N].
  - assert (u = t) as ->.
    { destruct (thread_dec u t) as [->|NE]; [reflexivity|]. exfalso.
      assert (u <> Some m).
      { intros ->. destruct (th_worker _ _ TH m) as ((d & D) & W); [rewrite E; discriminate|]. rewrite E in W. destruct W as [(r0 & W)|(cur & W)]; [discriminate|]. inversion W as [| | |n m0 r0 k0 I W1]; subst. destruct (inside_deep nt _ _ _ W1 _ D) as (d1 & D1). apply (kid_not_host nt T _ _ _ _ D1 (kid_queued nt _ _ I) eq_refl). }
      pose proof (refs_where z m t u TH F H NE) as Z. rewrite E in Z. cbn in Z. rewrite Nat.eqb_refl in Z. discriminate. }
    rewrite to_other by (pose proof (fed_other m t F); congruence). rewrite on_same, to_same, E. cbn. rewrite Nat.eqb_refl, <- app_assoc. reflexivity.
  - rewrite on_other by exact N. assert (R : forall v, refs_to x (to_thread (thr z) u k v) = refs_to x (thr z v)).
    { intros v. unfold to_thread. destruct (teq v u) eqn:EV; [|reflexivity]. apply teq_spec in EV as ->. rewrite E. cbn. destruct (Nat.eqb_spec m x); [congruence|reflexivity]. }
    rewrite !R. reflexivity.
Qed.
Lemma pend_ret z u m k x t : thr z u = Ret m :: k -> pend (Pipe (st z) (log z) (q z) (heap z) (next z) (to_thread (thr z) u k)) x t = pend z x t.
Proof.
  intros E. unfold pend. cbn [thr q]. assert (R : forall v, refs_to x (to_thread (thr z) u k v) = refs_to x (thr z v)); [|rewrite !R; reflexivity].
  intros v. unfold to_thread. destruct (teq v u) eqn:EV; [|reflexivity]. apply teq_spec in EV as ->. rewrite E. reflexivity.
Qed.
(** In a call: the plugin, the plugins that come after it, and the others *)
Lemma called z h m r k : thr z (Some h) = Call m r :: k -> threads nt z ->
  (exists d, deep m d h) /\ (m <> h -> thr z (Some m) = [] /\ q z m = []) /\ (m = h -> k = []) /\ (forall x, In x (kids m) -> refs_to x k = []) /\ (m <> h -> fed m (Some h)).
Proof.
  intros E TH. destruct (th_worker _ _ TH h) as ((d & D) & W); [rewrite E; discriminate|]. rewrite E in W. destruct W as [(r0 & W)|(cur & W)].
  - injection W as -> _ ->. split; [exists d; exact D|]. split; [intros N; contradiction|]. split; [reflexivity|]. split; [reflexivity|contradiction].
  - inversion W as [| |n m0 r0 k0 I W1|]; subst. destruct (inside_deep nt _ _ _ W1 _ D) as (d1 & D1). pose proof (kid_not_host nt T _ _ _ _ D1 (kid_blocking nt _ _ I)) as NH. assert (D2 : deep m (1 + d1) h) by (eapply d_blocking; eassumption).
    split; [exists (1 + d1); exact D2|]. assert (NO : forall d', ~ deep m d' m) by (intros d' D'; destruct (deep_fun nt T _ _ _ D' _ _ D2) as (_ & E'); contradiction).
    split; [intros _; split|].
    + destruct (thr z (Some m)) as [|a l] eqn:EM; [reflexivity|]. destruct (th_worker _ _ TH m) as ((d' & D') & _); [rewrite EM; discriminate|]. destruct (NO _ D').
    + destruct (q z m) as [|a l] eqn:EM; [reflexivity|]. destruct (th_queue _ _ TH m) as (d' & D'); [rewrite EM; discriminate|]. destruct (NO _ D').
    + split; [intros ->; contradiction|]. split; [|intros _; right; exists cur, d1, h; split; [apply kid_blocking, I|split; [exact D1|reflexivity]]].
      intros x IX. destruct (refs_to x k) as [|r1 l] eqn:ER; [reflexivity|]. exfalso. destruct (refs_depth nt T _ _ _ W1 d1 x r1 D1) as (p & dp & IP & DP & L); [rewrite ER; left; reflexivity|]. destruct T as (_ & _ & _ & U). rewrite (U _ _ _ IP IX) in DP. destruct (deep_fun nt T _ _ _ DP _ _ D2) as (E' & _). lia.
Qed.
Section Call.
Context (z : pipe S C) (h m r : nat) (k : list act) (s1 : S) (i1 : item C) (o : list (out C)) (n1 : nat) (h1 : nat -> item C) (l : list (nat * option nat)).
Context (E : thr z (Some h) = Call m r :: k) (TH : threads nt z).
Let z' := Pipe (on (st z) m s1) (on (log z) m (log z m ++ [heap z r])) (q z) h1 n1 (to_thread (thr z) (Some h) (flat_map (pushed nt m) l ++ Ret m :: k)).
Lemma call_self t : fed m t -> pend z m t = r :: pend z' m t.
Proof.
  intros F. destruct (called _ _ _ _ _ E TH) as ((d & D) & A & B & _ & G). unfold pend, z'. cbn [thr q].
  assert (NS : ~ In m (kids m)) by (intros I; apply (kid_not_self nt T _ _ _ _ D I eq_refl)).
  destruct (Nat.eq_dec m h) as [->|N].
  - rewrite E, (B eq_refl), to_same. rewrite (to_other _ _ _ t) by (apply fed_other, F). rewrite refs_app, (refs_pushed_none nt h h l NS). cbn. rewrite Nat.eqb_refl. reflexivity.
  - destruct (A N) as (A1 & A2). assert (t = Some h) as -> by (eapply fed_fun; [exact F|apply G, N]). rewrite A2, E, to_same. rewrite (to_other _ _ _ (Some m)) by congruence. rewrite A1, refs_app, (refs_pushed_none nt m m l NS). cbn. rewrite Nat.eqb_refl. reflexivity.
Qed.
Lemma call_kid x : In x (kids m) -> fed x (Some h) /\ pend z' x (Some h) = pend z x (Some h) ++ refs_to x (flat_map (pushed nt m) l).
Proof.
  intros I. destruct (called _ _ _ _ _ E TH) as ((d & D) & _ & _ & B & _). pose proof (kid_not_host nt T _ _ _ _ D I) as NH. split; [right; exists m, d, h; split; [exact I|split; [exact D|reflexivity]]|].
  unfold pend, z'. cbn [thr q]. rewrite to_same. rewrite (to_other _ _ _ (Some x)) by congruence. rewrite refs_app. cbn [refs_to flat_map]. fold (refs_to x k). rewrite (B x I), app_nil_r, E. cbn. fold (refs_to x k). rewrite (B x I). destruct (Nat.eqb_spec m x) as [->|]; [destruct (kid_not_self nt T _ _ _ _ D I eq_refl)|]. cbn. rewrite app_nil_r, <- app_assoc. reflexivity.
Qed.
Lemma call_other x t : x <> m -> ~ In x (kids m) -> pend z' x t = pend z x t.
Proof.
  intros N1 N2. unfold pend, z'. cbn [thr q]. assert (R : forall v, refs_to x (to_thread (thr z) (Some h) (flat_map (pushed nt m) l ++ Ret m :: k) v) = refs_to x (thr z v)); [|rewrite !R; reflexivity].
  intros v. unfold to_thread. destruct (teq v (Some h)) eqn:EV; [|reflexivity]. apply teq_spec in EV as ->. rewrite refs_app, (refs_pushed_none nt m x l N2), E. cbn. destruct (Nat.eqb_spec m x); [congruence|reflexivity].
Qed.
End Call.
End Net.
