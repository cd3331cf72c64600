(** Invariant of the data block pools. *)
From Verif Require Import Base PoolModel.
Local Open Scope N_scope.

Record ginv (g : gl) (held : list N) : Prop := {
  gi_bound : forall i, g_blocks g i <> None <-> i < g_next g;
  gi_nodup : forall k, NoDup (p_free (g_pools g k) ++ p_used (g_pools g k));
  gi_free : forall k, n_free (g_pools g k) = N.of_nat (List.length (p_free (g_pools g k)));
  gi_used : forall k, n_used (g_pools g k) = N.of_nat (List.length (p_used (g_pools g k)));
  gi_total : forall k, n_total (g_pools g k) = n_free (g_pools g k) + n_used (g_pools g k);
  gi_memory : forall k, p_mem (g_pools g k) = (n_total (g_pools g k) * k) mod 2 ^ 64;
  gi_in : forall k i, In i (p_free (g_pools g k) ++ p_used (g_pools g k)) <-> exists b, g_blocks g i = Some b /\ b_size b = k;
  gi_held : forall i, In i held <-> exists k, In i (p_used (g_pools g k));
  gi_hnodup : NoDup held }.

Lemma upd_same {A} (m : N -> A) k v : upd m k v k = v.
Proof. unfold upd. rewrite N.eqb_refl. reflexivity. Qed.
Lemma upd_other {A} (m : N -> A) k v x : x <> k -> upd m k v x = m x.
Proof. unfold upd. intros H. apply N.eqb_neq in H. rewrite H. reflexivity. Qed.

Ltac by_upd k k' := destruct (N.eq_dec k' k) as [->|?]; [rewrite ?(upd_same _ k)|rewrite ?(upd_other _ k _ k') by assumption].

Lemma fresh_out g held k : ginv g held -> ~ In (g_next g) (p_free (g_pools g k) ++ p_used (g_pools g k)).
Proof.
  intros G H. apply (gi_in _ _ G) in H as (b & Hb & _). assert (g_next g < g_next g); [|lia].
  apply (gi_bound _ _ G). congruence.
Qed.

Lemma alloc1_inv g held k : ginv g held -> ginv (alloc1 k k g) held.
Proof.
  intros G. pose proof (fresh_out g held) as Hf. unfold alloc1. constructor; cbn.
  - intros i. by_upd (g_next g) i; [split; [lia|discriminate]|]. rewrite (gi_bound _ _ G). lia.
  - intros k'. by_upd k k'; [|apply G]. cbn. constructor; [apply Hf, G|apply G].
  - intros k'. by_upd k k'; [|apply G]. cbn [n_free p_free List.length]. rewrite (gi_free _ _ G). lia.
  - intros k'. by_upd k k'; apply G.
  - intros k'. by_upd k k'; [|apply G]. cbn. rewrite (gi_total _ _ G). lia.
  - intros k'. by_upd k k'; [|apply G]. cbn -[N.pow N.mul N.modulo]. unfold add64. rewrite (gi_memory _ _ G), N.add_mod_idemp_l by discriminate.
    f_equal. lia.
  - intros k' i. by_upd (g_next g) i.
    + by_upd k k'; cbn.
      * split; [intros _; exists (Block k (g_junk g (g_next g))); auto|auto].
      * split; [intros H; destruct (Hf k' G H)|intros (b & [= <-] & E); cbn in E; congruence].
    + by_upd k k'; cbn; [|apply G]. rewrite <- (gi_in _ _ G). split; [intros [E|E]; [congruence|exact E]|auto].
  - intros i. rewrite (gi_held _ _ G). split; intros (k' & H); exists k'; revert H; by_upd k k'; auto.
  - apply G.
Qed.

Lemma allocate_inv c k : forall g held, ginv g held -> ginv (allocate c k k g) held /\
  n_free (g_pools (allocate c k k g) k) = n_free (g_pools g k) + N.of_nat c /\
  (forall k', p_used (g_pools (allocate c k k g) k') = p_used (g_pools g k')) /\
  (forall i, g_blocks g i <> None -> g_blocks (allocate c k k g) i = g_blocks g i).
Proof.
  induction c as [|c IH]; intros g held G; cbn [allocate]; [split; [exact G|]; split; [lia|auto]|].
  destruct (IH (alloc1 k k g) held (alloc1_inv _ _ _ G)) as (A & B & C & D). split; [exact A|]. split; [|split].
  - rewrite B. cbn. rewrite upd_same. cbn. lia.
  - intros k'. rewrite C. cbn. by_upd k k'; reflexivity.
  - intros i Hi. assert (i < g_next g) by (apply (gi_bound _ _ G), Hi).
    assert (E : g_blocks (alloc1 k k g) i = g_blocks g i) by (cbn; rewrite upd_other by lia; reflexivity).
    rewrite D; [exact E|rewrite E; exact Hi].
Qed.

Lemma mem_of_in i l : mem_of i l = true <-> In i l.
Proof. unfold mem_of. rewrite existsb_exists. split; [intros (x & H & E); apply N.eqb_eq in E; congruence|intros H; exists i; split; [exact H|apply N.eqb_refl]]. Qed.
Lemma put_key_fresh i l : ~ In i l -> put_key i l = i :: l.
Proof. unfold put_key. intros H. destruct (mem_of i l) eqn:E; [apply mem_of_in in E; tauto|reflexivity]. Qed.
Lemma del_key_in i l j : In j (del_key i l) <-> In j l /\ j <> i.
Proof. unfold del_key. rewrite filter_In, negb_true_iff, N.eqb_neq. reflexivity. Qed.
Lemma del_key_length i l : NoDup l -> In i l -> List.length l = S (List.length (del_key i l)).
Proof.
  induction l as [|x l IH]; intros Hn Hi; [destruct Hi|]. inversion Hn; subst. cbn.
  destruct (N.eqb_spec x i) as [->|Hx]; cbn.
  - f_equal. f_equal. clear -H1. induction l as [|y l IH]; cbn; [reflexivity|]. cbn in H1.
    destruct (N.eqb_spec y i); cbn; [tauto|]. f_equal. apply IH. tauto.
  - destruct Hi as [E|Hi]; [congruence|]. rewrite (IH H2 Hi). reflexivity.
Qed.
Lemma del_key_nodup i l : NoDup l -> NoDup (del_key i l).
Proof. apply NoDup_filter. Qed.

Lemma nodup_app_r {A} (a b : list A) : NoDup (a ++ b) -> NoDup b.
Proof. induction a as [|x a IH]; cbn; [auto|]. intros H. inversion H; auto. Qed.
Lemma nodup_app_disj {A} (a b : list A) x : NoDup (a ++ b) -> In x a -> In x b -> False.
Proof.
  induction a as [|y a IH]; cbn; [tauto|]. intros H [->|Ha] Hb; inversion H; subst; [|eauto]. apply H2. apply in_or_app. auto.
Qed.
Lemma nodup_app_intro {A} (a b : list A) : NoDup a -> NoDup b -> (forall x, In x a -> In x b -> False) -> NoDup (a ++ b).
Proof.
  induction a as [|y a IH]; cbn; [auto|]. intros Ha Hb D. inversion Ha; subst. constructor; [|apply IH; eauto].
  rewrite in_app_iff. intros [H|H]; [tauto|eapply D; eauto].
Qed.
Lemma nodup_app_l {A} (a b : list A) : NoDup (a ++ b) -> NoDup a.
Proof. induction a as [|x a IH]; cbn; [constructor|]. intros H. inversion H; subst. constructor; [rewrite in_app_iff in *; tauto|auto]. Qed.

(** A block is in one pool only. *)
Lemma one_pool g held i k k' : ginv g held -> In i (p_used (g_pools g k)) ->
  In i (p_free (g_pools g k') ++ p_used (g_pools g k')) -> k' = k.
Proof.
  intros G H H'. assert (H1 : In i (p_free (g_pools g k) ++ p_used (g_pools g k))) by (apply in_or_app; auto).
  apply (gi_in _ _ G) in H1 as (b & E & S). apply (gi_in _ _ G) in H' as (b' & E' & S'). congruence.
Qed.

Lemma take_inv g held k : ginv g held -> exists g' i b, take k g = (g', Ret (Some i)) /\ ginv g' (i :: held) /\ ~ In i held /\
  g_blocks g' i = Some b /\ b_size b = k /\
  (forall j, g_blocks g j <> None -> g_blocks g' j = g_blocks g j).
Proof.
  intros G. unfold take.
  set (g1 := if n_free (g_pools g k) =? 0 then _ else g).
  assert (G1 : ginv g1 held /\ 0 < n_free (g_pools g1 k) /\ (forall i, g_blocks g i <> None -> g_blocks g1 i = g_blocks g i)).
  { unfold g1. destruct (N.eqb_spec (n_free (g_pools g k)) 0) as [E|E]; [|split; [exact G|split; [lia|auto]]].
    destruct (N.eqb_spec (n_total (g_pools g k)) 0) as [T|T].
    - destruct (allocate_inv 2 k g held G) as (A & B & C & D). split; [exact A|]. split; [rewrite B; lia|exact D].
    - destruct (allocate_inv (N.to_nat (n_total (g_pools g k))) k g held G) as (A & B & C & D). split; [exact A|]. split; [rewrite B; lia|exact D]. }
  clearbody g1. destruct G1 as (G1 & P & K). cbv zeta.
  destruct (N.ltb_spec 0 (n_free (g_pools g1 k))) as [_|]; [|lia].
  destruct (p_free (g_pools g1 k)) as [|i rest] eqn:F. { rewrite (gi_free _ _ G1), F in P. cbn in P. lia. }
  assert (Hi : In i (p_free (g_pools g1 k) ++ p_used (g_pools g1 k))) by (rewrite F; left; reflexivity).
  destruct (proj1 (gi_in _ _ G1 k i) Hi) as (b & Hb & Sb). rewrite Hb, Sb, N.eqb_refl.
  assert (Hu : ~ In i (p_used (g_pools g1 k))).
  { intros H. eapply nodup_app_disj; [apply (gi_nodup _ _ G1 k)| |exact H]. rewrite F. left. reflexivity. }
  assert (Hh : ~ In i held). { rewrite (gi_held _ _ G1). intros (k' & H). assert (k = k') by (eapply one_pool; eassumption). subst. tauto. }
  rewrite (put_key_fresh i (p_used (g_pools g1 k)) Hu).
  eexists _, i, b. split; [reflexivity|]. split; [|split; [exact Hh|split; [exact Hb|split; [exact Sb|exact K]]]].
  assert (Perm : forall j, In j (rest ++ i :: p_used (g_pools g1 k)) <-> In j (p_free (g_pools g1 k) ++ p_used (g_pools g1 k))).
  { intros j. rewrite F. cbn. rewrite !in_app_iff. cbn. tauto. }
  constructor; cbn.
  - apply G1.
  - intros k'. by_upd k k'; [|apply G1]. cbn. pose proof (gi_nodup _ _ G1 k) as N. rewrite F in N. cbn in N. inversion N; subst.
    apply NoDup_Add with (a := i) (l := rest ++ p_used (g_pools g1 (b_size b))); [apply Add_app|]. auto.
  - intros k'. by_upd k k'; [|apply G1]. cbn [n_free p_free]. rewrite (gi_free _ _ G1), F. cbn [List.length]. lia.
  - intros k'. by_upd k k'; [|apply G1]. cbn [n_used p_used List.length]. rewrite (gi_used _ _ G1). lia.
  - intros k'. by_upd k k'; [|apply G1]. cbn. rewrite (gi_total _ _ G1). lia.
  - intros k'. by_upd k k'; apply G1.
  - intros k' j. by_upd k k'; [|apply G1]. cbn [p_free p_used]. rewrite Perm. apply G1.
  - intros j. split.
    + intros [<-|Hj]; [exists k; rewrite upd_same; left; reflexivity|]. apply (gi_held _ _ G1) in Hj as (k' & Hj). exists k'.
      by_upd k k'; [right|]; exact Hj.
    + intros (k' & Hj). destruct (N.eq_dec k' k) as [->|Hk].
      * rewrite upd_same in Hj. cbn in Hj. destruct Hj as [Hj|Hj]; [left; exact Hj|right; apply (gi_held _ _ G1); eauto].
      * rewrite upd_other in Hj by exact Hk. right. apply (gi_held _ _ G1). eauto.
  - constructor; [exact Hh|apply G1].
Qed.

Lemma release_inv g held i : ginv g held -> In i held -> exists g', release i g = (g', Ret tt) /\ ginv g' (del_key i held) /\
  (forall j, g_blocks g' j = g_blocks g j) /\ g_next g' = g_next g.
Proof.
  intros G Hi. pose proof (proj1 (gi_held _ _ G i) Hi) as (k & Hu).
  assert (Hin : In i (p_free (g_pools g k) ++ p_used (g_pools g k))) by (apply in_or_app; auto).
  destruct (proj1 (gi_in _ _ G k i) Hin) as (b & Hb & Sb). unfold release. rewrite Hb, Sb.
  eexists. split; [reflexivity|]. split; [|auto].
  assert (Hf : ~ In i (p_free (g_pools g k))) by (intros H; eapply nodup_app_disj; [apply (gi_nodup _ _ G k)|exact H|exact Hu]).
  pose proof (nodup_app_r _ _ (gi_nodup _ _ G k)) as Nu. pose proof (nodup_app_l _ _ (gi_nodup _ _ G k)) as Nf.
  pose proof (del_key_length _ _ Nu Hu) as Lu.
  constructor; cbn.
  - apply G.
  - intros k'. by_upd k k'; [|apply G]. cbn. constructor.
    + rewrite in_app_iff, del_key_in. tauto.
    + apply nodup_app_intro; [exact Nf|apply del_key_nodup, Nu|]. intros x Hx Hd. apply del_key_in in Hd as (Hd & _).
      eapply nodup_app_disj; [apply (gi_nodup _ _ G k)|exact Hx|exact Hd].
  - intros k'. by_upd k k'; [|apply G]. cbn [n_free p_free List.length]. rewrite (gi_free _ _ G). lia.
  - intros k'. by_upd k k'; [|apply G]. cbn [n_used p_used]. unfold dec64. rewrite (gi_used _ _ G), Lu.
    destruct (N.eqb_spec (N.of_nat (S (List.length (del_key i (p_used (g_pools g k)))))) 0); lia.
  - intros k'. by_upd k k'; [|apply G]. cbn. unfold dec64. rewrite (gi_total _ _ G), (gi_used _ _ G), Lu.
    destruct (N.eqb_spec (N.of_nat (S (List.length (del_key i (p_used (g_pools g k)))))) 0); lia.
  - intros k'. by_upd k k'; apply G.
  - intros k' j. by_upd k k'; [|apply G]. cbn [p_free p_used]. rewrite <- (gi_in _ _ G). cbn. rewrite !in_app_iff, del_key_in.
    destruct (N.eq_dec j i) as [->|]; [tauto|]. intuition congruence.
  - intros j. rewrite del_key_in, (gi_held _ _ G). split.
    + intros ((k' & Hj) & Hne). exists k'. by_upd k k'; [cbn; rewrite del_key_in; auto|exact Hj].
    + intros (k' & Hj). destruct (N.eq_dec k' k) as [->|Hk].
      * rewrite upd_same in Hj. cbn in Hj. apply del_key_in in Hj as (Hj & Hne). split; [eauto|exact Hne].
      * rewrite upd_other in Hj by exact Hk. split; [eauto|]. intros ->. apply Hk. eapply one_pool; [exact G|exact Hu|apply in_or_app; auto].
  - apply del_key_nodup, G.
Qed.

Lemma set_block_inv g held i b b' : ginv g held -> g_blocks g i = Some b -> b_size b' = b_size b -> ginv (set_block i b' g) held.
Proof.
  intros G Hb Sb. constructor; cbn; try apply G.
  - intros j. by_upd i j; [|apply G]. rewrite <- (gi_bound _ _ G). split; [congruence|discriminate].
  - intros k j. by_upd i j; [|apply G]. rewrite (gi_in _ _ G). split; intros (x & Hx & Sx).
    + exists b'. split; [reflexivity|congruence].
    + exists b. split; [exact Hb|congruence].
Qed.

Lemma init_inv junk : ginv (gl_init junk) [].
Proof.
  constructor; cbn.
  - intros i. split; [congruence|lia].
  - intros k. constructor.
  - reflexivity.
  - reflexivity.
  - reflexivity.
  - reflexivity.
  - intros k i. split; [intros []|intros (b & H & _); discriminate].
  - intros i. split; [intros []|intros (_ & [])].
  - constructor.
Qed.
