(** Conservation of blocks, and frames as values. *)
From Coq Require Import Permutation.
From Verif Require Import Base PoolModel PoolSpec PoolProofs.
Local Open Scope N_scope.

Lemma copy_inv g held i src n b : ginv g held -> g_blocks g i = Some b -> exists g' b', copy_data i src n g = (g', Ret tt) /\ ginv g' held /\
  g_blocks g' i = Some b' /\ b_size b' = b_size b /\ (forall o, o < n -> n <= b_size b -> b_mem b' o = src o) /\
  (forall j, j <> i -> g_blocks g' j = g_blocks g j).
Proof.
  intros G Hb. unfold copy_data. rewrite Hb. eexists _, _. split; [reflexivity|].
  split; [eapply set_block_inv; [exact G|exact Hb|reflexivity]|]. cbn. rewrite upd_same. split; [reflexivity|]. split; [reflexivity|].
  split; [|intros j Hj; rewrite upd_other by exact Hj; reflexivity]. cbn. intros o Ho Hn.
  destruct (N.ltb_spec (b_size b) n); [lia|]. destruct (N.ltb_spec o n); [reflexivity|lia].
Qed.

Lemma history_inv junk g held : history junk g held -> ginv g held.
Proof.
  induction 1 as [|g held c k H IH|g held k g' i H IH E|g held i g' r H IH Hi E|g held i src n g' r H IH Hi E].
  - apply init_inv.
  - apply allocate_inv, IH.
  - destruct (take_inv g held k IH) as (g2 & i2 & b & E2 & G & _). rewrite E in E2. injection E2 as -> ->. exact G.
  - destruct (release_inv g held i IH Hi) as (g2 & E2 & G & _). rewrite E in E2. injection E2 as -> ->. exact G.
  - destruct (proj1 (gi_held _ _ IH i) Hi) as (k & Hu). destruct (proj1 (gi_in _ _ IH k i)) as (b & Hb & _); [apply in_or_app; auto|].
    destruct (copy_inv g held i src n b IH Hb) as (g2 & b' & E2 & G & _). rewrite E in E2. injection E2 as -> ->. exact G.
Qed.

Lemma all_blocks_in g i : In i (all_blocks g) <-> i < g_next g.
Proof.
  unfold all_blocks. rewrite in_map_iff. split.
  - intros (n & <- & H). apply in_seq in H. lia.
  - intros H. exists (N.to_nat i). split; [apply N2Nat.id|]. apply in_seq. lia.
Qed.
Lemma all_blocks_nodup g : NoDup (all_blocks g).
Proof. unfold all_blocks. apply FinFun.Injective_map_NoDup; [intros a b H; lia|apply seq_NoDup]. Qed.

Lemma length_same (a b : list N) : NoDup a -> NoDup b -> (forall x, In x a <-> In x b) -> List.length a = List.length b.
Proof. intros. apply Permutation_length, NoDup_Permutation; assumption. Qed.

Lemma conserved junk g held : history junk g held -> forall k, let p := g_pools g k in
  n_total p = n_free p + n_used p /\
  n_total p = N.of_nat (List.length (filter (size_is g k) (all_blocks g))) /\
  n_used p = N.of_nat (List.length (filter (size_is g k) held)) /\
  p_mem p = (k * N.of_nat (List.length (filter (size_is g k) (all_blocks g)))) mod 2 ^ 64 /\
  Permutation (p_free p ++ filter (size_is g k) held) (filter (size_is g k) (all_blocks g)).
Proof.
  intros H k p. apply history_inv in H. unfold p. clear p.
  assert (I1 : forall i, In i (p_free (g_pools g k) ++ p_used (g_pools g k)) <-> In i (filter (size_is g k) (all_blocks g))).
  { intros i. rewrite (gi_in _ _ H), filter_In, all_blocks_in, <- (gi_bound _ _ H). unfold size_is. split.
    - intros (b & -> & <-). split; [discriminate|apply N.eqb_refl].
    - intros (_ & E). destruct (g_blocks g i) as [b|]; [|discriminate]. apply N.eqb_eq in E. eauto. }
  assert (I2 : forall i, In i (p_used (g_pools g k)) <-> In i (filter (size_is g k) held)).
  { intros i. rewrite filter_In, (gi_held _ _ H). unfold size_is. split.
    - intros Hi. destruct (proj1 (gi_in _ _ H k i)) as (b & -> & <-); [apply in_or_app; auto|]. rewrite N.eqb_refl. eauto.
    - intros ((k' & Hi) & E). destruct (proj1 (gi_in _ _ H k' i)) as (b & Eb & Sb); [apply in_or_app; auto|].
      rewrite Eb in E. apply N.eqb_eq in E. rewrite E in Sb. subst k'. exact Hi. }
  pose proof (nodup_app_r _ _ (gi_nodup _ _ H k)) as Nu.
  assert (Nh : NoDup (filter (size_is g k) held)) by (apply NoDup_filter, H).
  assert (Na : NoDup (filter (size_is g k) (all_blocks g))) by (apply NoDup_filter, all_blocks_nodup).
  pose proof (length_same _ _ (gi_nodup _ _ H k) Na I1) as L1. pose proof (length_same _ _ Nu Nh I2) as L2.
  rewrite app_length in L1.
  assert (T : n_total (g_pools g k) = N.of_nat (List.length (filter (size_is g k) (all_blocks g)))).
  { rewrite (gi_total _ _ H), (gi_free _ _ H), (gi_used _ _ H). lia. }
  split; [apply H|]. split; [exact T|]. split; [rewrite (gi_used _ _ H), L2; reflexivity|].
  split; [rewrite (gi_memory _ _ H), T, N.mul_comm; reflexivity|].
  apply NoDup_Permutation; [|exact Na|].
  - apply nodup_app_intro; [eapply nodup_app_l, (gi_nodup _ _ H)|exact Nh|]. intros x Hx Hy. apply I2 in Hy.
    eapply nodup_app_disj; [apply (gi_nodup _ _ H k)|exact Hx|exact Hy].
  - intros i. rewrite <- I1, !in_app_iff, I2. reflexivity.
Qed.

Lemma take_fresh junk g held k : history junk g held -> exists g' i, take k g = (g', Ret (Some i)) /\ ~ In i held /\ size_is g' k i = true.
Proof.
  intros H. apply history_inv in H. destruct (take_inv g held k H) as (g' & i & b & E & _ & N & B & S & _).
  exists g', i. split; [exact E|]. split; [exact N|]. unfold size_is. rewrite B. apply N.eqb_eq, S.
Qed.

(** ** Frames *)
Definition owners (m : mach) (held : list N) : Prop :=
  (forall i, In i held <-> exists f x, m_frames m f = Some x /\ d_block x = i) /\
  (forall f f' x x', m_frames m f = Some x -> m_frames m f' = Some x' -> d_block x = d_block x' -> f = f').
Definition sizes (v : vals) (sz : N -> option N) : Prop := forall f, sz f = option_map fst (v f).
Definition rel (m : mach) (held : list N) (v : vals) : Prop := ginv (m_gl m) held /\ owners m held /\ shows m v.

Lemma shows_live m v f size c : shows m v -> v f = Some (size, c) -> exists x b, m_frames m f = Some x /\ d_size x = size /\
  g_blocks (m_gl m) (d_block x) = Some b /\ size <= b_size b /\ forall o, o < size -> b_mem b o = c o.
Proof. intros S H. specialize (S f). rewrite H in S. destruct (m_frames m f) as [x|]; [|destruct S]. destruct S as (S & b & B). exists x, b. auto. Qed.
Lemma shows_none m v f : shows m v -> v f = None -> m_frames m f = None.
Proof. intros S H. specialize (S f). rewrite H in S. destruct (m_frames m f); [destruct S|reflexivity]. Qed.

(** The values of other frames survive if their blocks do. *)
Lemma shows_upd m v f g' x b size c :
  shows m v ->
  (forall f' x', f' <> f -> m_frames m f' = Some x' -> g_blocks g' (d_block x') = g_blocks (m_gl m) (d_block x')) ->
  g_blocks g' (d_block x) = Some b -> d_size x = size -> size <= b_size b -> (forall o, o < size -> b_mem b o = c o) ->
  shows (Mach g' (upd (m_frames m) f (Some x))) (upd v f (Some (size, c))).
Proof.
  intros S K B D L M f'. cbn. destruct (N.eq_dec f' f) as [->|Hf]; [rewrite !upd_same; split; [exact D|]; exists b; auto|].
  rewrite !upd_other by exact Hf. specialize (S f'). specialize (K f').
  destruct (m_frames m f') as [x'|]; [|exact S]. destruct (v f') as [[s' c']|]; [|exact S].
  rewrite (K x' Hf eq_refl). exact S.
Qed.

Lemma owned_block m held v f x : rel m held v -> m_frames m f = Some x -> In (d_block x) held /\ g_blocks (m_gl m) (d_block x) <> None.
Proof.
  intros (G & (O1 & _) & _) E. assert (H : In (d_block x) held) by (apply O1; eauto). split; [exact H|].
  apply (gi_held _ _ G) in H as (k & H). destruct (proj1 (gi_in _ _ G k (d_block x))) as (b & -> & _); [apply in_or_app; auto|discriminate].
Qed.

(** A new block for frame [f], which had none. *)
Lemma owners_new m held f i x : owners m held -> m_frames m f = None -> ~ In i held -> d_block x = i ->
  forall g, owners (Mach g (upd (m_frames m) f (Some x))) (i :: held).
Proof.
  intros (O1 & O2) E Hi D g. split; cbn.
  - intros j. split.
    + intros [<-|Hj]; [exists f, x; rewrite upd_same; auto|]. apply O1 in Hj as (f' & x' & E' & D').
      exists f', x'. rewrite upd_other by congruence. auto.
    + intros (f' & x' & E' & D'). destruct (N.eq_dec f' f) as [->|Hf]; [rewrite upd_same in E'; injection E' as <-; left; congruence|].
      rewrite upd_other in E' by exact Hf. right. apply O1. eauto.
  - intros f1 f2 x1 x2 E1 E2 D'. destruct (N.eq_dec f1 f) as [->|H1], (N.eq_dec f2 f) as [->|H2]; auto;
      rewrite ?upd_same, ?upd_other in * by assumption; try (injection E1 as <-); try (injection E2 as <-).
    + destruct Hi. apply O1. exists f2, x2. split; [exact E2|congruence].
    + destruct Hi. apply O1. exists f1, x1. split; [exact E1|congruence].
    + eapply O2; eassumption.
Qed.
Lemma owners_del m held f x : owners m held -> m_frames m f = Some x ->
  forall g, owners (Mach g (upd (m_frames m) f None)) (del_key (d_block x) held).
Proof.
  intros (O1 & O2) E g. split; cbn.
  - intros j. rewrite del_key_in, O1. split.
    + intros ((f' & x' & E' & D') & Hj). exists f', x'. rewrite upd_other; [auto|]. intros ->. congruence.
    + intros (f' & x' & E' & D'). destruct (N.eq_dec f' f) as [->|Hf]; [rewrite upd_same in E'; discriminate|].
      rewrite upd_other in E' by exact Hf. split; [eauto|]. intros ->. apply Hf. eapply O2; [exact E'|exact E|congruence].
  - intros f1 f2 x1 x2 E1 E2 D'. destruct (N.eq_dec f1 f) as [->|H1]; [rewrite upd_same in E1; discriminate|].
    destruct (N.eq_dec f2 f) as [->|H2]; [rewrite upd_same in E2; discriminate|]. rewrite upd_other in * by assumption. eauto.
Qed.
Lemma owners_same m held f x y : owners m held -> m_frames m f = Some x -> d_block y = d_block x ->
  forall g, owners (Mach g (upd (m_frames m) f (Some y))) held.
Proof.
  intros (O1 & O2) E D g. split; cbn.
  - intros j. rewrite O1. split; intros (f' & x' & E' & D').
    + destruct (N.eq_dec f' f) as [->|Hf]; [exists f, y; rewrite upd_same; split; [reflexivity|congruence]|exists f', x'; rewrite upd_other by exact Hf; auto].
    + destruct (N.eq_dec f' f) as [->|Hf]; [rewrite upd_same in E'; injection E' as <-; exists f, x; split; [exact E|congruence]|rewrite upd_other in E' by exact Hf; eauto].
  - intros f1 f2 x1 x2 E1 E2 D'.
    destruct (N.eq_dec f1 f) as [->|H1], (N.eq_dec f2 f) as [->|H2]; auto;
      rewrite ?upd_same, ?upd_other in * by assumption; try (injection E1 as <-); try (injection E2 as <-).
    + eapply O2; [exact E|exact E2|congruence].
    + eapply O2; [exact E1|exact E|congruence].
    + eauto.
Qed.

Lemma shows_ext m v v' : shows m v -> same v v' -> shows m v'.
Proof. intros S H f. rewrite <- H. apply S. Qed.

(** One operation of a proper program. *)
Lemma fstep_ok o t m held v sz : rel m held v -> sizes v sz -> proper sz (o :: t) ->
  exists m' held' v' sz', fstep o m = (m', Ret tt) /\ vstep o v v' /\ rel m' held' v' /\ sizes v' sz' /\ proper sz' t.
Proof.
  intros R Z P. pose proof R as (G & O & S). destruct o as [f src size|f size|f from garbage|f from|f o x|f n|f|c size]; cbn [proper] in P.
  - destruct P as (Pf & P). assert (Ef : m_frames m f = None) by (eapply shows_none; [exact S|]; specialize (Z f); destruct (v f); [cbn in Z; congruence|reflexivity]).
    destruct (take_inv (m_gl m) held size G) as (g1 & i & b & E1 & G1 & Hi & B1 & S1 & K1).
    destruct (copy_inv g1 (i :: held) i src size b G1 B1) as (g2 & b2 & E2 & G2 & B2 & S2 & M2 & K2).
    cbn [fstep]. rewrite Ef, E1, E2. eexists _, (i :: held), _, _. split; [reflexivity|]. split; [constructor|].
    split; [|split; [|exact P]].
    + split; [exact G2|]. split; [apply owners_new; auto|]. cbn.
      eapply shows_upd with (m := m) (x := DFrame i size) (b := b2); [exact S| |exact B2|reflexivity|lia|intros o Ho; apply M2; lia].
      intros f' x' Hf E'. destruct (owned_block m held v f' x' R E') as (Hin & Hb).
      rewrite K2 by (intros D; apply Hi; rewrite <- D; exact Hin). apply K1, Hb.
    + intros f'. unfold upd. destruct (f' =? f); [reflexivity|apply Z].
  - destruct P as (Pf & P). assert (Ef : m_frames m f = None) by (eapply shows_none; [exact S|]; specialize (Z f); destruct (v f); [cbn in Z; congruence|reflexivity]).
    destruct (take_inv (m_gl m) held size G) as (g1 & i & b & E1 & G1 & Hi & B1 & S1 & K1).
    cbn [fstep]. rewrite Ef, E1. eexists _, (i :: held), _, _. split; [reflexivity|]. split; [apply v_empty with (c := b_mem b)|].
    split; [|split; [|exact P]].
    + split; [exact G1|]. split; [apply owners_new; auto|]. cbn.
      eapply shows_upd with (m := m) (x := DFrame i size) (b := b); [exact S| |exact B1|reflexivity|lia|auto].
      intros f' x' Hf E'. destruct (owned_block m held v f' x' R E') as (Hin & Hb). apply K1, Hb.
    + intros f'. unfold upd. destruct (f' =? f); [reflexivity|apply Z].
  - destruct P.
  - destruct P as (Hne & (s & P1 & P2) & P). pose proof (Z f) as Z1. pose proof (Z from) as Z2. rewrite P1 in Z1. rewrite P2 in Z2.
    destruct (v f) as [[s1 c1]|] eqn:V1; [|discriminate]. destruct (v from) as [[s2 c2]|] eqn:V2; [|discriminate]. cbn in Z1, Z2.
    injection Z1 as <-. injection Z2 as <-.
    destruct (shows_live m v f s c1 S V1) as (x & b1 & X1 & X2 & X3 & X4 & X5).
    destruct (shows_live m v from s c2 S V2) as (y & b2 & Y1 & Y2 & Y3 & Y4 & Y5).
    destruct (owned_block m held v f x R X1) as (Hx & _). destruct (owned_block m held v from y R Y1) as (Hy & _).
    assert (Dxy : d_block x <> d_block y) by (intros D; apply Hne; eapply O; eassumption).
    destruct (release_inv (m_gl m) held (d_block x) G Hx) as (g1 & E1 & G1 & K1 & _).
    destruct (take_inv g1 _ (d_size y) G1) as (g2 & i & b & E2 & G2 & Hi & B2 & S2 & K2).
    assert (Hyi : d_block y <> i) by (intros D; apply Hi; apply del_key_in; rewrite <- D; auto).
    assert (By : g_blocks g2 (d_block y) = Some b2) by (rewrite K2, K1; [exact Y3|rewrite K1, Y3; discriminate]).
    destruct (copy_inv g2 _ i (b_mem b2) (d_size y) b G2 B2) as (g3 & b3 & E3 & G3 & B3 & S3 & M3 & K3).
    cbn [fstep]. rewrite X1, Y1, E1, E2. cbn [data_of set_frame set_gl m_frames m_gl]. unfold data_of. cbn [m_frames m_gl set_frame set_gl].
    rewrite upd_other, Y1, By, E3 by congruence.
    eexists _, (i :: del_key (d_block x) held), (upd v f (Some (s, c2))), _. split; [reflexivity|]. split; [apply v_assign; exact V2|].
    split; [|split; [|exact P]].
    + split; [exact G3|]. cbn [m_frames m_gl set_gl set_frame]. split.
      * assert (O1 : owners (Mach g1 (upd (m_frames m) f None)) (del_key (d_block x) held)) by (apply owners_del; auto).
        pose proof (owners_new _ _ f i (DFrame i (d_size x)) O1 (upd_same _ _ _) Hi eq_refl g3) as O2. cbn in O2.
        destruct O2 as (O21 & O22). split.
        -- intros j. rewrite O21. cbn. split; intros (f' & x' & E' & D'); exists f', x'; (split; [|exact D']); unfold upd in *; destruct (f' =? f); exact E'.
        -- intros f1 f2 x1 x2 H1 H2 H3. apply (O22 f1 f2 x1 x2); [| |exact H3]; cbn in *; unfold upd in *; [destruct (f1 =? f); exact H1|destruct (f2 =? f); exact H2].
      * eapply shows_upd with (m := m) (x := DFrame i (d_size x)) (b := b3); [exact S| |exact B3|exact X2|lia|].
        -- intros f' x' Hf E'. destruct (owned_block m held v f' x' R E') as (Hin & Hb).
           assert (Hx' : d_block x' <> d_block x) by (intros D; apply Hf; eapply O; eassumption).
           rewrite K3 by (intros D; apply Hi; apply del_key_in; rewrite <- D; auto). rewrite K2, K1; [reflexivity|rewrite K1; exact Hb].
        -- intros o Ho. rewrite M3 by lia. apply Y5, Ho.
    + intros f'. unfold upd. destruct (N.eqb_spec f' f) as [->|]; [cbn; exact P1|apply Z].
  - destruct P as (Pf & P). pose proof (Z f) as Zf. destruct (v f) as [[s c]|] eqn:V; [|cbn in Zf; congruence].
    destruct (shows_live m v f s c S V) as (y & b & X1 & X2 & X3 & X4 & X5). cbn [fstep]. rewrite X1, X2, X3.
    destruct (N.ltb_spec o s) as [Ho|Ho].
    + destruct (N.ltb_spec o (b_size b)); [|lia].
      eexists _, held, (upd v f (Some (s, upd c o x))), sz. split; [reflexivity|]. split; [apply v_write; assumption|]. split; [|split; [|exact P]].
      * split; [eapply set_block_inv; [exact G|exact X3|reflexivity]|]. split.
        { destruct O as (O1 & O2). split; assumption. }
        intros f'. cbn. destruct (N.eq_dec f' f) as [->|Hf].
        -- rewrite X1, upd_same. split; [exact X2|]. exists (Block (b_size b) (upd (b_mem b) o x)). rewrite upd_same. split; [reflexivity|]. split; [exact X4|].
           intros o' Ho'. cbn. unfold upd. destruct (o' =? o); [reflexivity|apply X5, Ho'].
        -- rewrite (upd_other v f _ f' Hf). pose proof (S f') as Sf. destruct (m_frames m f') as [x'|] eqn:E'; [|exact Sf]. destruct (v f') as [[s' c']|]; [|exact Sf].
           rewrite upd_other; [exact Sf|]. intros D. apply Hf. eapply O; eassumption.
      * intros f'. unfold upd. destruct (N.eqb_spec f' f) as [->|]; [exact Zf|apply Z].
    + exists m, held, v, sz. split; [reflexivity|]. split; [eapply v_write_out; eassumption|]. auto.
  - destruct P as (s & Pf & P). pose proof (Z f) as Zf. rewrite Pf in Zf. destruct (v f) as [[s' c]|] eqn:V; [|discriminate]. cbn in Zf. injection Zf as <-.
    destruct (shows_live m v f s c S V) as (y & b & X1 & X2 & X3 & X4 & X5). cbn [fstep]. rewrite X1, X2.
    destruct (N.ltb_spec s n) as [Hn|Hn].
    + exists m, held, v, sz. split; [reflexivity|]. split; [eapply v_resize_refused; eassumption|]. auto.
    + eexists _, held, (upd v f (Some (n, c))), _. split; [reflexivity|]. split; [eapply v_resize; eassumption|]. split; [|split; [|exact P]].
      * split; [exact G|]. split; [eapply owners_same; [exact O|exact X1|reflexivity]|]. cbn.
        eapply shows_upd with (m := m) (x := DFrame (d_block y) n) (b := b); [exact S|auto|exact X3|reflexivity|lia|intros o Ho; apply X5; lia].
      * intros f'. unfold upd. destruct (f' =? f); [reflexivity|apply Z].
  - destruct P as (Pf & P). pose proof (Z f) as Zf. destruct (v f) as [[s c]|] eqn:V; [|cbn in Zf; congruence].
    destruct (shows_live m v f s c S V) as (x & b & X1 & X2 & X3 & X4 & X5).
    destruct (owned_block m held v f x R X1) as (Hx & _).
    destruct (release_inv (m_gl m) held (d_block x) G Hx) as (g1 & E1 & G1 & K1 & _).
    cbn [fstep]. rewrite X1, E1. eexists _, (del_key (d_block x) held), _, _. split; [reflexivity|]. split; [constructor|]. split; [|split; [|exact P]].
    + split; [exact G1|]. split; [apply owners_del; auto|]. intros f'. cbn. unfold upd.
      destruct (N.eqb_spec f' f) as [->|]; [exact I|]. specialize (S f'). destruct (m_frames m f'); [|exact S]. rewrite K1. exact S.
    + intros f'. unfold upd. destruct (f' =? f); [reflexivity|apply Z].
  - destruct (allocate_inv c size (m_gl m) held G) as (G1 & _ & _ & K1).
    cbn [fstep]. eexists _, held, v, sz. split; [reflexivity|]. split; [constructor|]. split; [|auto].
    split; [exact G1|]. split; [exact O|]. intros f'. cbn. pose proof (S f') as Sf. destruct (m_frames m f') as [x|] eqn:E; [|exact Sf].
    destruct (owned_block m held v f' x R E) as (_ & Hb). rewrite (K1 _ Hb). exact Sf.
Qed.

Lemma frun_ok l : forall m held v sz, rel m held v -> sizes v sz -> proper sz l ->
  exists m' held' v', frun m l = (m', true) /\ vrun v l v' /\ rel m' held' v'.
Proof.
  induction l as [|o t IH]; intros m held v sz R Z P; [exists m, held, v; split; [reflexivity|]; split; [constructor|exact R]|].
  destruct (fstep_ok o t m held v sz R Z P) as (m1 & h1 & v1 & z1 & E & V & R1 & Z1 & P1).
  destruct (IH m1 h1 v1 z1 R1 Z1 P1) as (m2 & h2 & v2 & E2 & V2 & R2).
  exists m2, h2, v2. cbn [frun]. rewrite E. split; [exact E2|]. split; [econstructor; eassumption|exact R2].
Qed.

Lemma frames_are_values junk l : proper (fun _ => None) l -> exists m v held, frun (mach_init junk) l = (m, true) /\
  vrun (fun _ => None) l v /\ shows m v /\ ginv (m_gl m) held /\ owners m held.
Proof.
  intros P. destruct (frun_ok l (mach_init junk) [] (fun _ => None) (fun _ => None)) as (m & h & v & E & V & G & O & S).
  - split; [apply init_inv|]. split; [|intros f; exact I]. split; [intros i; split; [intros []|intros (f & x & E & _); discriminate]|discriminate].
  - intros f. reflexivity.
  - exact P.
  - exists m, v, h. auto.
Qed.
