From Coq Require Import Permutation.
From Verif Require Import Base DecModel DecSpec DecProofs.
Local Open Scope Z_scope.

(** ** Time-outs *)
Lemma holds_timed c k pk b n : h_received (b_hdr b) = n -> holds c k pk b -> holds c k pk (with_hdr (set_received n RTimedout (b_hdr b)) b).
Proof. intros <- [H1 H2 H3 H4 H5 H6]. constructor; cbn; auto. Qed.

Lemma monitor_ok c nd now tr l : cfg_ok c -> forall s out s' r,
  (forall e, In e l -> In e (d_map s)) -> NoDup (map fst l) ->
  core c nd (tr ++ [(Monitor now, out)]) s -> cur_ok (tr ++ [(Monitor now, out)]) s ->
  monitor_loop c now l s out = Ret (s', r) ->
  core c nd (tr ++ [(Monitor now, r)]) s' /\ cur_ok (tr ++ [(Monitor now, r)]) s' /\ f_dropped s' = f_dropped s.
Proof.
  intros CK. induction l as [|[fn id] l IH]; intros s out s' r SUB ND C U H.
  - cbn in H. apply ret_inv in H as (-> & ->). auto.
  - cbn [monitor_loop] in H. destruct (legal_id c id); [|discriminate]. inversion ND as [|? ? NI ND']; subst.
    assert (G : zm_get (d_map s) fn = Some id) by (apply zm_in_get; [apply C|apply SUB; left; reflexivity]).
    destruct (timeout_ms c <? _) in H; [|eapply IH; eauto; intros e He; apply SUB; right; exact He].
    set (b := d_mem s (Shared id)) in *. set (b' := with_hdr (set_received (h_received (b_hdr b)) RTimedout (b_hdr b)) b) in *.
    set (s1 := Dec _ _ _ _ _ _ _ _ _ _ _ _) in H.
    assert (V : d_seen s1 = d_seen s /\ d_curid s1 = d_curid s /\ d_cur s1 = d_cur s /\ d_dropping s1 = d_dropping s /\ f_dropped s1 = f_dropped s /\
                d_empty s1 = d_empty s /\ d_map s1 = zm_del (d_map s) fn /\ d_mem s1 = upd_mem (d_mem s) (Shared id) b') by (repeat split; reflexivity).
    destruct V as (V1 & V2 & V3 & V4 & V5 & V6 & V7 & V8). clearbody s1.
    destruct (IH s1 (out ++ [Ready id fn b']) s' r) as (I1 & I2 & I3); auto; [| | |split; [exact I1|split; [exact I2|congruence]]].
    + intros [k i] He. rewrite V7. unfold zm_del. apply filter_In. split; [apply SUB; right; exact He|]. cbn. destruct (Z.eqb_spec k fn) as [->|]; [|reflexivity].
      exfalso. apply NI. apply (in_map fst) in He. exact He.
    + destruct C as [K T L F N]. pose proof (zm_del_perm _ _ _ K G) as PP. constructor; unfold inside; rewrite ?V6, ?V7.
      * apply zm_del_nodup, K.
      * intros i. specialize (T i). unfold inside in T. rewrite !readys_app, !pushes_app, !count_app in *. rewrite (count_perm _ _ i (Permutation_map snd PP)) in T.
        unfold readys at 2 in T. unfold readys at 2. cbn in T |- *. rewrite !app_nil_r, ?map_app, ?count_app in *. cbn. destruct (Z.eq_dec id i); lia.
      * intros i Hi. apply L. rewrite in_app_iff in *. destruct Hi as [Hi|Hi]; [auto|]. right. apply (Permutation_in i (Permutation_sym (Permutation_map snd PP))). right. exact Hi.
      * intros k Hk. destruct (F k Hk) as (ch & rs & A & B & D & E'). rewrite sent_app, handed_app in *. cbn [sent flat_map fst app] in *. unfold handed at 2. unfold handed at 2 in D.
        cbn [flat_map snd app] in *. rewrite !app_nil_r in *. rewrite filter_app. cbn [filter r_frame]. rewrite zm_get_del, V8. destruct (Z.eqb_spec fn (i32 k)) as [EK|NK].
        -- rewrite <- EK, G in E'. destruct E' as (E1 & E2). exists (ch ++ [rs]), []. rewrite concat_app. cbn [concat]. rewrite !app_nil_r. split; [exact A|]. split; [exact B|].
           split; [|reflexivity]. rewrite app_assoc. apply Forall2_snoc; [exact D|]. split; [apply holds_timed; [reflexivity|exact E1]|].
           right. split; [reflexivity|]. intros X. apply E2, X.
        -- rewrite app_nil_r. exists ch, rs. split; [exact A|]. split; [exact B|]. split; [exact D|]. destruct (zm_get (d_map s) (i32 k)) as [i|] eqn:Gk; [|exact E'].
           unfold upd_mem. cbn [place_eqb]. destruct (Z.eqb_spec i id) as [->|]; [|exact E'].
           exfalso. destruct (T id) as (_ & X). unfold inside in X. rewrite count_app in X. pose proof (two_count _ _ _ _ G Gk NK). lia.
      * rewrite V4. exact N.
    + destruct U as [U|(tr1 & fn0 & fl & p & t & r0 & mid & T & M & R & S0 & U)]; [left; congruence|]. right.
      destruct mid as [|e0 mid0] using rev_ind.
      { exfalso. apply app_inj_tail in T as (_ & X). discriminate. }
      clear IHmid0. rewrite app_comm_cons, app_assoc in T. apply app_inj_tail in T as (-> & <-).
      exists tr1, fn0, fl, p, t, r0, (mid0 ++ [(Monitor now, out ++ [Ready id fn b'])]). split; [rewrite app_comm_cons, app_assoc; reflexivity|].
      split; [intros e He; apply in_app_or in He as [He|[<-|[]]]; [apply M, in_or_app; auto|reflexivity]|]. split; [exact R|]. split; [congruence|]. rewrite V2, V3, V4, V7.
      destruct U as [U|[U|(e & x & U1 & U2 & U3)]]; [auto| |].
      * destruct U as (i & U1 & U2 & U3). rewrite zm_get_del. destruct (Z.eqb_spec fn (i32 fn0)) as [E|E].
        -- right. right. exists (Monitor now, out ++ [Ready id fn b']), (Ready id fn b'). split; [apply in_or_app; right; left; reflexivity|]. split; [apply in_or_app; right; left; reflexivity|exact E].
        -- right. left. exists i. auto.
      * right. right. apply in_app_or in U1 as [U1|[<-|[]]].
        -- exists e, x. split; [apply in_or_app; auto|auto].
        -- exists (Monitor now, out ++ [Ready id fn b']), x. split; [apply in_or_app; right; left; reflexivity|]. split; [apply in_or_app; left; exact U2|exact U3].
Qed.

Lemma core_skip c nd tr s o : match o with Monitor _ | ResetStats => True | _ => False end -> core c nd tr s -> core c nd (tr ++ [(o, [])]) s.
Proof.
  intros O [K T L F N]. constructor; auto.
  - intros i. rewrite readys_app, pushes_app. destruct o; try tauto; cbn; rewrite !Nat.add_0_r; apply T.
  - intros k Hk. destruct (F k Hk) as (ch & rs & X). exists ch, rs. rewrite sent_app, handed_app. destruct o; try tauto; cbn; rewrite !app_nil_r; exact X.
Qed.
Lemma cur_skip tr s s' o : is_packet o = false -> cur_ok tr s -> d_seen s' = d_seen s -> d_cur s' = d_cur s -> d_curid s' = d_curid s -> d_dropping s' = d_dropping s -> d_map s' = d_map s ->
  cur_ok (tr ++ [(o, [])]) s'.
Proof.
  intros O U V1 V2 V3 V4 V5. unfold cur_ok. rewrite V1, V2, V3, V4, V5. destruct U as [U|(tr1 & fn0 & fl & p & t & r0 & mid & T & M & R & S0 & U)]; [auto|]. right.
  exists tr1, fn0, fl, p, t, r0, (mid ++ [(o, [])]). split; [rewrite T, <- app_assoc; reflexivity|]. split; [intros e He; apply in_app_or in He as [He|[<-|[]]]; auto|].
  split; [exact R|]. split; [exact S0|]. destruct U as [U|[U|(e & x & U1 & U2)]]; [auto|auto|]. right. right. exists e, x. split; [apply in_or_app; auto|exact U2].
Qed.

(** ** Every history *)
Lemma run_inv c mem tr s : cfg_ok c -> drun c mem tr s -> wf tr -> env_ok c tr -> no_late tr ->
  exists nd, core c nd tr s /\ cur_ok tr s /\ (nd = true -> 0 < ppf c) /\
    (no_reset tr -> Z.of_nat (length tr) < 2 ^ 32 -> 0 <= f_dropped s <= Z.of_nat (length tr) /\ (f_dropped s = 0 -> 0 < ppf c -> nd = true)).
Proof.
  intros CK. induction 1 as [|tr s o s' r R IH S]; intros W EN NL.
  - exists (0 <? ppf c). split; [|split; [left; reflexivity|split; [lia|intros _ _; cbn; lia]]]. constructor.
    + constructor.
    + intros i. split; [reflexivity|]. cbn. lia.
    + intros i [].
    + intros k Hk. exists [], []. cbn. split; [apply sub_nil|]. split; [reflexivity|]. split; [constructor|reflexivity].
    + reflexivity.
  - apply wf_app in W as (W & W1). pose proof (env_app _ _ _ EN) as EN'. pose proof (late_app _ _ NL) as NL'.
    destruct (IH W EN' NL') as (nd & C & U & P & D).
    assert (RS : no_reset (tr ++ [(o, r)]) -> no_reset tr) by (intros X y Y; apply (X y), in_or_app; auto).
    destruct o as [fn fl p now|id|now|id b|]; cbn [dstep] in S.
    + destruct (W1 (Packet fn fl p now) r (or_introl eq_refl)) as (B1 & B2).
      destruct (packet_ok c nd tr s fn fl p now s' r CK C U B1 (no_late_last _ _ _ _ _ _ NL) P S) as (nd' & C' & U' & DR).
      exists nd'. split; [exact C'|]. split; [exact U'|]. split; [destruct DR as [(-> & _)|(-> & _)]; [exact P|discriminate]|].
      intros X Y. rewrite app_length in *. cbn in *. destruct (D (RS X) ltac:(lia)) as (D1 & D2). destruct DR as [(-> & ->)|(-> & ->)]; [split; [lia|exact D2]|].
      unfold wrap32. rewrite Z.mod_small by lia. split; lia.
    + apply ret_inv in S as (-> & ->). destruct (EN tr (Push id) [] [] eq_refl) as (E1 & E2). exists nd. split; [|split; [eapply cur_skip; eauto|split; [exact P|]]].
      * destruct C as [K T L F N]. constructor; cbn; auto.
        -- intros i. specialize (T i) as Ti. specialize (T id). unfold inside in *. cbn [d_empty d_map set_queue]. rewrite readys_app, pushes_app, !count_app in *.
           unfold readys at 2, pushes at 2. cbn. destruct (Z.eq_dec id i) as [->|]; lia.
        -- intros i Hi. rewrite !in_app_iff in Hi. destruct Hi as [[Hi|[<-|[]]]|Hi]; [apply L, in_or_app; auto|exact E1|apply L, in_or_app; auto].
        -- intros k Hk. destruct (F k Hk) as (ch & rs & X). exists ch, rs. rewrite sent_app, handed_app. cbn. rewrite !app_nil_r. exact X.
      * intros X Y. rewrite app_length in *. cbn in *. destruct (D (RS X) ltac:(lia)) as (D1 & D2). split; [lia|exact D2].
    + destruct (monitor_ok c nd now tr (d_map s) CK s [] s' r) as (C' & U' & DR); auto.
      * apply C.
      * apply core_skip; [exact I|exact C].
      * eapply cur_skip; eauto.
      * exists nd. split; [exact C'|]. split; [exact U'|]. split; [exact P|]. intros X Y. rewrite app_length in *. cbn in *. destruct (D (RS X) ltac:(lia)) as (D1 & D2). rewrite DR. split; [lia|exact D2].
    + apply ret_inv in S as (-> & ->). pose proof (EN tr (Touch id b) [] [] eq_refl) as E1. cbn in E1. exists nd. split; [|split; [eapply cur_skip; eauto|split; [exact P|]]].
      * destruct C as [K T L F N]. constructor; cbn [d_map d_empty d_mem d_dropping set_mem]; auto.
        -- intros i. rewrite readys_app, pushes_app. cbn. rewrite !Nat.add_0_r. apply T.
        -- intros k Hk. destruct (F k Hk) as (ch & rs & A1 & A2 & A3 & A4). exists ch, rs. rewrite sent_app, handed_app. cbn [sent handed flat_map fst snd app filter]. rewrite !app_nil_r.
           split; [exact A1|]. split; [exact A2|]. split; [exact A3|]. destruct (zm_get (d_map s) (i32 k)) as [i|] eqn:G; [|exact A4].
           unfold upd_mem. cbn [place_eqb]. destruct (Z.eqb_spec i id) as [->|]; [|exact A4].
           exfalso. destruct (T id) as (T1 & _). apply get_count in G. unfold inside in T1. rewrite count_app in T1. lia.
      * intros X Y. rewrite app_length in *. cbn in *. destruct (D (RS X) ltac:(lia)) as (D1 & D2). split; [lia|exact D2].
    + apply ret_inv in S as (-> & ->). exists nd. split; [|split; [eapply cur_skip; eauto|split; [exact P|]]].
      * apply core_skip; [exact I|]. destruct C as [K T L F N]. constructor; cbn; auto.
      * intros X. exfalso. apply (X []). apply in_or_app. right. left. reflexivity.
Qed.

(** No exception, and no undefined behaviour for packet numbers in range. *)
Lemma monitor_ret c now l : (forall e, In e l -> legal_id c (snd e) = true) -> forall s out, exists s' r, monitor_loop c now l s out = Ret (s', r).
Proof.
  induction l as [|[fn id] l IH]; intros L s out; cbn [monitor_loop]; [eauto|]. pose proof (L (fn, id) (or_introl eq_refl)) as L1. cbn in L1. rewrite L1.
  destruct (_ <? _); apply IH; intros e He; apply L; right; exact He.
Qed.
Lemma step_ret c mem tr s o : cfg_ok c -> drun c mem tr s -> wf (tr ++ [(o, [])]) -> env_ok c tr -> no_late (tr ++ [(o, [])]) -> in_frame c [(o, [])] ->
  exists s' r, dstep c o s = Ret (s', r).
Proof.
  intros CK R W EN NL IF. apply wf_app in W as (W & W1). destruct (run_inv c mem tr s CK R W EN (late_app _ _ NL)) as (nd & C & U & P & _).
  destruct o as [fn fl p now|id|now|id b|]; cbn [dstep]; [|eauto| |eauto|eauto].
  - destruct (W1 _ _ (or_introl eq_refl)) as (B1 & B2). specialize (IF _ _ (or_introl eq_refl)). unfold packet. rewrite pn_land.
    destruct (choose_ok c nd tr s fn now CK C U B1 (no_late_last _ _ _ _ _ _ NL) P) as (s1 & nd' & E & _ & (_ & N1) & _). rewrite E.
    destruct CK as (CK1 & CK2 & _). assert (0 <= fl mod 2 ^ 30) by (apply Z.mod_pos_bound; reflexivity). set (pn := fl mod 2 ^ 30) in *. change (pn < ppf c) in IF. clearbody pn.
    set (len := Z.min (Z.of_nat (length p)) (psize c)). assert (0 <= len <= psize c) by (unfold len; lia).
    assert (G : forall q, d_cur s1 = Some q -> (max_packets <=? pn) || ((0 <? len) && (capacity c q <? psize c * pn + len)) = false).
    { intros q _. apply orb_false_iff. split; [lia|]. apply andb_false_iff. right. apply Z.ltb_ge. 
      assert (psize c * pn <= psize c * (ppf c - 1)) by (apply Z.mul_le_mono_nonneg_l; lia).
      assert (psize c * ppf c <= max_packet_size * max_packets) by (apply Z.mul_le_mono_nonneg; lia).
      destruct q; unfold capacity; lia. }
    destruct (d_cur s1) as [q|]; [|destruct N1 as [(N1 & _)|(? & N1 & _)]; discriminate]. cbn zeta. rewrite (G q eq_refl). destruct (_ && _); eauto.
  - apply monitor_ret. intros [k i] He. apply legal_true; [|apply CK]. apply (k_legal _ _ _ _ C). apply in_or_app. right. apply (in_map snd) in He. exact He.
Qed.

(** ** Statistics *)
Definition timed_out (x : ready) : bool := match h_state (b_hdr (r_buf x)) with RTimedout => true | _ => false end.
Definition missing (c : cfg) (x : ready) : Z := ppf c - h_received (b_hdr (r_buf x)).
Definition total (l : list Z) : Z := fold_right Z.add 0 l.
Lemma total_app a b : total (a ++ b) = total a + total b.
Proof. unfold total. induction a; cbn [app fold_right]; lia. Qed.

Definition stats (c : cfg) (rs : list ready) (np : Z) (s : dec) : Prop :=
  n_lost s = total (map (missing c) (filter timed_out rs)) mod 2 ^ 32 /\
  f_timedout s = Z.of_nat (length (filter timed_out rs)) mod 2 ^ 32 /\
  (n_received s + n_dropped s) mod 2 ^ 32 = np mod 2 ^ 32.

Lemma monitor_stats c now l : forall s out pre np s' r, stats c (pre ++ out) np s -> monitor_loop c now l s out = Ret (s', r) -> stats c (pre ++ r) np s'.
Proof.
  induction l as [|[fn id] l IH]; intros s out pre np s' r (A & B & D) H; cbn [monitor_loop] in H.
  - apply ret_inv in H as (-> & ->). repeat split; auto.
  - destruct (legal_id c id); [|discriminate]. destruct (_ <? _) in H; [|eapply IH; [split; [exact A|split; [exact B|exact D]]|exact H]].
    eapply IH; [|exact H]. unfold stats. cbn [n_lost f_timedout n_received n_dropped]. rewrite app_assoc, filter_app, map_app, total_app, app_length. cbn.
    rewrite A, B. unfold wrap32, missing. cbn. split; [|split; [|exact D]].
    + rewrite <- Zplus_mod, Z.add_0_r. reflexivity.
    + rewrite Zplus_mod_idemp_l. f_equal. lia.
Qed.
Definition packets (tr : trace) : list dop := filter is_packet (map fst tr).

Lemma mod_succ x y z M : x mod M = z mod M -> y = x + 1 -> y mod M = (z + 1) mod M.
Proof. intros H ->. rewrite <- (Zplus_mod_idemp_l x), H, Zplus_mod_idemp_l. reflexivity. Qed.

Lemma packet_stats c fn fl p now s s' r np pre : packet c fn fl p now s = Ret (s', r) -> stats c pre np s -> stats c (pre ++ r) (np + 1) s'.
Proof.
  intros H (A & B & D). unfold packet in H. destruct (choose c fn now s) as [s1| |] eqn:E; try discriminate.
  assert (V : n_lost s1 = n_lost s /\ f_timedout s1 = f_timedout s /\ n_received s1 = n_received s /\ n_dropped s1 = n_dropped s).
  { unfold choose in E. destruct (_ =? _) in E; [injection E as <-; auto|]. destruct (zm_get _ _) in E.
    - destruct (legal_id _ _) in E; [|discriminate]. injection E as <-. auto.
    - destruct (d_empty s) in E.
      + injection E as <-. cbn. destruct (d_dropping s); auto.
      + destruct (legal_id _ _) in E; [|discriminate]. injection E as <-. auto. }
  destruct V as (V1 & V2 & V3 & V4). destruct (d_cur s1) as [q|]; [|discriminate]. cbn zeta in H. destruct (_ || _) in H; [discriminate|].
  set (n := wrap32 _) in *.
  assert (Q : n_lost (count_packet s1) = n_lost s /\ f_timedout (count_packet s1) = f_timedout s /\ (n_received (count_packet s1) + n_dropped (count_packet s1)) mod 2 ^ 32 = (np + 1) mod 2 ^ 32).
  { unfold count_packet. destruct (d_dropping s1); cbn [n_lost f_timedout n_received n_dropped]; rewrite V1, V2, V3, V4; (split; [reflexivity|]; split; [reflexivity|]); unfold wrap32;
      [rewrite Zplus_mod_idemp_r|rewrite Zplus_mod_idemp_l]; (eapply mod_succ; [exact D|lia]). }
  destruct Q as (Q1 & Q2 & Q3). destruct ((n =? ppf c) && _) eqn:F.
  - apply ret_inv in H as (-> & ->). apply andb_true_iff in F as (F & _). unfold stats. rewrite filter_app. cbn [filter timed_out r_buf b_hdr set_received h_state]. rewrite F. rewrite app_nil_r.
    cbn. rewrite Q1, Q2. auto.
  - apply ret_inv in H as (-> & ->). rewrite app_nil_r. unfold stats. cbn. rewrite Q1, Q2. auto.
Qed.

Lemma run_stats c mem tr s : drun c mem tr s -> no_reset tr -> stats c (flat_map snd tr) (Z.of_nat (length (packets tr))) s.
Proof.
  induction 1 as [|tr s o s' r R IH S]; intros NR; [repeat split|].
  assert (RS : no_reset tr) by (intros y Y; apply (NR y), in_or_app; auto). specialize (IH RS).
  rewrite flat_map_app. cbn [flat_map snd]. rewrite app_nil_r. unfold packets in *. rewrite map_app, filter_app, app_length.
  destruct o as [fn fl p now|id|now|id b|]; cbn [dstep] in S; cbn [map fst filter is_packet length].
  - rewrite Nat2Z.inj_add. eapply packet_stats; eassumption.
  - apply ret_inv in S as (-> & ->). rewrite app_nil_r, Nat.add_0_r. exact IH.
  - rewrite Nat.add_0_r. eapply monitor_stats; [|exact S]. rewrite app_nil_r. exact IH.
  - apply ret_inv in S as (-> & ->). rewrite app_nil_r, Nat.add_0_r. exact IH.
  - exfalso. apply (NR r). apply in_or_app. right. left. reflexivity.
Qed.
