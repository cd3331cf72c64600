(** What arrives at one of several receivers, and the images its frame processor pushes. *)
From Coq Require Import Permutation String.
From Verif Require Import Base DecModel DecSpec DecProofs DecInv DecProps LoopModel LoopSpec LoopProofs LoopImage LoopProps SimModel SimProps LiveModel ReplayModel ReplaySpec ReplayProofs ReplayProps EndSpec.
Local Open Scope Z_scope.
Local Open Scope list_scope.

(** ** The datagrams of a port *)
Lemma to_port_flat port (q : nat -> Z) (g : nat -> list pkt) l :
  to_port port (flat_map (fun f => map (pair (q f)) (g f)) l) = flat_map g (filter (fun f => q f =? port) l).
Proof.
  unfold to_port. induction l as [|f l IH]; [reflexivity|]. cbn [flat_map filter]. rewrite filter_app, map_app, IH.
  assert (E : map snd (filter (fun x : Z * pkt => fst x =? port) (map (pair (q f)) (g f))) = if q f =? port then g f else []).
  { clear IH. induction (g f) as [|p t IH]; cbn; [destruct (q f =? port); reflexivity|]. destruct (q f =? port); cbn; rewrite IH; reflexivity. }
  rewrite E. destruct (q f =? port); reflexivity.
Qed.

Lemma filter_other (g : nat -> list pkt) k l : (forall f p, In p (g f) -> k_frame p = Z.of_nat f) -> NoDup l ->
  filter (fun p => k_frame p =? k) (flat_map g l) = if (0 <=? k) && (if in_dec Nat.eq_dec (Z.to_nat k) l then true else false) then g (Z.to_nat k) else [].
Proof.
  intros KF. induction l as [|f l IH]; intros ND; [cbn; rewrite andb_false_r; reflexivity|].
  inversion ND as [|? ? NI ND']; subst. cbn [flat_map]. rewrite filter_app, IH by exact ND'. specialize (KF f).
  destruct (Z.eq_dec (Z.of_nat f) k) as [E|E].
  - assert (K1 : filter (fun p => k_frame p =? k) (g f) = g f).
    { clear -KF E. induction (g f) as [|p K IH]; [reflexivity|]. cbn. rewrite (KF p) by (left; reflexivity). rewrite E, Z.eqb_refl. f_equal. apply IH. intros q Hq. apply KF. right. exact Hq. }
    rewrite K1. subst k. rewrite Nat2Z.id. destruct (in_dec _ f l) as [|_]; [contradiction|].
    destruct (in_dec _ f (f :: l)) as [_|N]; [|exfalso; apply N; left; reflexivity].
    rewrite andb_false_r, app_nil_r. destruct (Z.leb_spec 0 (Z.of_nat f)); [|lia]. reflexivity.
  - assert (K1 : filter (fun p => k_frame p =? k) (g f) = []).
    { clear -KF E. induction (g f) as [|p K IH]; [reflexivity|]. cbn. rewrite (KF p) by (left; reflexivity). destruct (Z.eqb_spec (Z.of_nat f) k); [contradiction|]. apply IH. intros q Hq. apply KF. right. exact Hq. }
    rewrite K1. cbn [app]. destruct (Z.leb_spec 0 k); cbn [andb]; [|reflexivity].
    destruct (in_dec _ (Z.to_nat k) l) as [X|X], (in_dec _ (Z.to_nat k) (f :: l)) as [Y|Y]; try reflexivity.
    + exfalso. apply Y. right. exact X.
    + exfalso. destruct Y as [Y|Y]; [lia|contradiction].
Qed.

(** The packets sent to the [r]-th port, nothing left out. *)
Lemma port_packets w h plen n o result fs t sd r :
  in_i32 (w * h) = true -> 0 < plen < 2 * (w * h) -> npackets (2 * (w * h)) plen <= 2 ^ 30 -> 2 <= n ->
  create_frames w h plen n = Ret fs -> replay_frames o result fs = Ret (t, sd) ->
  o_frames o = Some n -> o_frac o = None -> o_list o = None -> NoDup (o_ports o) -> (r < List.length (o_ports o))%nat ->
  to_port (nth r (o_ports o) 0) (s_sent sd) =
  flat_map (fun f => frame_packets plen (2 * (w * h)) (Z.of_nat f)) (filter (fun f => Nat.eqb (Nat.modulo f (List.length (o_ports o))) r) (seq 0 (Z.to_nat n))).
Proof.
  intros I P NB N2 C R OF OD OL ND Hr. rewrite created in C by auto. set (bytes := 2 * (w * h)) in *.
  assert (EF : fs = map (the_frame plen bytes) (seq 0 (Z.to_nat n))) by congruence. clear C.
  assert (LF : List.length fs = Z.to_nat n) by (rewrite EF, map_length, seq_length; reflexivity).
  assert (AS : asked o fs = Z.to_nat n) by (unfold asked; rewrite OF; reflexivity).
  assert (KO : forall f, (f < Z.to_nat n)%nat -> kept_of o fs f = frame_packets plen bytes (Z.of_nat f)).
  { intros f Hf. unfold kept_of, source. rewrite LF, Nat.mod_small by exact Hf. rewrite EF.
    rewrite (nth_indep _ _ (the_frame plen bytes 0)) by (rewrite map_length, seq_length; exact Hf).
    rewrite map_nth, seq_nth by exact Hf. cbn [the_frame u_pkts Nat.add]. apply ReplayProps.keep_all.
    intros p. rewrite dropped_eq. unfold unlucky, listed. rewrite OD, OL. reflexivity. }
  assert (NP : 1 < npackets bytes plen) by (apply npackets_lt; lia).
  assert (NE : forall f, (f < asked o fs)%nat -> to_send o fs f <> []).
  { intros f Hf. rewrite AS in Hf. rewrite to_send_eq, KO by exact Hf. rewrite frame_eq by lia.
    destruct (Z.to_nat (npackets bytes plen)) eqn:EN; [lia|discriminate]. }
  rewrite (c65_ports_partial o result fs t sd R ltac:(rewrite LF; lia) NE).
  rewrite stream_eq, AS.
  assert (EX : flat_map (fun f => map (pair (nth (Nat.modulo f (List.length (o_ports o))) (o_ports o) 0)) (kept_of o fs f)) (seq 0 (Z.to_nat n)) =
               flat_map (fun f => map (pair (nth (Nat.modulo f (List.length (o_ports o))) (o_ports o) 0)) (frame_packets plen bytes (Z.of_nat f))) (seq 0 (Z.to_nat n))).
  { rewrite !flat_map_concat_map. f_equal. apply map_ext_in. intros f Hf. apply in_seq in Hf. rewrite KO by lia. reflexivity. }
  rewrite EX, to_port_flat. f_equal. apply filter_ext. intros f.
  pose proof (Nat.mod_upper_bound f (List.length (o_ports o)) ltac:(lia)) as MB. set (m := Nat.modulo f (List.length (o_ports o))) in *.
  destruct (Nat.eqb_spec m r) as [->|Q]; [apply Z.eqb_refl|]. apply Z.eqb_neq. intros X. apply Q.
  apply (proj1 (NoDup_nth (o_ports o) 0) ND); auto.
Qed.

(** The size of the images. *)
Lemma out_size w h c mem : forall ops' s', yrun c mem ops' s' -> sized w h ops' -> forall k out, In (k, out) (y_out s') -> length out = Z.to_nat (2 * (w * h)).
Proof.
  induction 1 as [|ops' s' o s2 R IH S]; intros SZ' k out H; [destruct H|].
  assert (SZ1 : sized w h ops') by (intros j w' h' X; apply (SZ' j w' h'), in_or_app; left; exact X). specialize (IH SZ1).
  assert (D : forall o' s1, dec_step c o' s1 = Ret s2 -> y_out s2 = y_out s1).
  { intros o' s1 E. unfold dec_step in E. destruct (dstep c o' (y_dec s1)) as [[d q]| |]; try discriminate. injection E as <-. reflexivity. }
  assert (PA : forall l s1 s2, push_all c l s1 = Ret s2 -> y_out s2 = y_out s1).
  { clear. induction l as [|i l IH]; intros s1 s2 E; cbn [push_all] in E; [injection E as <-; reflexivity|]. unfold dec_step in E. destruct (dstep c (Push i) (y_dec s1)) as [[d q]| |]; try discriminate. rewrite (IH _ _ E). reflexivity. }
  destruct o as [|fn fl p t|t| | | |m|j|j|j b|j w' ht]; cbn [ystep] in S.
  - injection S as <-. destruct (d_empty _); apply (IH k out H).
  - rewrite (D _ _ S) in H. apply (IH k out H).
  - rewrite (D _ _ S) in H. apply (IH k out H).
  - rewrite (D _ _ S) in H. apply (IH k out H).
  - destruct (y_back s') as [|[|id] l]; [injection S as <-; apply (IH k out H)| |].
    + rewrite (PA _ _ _ S) in H. apply (IH k out H).
    + rewrite (D _ _ S) in H. apply (IH k out H).
  - injection S as <-. apply (IH k out H).
  - destruct (y_ready s') as [|x l]; [injection S as <-; apply (IH k out H)|]. destruct (y_conf s'); [|injection S as <-; apply (IH k out H)].
    destruct (legal_id c (r_id x)); [|discriminate]. destruct m; injection S as <-; apply (IH k out H).
  - injection S as <-. destruct (nth_error _ _); apply (IH k out H).
  - injection S as <-. destruct (nth_error _ _) as [hh|]; [|apply (IH k out H)]. destruct (o_refs hh) as [|[|?]]; apply (IH k out H).
  - destruct (nth_error _ _) as [hh|]; [|injection S as <-; apply (IH k out H)]. rewrite (D _ _ S) in H. apply (IH k out H).
  - destruct (nth_error _ _) as [hh|]; [|injection S as <-; apply (IH k out H)].
    destruct (SZ' j w' ht) as (-> & ->); [apply in_or_app; right; left; reflexivity|].
    destruct (process_frame _ _ _ _) as [[[b q] [k' im]]| |] eqn:E; try discriminate. rewrite (D _ _ S) in H. cbn [add_out y_out set_held] in H.
    apply in_app_or in H as [H|[H|[]]]; [apply (IH k out H)|]. injection H as -> ->.
    unfold process_frame in E. destruct (process_lost _) as [b' lo]. destruct (_ && _ && _); [|discriminate]. injection E as _ _ _ <-.
    rewrite map_length, seq_length. f_equal. lia.
Qed.

(** ** One receiver and its processor *)
Section Node.
Context (w h plen n : Z) (P r : nat) (c : cfg) (mem : place -> buf) (ops : list yop) (s : sys).
Let bytes := 2 * (w * h).
Context (CK : cfg_ok c) (I32 : in_i32 (w * h) = true) (PL : 0 < plen < bytes) (PS : psize c = plen) (PF : ppf c = npackets bytes plen) (NN : n < 2 ^ 31)
  (HP : (0 < P)%nat)
  (RUN : yrun c mem ops s) (ST : (starts ops <= 1)%nat) (NL : no_late (y_trace s)) (NW : writes ops = 0%nat)
  (NR : no_reset (y_trace s)) (LEN : Z.of_nat (length (y_trace s)) < 2 ^ 32) (FD : f_dropped (y_dec s) = 0)
  (ARR : Permutation (arrived (y_trace s)) (flat_map (fun f => frame_packets plen bytes (Z.of_nat f)) (filter (fun f => Nat.eqb (Nat.modulo f P) r) (seq 0 (Z.to_nat n)))))
  (TO : none_late (y_trace s)) (SZ : sized w h ops) (AP : all_processed s).

Definition mine_here (k : Z) : Prop := 0 <= k < n /\ Nat.modulo (Z.to_nat k) P = r.

Lemma nb : npackets bytes plen <= 2 ^ 30 /\ 1 < npackets bytes plen.
Proof. unfold cfg_ok, max_packets in CK. split; [lia|apply npackets_lt; lia]. Qed.

Lemma pkt_frame f p : In p (frame_packets plen bytes (Z.of_nat f)) -> exists i, (i < Z.to_nat (npackets bytes plen))%nat /\ p = the_pkt plen bytes (Z.of_nat f) (Z.of_nat i).
Proof. pose proof nb as (NB1 & NB2). intros H. rewrite frame_eq in H by lia. apply in_map_iff in H as (i & <- & Hi). apply in_seq in Hi. exists i. split; [lia|reflexivity]. Qed.

Lemma here_pkt p : In p (arrived (y_trace s)) -> exists f i, mine_here (Z.of_nat f) /\ (i < Z.to_nat (npackets bytes plen))%nat /\ p = the_pkt plen bytes (Z.of_nat f) (Z.of_nat i).
Proof.
  intros H. apply (Permutation_in _ ARR) in H. apply in_flat_map in H as (f & F1 & F2). apply filter_In in F1 as (F1 & F3). apply in_seq in F1. apply Nat.eqb_eq in F3.
  destruct (pkt_frame f p F2) as (i & Hi & ->). exists f, i. split; [|auto]. split; [lia|]. rewrite Nat2Z.id. exact F3.
Qed.

Lemma arr_in fn fl p t rr : In (DecModel.Packet fn fl p t, rr) (y_trace s) -> In (SimModel.Pkt fn fl p) (arrived (y_trace s)).
Proof. intros H. apply in_flat_map. eexists. split; [exact H|left; reflexivity]. Qed.

Lemma node_wf : wf (y_trace s).
Proof.
  intros o rr H. destruct o as [fn fl p t| | | |]; auto. destruct (here_pkt _ (arr_in _ _ _ _ _ H)) as (f & i & (Hf & _) & Hi & E). pose proof nb as (NB1 & NB2).
  injection E as -> -> _. destruct (flags_facts bytes plen (Z.of_nat i) ltac:(lia)) as (_ & F2 & _). lia.
Qed.
Lemma node_in : in_frame c (y_trace s).
Proof.
  intros o rr H. destruct o as [fn fl p t| | | |]; auto. destruct (here_pkt _ (arr_in _ _ _ _ _ H)) as (f & i & (Hf & _) & Hi & E). pose proof nb as (NB1 & NB2).
  injection E as -> -> _. destruct (flags_facts bytes plen (Z.of_nat i) ltac:(lia)) as (F1 & _). rewrite F1, PF. lia.
Qed.

Lemma sent_node k : Permutation (sent k (y_trace s))
  (if (0 <=? k) && (k <? n) && Nat.eqb (Nat.modulo (Z.to_nat k) P) r
   then map (fun p => (k_flags p mod 2 ^ 30, k_data p)) (frame_packets plen bytes k) else []).
Proof.
  rewrite sent_arrived. pose proof (filter_perm (fun p => k_frame p =? k) _ _ ARR) as PM.
  rewrite (filter_other (fun f => frame_packets plen bytes (Z.of_nat f))) in PM.
  - set (l := filter _ (seq 0 (Z.to_nat n))) in PM.
    assert (E : (0 <=? k) && (if in_dec Nat.eq_dec (Z.to_nat k) l then true else false) = (0 <=? k) && (k <? n) && Nat.eqb (Nat.modulo (Z.to_nat k) P) r).
    { destruct (Z.leb_spec 0 k); [cbn [andb]|reflexivity]. destruct (in_dec Nat.eq_dec (Z.to_nat k) l) as [X|X].
      - apply filter_In in X as (X1 & X2). rewrite X2. apply in_seq in X1. destruct (Z.ltb_spec k n); [reflexivity|lia].
      - destruct (Z.ltb_spec k n); [|reflexivity]. cbn [andb]. destruct (Nat.eqb _ r) eqn:EQ; [|reflexivity]. destruct X. apply filter_In. split; [apply in_seq; lia|exact EQ]. }
    rewrite E in PM. destruct (_ && _ && _) eqn:EB.
    + rewrite !andb_true_iff in EB. rewrite Z2Nat.id in PM by lia. apply Permutation_map, PM.
    + symmetry in PM. apply Permutation_nil in PM. rewrite PM. constructor.
  - intros f p H. destruct (pkt_frame f p H) as (i & _ & ->). reflexivity.
  - apply NoDup_filter, seq_NoDup.
Qed.
Lemma sent_mine k : mine_here k -> Permutation (map fst (sent k (y_trace s))) (zseq (ppf c)).
Proof.
  intros (K1 & K2). pose proof (sent_node k) as PM. pose proof nb as (NB1 & NB2).
  assert (E : (0 <=? k) && (k <? n) && Nat.eqb (Nat.modulo (Z.to_nat k) P) r = true) by (rewrite K2, Nat.eqb_refl; lia). rewrite E in PM.
  apply (Permutation_map fst) in PM. etransitivity; [exact PM|]. rewrite map_map. cbn [fst]. rewrite frame_eq by lia. rewrite map_map, PF.
  unfold zseq. match goal with |- Permutation ?a ?b => replace a with b; [apply Permutation_refl|] end.
  apply map_ext_in. intros i Hi. apply in_seq in Hi. cbn [the_pkt k_flags]. destruct (flags_facts bytes plen (Z.of_nat i) ltac:(lia)) as (F1 & _). symmetry. exact F1.
Qed.
Lemma sent_other k : ~ mine_here k -> sent k (y_trace s) = [].
Proof.
  intros H. pose proof (sent_node k) as PM. destruct (_ && _ && _) eqn:EB.
  - exfalso. apply H. rewrite !andb_true_iff, Nat.eqb_eq in EB. split; [lia|apply EB].
  - symmetry in PM. apply Permutation_nil in PM. exact PM.
Qed.
Lemma sent_slice k i pl : In (i, pl) (sent k (y_trace s)) -> slice pixel_byte bytes (psize c) i pl.
Proof.
  intros H. rewrite sent_arrived in H. apply in_map_iff in H as (p & E & H). apply filter_In in H as (H & _). destruct (here_pkt _ H) as (f & j & Hf & Hj & ->). pose proof nb as (NB1 & NB2).
  apply pair_equal_spec in E as (<- & <-). cbn [the_pkt k_flags k_data]. destruct (flags_facts bytes plen (Z.of_nat j) ltac:(lia)) as (F1 & _). rewrite F1, PS.
  assert (L : plen * Z.of_nat j < bytes) by (apply npackets_lt; lia).
  split; [rewrite map_length, seq_length; lia|]. intros o Ho. rewrite map_length, seq_length in Ho.
  rewrite (nth_indep _ 0 (pixel_byte (plen * Z.of_nat j + Z.of_nat 0))) by (rewrite map_length, seq_length; lia).
  rewrite (map_nth (fun j0 => pixel_byte (plen * Z.of_nat j + Z.of_nat j0))). rewrite seq_nth by lia. f_equal. lia.
Qed.

(** Each frame is handed over once, complete. *)
Lemma core_true : core c true (y_trace s) (y_dec s).
Proof.
  pose proof (loop_run c mem ops s CK RUN ST node_wf NL) as L. pose proof nb as (NB1 & NB2).
  destruct (run_inv c mem _ _ CK (l_run _ _ _ _ _ _ L) node_wf (l_env _ _ _ _ _ _ L) NL) as (nd & C & _ & _ & D).
  destruct (D NR LEN) as (_ & D'). rewrite <- (D' FD ltac:(lia)). exact C.
Qed.
Lemma complete_len k ch : Forall2 (handed_ok c true k) ch (handed k (y_trace s)) -> Forall (fun pk => Z.of_nat (length pk) mod 2 ^ 32 = ppf c) ch.
Proof.
  intros F. assert (IN : forall x, In x (handed k (y_trace s)) -> In x (flat_map snd (y_trace s))) by (intros x H; apply filter_In in H; apply H).
  induction F as [|pk x ch l (H1 & H2) F IH]; [constructor|]. constructor.
  - destruct H2 as [(_ & H2)|(H2 & _)]; [exact H2|]. exfalso. apply (TO x); [apply IN; left; reflexivity|exact H2].
  - apply IH. intros y Hy. apply IN. right. exact Hy.
Qed.
Lemma handed_mine k : mine_here k -> exists x, handed k (y_trace s) = [x] /\ holds c k (sent k (y_trace s)) (r_buf x).
Proof.
  intros M. pose proof nb as (NB1 & NB2). pose proof M as (K1 & _).
  assert (LS : Z.of_nat (length (sent k (y_trace s))) = ppf c).
  { rewrite <- (map_length fst), (Permutation_length (sent_mine k M)), zseq_length. lia. }
  destruct (k_frames _ _ _ _ core_true k ltac:(lia)) as (ch & rs & _ & A & F & Q). specialize (A eq_refl). pose proof (complete_len k ch F) as CL.
  rewrite <- A, app_length in LS.
  destruct ch as [|pk ch].
  - exfalso. cbn [concat length] in LS. destruct (zm_get _ _); [|subst rs; cbn in LS; lia]. destruct Q as (_ & Q). specialize (Q eq_refl). lia.
  - inversion CL as [|? ? C1 C2]; subst. inversion F as [|? x ? l (H1 & _) F']; subst. cbn [concat] in *. rewrite app_length in LS.
    rewrite Z.mod_small in C1 by lia.
    destruct ch as [|pk2 ch].
    + inversion F'; subst. cbn [concat length app] in *. assert (rs = []) by (destruct rs; [reflexivity|cbn [length] in LS; lia]). subst rs. rewrite !app_nil_r in A. exists x. split; [reflexivity|]. rewrite <- A. exact H1.
    + exfalso. inversion C2 as [|? ? C3 _]; subst. cbn [concat] in LS. rewrite app_length in LS. assert (length pk2 = 0%nat) by lia. rewrite H in C3. cbn in C3. lia.
Qed.
Lemma handed_other k : 0 <= k < 2 ^ 32 - 1 -> ~ mine_here k -> handed k (y_trace s) = [].
Proof.
  intros K0 M. pose proof nb as (NB1 & NB2). destruct (k_frames _ _ _ _ core_true k K0) as (ch & rs & _ & A & F & _). specialize (A eq_refl). pose proof (complete_len k ch F) as CL.
  rewrite (sent_other k M) in A. apply app_eq_nil in A as (A & _). destruct ch as [|pk ch]; [inversion F; reflexivity|].
  cbn in A. apply app_eq_nil in A as (-> & _). inversion CL as [|? ? C1 _]; subst. cbn in C1. lia.
Qed.

(** The frames handed over. *)
Lemma i32_small k : 0 <= k < 2 ^ 31 -> i32 k = k.
Proof. intros H. unfold i32. destruct (Z.ltb_spec (k mod 2 ^ 32) (2 ^ 31)); rewrite Z.mod_small in *; lia. Qed.
Lemma handed_all x : In x (flat_map snd (y_trace s)) -> mine_here (r_frame x).
Proof.
  intros H. pose proof (loop_run c mem ops s CK RUN ST node_wf NL) as L.
  destruct (run_frames c mem _ _ CK (l_run _ _ _ _ _ _ L) node_wf (l_env _ _ _ _ _ _ L) NL) as (RF & _). destruct (RF x H) as (k & K0 & E).
  assert (IH : In x (handed k (y_trace s))) by (apply filter_In; split; [exact H|apply Z.eqb_eq, E]).
  assert (D : {mine_here k} + {~ mine_here k}).
  { unfold mine_here. destruct (Z_le_dec 0 k), (Z_lt_dec k n), (Nat.eq_dec (Nat.modulo (Z.to_nat k) P) r); try (right; lia); left; lia. }
  destruct D as [M|M]; [|rewrite (handed_other k K0 M) in IH; destruct IH]. pose proof M as (M1 & _). rewrite E, i32_small by lia. exact M.
Qed.
Lemma numbers_nodup : NoDup (map fst (y_out s)).
Proof.
  apply (Permutation_NoDup (Permutation_sym AP)). apply (NoDup_count_occ Z.eq_dec). intros k.
  destruct (in_dec Z.eq_dec k (map r_frame (flat_map snd (y_trace s)))) as [X|X]; [|apply (count_occ_not_In Z.eq_dec) in X; lia].
  apply in_map_iff in X as (x & <- & X). pose proof (handed_all x X) as M. pose proof M as (M1 & _). destruct (handed_mine _ M) as (y & HY & _).
  assert (E : forall k l, count_occ Z.eq_dec (map r_frame l) k = length (filter (fun x => r_frame x =? k) l)).
  { clear. intros k. induction l as [|y l IH]; [reflexivity|]. cbn. destruct (Z.eq_dec (r_frame y) k) as [Q|Q]; [apply Z.eqb_eq in Q|apply Z.eqb_neq in Q]; rewrite Q; cbn; rewrite IH; reflexivity. }
  rewrite E. unfold handed in HY. rewrite i32_small in HY by lia. rewrite HY. cbn. lia.
Qed.
Lemma numbers_in k : In k (map fst (y_out s)) <-> mine_here k.
Proof.
  split; intros H.
  - apply (Permutation_in _ AP) in H. apply in_map_iff in H as (x & <- & H). apply handed_all, H.
  - apply (Permutation_in _ (Permutation_sym AP)). destruct (handed_mine k H) as (x & HX & _). pose proof H as (H1 & _).
    assert (X : In x (handed k (y_trace s))) by (rewrite HX; left; reflexivity). apply filter_In in X as (X1 & X2). apply Z.eqb_eq in X2. rewrite i32_small in X2 by lia. rewrite <- X2. apply in_map, X1.
Qed.

(** The images. *)
Lemma out_image k out : In (k, out) (y_out s) -> out = map (fun m => pixel_byte (Z.of_nat m)) (seq 0 (Z.to_nat bytes)).
Proof.
  intros H. pose proof (out_size w h c mem ops s RUN SZ k out H) as LO.
  destruct (out_holds c mem ops s k out CK RUN ST node_wf NL NW H) as (K0 & x & _ & IH & _ & _ & LE & EQ).
  assert (M : mine_here k) by (apply numbers_in, (in_map fst _ _ H)). destruct (handed_mine k M) as (y & HY & HO). rewrite HY in IH. destruct IH as [<-|[]].
  pose proof nb as (NB1 & NB2). pose proof (sent_mine k M) as PM.
  assert (E : out = picture pixel_byte (Z.of_nat (length out)) (psize c) (map fst (sent k (y_trace s)))).
  { rewrite EQ at 1. rewrite <- (Nat2Z.id (length out)) at 1. apply (fill_picture c k _ (r_buf y) pixel_byte bytes); auto; try lia.
    - apply (Permutation_NoDup (Permutation_sym PM)), zseq_nodup.
    - intros i Hi. apply (Permutation_in _ PM), zseq_in in Hi. exact Hi.
    - intros i pl Hi. apply (sent_slice k i pl Hi). }
  rewrite E. rewrite picture_full; [rewrite Nat2Z.id, LO; reflexivity|lia|]. intros q Hq. apply (Permutation_in _ (Permutation_sym PM)), zseq_in.
  split; [apply Z.div_pos; lia|]. apply Z.div_lt_upper_bound; [lia|]. rewrite Z.mul_comm. lia.
Qed.
End Node.
