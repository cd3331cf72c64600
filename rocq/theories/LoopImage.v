From Coq Require Import Permutation.
From Verif Require Import Base DecModel DecSpec DecProofs DecInv DecProps LoopModel LoopSpec LoopProofs.
Local Open Scope Z_scope.

(** ** Frame numbers of what is handed over *)
Definition numbered (z : Z) : Prop := exists k, 0 <= k < 2 ^ 32 - 1 /\ z = i32 k.

Lemma monitor_frames c now l : forall s out s' r, (forall e, In e l -> numbered (fst e)) -> monitor_loop c now l s out = Ret (s', r) ->
  (forall x, In x r -> In x out \/ numbered (r_frame x)) /\ (forall e, In e (d_map s') -> In e (d_map s)).
Proof.
  induction l as [|[fn id] l IH]; intros s out s' r N H; cbn [monitor_loop] in H.
  - apply ret_inv in H as (-> & ->). auto.
  - destruct (legal_id c id); [|discriminate]. assert (N' : forall e, In e l -> numbered (fst e)) by (intros e He; apply N; right; exact He). destruct (_ <? _) in H.
    + destruct (IH _ _ _ _ N' H) as (A & B). split.
      * intros x Hx. destruct (A x Hx) as [X|X]; [|auto]. apply in_app_or in X as [X|[<-|[]]]; [auto|]. right. apply (N (fn, id)). left. reflexivity.
      * intros e He. apply B in He. cbn in He. unfold zm_del in He. apply filter_In in He. apply He.
    + exact (IH _ _ _ _ N' H).
Qed.

Lemma run_frames c mem tr s : cfg_ok c -> drun c mem tr s -> wf tr -> env_ok c tr -> no_late tr ->
  (forall x, In x (flat_map snd tr) -> numbered (r_frame x)) /\ (forall e, In e (d_map s) -> numbered (fst e)).
Proof.
  intros CK. induction 1 as [|tr s o s' r R IH S]; intros W EN NL; [cbn; tauto|].
  apply wf_app in W as (W & W1). destruct (IH W (env_app _ _ _ EN) (late_app _ _ NL)) as (A & B). rewrite flat_map_app. cbn [flat_map snd]. rewrite app_nil_r.
  assert (Q : (forall x, In x r -> numbered (r_frame x)) /\ (forall e, In e (d_map s') -> numbered (fst e))).
  { destruct (run_inv _ _ _ _ CK R W (env_app _ _ _ EN) (late_app _ _ NL)) as (nd & C & U & P & _).
    destruct o as [fn fl p now|id|now|id b|]; cbn [dstep] in S.
    - destruct (W1 _ _ (or_introl eq_refl)) as (B1 & _). assert (NF : numbered (i32 fn)) by (exists fn; auto). unfold packet in S.
      destruct (choose_ok c nd tr s fn now CK C U B1 (no_late_last _ _ _ _ _ _ NL) P) as (s1 & nd' & E & C1 & (S1 & N1) & _). rewrite E in S.
      assert (B' : forall e, In e (d_map s1) -> numbered (fst e)).
      { unfold choose in E. destruct (_ =? _) in E; [injection E as <-; exact B|]. destruct (zm_get (d_map s) (i32 fn)) eqn:G in E.
        - destruct (legal_id _ _) in E; [|discriminate]. injection E as <-. exact B.
        - destruct (d_empty s) in E.
          + injection E as <-. destruct (d_dropping s); exact B.
          + destruct (legal_id _ _) in E; [|discriminate]. injection E as <-. cbn. intros e He. apply (Permutation_in e (zm_put_perm _ _ _ G)) in He. destruct He as [<-|He]; [exact NF|apply B, He]. }
      destruct (d_cur s1) as [q|] eqn:DC; [|discriminate]. cbn zeta in S. destruct (_ || _) in S; [discriminate|].
      set (b' := Buffer _ _) in *. set (s2 := set_mem _ _) in *. assert (V : d_map s2 = d_map s1 /\ d_dropping s2 = d_dropping s1) by (subst s2; unfold count_packet; destruct (d_dropping s1); auto).
      destruct V as (V & V2). clearbody s2. destruct (_ && _) eqn:F in S; apply ret_inv in S as (-> & ->).
      + split.
        * intros x [<-|[]]. cbn. destruct N1 as [(_ & N2)|(id & N1 & N2 & N3)].
          -- exfalso. apply andb_true_iff in F as (_ & F). rewrite V2, N2 in F. discriminate.
          -- destruct (k_frames _ _ _ _ C1 fn B1) as (ch & rs & _ & _ & _ & K). rewrite N3 in K. destruct K as (K & _). assert (q = Shared id) by congruence. subst q.
             rewrite (ho_frame _ _ _ _ K). exact NF.
        * cbn. rewrite V. intros e He. unfold zm_del in He. apply filter_In in He. apply B', He.
      + split; [intros x []|]. rewrite V. exact B'.
    - apply ret_inv in S as (-> & ->). split; [intros x []|exact B].
    - destruct (monitor_frames _ _ _ _ _ _ _ B S) as (X & Y). split; [intros x Hx; destruct (X x Hx) as [[]|]; auto|]. intros e He. apply B, Y, He.
    - apply ret_inv in S as (-> & ->). split; [intros x []|exact B].
    - apply ret_inv in S as (-> & ->). split; [intros x []|exact B]. }
  destruct Q as (Q1 & Q2). split; [|exact Q2]. intros x Hx. apply in_app_or in Hx as [Hx|Hx]; auto.
Qed.

(** ** Filling in lost packets *)
Definition gap (b : buf) (o : Z) : bool :=
  existsb (fun n => let i := Z.of_nat n in negb (h_pstate (b_hdr b) i) && ((h_psize (b_hdr b) * i <=? o) && (o <? h_psize (b_hdr b) * i + h_psize (b_hdr b)))) (seq 0 (Z.to_nat (h_expected (b_hdr b)))).
Definition filled (b : buf) (o : Z) : Z := if (0 <? i32 (wrap32 (h_expected (b_hdr b) - h_received (b_hdr b)))) && gap b o then 0 else b_data b o.

Lemma zero_data h n : forall i d l o, 0 <= i ->
  fst (zero_missing h i n d l) o =
  if existsb (fun m => let j := Z.of_nat m in negb (h_pstate h j) && ((h_psize h * j <=? o) && (o <? h_psize h * j + h_psize h))) (seq (Z.to_nat i) n) then 0 else d o.
Proof.
  induction n as [|n IH]; intros i d l o Hi; [reflexivity|]. cbn [zero_missing seq existsb]. rewrite Z2Nat.id by lia. cbn zeta.
  replace (S (Z.to_nat i)) with (Z.to_nat (i + 1)) by lia. destruct (h_pstate h i) eqn:P; cbn [negb andb orb]; rewrite IH by lia; [reflexivity|].
  destruct (existsb _ _); [rewrite orb_true_r; reflexivity|]. rewrite orb_false_r. reflexivity.
Qed.
Lemma process_lost_data b o : b_data (fst (process_lost b)) o = filled b o.
Proof.
  unfold process_lost, filled, gap. destruct (0 <? _); [|reflexivity]. cbn [andb].
  pose proof (zero_data (b_hdr b) (Z.to_nat (h_expected (b_hdr b))) 0 (b_data b) 0 o (Z.le_refl 0)) as X.
  destruct (zero_missing _ _ _ _ _) as [d l]. exact X.
Qed.
Lemma process_lost_hdr b : b_hdr (fst (process_lost b)) = b_hdr b.
Proof. unfold process_lost. destruct (0 <? _); [|reflexivity]. destruct (zero_missing _ _ _ _ _). reflexivity. Qed.

Definition same (a b : buf) : Prop := b_hdr a = b_hdr b /\ forall o, filled a o = filled b o.
Lemma same_refl b : same b b. Proof. split; reflexivity. Qed.
Lemma same_fill a b : same a b -> same (fst (process_lost a)) b.
Proof.
  intros (H & F). split; [rewrite process_lost_hdr; exact H|]. intros o. rewrite <- F. unfold filled at 1. unfold gap. rewrite process_lost_hdr, process_lost_data. fold (gap a o).
  unfold filled. destruct ((0 <? _) && gap a o) eqn:E; reflexivity.
Qed.

(** ** What the frame processor holds and pushes *)
Record made (c : cfg) (s : sys) : Prop := Made {
  m_ready : forall x, In x (y_ready s) -> In x (flat_map snd (y_trace s));
  m_held : forall h, In h (y_held s) -> exists x, In x (flat_map snd (y_trace s)) /\ r_id x = o_id h /\ r_frame x = o_frame h /\ same (o_buf h) (r_buf x);
  m_out : forall k img, In (k, img) (y_out s) -> exists x size, In x (flat_map snd (y_trace s)) /\ h_frame (b_hdr (r_buf x)) = k /\ 0 <= size <= ppf c * psize c /\
    img = map (fun n => filled (r_buf x) (Z.of_nat n)) (seq 0 (Z.to_nat size)) }.

Lemma made_dec c o s s' : made c s -> dec_step c o s = Ret s' -> made c s'.
Proof.
  intros [A B D] H. unfold dec_step in H. destruct (dstep c o (y_dec s)) as [[d r]| |]; try discriminate. injection H as <-.
  assert (I : forall x, In x (flat_map snd (y_trace s)) -> In x (flat_map snd (y_trace s ++ [(o, r)]))) by (intros x Hx; rewrite flat_map_app; apply in_or_app; auto).
  constructor; cbn.
  - intros x Hx. apply in_app_or in Hx as [Hx|Hx]; [apply I, A, Hx|]. rewrite flat_map_app. cbn. rewrite app_nil_r. apply in_or_app. auto.
  - intros h Hh. destruct (B h Hh) as (x & X & Y). exists x. auto.
  - intros k img Ho. destruct (D k img Ho) as (x & size & X & Y). exists x, size. auto.
Qed.
Lemma made_push c l : forall s s', made c s -> push_all c l s = Ret s' -> made c s'.
Proof.
  induction l as [|i l IH]; intros s s' M H; cbn [push_all] in H; [injection H as <-; exact M|].
  destruct (dec_step c (Push i) s) as [s1| |] eqn:E; try discriminate. apply (IH s1 s'); [exact (made_dec _ _ _ _ M E)|exact H].
Qed.
Lemma made_sub c s s1 : made c s -> y_trace s1 = y_trace s -> (forall x, In x (y_ready s1) -> In x (y_ready s)) ->
  (forall h, In h (y_held s1) -> exists h', In h' (y_held s) /\ o_id h' = o_id h /\ o_frame h' = o_frame h /\ (same (o_buf h') (r_buf (Ready 0 0 (o_buf h'))) -> o_buf h = o_buf h' \/ o_buf h = fst (process_lost (o_buf h')))) ->
  y_out s1 = y_out s -> made c s1.
Proof.
  intros [A B D] V1 V2 V3 V4. constructor; rewrite ?V1, ?V4; auto.
  intros h Hh. destruct (V3 h Hh) as (h' & I & E1 & E2 & E3). destruct (B h' I) as (x & X1 & X2 & X3 & X4). exists x. rewrite <- E1, <- E2. repeat (split; [assumption|]).
  destruct (E3 (same_refl _)) as [->| ->]; [exact X4|apply same_fill, X4].
Qed.

Lemma made_step c mem k o s s' : loop c mem k none (d_mem (y_dec s)) s -> match o with YWrite _ _ => False | _ => True end -> made c s -> ystep c o s = Ret s' -> made c s'.
Proof.
  intros L NW M H. destruct o as [|fn fl p t|t| | | |n|j|j|j b|j w ht]; cbn [ystep] in H; try contradiction.
  - injection H as <-. destruct (d_empty (y_dec s)); [|exact M]. destruct M. constructor; auto.
  - exact (made_dec _ _ _ _ M H).
  - exact (made_dec _ _ _ _ M H).
  - exact (made_dec _ _ _ _ M H).
  - destruct (y_back s) as [|[|id] t]; [injection H as <-; exact M| |].
    + eapply made_push; [|exact H]. destruct M. constructor; auto.
    + eapply made_dec; [|exact H]. destruct M. constructor; auto.
  - injection H as <-. destruct M. constructor; auto.
  - destruct (y_ready s) as [|x t] eqn:RY; [injection H as <-; exact M|]. destruct M as [A B D].
    assert (A' : forall y, In y t -> In y (flat_map snd (y_trace s))) by (intros y Hy; apply A; rewrite RY; right; exact Hy).
    destruct (y_conf s); [|injection H as <-; constructor; auto]. destruct (legal_id _ _); [|discriminate]. destruct n; injection H as <-; constructor; cbn; auto.
    intros h Hh. apply in_app_or in Hh as [Hh|[<-|[]]]; [apply B, Hh|]. exists x. cbn. split; [apply A; rewrite RY; left; reflexivity|]. repeat split; reflexivity.
  - injection H as <-. destruct (nth_error (y_held s) j) as [h|] eqn:NE; [|exact M]. eapply made_sub; try exact M; auto. cbn. intros z Hz.
    apply set_at_in in Hz as [->|Hz]; [exists h; cbn; repeat split; auto; eapply nth_error_In, NE|exists z; auto].
  - injection H as <-. destruct (nth_error (y_held s) j) as [h|] eqn:NE; [|exact M]. destruct (o_refs h) as [|[|n]]; eapply made_sub; try exact M; auto; cbn; intros z Hz.
    + apply del_at_in in Hz. exists z. auto.
    + apply del_at_in in Hz. exists z. auto.
    + apply set_at_in in Hz as [->|Hz]; [exists h; cbn; repeat split; auto; eapply nth_error_In, NE|exists z; auto].
  - destruct (nth_error (y_held s) j) as [h|] eqn:NE; [|injection H as <-; exact M]. assert (IH : In h (y_held s)) by (eapply nth_error_In, NE).
    rewrite (l_held _ _ _ _ _ _ L h IH) in H. unfold process_frame in H. destruct (process_lost (o_buf h)) as [b n] eqn:PL.
    destruct (_ && _) eqn:G in H; [|discriminate]. eapply made_dec; [|exact H].
    assert (M1 : made c (set_held (set_at j (Held (o_id h) (o_frame h) (o_refs h) b) (y_held s)) s)).
    { eapply made_sub; try exact M; auto. cbn. intros z Hz. apply set_at_in in Hz as [->|Hz]; [|exists z; auto]. exists h. cbn. repeat split; auto. intros _. right. rewrite PL. reflexivity. }
    destruct M1 as [A B D]. constructor; cbn in *; auto. intros k0 img Ho. apply in_app_or in Ho as [Ho|[[= <- <-]|[]]]; [apply D, Ho|].
    destruct (m_held _ _ M h IH) as (x & X1 & X2 & X3 & X4). exists x, (w * ht * 2). split; [exact X1|]. rewrite !andb_true_iff in G. destruct G as ((_ & G1) & G2).
    split; [rewrite <- (proj1 X4); reflexivity|]. split; [lia|]. apply map_ext. intros m. rewrite <- (proj2 X4), <- process_lost_data, PL. reflexivity.
Qed.
Lemma made_run c mem ops s : cfg_ok c -> yrun c mem ops s -> (starts ops <= 1)%nat -> wf (y_trace s) -> no_late (y_trace s) -> writes ops = 0%nat -> made c s.
Proof.
  intros CK. induction 1 as [|ops s o s' R IH S]; intros K1 W NL NW; [constructor; cbn; tauto|].
  destruct (ystep_trace _ _ _ _ S) as (t & T). rewrite T in W, NL. apply wf_app in W as (W & _). apply late_app in NL. rewrite starts_app in K1.
  unfold writes in *. rewrite filter_app, app_length in NW. assert (NW1 : match o with YWrite _ _ => False | _ => True end) by (destruct o; auto; cbn in NW; lia).
  eapply (made_step c mem (starts ops) o s s'); auto; [apply loop_run; auto; lia|apply IH; auto; lia].
Qed.
