From Coq Require Import Permutation.
From Verif Require Import Base DecModel DecSpec DecProofs DecInv LoopModel LoopSpec.
Local Open Scope Z_scope.

(** ** One step of the decoder *)
Lemma inside_in s id : inside s id = 0%nat <-> ~ In id (d_empty s) /\ ~ In id (map snd (d_map s)).
Proof. unfold inside. rewrite <- count_occ_not_In, in_app_iff. tauto. Qed.

Lemma packet_mem c fn fl p now s s' r : packet c fn fl p now s = Ret (s', r) ->
  (fn = wrap32 (d_seen s) -> match d_cur s with Some (Shared id) => In id (map snd (d_map s)) /\ d_curid s = id | Some Scratch => d_dropping s = true | None => True end) ->
  (forall id, inside s id = 0%nat -> d_mem s' (Shared id) = d_mem s (Shared id)) /\ (forall x, In x r -> d_mem s' (Shared (r_id x)) = r_buf x).
Proof.
  intros H PRE. unfold packet in H. destruct (choose c fn now s) as [s1| |] eqn:E; try discriminate. destruct (d_cur s1) as [q|] eqn:Q; [|discriminate].
  assert (X : (forall id, inside s id = 0%nat -> d_mem s1 (Shared id) = d_mem s (Shared id) /\ q <> Shared id) /\ (q = Scratch -> d_dropping s1 = true) /\ (forall id, q = Shared id -> d_curid s1 = id)).
  { unfold choose in E. destruct (Z.eqb_spec fn (wrap32 (d_seen s))) as [F|F] in E.
    - injection E as <-. specialize (PRE F). rewrite Q in PRE. destruct q as [|i]; (split; [|split]); try congruence.
      + intros id I. split; congruence.
      + intros id I. split; [reflexivity|]. intros [= ->]. apply inside_in in I. tauto.
      + intros id [= ->]. tauto.
    - destruct (zm_get (d_map s) (i32 fn)) as [i|] eqn:G in E.
      + destruct (legal_id _ _) in E; [|discriminate]. injection E as <-. cbn in *. injection Q as <-. split; [|split; congruence].
        intros id I. split; [reflexivity|]. intros [= ->]. apply inside_in in I as (_ & I). apply I. apply zm_get_in in G. apply (in_map snd) in G. exact G.
      + destruct (d_empty s) as [|i rest] eqn:DE in E.
        * injection E as <-. cbn in *. injection Q as <-. split; [|split; congruence]. intros id I. split; [reflexivity|discriminate].
        * destruct (legal_id _ _) in E; [|discriminate]. injection E as <-. cbn in *. injection Q as <-. split; [|split; congruence].
          intros id I. apply inside_in in I as (I & _). rewrite DE in I. cbn in I. unfold upd_mem. cbn. destruct (Z.eqb_spec id i) as [->|N]; [tauto|]. split; [reflexivity|congruence]. }
  destruct X as (X1 & X2 & X3). cbn zeta in H. destruct (_ || _) in H; [discriminate|].
  set (b' := Buffer _ _) in *. set (s2 := set_mem _ _) in *.
  assert (M : d_mem s2 = upd_mem (d_mem s1) q b' /\ d_curid s2 = d_curid s1 /\ d_dropping s2 = d_dropping s1) by (subst s2; unfold count_packet; destruct (d_dropping s1); auto).
  destruct M as (M1 & M2 & M3). clearbody s2.
  assert (P1 : forall id, inside s id = 0%nat -> upd_mem (d_mem s1) q b' (Shared id) = d_mem s (Shared id)).
  { intros id I. destruct (X1 id I) as (Y1 & Y2). unfold upd_mem. destruct q as [|i]; cbn; [exact Y1|]. destruct (Z.eqb_spec id i); [congruence|exact Y1]. }
  destruct (_ && _) eqn:F in H; apply ret_inv in H as (-> & ->); cbn [d_mem set_cur set_queue]; rewrite M1; (split; [exact P1|]).
  - intros x [<-|[]]. cbn. rewrite M2. destruct q as [|i].
    + exfalso. apply andb_true_iff in F as (_ & F). rewrite M3, (X2 eq_refl) in F. discriminate.
    + rewrite (X3 i eq_refl). unfold upd_mem. cbn. rewrite Z.eqb_refl. reflexivity.
  - intros x [].
Qed.

Lemma monitor_mem c now l : NoDup (map snd l) -> forall s out s' r, monitor_loop c now l s out = Ret (s', r) ->
  (forall q, (forall id, q = Shared id -> ~ In id (map snd l)) -> d_mem s' q = d_mem s q) /\
  (forall x, In x r -> In x out \/ (In (r_id x) (map snd l) /\ d_mem s' (Shared (r_id x)) = r_buf x)).
Proof.
  induction l as [|[fn id] l IH]; intros ND s out s' r H; cbn [monitor_loop] in H.
  - apply ret_inv in H as (-> & ->). auto.
  - destruct (legal_id c id); [|discriminate]. cbn [map snd] in *. inversion ND as [|? ? NI ND']; subst. destruct (_ <? _) in H.
    + destruct (IH ND' _ _ _ _ H) as (A & B). cbn [d_mem] in *. split.
      * intros q Hq. rewrite A by (intros i E I; apply (Hq i E); right; exact I). unfold upd_mem. destruct q as [|i]; cbn; [reflexivity|]. destruct (Z.eqb_spec i id) as [->|]; [|reflexivity].
        exfalso. apply (Hq id eq_refl). left. reflexivity.
      * intros x Hx. destruct (B x Hx) as [X|(X1 & X2)]; [|right; split; [right; exact X1|exact X2]]. apply in_app_or in X as [X|[<-|[]]]; [left; exact X|]. right. cbn.
        split; [left; reflexivity|]. rewrite A by (intros i [= <-]; exact NI). unfold upd_mem. cbn. rewrite Z.eqb_refl. reflexivity.
    + destruct (IH ND' _ _ _ _ H) as (A & B). split.
      * intros q Hq. apply A. intros i E I. apply (Hq i E). right. exact I.
      * intros x Hx. destruct (B x Hx) as [X|(X1 & X2)]; [auto|right; split; [right; exact X1|exact X2]].
Qed.

Lemma core_nodup c nd tr s : core c nd tr s -> NoDup (map snd (d_map s)).
Proof. intros C. apply (NoDup_count_occ Z.eq_dec). intros i. destruct (k_tok _ _ _ _ C i) as (_ & T). unfold inside in T. rewrite count_app in T. lia. Qed.

Definition pushed (o : dop) (id : Z) : nat := match o with Push i => if Z.eq_dec i id then 1 else 0 | _ => 0 end.
Lemma dec_moves c mem tr s o s' r : cfg_ok c -> drun c mem tr s -> wf (tr ++ [(o, r)]) -> env_ok c (tr ++ [(o, r)]) -> no_late (tr ++ [(o, r)]) -> dstep c o s = Ret (s', r) ->
  (forall id, (inside s' id + count_occ Z.eq_dec (map r_id r) id = inside s id + pushed o id)%nat) /\
  (forall id, inside s id = 0%nat -> match o with Touch i b => d_mem s' (Shared id) = if id =? i then b else d_mem s (Shared id) | _ => d_mem s' (Shared id) = d_mem s (Shared id) end) /\
  (forall x, In x r -> d_mem s' (Shared (r_id x)) = r_buf x).
Proof.
  intros CK R W EN NL S. assert (R' : drun c mem (tr ++ [(o, r)]) s') by (econstructor; eassumption).
  destruct (run_inv _ _ _ _ CK R' W EN NL) as (nd' & C' & _). pose proof W as W0. apply wf_app in W as (W & W1).
  destruct (run_inv _ _ _ _ CK R W (env_app _ _ _ EN) (late_app _ _ NL)) as (nd & C & U & P & _). split.
  - intros id. destruct (k_tok _ _ _ _ C id) as (T & _). destruct (k_tok _ _ _ _ C' id) as (T' & _). rewrite readys_app, pushes_app in T'.
    unfold readys at 2, pushes at 2 in T'. cbn [flat_map snd fst app] in T'. rewrite !app_nil_r in T'.
    assert (Y : count_occ Z.eq_dec (match o with Push i => [i] | _ => [] end) id = pushed o id) by (destruct o; reflexivity). lia.
  - destruct o as [fn fl p now|i|now|i b|]; cbn [dstep] in S.
    + apply (packet_mem _ _ _ _ _ _ _ _ S). intros F. destruct (W1 _ _ (or_introl eq_refl)) as (B1 & _).
      destruct U as [U|(tr1 & fn0 & fl0 & p0 & t & r0 & mid & T & M & R0 & S0 & U)].
      * exfalso. rewrite U in F. change (wrap32 (-1)) with (2 ^ 32 - 1) in F. lia.
      * assert (fn = fn0) by (rewrite S0, wrap_i32 in F by lia; exact F). subst fn0. destruct U as [(U1 & U2)|[(id & U1 & U2 & U3)|U]].
        -- rewrite U1. exact U2.
        -- rewrite U1. split; [|exact U2]. apply zm_get_in in U3. apply (in_map snd) in U3. exact U3.
        -- exfalso. eapply (no_late_last _ _ _ _ _ _ NL); eassumption.
    + apply ret_inv in S as (-> & ->). split; [reflexivity|intros x []].
    + destruct (monitor_mem _ _ _ (core_nodup _ _ _ _ C) _ _ _ _ S) as (A & B). split.
      * intros id I. apply A. intros ? [= <-]. apply inside_in in I. apply I.
      * intros x Hx. destruct (B x Hx) as [[]|(_ & X)]. exact X.
    + apply ret_inv in S as (-> & ->). split; [|intros x []]. intros id _. reflexivity.
    + apply ret_inv in S as (-> & ->). split; [reflexivity|intros x []].
Qed.

(** ** Invariant of the system *)
Definition count (id : Z) (l : list Z) : nat := count_occ Z.eq_dec l id.
Arguments count : simpl never.
Lemma count_cons id x l : count id (x :: l) = ((if Z.eq_dec x id then 1 else 0) + count id l)%nat.
Proof. unfold count. cbn. destruct (Z.eq_dec x id); reflexivity. Qed.
Lemma count_nil id : count id [] = 0%nat. Proof. reflexivity. Qed.
Lemma count_app' id a b : (count id (a ++ b) = count id a + count id b)%nat. Proof. apply count_occ_app. Qed.
Definition back_ids (c : cfg) (l : list msg) : list Z := flat_map (fun m => match m with Pre => buffers c | Rel id => [id] end) l.
Arguments back_ids : simpl never.
Definition outside (c : cfg) (s : sys) (id : Z) : nat :=
  (count id (map r_id (y_ready s)) + count id (map o_id (y_held s)) + count id (back_ids c (y_back s)) + count id (y_lost s))%nat.
Lemma places_count c s id : count id (places c s) = (inside (y_dec s) id + outside c s id)%nat.
Proof. unfold places, outside, inside. rewrite !count_app', count_app. unfold count, back_ids. lia. Qed.

Definition one (c : cfg) (id : Z) : nat := if (0 <=? id) && (id <? num_buffers c) then 1%nat else 0%nat.
Lemma count_buffers c id : count id (buffers c) = one c id.
Proof.
  unfold count, buffers, one. assert (N : NoDup (map Z.of_nat (seq 0 (Z.to_nat (num_buffers c))))) by (apply FinFun.Injective_map_NoDup; [intros a b; lia|apply seq_NoDup]).
  pose proof (proj1 (NoDup_count_occ Z.eq_dec _) N id) as L. destruct ((0 <=? id) && (id <? num_buffers c)) eqn:E.
  - assert (I : In id (map Z.of_nat (seq 0 (Z.to_nat (num_buffers c))))). { apply in_map_iff. exists (Z.to_nat id). rewrite in_seq. lia. } apply (count_occ_In Z.eq_dec) in I. lia.
  - apply count_occ_not_In. intros I. apply in_map_iff in I as (n & <- & I). apply in_seq in I. lia.
Qed.

(** [k]: how many starts (0 or 1); [ex]: buffers in the hands of the receiver thread; [m]: the memory as others know it. *)
Record loop (c : cfg) (mem : place -> buf) (k : nat) (ex : Z -> nat) (m : place -> buf) (s : sys) : Prop := Loop {
  l_run : drun c mem (y_trace s) (y_dec s);
  l_env : env_ok c (y_trace s);
  l_one : forall id, (inside (y_dec s) id + outside c s id + ex id = k * one c id)%nat;
  l_ready : forall x, In x (y_ready s) -> m (Shared (r_id x)) = r_buf x;
  l_held : forall h, In h (y_held s) -> m (Shared (o_id h)) = o_buf h }.

Lemma one_le c id : (one c id <= 1)%nat. Proof. unfold one. destruct (_ && _); lia. Qed.
Lemma env_snoc c tr o r : env_ok c tr ->
  match o with Push id => 0 <= id < num_buffers c /\ pushes id tr = readys id tr | Touch id _ => pushes id tr = readys id tr | _ => True end ->
  env_ok c (tr ++ [(o, r)]).
Proof.
  intros E H tr1 o' r' tr2 X. destruct tr2 as [|e tr2] using rev_ind.
  - apply app_inj_tail in X as (-> & [= <- <-]). exact H.
  - clear IHtr2. rewrite app_comm_cons, app_assoc in X. apply app_inj_tail in X as (X & _). exact (E tr1 o' r' tr2 X).
Qed.
Lemma in_count {A} (f : A -> Z) l x : In x l -> (1 <= count (f x) (map f l))%nat.
Proof. intros H. apply (in_map f) in H. apply (count_occ_In Z.eq_dec) in H. unfold count. lia. Qed.

Lemma dec_step_loop c mem k ex m o s s' : cfg_ok c -> (k <= 1)%nat -> loop c mem k ex m s -> dec_step c o s = Ret s' -> wf (y_trace s') -> no_late (y_trace s') ->
  match o with
  | Push id => (1 <= ex id)%nat /\ m = d_mem (y_dec s)
  | Touch id b => (1 <= outside c s id)%nat /\ m = upd_mem (d_mem (y_dec s)) (Shared id) b
  | _ => m = d_mem (y_dec s)
  end ->
  loop c mem k (fun id => ex id - pushed o id)%nat (d_mem (y_dec s')) s' /\ y_held s' = y_held s /\ y_back s' = y_back s /\ y_lost s' = y_lost s /\ y_conf s' = y_conf s /\ y_out s' = y_out s /\
  y_plost s' = y_plost s /\ exists r, y_trace s' = y_trace s ++ [(o, r)] /\ y_ready s' = y_ready s ++ r /\ dstep c o (y_dec s) = Ret (y_dec s', r).
Proof.
  intros CK K1 [R EN ONE RD HD] H W NL PRE. unfold dec_step in H. destruct (dstep c o (y_dec s)) as [[d r]| |] eqn:S; try discriminate. injection H as <-. cbn in W, NL |- *.
  split; [|repeat split; auto; exists r; auto]. pose proof W as W0. apply wf_app in W0 as (W0 & _).
  destruct (run_inv _ _ _ _ CK R W0 EN (late_app _ _ NL)) as (nd & C & _).
  assert (EN' : env_ok c (y_trace s ++ [(o, r)])).
  { apply env_snoc; [exact EN|]. destruct o as [fn fl p now|id|now|id b|]; auto.
    - destruct PRE as (PRE & _). specialize (ONE id). pose proof (one_le c id). destruct (k_tok _ _ _ _ C id) as (T & _). split.
      + unfold one in *. destruct ((0 <=? id) && (id <? num_buffers c)) eqn:E; [lia|]. destruct k; lia.
      + destruct k; cbn in ONE; lia.
    - destruct PRE as (PRE & _). specialize (ONE id). pose proof (one_le c id). destruct (k_tok _ _ _ _ C id) as (T & _). destruct k; cbn in ONE; lia. }
  destruct (dec_moves _ _ _ _ _ _ _ CK R W EN' NL S) as (M1 & M2 & M3).
  assert (MM : forall id, (1 <= outside c s id)%nat -> d_mem d (Shared id) = m (Shared id)).
  { intros id I. specialize (ONE id). pose proof (one_le c id). assert (Z0 : inside (y_dec s) id = 0%nat) by (destruct k; cbn in ONE; lia). specialize (M2 id Z0).
    destruct o as [fn fl p now|i|now|i b|]; try (rewrite M2; try destruct PRE as (_ & PRE); rewrite PRE; reflexivity). }
  constructor; cbn.
  - econstructor; eassumption.
  - exact EN'.
  - intros id. specialize (M1 id). specialize (ONE id). unfold outside in *. cbn. rewrite map_app, count_app'. unfold count in *.
    assert (pushed o id <= ex id)%nat. { destruct o as [fn fl p now|i|now|i b|]; cbn; try lia. destruct (Z.eq_dec i id) as [<-|]; [apply PRE|lia]. } lia.
  - intros x Hx. apply in_app_or in Hx as [Hx|Hx]; [|apply M3, Hx]. rewrite MM; [apply RD, Hx|]. unfold outside. apply (in_count r_id) in Hx. lia.
  - intros h Hh. rewrite MM; [apply HD, Hh|]. unfold outside. apply (in_count o_id) in Hh. lia.
Qed.

Lemma push_all_trace c l : forall s s', push_all c l s = Ret s' -> exists t, y_trace s' = y_trace s ++ t.
Proof.
  induction l as [|i l IH]; intros s s' H; cbn in H; [injection H as <-; exists []; rewrite app_nil_r; reflexivity|].
  destruct (IH _ _ H) as (t & ->). cbn. eexists. rewrite <- app_assoc. reflexivity.
Qed.
Lemma push_all_loop c mem k l : cfg_ok c -> (k <= 1)%nat -> forall ex s s', loop c mem k ex (d_mem (y_dec s)) s -> (forall id, ex id = count id l) -> push_all c l s = Ret s' ->
  wf (y_trace s') -> no_late (y_trace s') ->
  loop c mem k (fun _ => 0%nat) (d_mem (y_dec s')) s' /\ y_held s' = y_held s /\ y_back s' = y_back s /\ y_lost s' = y_lost s /\ y_conf s' = y_conf s /\ y_out s' = y_out s /\ y_ready s' = y_ready s /\ y_plost s' = y_plost s /\
    flat_map snd (y_trace s') = flat_map snd (y_trace s).
Proof.
  intros CK K1. induction l as [|i l IH]; intros ex s s' L EX H W NL; cbn [push_all] in H.
  - injection H as <-. repeat split; auto; destruct L; auto. intros id. rewrite <- (l_one0 id), EX. unfold count. cbn. lia.
  - destruct (dec_step c (Push i) s) as [s1| |] eqn:E; try discriminate. destruct (push_all_trace _ _ _ _ H) as (t & T). rewrite T in W, NL. apply wf_app in W as (W1 & W2).
    destruct (dec_step_loop c mem k ex _ (Push i) s s1 CK K1 L E W1 (late_app _ _ NL)) as (L1 & A1 & A2 & A3 & A4 & A5 & A6 & r & A7 & A8 & A9).
    { split; [|reflexivity]. rewrite EX, count_cons. destruct (Z.eq_dec i i); [lia|congruence]. }
    cbn in A9. apply ret_inv in A9 as (_ & ->). rewrite app_nil_r in A8.
    destruct (IH _ _ s' L1) as (B & B1 & B2 & B3 & B4 & B5 & B6 & B7 & B8); [|exact H| | |].
    + intros id. rewrite EX, count_cons. cbn. destruct (Z.eq_dec i id); lia.
    + rewrite T. apply wf_app. auto.
    + rewrite T. exact NL.
    + split; [exact B|]. rewrite B8, A7, flat_map_app. cbn. rewrite app_nil_r. repeat split; congruence.
Qed.

Lemma set_at_map {A B} (f : A -> B) j x y l : nth_error l j = Some y -> f x = f y -> map f (set_at j x l) = map f l.
Proof. revert j. induction l as [|a l IH]; intros [|j]; cbn; try discriminate; intros H E; [injection H as ->; rewrite E; reflexivity|]. rewrite (IH j H E). reflexivity. Qed.
Lemma set_at_in {A} j (x : A) l y : In y (set_at j x l) -> y = x \/ In y l.
Proof. revert j. induction l as [|a l IH]; intros [|j]; cbn; try tauto. - intros [<-|H]; auto. - intros [<-|H]; auto. apply IH in H. tauto. Qed.
Lemma del_at_in {A} j l (y : A) : In y (del_at j l) -> In y l.
Proof. revert j. induction l as [|a l IH]; intros [|j]; cbn; auto. intros [<-|H]; auto. apply IH in H. tauto. Qed.
Lemma del_at_count {A} (f : A -> Z) j l y id : nth_error l j = Some y -> (count id (map f l) = count id (map f (del_at j l)) + count id [f y])%nat.
Proof.
  revert j. induction l as [|a l IH]; intros [|j]; cbn [nth_error del_at map]; try discriminate.
  - intros [= ->]. rewrite !count_cons. unfold count at 3. cbn. lia.
  - intros H. specialize (IH j H). rewrite !(count_cons id (f a)). lia.
Qed.
Lemma set_at_others {A B} (f : A -> B) j x y l : nth_error l j = Some y -> NoDup (map f l) -> f x = f y -> forall z, In z (set_at j x l) -> z = x \/ (In z l /\ f z <> f y).
Proof.
  revert j. induction l as [|a l IH]; intros [|j]; cbn; try discriminate; intros H ND E z Hz; inversion ND as [|? ? NI ND']; subst.
  - injection H as ->. destruct Hz as [<-|Hz]; [auto|]. right. split; [auto|]. intros F. apply NI. rewrite <- F. apply in_map, Hz.
  - destruct Hz as [<-|Hz].
    + right. split; [auto|]. intros F. apply NI. rewrite F. apply in_map. eapply nth_error_In, H.
    + destruct (IH j H ND' E z Hz) as [|(? & ?)]; auto.
Qed.

Definition none : Z -> nat := fun _ => 0%nat.
Lemma ystep_trace c o s s' : ystep c o s = Ret s' -> exists t, y_trace s' = y_trace s ++ t.
Proof.
  assert (T0 : exists t, y_trace s = y_trace s ++ t) by (exists []; rewrite app_nil_r; reflexivity).
  assert (D : forall o' s1, y_trace s1 = y_trace s -> dec_step c o' s1 = Ret s' -> exists t, y_trace s' = y_trace s ++ t).
  { intros o' s1 E H. unfold dec_step in H. destruct (dstep c o' (y_dec s1)) as [[d r]| |]; try discriminate. injection H as <-. cbn. rewrite E. eauto. }
  destruct o as [|fn fl p t|t| | | |n|j|j|j b|j w ht]; cbn [ystep]; intros H.
  - injection H as <-. destruct (d_empty (y_dec s)); exact T0.
  - exact (D _ s eq_refl H).
  - exact (D _ s eq_refl H).
  - exact (D _ s eq_refl H).
  - destruct (y_back s) as [|[|id] t]; [injection H as <-; exact T0|destruct (push_all_trace _ _ _ _ H) as (u & ->); cbn; eauto|].
    exact (D (Push id) (set_back t s) eq_refl H).
  - injection H as <-. exact T0.
  - destruct (y_ready s); [injection H as <-; exact T0|]. destruct (y_conf s); [|injection H as <-; exact T0]. destruct (legal_id _ _); [|discriminate]. destruct n; injection H as <-; exact T0.
  - injection H as <-. destruct (nth_error _ _); exact T0.
  - injection H as <-. destruct (nth_error _ _) as [h|]; [|exact T0]. destruct (o_refs h) as [|[|]]; exact T0.
  - destruct (nth_error _ _) as [h|]; [|injection H as <-; exact T0]. exact (D (Touch (o_id h) b) (set_held (set_at j (Held (o_id h) (o_frame h) (o_refs h) b) (y_held s)) s) eq_refl H).
  - destruct (nth_error _ _) as [h|]; [|injection H as <-; exact T0]. destruct (process_frame _ _ _ _) as [[[b n] out]| |]; try discriminate.
    exact (D (Touch (o_id h) b) (add_out out n (set_held (set_at j (Held (o_id h) (o_frame h) (o_refs h) b) (y_held s)) s)) eq_refl H).
Qed.

Lemma held_nodup c mem k ex m s : (k <= 1)%nat -> loop c mem k ex m s -> NoDup (map o_id (y_held s)).
Proof.
  intros K1 [R EN ONE RD HD]. apply (NoDup_count_occ Z.eq_dec). intros id. specialize (ONE id). pose proof (one_le c id). unfold outside, count in ONE. destruct k; cbn in ONE; lia.
Qed.
Lemma back_pre c l : back_ids c (Pre :: l) = buffers c ++ back_ids c l. Proof. reflexivity. Qed.
Lemma back_rel c i l : back_ids c (Rel i :: l) = i :: back_ids c l. Proof. reflexivity. Qed.
Lemma back_one c m : back_ids c [m] = match m with Pre => buffers c | Rel id => [id] end. Proof. destruct m; unfold back_ids; cbn; [apply app_nil_r|reflexivity]. Qed.
Lemma back_app c a b : back_ids c (a ++ b) = back_ids c a ++ back_ids c b. Proof. apply flat_map_app. Qed.

(** Writing into a held frame. *)
Lemma touch_loop c mem k s h j b sh s' : cfg_ok c -> (k <= 1)%nat -> loop c mem k none (d_mem (y_dec s)) s -> nth_error (y_held s) j = Some h ->
  y_dec sh = y_dec s -> y_trace sh = y_trace s -> y_ready sh = y_ready s -> y_back sh = y_back s -> y_lost sh = y_lost s ->
  y_held sh = set_at j (Held (o_id h) (o_frame h) (o_refs h) b) (y_held s) ->
  dec_step c (Touch (o_id h) b) sh = Ret s' -> wf (y_trace s') -> no_late (y_trace s') -> loop c mem k none (d_mem (y_dec s')) s'.
Proof.
  intros CK K1 L NE V1 V2 V3 V4 V5 V6 H W NL. pose proof (held_nodup _ _ _ _ _ _ K1 L) as ND.
  assert (IH : In h (y_held s)) by (eapply nth_error_In, NE).
  assert (OUT : (1 <= outside c s (o_id h))%nat) by (unfold outside; apply (in_count o_id) in IH; lia).
  assert (EQ : forall id, outside c sh id = outside c s id). { intros id. unfold outside. rewrite V3, V4, V5, V6. rewrite (set_at_map o_id j _ h _ NE) by reflexivity. reflexivity. }
  assert (L' : loop c mem k none (upd_mem (d_mem (y_dec sh)) (Shared (o_id h)) b) sh).
  { destruct L as [R EN ONE RD HD]. constructor.
    - rewrite V1, V2. exact R.
    - rewrite V2. exact EN.
    - intros id. rewrite EQ, V1. apply ONE.
    - rewrite V3, V1. intros x Hx. unfold upd_mem. cbn. destruct (Z.eqb_spec (r_id x) (o_id h)) as [E|]; [|apply RD, Hx].
      exfalso. specialize (ONE (o_id h)). unfold outside in ONE. apply (in_count r_id) in Hx. rewrite E in Hx. apply (in_count o_id) in IH. pose proof (one_le c (o_id h)). destruct k; cbn in ONE; lia.
    - rewrite V6, V1. intros x Hx. unfold upd_mem. cbn. destruct (set_at_others o_id j (Held (o_id h) (o_frame h) (o_refs h) b) h _ NE ND eq_refl x Hx) as [->|(I & N)].
      + cbn. rewrite Z.eqb_refl. reflexivity.
      + destruct (Z.eqb_spec (o_id x) (o_id h)); [congruence|]. apply HD, I. }
  destruct (dec_step_loop c mem k none _ (Touch (o_id h) b) sh s' CK K1 L' H W NL) as (L2 & _).
  { rewrite EQ. split; [exact OUT|reflexivity]. }
  exact L2.
Qed.

Lemma ystep_loop c mem k o s s' : cfg_ok c -> (k + (match o with YStart => 1 | _ => 0 end) <= 1)%nat -> loop c mem k none (d_mem (y_dec s)) s -> ystep c o s = Ret s' -> wf (y_trace s') -> no_late (y_trace s') ->
  loop c mem (k + (match o with YStart => 1 | _ => 0 end))%nat none (d_mem (y_dec s')) s'.
Proof.
  intros CK K1 L H W NL.
  assert (DS : forall o', (forall id, pushed o' id = 0%nat) -> (match o' with Push _ | Touch _ _ => False | _ => True end) -> dec_step c o' s = Ret s' -> loop c mem k none (d_mem (y_dec s')) s').
  { intros o' PZ NP H'. destruct (dec_step_loop c mem k none _ o' s s' CK ltac:(lia) L H' W NL) as (L2 & _).
    - destruct o'; auto; contradiction.
    - destruct L2 as [R EN ONE RD HD]. constructor; auto. }
  assert (SAME : forall s1, y_dec s1 = y_dec s -> y_trace s1 = y_trace s -> (forall id, outside c s1 id = outside c s id) -> y_ready s1 = y_ready s ->
    (forall h, In h (y_held s1) -> exists h', In h' (y_held s) /\ o_id h = o_id h' /\ o_buf h = o_buf h') -> loop c mem k none (d_mem (y_dec s1)) s1).
  { intros s1 V1 V2 V3 V4 V5. destruct L as [R EN ONE RD HD]. constructor; rewrite ?V1, ?V2, ?V4; auto.
    - intros id. rewrite V3. apply ONE.
    - intros h Hh. destruct (V5 h Hh) as (h' & A & -> & ->). apply HD, A. }
  destruct o as [|fn fl p t|t| | | |n|j|j|j b|j w ht]; cbn [ystep] in H; rewrite ?Nat.add_0_r in *.
  - destruct k; [|lia]. injection H as <-. destruct L as [R EN ONE RD HD].
    assert (DE : d_empty (y_dec s) = []). { destruct (d_empty (y_dec s)) as [|i l] eqn:E; [reflexivity|]. specialize (ONE i). unfold inside in ONE. rewrite E in ONE. cbn in ONE. destruct (Z.eq_dec i i); [lia|congruence]. }
    rewrite DE in *. constructor; auto. intros id. specialize (ONE id). unfold outside in *. cbn. rewrite back_app, count_app', back_one, count_buffers. cbn in ONE. unfold none in *. lia.
  - apply (DS (Packet fn fl p t)); cbn; auto.
  - apply (DS (Monitor t)); cbn; auto.
  - apply (DS ResetStats); cbn; auto.
  - destruct (y_back s) as [|[|id] t] eqn:B.
    + injection H as <-. exact L.
    + destruct (push_all_loop c mem k (buffers c) CK K1 (fun id => count id (buffers c)) (set_back t s) s') as (L2 & _); auto.
      destruct L as [R EN ONE RD HD]. constructor; auto. intros id. rewrite <- (ONE id). unfold outside. rewrite B, back_pre, count_app'. unfold none. cbn. lia.
    + destruct (dec_step_loop c mem k (fun i => count i [id]) (d_mem (y_dec s)) (Push id) (set_back t s) s' CK K1) as (L2 & _); auto.
      * destruct L as [R EN ONE RD HD]. constructor; auto. intros i. rewrite <- (ONE i). unfold outside. rewrite B, back_rel. cbn. rewrite (count_cons i id (back_ids c t)), (count_cons i id []), count_nil. unfold none; cbn. lia.
      * rewrite count_cons. destruct (Z.eq_dec id id); [|congruence]. split; [lia|reflexivity].
      * destruct L2 as [R EN ONE RD HD]. constructor; auto. intros i. rewrite <- (ONE i). rewrite count_cons. cbn. destruct (Z.eq_dec id i); unfold none, count; cbn; lia.
  - injection H as <-. apply SAME; auto. intros h Hh. exists h. auto.
  - destruct (y_ready s) as [|x t] eqn:RY; [injection H as <-; exact L|]. destruct L as [R EN ONE RD HD]. rewrite RY in RD.
    assert (CNT : forall id, (count id (map r_id (y_ready s)) = count id [r_id x] + count id (map r_id t))%nat) by (intros id; rewrite RY; cbn; rewrite (count_cons id (r_id x) (map r_id t)), (count_cons id (r_id x) []), count_nil; cbn; destruct (Z.eq_dec (r_id x) id); lia).
    destruct (y_conf s).
    + destruct (legal_id c (r_id x)); [|discriminate]. destruct n as [|n]; injection H as <-; constructor; cbn; auto.
      * intros id. specialize (ONE id). unfold outside in *. cbn. rewrite CNT in ONE. rewrite back_app, count_app', back_one. cbn in *. lia.
      * intros y Hy. apply RD. right. exact Hy.
      * intros id. specialize (ONE id). unfold outside in *. cbn. rewrite CNT in ONE. rewrite map_app, count_app'. cbn in *. lia.
      * intros y Hy. apply RD. right. exact Hy.
      * intros h Hh. apply in_app_or in Hh as [Hh|[<-|[]]]; [apply HD, Hh|]. cbn. apply RD. left. reflexivity.
    + injection H as <-. constructor; cbn; auto.
      * intros id. specialize (ONE id). unfold outside in *. cbn. rewrite CNT in ONE. rewrite count_app'. cbn in *. lia.
      * intros y Hy. apply RD. right. exact Hy.
  - injection H as <-. destruct (nth_error (y_held s) j) as [h|] eqn:NE; [|exact L]. apply SAME; auto.
    + intros id. unfold outside. cbn. rewrite (set_at_map o_id j _ h _ NE) by reflexivity. reflexivity.
    + cbn. intros z Hz. apply set_at_in in Hz as [->|Hz]; [exists h; split; [eapply nth_error_In, NE|auto]|exists z; auto].
  - injection H as <-. destruct (nth_error (y_held s) j) as [h|] eqn:NE; [|exact L].
    assert (DROP : loop c mem k none (d_mem (y_dec s)) (set_back (y_back s ++ [Rel (o_id h)]) (set_held (del_at j (y_held s)) s))).
    { refine (SAME (set_back (y_back s ++ [Rel (o_id h)]) (set_held (del_at j (y_held s)) s)) eq_refl eq_refl _ eq_refl _).
      - intros id. unfold outside. cbn. rewrite back_app, count_app', back_one, (del_at_count o_id _ _ _ id NE). cbn. lia.
      - cbn. intros z Hz. apply del_at_in in Hz. exists z. auto. }
    destruct (o_refs h) as [|[|n]]; [exact DROP|exact DROP|]. apply SAME; auto.
    + intros id. unfold outside. cbn. rewrite (set_at_map o_id j _ h _ NE) by reflexivity. reflexivity.
    + cbn. intros z Hz. apply set_at_in in Hz as [->|Hz]; [exists h; split; [eapply nth_error_In, NE|auto]|exists z; auto].
  - destruct (nth_error (y_held s) j) as [h|] eqn:NE; [|injection H as <-; exact L].
    refine (touch_loop c mem k s h j b _ s' CK K1 L NE _ _ _ _ _ _ H W NL); reflexivity.
  - destruct (nth_error (y_held s) j) as [h|] eqn:NE; [|injection H as <-; exact L]. destruct (process_frame _ _ _ _) as [[[b n] out]| |]; try discriminate.
    refine (touch_loop c mem k s h j b _ s' CK K1 L NE _ _ _ _ _ _ H W NL); reflexivity.
Qed.

Lemma starts_app a b : (starts (a ++ b) = starts a + starts b)%nat.
Proof. unfold starts. rewrite filter_app, app_length. reflexivity. Qed.
Lemma loop_run c mem ops s : cfg_ok c -> yrun c mem ops s -> (starts ops <= 1)%nat -> wf (y_trace s) -> no_late (y_trace s) -> loop c mem (starts ops) none (d_mem (y_dec s)) s.
Proof.
  intros CK. induction 1 as [|ops s o s' R IH S]; intros K1 W NL.
  - constructor; cbn; try tauto; [constructor|]. intros tr1 o r tr2 E. destruct tr1; discriminate.
  - destruct (ystep_trace _ _ _ _ S) as (t & T). rewrite T in W, NL. pose proof W as W'. apply wf_app in W' as (W1 & _). rewrite starts_app in *.
    assert (E : starts [o] = match o with YStart => 1%nat | _ => 0%nat end) by (destruct o; reflexivity). rewrite E in *.
    apply (ystep_loop c mem (starts ops) o s s' CK K1); auto; [apply IH; [lia|exact W1|apply late_app in NL; exact NL]| |]; rewrite T; assumption.
Qed.
