(** Frames through connected plugins: the order is that of one plugin after the other. *)
From Verif Require Import Base QueueModel PipeModel PipeSpec PipeProofs PipeOrder.

Section Net.
Context {S C : Type} (nt : net S C) (T : tree nt) (G : gentle nt) (frames : list (item C)).
Notation deep := (deep nt). Notation kids := (kids nt). Notation fed := (fed nt).
Notation count := (count_occ Nat.eq_dec).
Definition gets (z : pipe S C) (m : nat) (t : option nat) (l : list (item C)) : Prop :=
  (In m (p_roots nt) /\ t = None /\ l = frames) \/ exists p d h, In m (kids p) /\ deep p d h /\ t = Some h /\ l = for_k m (makes nt p (p_start nt p) (log z p)).
Lemma gets_fed z m t l : gets z m t l -> fed m t.
Proof. intros [(A & -> & _)|(p & d & h & A & B & -> & _)]; [left; split; [exact A|reflexivity]|right; exists p, d, h; repeat split; assumption]. Qed.
Lemma deep_fed m d h : deep m d h -> exists t, fed m t.
Proof.
  intros D. inversion D as [? I|p d1 t1 ? D1 I|p d1 t1 ? D1 I]; subst; [exists None; left; split; [exact I|reflexivity]|exists (Some t1); right; exists p, d1, t1; split; [apply kid_queued, I|split; [exact D1|reflexivity]]|exists (Some h); right; exists p, d1, h; split; [apply kid_blocking, I|split; [exact D1|reflexivity]]].
Qed.
Definition single (z : pipe S C) (m r : nat) (t : option nat) : Prop := count (pend z m t) r = 1 /\ forall m' t', fed m' t' -> m' <> m -> ~ In r (pend z m' t').
Record flow (z : pipe S C) : Prop := {
  f_state : forall m, st z m = after nt m (p_start nt m) (log z m);
  f_order : forall m t l, gets z m t l -> l = log z m ++ map (heap z) (pend z m t);
  f_old : forall m t r, fed m t -> In r (pend z m t) -> r < next z;
  f_one : forall m t r, fed m t -> In r (pend z m t) -> frozen nt m \/ single z m r t }.
Lemma frozen_kid m x : frozen nt m -> In x (kids m) -> frozen nt x.
Proof. intros H I k B. apply H. clear H. induction B as [|p k B IH J]; [apply b_kid with m; [apply b_self|exact I]|apply b_kid with p; assumption]. Qed.
Lemma frozen_callback m s i s1 i1 o : frozen nt m -> callback nt m s i = (s1, i1, o) -> i1 = i.
Proof.
  intros H. unfold callback. destruct i as [c|].
  - pose proof (H m (b_self nt m) s c) as P. destruct (p_process nt m s c) as ((s2 & c2) & o2). cbn in P. subst c2. intros E. injection E as <- <- <-. reflexivity.
  - destruct (p_finish nt m s) as (s2 & o2). intros E. injection E as <- <- <-. reflexivity.
Qed.
Lemma callback_sames m s i s1 i1 o : callback nt m s i = (s1, i1, o) -> (forall s c, sames (snd (p_process nt m s c)) <= 1) -> sames o <= 1.
Proof.
  unfold callback. destruct i as [c|]; intros E H.
  - pose proof (H s c) as P. destruct (p_process nt m s c) as ((s2 & c2) & o2). injection E as <- <- <-. exact P.
  - destruct (p_finish nt m s) as (s2 & o2). injection E as <- <- <-. unfold sames. rewrite filter_app, app_length. assert (Z : length (filter (fun o => match o_what o with Same => true | New _ => false end) (map (fun p : item C * option nat => Push (New (fst p)) (snd p)) o2)) = 0) by (induction o2 as [|a o2 IH]; [reflexivity|exact IH]). rewrite Z. cbn. lia.
Qed.
Lemma flow_same z z' : (forall m t, fed m t -> pend z' m t = pend z m t) -> st z' = st z -> log z' = log z -> heap z' = heap z -> next z' = next z -> flow z -> flow z'.
Proof.
  intros P E1 E2 E3 E4 H. constructor.
  - rewrite E1, E2. apply (f_state _ H).
  - intros m t l GT. pose proof (gets_fed _ _ _ _ GT) as F. rewrite E2, E3, (P _ _ F). apply (f_order _ H). unfold gets in *. rewrite E2 in GT. exact GT.
  - intros m t r F. rewrite (P _ _ F), E4. apply (f_old _ H _ _ _ F).
  - intros m t r F. rewrite (P _ _ F). intros I. destruct (f_one _ H _ _ _ F I) as [Z|(A & B)]; [left; exact Z|right]. split; [rewrite (P _ _ F); exact A|]. intros m' t' F' N. rewrite (P _ _ F'). apply B; assumption.
Qed.
Lemma flow_call z h m r k s1 i1 o n1 h1 l : thr z (Some h) = Call m r :: k -> callback nt m (st z m) (heap z r) = (s1, i1, o) -> place r (next z) (on (heap z) r i1) o = (n1, h1, l) -> threads nt z -> flow z ->
  flow (Pipe (on (st z) m s1) (on (log z) m (log z m ++ [heap z r])) (q z) h1 n1 (to_thread (thr z) (Some h) (flat_map (pushed nt m) l ++ Ret m :: k))).
Proof.
  intros E CB PL TH H. set (z' := Pipe _ _ _ _ _ _).
  destruct (called nt T _ _ _ _ _ E TH) as ((d & D) & _). destruct (deep_fed _ _ _ D) as (tm & FM).
  pose proof (call_self nt T z h m r k s1 n1 h1 l E TH tm FM) as PS. fold z' in PS.
  assert (PK : forall x, In x (kids m) -> fed x (Some h) /\ pend z' x (Some h) = pend z x (Some h) ++ refs_to x (flat_map (pushed nt m) l)) by (intros x I; apply (call_kid nt T z h m r k s1 n1 h1 l E TH x I)).
  assert (PO : forall x t, x <> m -> ~ In x (kids m) -> pend z' x t = pend z x t) by (intros x t; apply (call_other nt z h m r k s1 n1 h1 l E)).
  assert (RM : In r (pend z m tm)) by (rewrite PS; left; reflexivity). pose proof (f_old _ H _ _ _ FM RM) as RN.
  destruct (place_spec _ _ _ _ _ _ _ PL RN) as (Q1 & Q2 & Q3 & Q4 & Q5 & Q6). rewrite on_same in Q3.
  destruct (callback_alone nt _ _ _ _ _ _ CB) as (CA1 & CA2). rewrite (f_state _ H) in CA1, CA2.
  (* frames still on the way are as before *)
  assert (KEEP : forall r', r' < next z -> (r' = r -> frozen nt m) -> h1 r' = heap z r').
  { intros r' L Z. rewrite (Q2 _ L). destruct (Nat.eq_dec r' r) as [->|N]; [rewrite on_same; apply (frozen_callback _ _ _ _ _ _ (Z eq_refl) CB)|apply on_other, N]. }
  assert (KS : forall r', In r' (pend z' m tm) -> h1 r' = heap z r').
  { intros r' I. apply KEEP; [apply (f_old _ H _ _ _ FM); rewrite PS; right; exact I|]. intros ->. destruct (f_one _ H _ _ _ FM RM) as [Z|(Z & _)]; [exact Z|]. exfalso. rewrite PS, count_occ_cons_eq in Z by reflexivity. assert (count (pend z' m tm) r > 0) by (apply count_occ_In, I). lia. }
  assert (KX : forall x t r', x <> m -> fed x t -> In r' (pend z x t) -> h1 r' = heap z r').
  { intros x t r' N F I. apply KEEP; [apply (f_old _ H _ _ _ F I)|]. intros ->. destruct (f_one _ H _ _ _ FM RM) as [Z|(_ & Z)]; [exact Z|]. destruct (Z x t F N I). }
  assert (NK : forall x, In x (kids m) -> x <> m) by (intros x I; apply (kid_not_self nt T _ _ _ _ D I)).
  (* the frames that are sent *)
  assert (SENT : forall x, In x (kids m) -> map h1 (refs_to x (flat_map (pushed nt m) l)) = for_k x (snd (alone nt m (after nt m (p_start nt m) (log z m)) (heap z r)))).
  { intros x I. rewrite CA2, <- Q3, (refs_pushed nt T m x l I). unfold for_k. clear. induction l as [|(a & b) l IH]; [reflexivity|]. cbn. destruct b as [j|]; [destruct (Nat.eqb j x)|]; cbn; rewrite IH; reflexivity. }
  assert (NEW : forall x r', In r' (refs_to x (flat_map (pushed nt m) l)) -> (r' = r \/ next z <= r' < n1) /\ In x (kids m)).
  { intros x r' I. destruct (in_dec Nat.eq_dec x (kids m)) as [J|J]; [|rewrite (refs_pushed_none nt m x l J) in I; destruct I]. split; [|exact J]. apply Q4. rewrite (refs_pushed nt T m x l J) in I. apply in_map_iff in I as (p & <- & I). apply filter_In in I as (I & _). apply in_map, I. }
  (* what is on the way afterwards *)
  assert (PALL : forall x t r', fed x t -> In r' (pend z' x t) -> (In r' (pend z x t) /\ (x = m -> In r' (pend z' m tm))) \/ (In x (kids m) /\ t = Some h /\ In r' (refs_to x (flat_map (pushed nt m) l)))).
  { intros x t r' F I. destruct (Nat.eq_dec x m) as [->|N]; [left; rewrite (fed_fun nt T _ _ _ F FM) in *; split; [rewrite PS; right; exact I|intros _; exact I]|]. destruct (in_dec Nat.eq_dec x (kids m)) as [J|J].
    - destruct (PK x J) as (FX & EX). rewrite (fed_fun nt T _ _ _ F FX) in *. rewrite EX in I. apply in_app_or in I as [I|I]; [left; split; [exact I|intros ->; contradiction]|right; repeat split; assumption].
    - rewrite (PO x t N J) in I. left. split; [exact I|intros ->; contradiction]. }
  constructor.
  - intros x. unfold z'. cbn [st log]. destruct (Nat.eq_dec x m) as [->|N]; [rewrite !on_same, after_snoc; symmetry; exact CA1|rewrite !on_other by exact N; apply (f_state _ H)].
  - intros x t L GT. pose proof (gets_fed _ _ _ _ GT) as F. change (heap z') with h1.
    destruct (Nat.eq_dec x m) as [->|N].
    + pose proof (fed_fun nt T _ _ _ F FM) as ET. subst t. assert (GO : gets z m tm L).
      { destruct GT as [GT|(p & dp & hp & I & DP & EH & EL)]; [left; exact GT|right]. exists p, dp, hp. repeat split; try assumption. unfold z' in EL. cbn [log] in EL. rewrite on_other in EL; [exact EL|]. intros ->. apply (NK m I eq_refl). }
      rewrite (f_order _ H _ _ _ GO), PS. change (log z' m) with (on (log z) m (log z m ++ [heap z r]) m). rewrite on_same, <- app_assoc. cbn [map app]. do 2 f_equal. apply map_ext_in. intros r' I. symmetry. apply KS, I.
    + change (log z' x) with (on (log z) m (log z m ++ [heap z r]) x). rewrite on_other by exact N. destruct (in_dec Nat.eq_dec x (kids m)) as [J|J].
      * destruct (PK x J) as (FX & EX). pose proof (fed_fun nt T _ _ _ F FX) as ET. subst t. destruct GT as [(R & _)|(p & dp & hp & I & DP & EH & EL)]; [destruct T as (_ & _ & TR & _); destruct (TR _ _ J R)|]. assert (p = m) as -> by (destruct T as (_ & _ & _ & TU); apply (TU _ _ _ I J)).
        unfold z' in EL. cbn [log] in EL. rewrite on_same, makes_snoc, for_k_app in EL. rewrite EX, map_app, app_assoc, (SENT x J), EL. f_equal.
        rewrite (f_order _ H x (Some h) (for_k x (makes nt m (p_start nt m) (log z m)))) by (right; exists m, d, h; repeat split; assumption). f_equal. apply map_ext_in. intros r' I'. symmetry. apply (KX x (Some h) r' N FX I').
      * rewrite (PO x t N J). assert (GO : gets z x t L).
        { destruct GT as [GT|(p & dp & hp & I & DP & EH & EL)]; [left; exact GT|right]. exists p, dp, hp. repeat split; try assumption. unfold z' in EL. cbn [log] in EL. rewrite on_other in EL; [exact EL|]. intros ->. contradiction. }
        rewrite (f_order _ H _ _ _ GO). f_equal. apply map_ext_in. intros r' I'. symmetry. apply (KX x t r' N F I').
  - intros x t r' F I. change (next z') with n1. destruct (PALL _ _ _ F I) as [(A & _)|(A & _ & B)]; [pose proof (f_old _ H _ _ _ F A); lia|]. destruct (NEW _ _ B) as ([->|B1] & _); lia.
  - intros x t r' F I. destruct (PALL _ _ _ F I) as [(A & A1)|(J & -> & B)].
    + (* an old one *)
      destruct (f_one _ H _ _ _ F A) as [Z|(Z1 & Z2)]; [left; exact Z|].
      assert (NR : r' <> r).
      { intros ->. destruct (Nat.eq_dec x m) as [->|N]; [|destruct (Z2 m tm FM (not_eq_sym N) RM)]. rewrite (fed_fun nt T _ _ _ F FM) in *. specialize (A1 eq_refl). rewrite PS, count_occ_cons_eq in Z1 by reflexivity. assert (count (pend z' m tm) r > 0) by (apply count_occ_In, A1). lia. }
      assert (RO : r' < next z) by apply (f_old _ H _ _ _ F A).
      assert (NN : forall y, count (refs_to y (flat_map (pushed nt m) l)) r' = 0) by (intros y; apply count_occ_not_In; intros I1; destruct (NEW _ _ I1) as ([E1|E1] & _); [contradiction|lia]).
      right. split.
      * destruct (Nat.eq_dec x m) as [->|N].
        { rewrite (fed_fun nt T _ _ _ F FM) in *. rewrite PS, count_occ_cons_neq in Z1 by congruence. exact Z1. }
        destruct (in_dec Nat.eq_dec x (kids m)) as [J|J]; [|rewrite (PO x t N J); exact Z1]. destruct (PK x J) as (FX & EX). rewrite (fed_fun nt T _ _ _ F FX) in *. rewrite EX, count_occ_app, NN. lia.
      * intros x' t' F' N' I'. destruct (PALL _ _ _ F' I') as [(A' & _)|(J' & _ & B')]; [apply (Z2 x' t' F' N' A')|]. apply (count_occ_not_In Nat.eq_dec) in B'; [exact B'|apply NN].
    + (* one that is sent *)
      destruct (proj2 G m) as [FZ|(ONE & SM)]; [left; apply FZ, J|]. destruct (NEW _ _ B) as (B1 & _).
      destruct (PK x J) as (FX & EX).
      assert (ONLY : forall y, In y (kids m) -> y = x) by (intros y JY; destruct (kids m) as [|a [|b ks]]; [destruct J| |cbn in ONE; lia]; destruct J as [<-|[]]; destruct JY as [<-|[]]; reflexivity).
      pose proof (callback_sames _ _ _ _ _ _ CB SM) as SO.
      assert (CN : count (refs_to x (flat_map (pushed nt m) l)) r' <= 1).
      { rewrite (refs_pushed nt T m x l J). pose proof (count_filter l (fun p => match snd p with Some j => j =? x | None => true end) r') as CF. destruct B1 as [->|B1]; [lia|]. pose proof (Q6 r' (proj1 B1)). lia. }
      assert (CP : count (refs_to x (flat_map (pushed nt m) l)) r' > 0) by (apply count_occ_In, B).
      destruct B1 as [->|B1].
      * destruct (f_one _ H _ _ _ FM RM) as [Z|(Z1 & Z2)]; [left; apply (frozen_kid m x Z J)|]. right. split.
        { rewrite EX, count_occ_app. assert (Z0 : count (pend z x (Some h)) r = 0) by (apply count_occ_not_In, (Z2 x (Some h) FX (NK x J))). lia. }
        { intros x' t' F' N' I'. destruct (PALL _ _ _ F' I') as [(A' & A1')|(J' & _ & B')]; [|apply N', ONLY, J']. destruct (Nat.eq_dec x' m) as [->|N2]; [|apply (Z2 x' t' F' N2 A')]. specialize (A1' eq_refl). rewrite PS, count_occ_cons_eq in Z1 by reflexivity. assert (count (pend z' m tm) r > 0) by (apply count_occ_In, A1'). lia. }
      * right. split.
        { rewrite EX, count_occ_app. assert (Z0 : count (pend z x (Some h)) r' = 0); [|lia]. apply count_occ_not_In. intros I1. pose proof (f_old _ H _ _ _ FX I1). lia. }
        { intros x' t' F' N' I'. destruct (PALL _ _ _ F' I') as [(A' & _)|(J' & _ & _)]; [pose proof (f_old _ H _ _ _ F' A'); lia|apply N', ONLY, J']. }
Qed.
Lemma flow_step z z' : pstep nt z z' -> threads nt z -> flow z -> flow z'.
Proof.
  intros ST TH H. inversion ST as [z0 m r k E1 E2|z0 t m r k s1 i1 o n1 h1 l E1 E2 E3|z0 t m r k E1 E2|z0 t m k E1]; subst.
  - apply (flow_same z); try reflexivity; [|exact H]. intros x t F. apply (pend_take nt T); assumption.
  - destruct t as [h|]; [apply (flow_call z h m r k s1 i1 o n1 h1 l); assumption|]. exfalso. destruct (th_main _ _ TH (Call m r)) as (m1 & r1 & E & _); [rewrite E1; left; reflexivity|discriminate].
  - apply (flow_same z); try reflexivity; [|exact H]. intros x u F. apply (pend_add nt T); assumption.
  - apply (flow_same z); try reflexivity; [|exact H]. intros x u F. apply (pend_ret z t m k x u E1).
Qed.
Lemma refs_source m : forall L, NoDup (p_roots nt) -> In m (p_roots nt) -> refs_to m (flat_map (fun r => map (fun m => Add m r) (p_roots nt)) L) = L.
Proof.
  intros L ND I. induction L as [|r L IH]; [reflexivity|]. cbn [flat_map]. rewrite refs_app, IH. change (r :: L) with ([r] ++ L). f_equal. clear IH. induction (p_roots nt) as [|y rs IHR]; [destruct I|]. inversion ND as [|? ? N1 N2]; subst. cbn. destruct I as [->|I].
  - rewrite Nat.eqb_refl. cbn. f_equal. clear -N1. induction rs as [|a rs IH]; [reflexivity|]. cbn. destruct (Nat.eqb_spec a m) as [->|]; [destruct N1; left; reflexivity|]. apply IH. intros J. apply N1. right. exact J.
  - destruct (Nat.eqb_spec y m) as [->|]; [contradiction|]. apply (IHR N2 I).
Qed.
Lemma count_seq r : forall n a, a <= r < a + n -> count (seq a n) r = 1.
Proof.
  intros n a L. assert (ND := seq_NoDup n a). rewrite (NoDup_count_occ Nat.eq_dec) in ND. specialize (ND r). assert (count (seq a n) r > 0) by (apply count_occ_In, in_seq; lia). lia.
Qed.
Lemma flow_init : flow (pipe_init nt frames).
Proof.
  assert (P0 : forall m h, pend (pipe_init nt frames) m (Some h) = []) by reflexivity.
  assert (PR : forall m, In m (p_roots nt) -> pend (pipe_init nt frames) m None = seq 0 (length frames)) by (intros m I; unfold pend; cbn; apply refs_source; [apply T|exact I]).
  constructor.
  - reflexivity.
  - intros m t l [(I & -> & ->)|(p & d & h & I & D & -> & ->)]; [|reflexivity]. rewrite (PR m I). cbn. clear. apply nth_ext with (d := Eoa) (d' := Eoa); [rewrite map_length, seq_length; reflexivity|]. intros n L. rewrite nth_indep with (l := map _ _) (d' := (fun r => nth r frames Eoa) (length frames)) by (rewrite map_length, seq_length; exact L). rewrite (map_nth (fun r => nth r frames Eoa)), seq_nth by exact L. reflexivity.
  - intros m t r [(I & ->)|(p & d & h & I & D & ->)] J; [|destruct J]. rewrite (PR m I) in J. apply in_seq in J. cbn in *. lia.
  - intros m t r [(I & ->)|(p & d & h & I & D & ->)] J; [|destruct J]. destruct (proj1 G) as [Z|Z]; [left; apply Z, I|right]. split; [rewrite (PR m I) in *; apply in_seq in J; apply count_seq; lia|].
    intros m' t' [(I' & ->)|(p & d & h & I' & D & ->)] N J'; [|destruct J']. apply N. destruct (p_roots nt) as [|a [|b rs]]; [destruct I| |cbn in Z; lia]. destruct I as [<-|[]], I' as [<-|[]]. reflexivity.
Qed.
Lemma flow_reached n z : psteps nt frames n z -> threads nt z /\ flow z.
Proof.
  induction 1 as [|n z z' _ (TH & H) ST]; [split; [apply threads_init|apply flow_init]|]. split; [apply (threads_step nt z z' ST TH)|apply (flow_step z z' ST TH H)].
Qed.

(** The plugins that are expected to be called are the ones connected. *)
Lemma expects_deep m l : expects nt frames m l -> exists d h, deep m d h.
Proof. induction 1 as [m I|p m l X (d & h & D) I]; [exists 0, m; apply d_root, I|]. destruct (deep_kid nt _ _ _ _ D I) as (t & D1). exists (1 + d), t. exact D1. Qed.
Lemma deep_expects m d h : deep m d h -> exists l, expects nt frames m l.
Proof. induction 1 as [m I|p d t m D (l & X) I|p d t m D (l & X) I]; eexists; [apply e_root, I|apply e_kid with (p := p) (l := l); [exact X|apply kid_queued, I]|apply e_kid with (p := p) (l := l); [exact X|apply kid_blocking, I]]. Qed.
Lemma flow_prefix z : flow z -> forall m l, expects nt frames m l -> exists t, fed m t /\ exists c, l = log z m ++ map (heap z) (pend z m t) ++ c.
Proof.
  intros H m l X. induction X as [m I|p m l X IH I].
  - exists None. split; [left; split; [exact I|reflexivity]|]. exists []. rewrite app_nil_r. apply (f_order _ H). left. repeat split. exact I.
  - destruct IH as (t & F & c & EL). destruct (expects_deep _ _ X) as (d & h & D). exists (Some h). split; [right; exists p, d, h; repeat split; assumption|].
    rewrite EL, makes_app, for_k_app. eexists. rewrite (app_assoc (log z m)). f_equal. apply (f_order _ H). right. exists p, d, h. repeat split; assumption.
Qed.
End Net.
