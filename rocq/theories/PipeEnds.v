(** Frames through connected plugins: executions end, and then all is done. *)
From Verif Require Import Base QueueModel PipeModel PipeSpec PipeProofs PipeOrder PipeFlow.

Fixpoint total (f : nat -> nat) (l : list nat) : nat := match l with [] => 0 | m :: r => f m + total f r end.
Lemma total_ext f g l : (forall m, In m l -> f m = g m) -> total f l = total g l.
Proof. induction l as [|m l IH]; intros H; [reflexivity|]. cbn. rewrite (H m (or_introl eq_refl)), IH; [reflexivity|]. intros x I. apply H. right. exact I. Qed.
Lemma total_one f g m l : NoDup l -> In m l -> (forall x, x <> m -> f x = g x) -> total f l + g m = total g l + f m.
Proof.
  induction l as [|a l IH]; intros ND I H; [destruct I|]. inversion ND as [|? ? N1 N2]; subst. cbn. destruct I as [->|I].
  - rewrite (total_ext f g l); [lia|]. intros x J. apply H. intros ->. contradiction.
  - specialize (IH N2 I H). rewrite (H a); [lia|]. intros ->. contradiction.
Qed.
Lemma total_le f g l : (forall m, In m l -> f m <= g m) -> total f l <= total g l.
Proof. induction l as [|m l IH]; intros H; [cbn; lia|]. cbn. pose proof (H m (or_introl eq_refl)). pose proof (IH (fun x I => H x (or_intror I))). lia. Qed.
Definition rets (l : list act) : nat := length (filter (fun a => match a with Ret _ => true | _ => false end) l).
Lemma rets_app a b : rets (a ++ b) = rets a + rets b. Proof. unfold rets. rewrite filter_app, app_length. reflexivity. Qed.

Section Net.
Context {S C : Type} (nt : net S C) (T : tree nt) (G : gentle nt) (frames : list (item C)) (all : list nat) (FIN : finite nt all).
Notation deep := (deep nt). Notation kids := (kids nt). Notation fed := (fed nt).
Lemma deep_all m d h : deep m d h -> In m all.
Proof. intros D. apply (proj2 FIN). induction D as [m I|p d t m D (r & R & B) I|p d t m D (r & R & B) I]; [exists m; split; [exact I|apply b_self]|exists r; split; [exact R|apply b_kid with p; [exact B|apply kid_queued, I]]|exists r; split; [exact R|apply b_kid with p; [exact B|apply kid_blocking, I]]]. Qed.
Lemma all_deep m : In m all -> exists d h, deep m d h.
Proof. intros I. apply (proj2 FIN) in I as (r & R & B). induction B as [|p k B (d & h & D) I]; [exists 0, r; apply d_root, R|]. destruct (deep_kid nt _ _ _ _ D I) as (t & D1). exists (1 + d), t. exact D1. Qed.
Lemma depth_bound m d h : deep m d h -> d < length all.
Proof.
  intros D. assert (P : exists L, length L = 1 + d /\ NoDup L /\ incl L all /\ forall x, In x L -> exists dx hx, deep x dx hx /\ dx <= d).
  { induction D as [m I|p d t m D IH I|p d t m D IH I].
    - exists [m]. split; [reflexivity|]. split; [repeat constructor; intros []|]. split; [intros x [<-|[]]; apply (deep_all m 0 m), d_root, I|]. intros x [<-|[]]. exists 0, m. split; [apply d_root, I|lia].
    - assert (D1 : deep m (1 + d) m) by (eapply d_queued; eassumption). destruct IH as (L & A & B & I1 & E). exists (m :: L). split; [cbn; lia|]. split; [constructor; [|exact B]|split; [intros x [<-|J]; [apply (deep_all _ _ _ D1)|apply I1, J]|]].
      + intros J. destruct (E m J) as (dx & hx & DX & LX). destruct (deep_fun nt T _ _ _ DX _ _ D1). lia.
      + intros x [<-|J]; [exists (1 + d), m; split; [exact D1|lia]|]. destruct (E x J) as (dx & hx & DX & LX). exists dx, hx. split; [exact DX|lia].
    - assert (D1 : deep m (1 + d) t) by (eapply d_blocking; eassumption). destruct IH as (L & A & B & I1 & E). exists (m :: L). split; [cbn; lia|]. split; [constructor; [|exact B]|split; [intros x [<-|J]; [apply (deep_all _ _ _ D1)|apply I1, J]|]].
      + intros J. destruct (E m J) as (dx & hx & DX & LX). destruct (deep_fun nt T _ _ _ DX _ _ D1). lia.
      + intros x [<-|J]; [exists (1 + d), t; split; [exact D1|lia]|]. destruct (E x J) as (dx & hx & DX & LX). exists dx, hx. split; [exact DX|lia]. }
  destruct P as (L & A & B & I1 & _). pose proof (NoDup_incl_length B I1). lia.
Qed.

(** Something can go on as long as anything is to be done. *)
Lemma worker_goes z : threads nt z -> forall n h d, deep h d h -> thr z (Some h) <> [] -> length all - d <= n -> exists z', pstep nt z z'.
Proof.
  intros TH. induction n as [|n IH]; intros h d D NE L; [pose proof (depth_bound _ _ _ D); lia|].
  destruct (thr z (Some h)) as [|a k] eqn:E; [contradiction|]. destruct a as [m r|m r|m].
  - destruct (callback nt m (st z m) (heap z r)) as ((s1 & i1) & o) eqn:CB. destruct (place r (next z) (on (heap z) r i1) o) as ((n1 & h1) & l) eqn:PL. eexists. eapply s_call; eassumption.
  - destruct (lt_dec (length (q z m)) max_queue_size) as [LQ|LQ]; [eexists; eapply s_add; [exact E|right; exact LQ]|].
    destruct (th_worker _ _ TH h) as (_ & W); [rewrite E; discriminate|]. rewrite E in W. destruct W as [(r0 & W)|(cur & W)]; [discriminate|]. inversion W as [| | |n0 m0 r0 k0 I W1]; subst. destruct (inside_deep nt _ _ _ W1 _ D) as (d1 & D1). destruct (deep_host nt _ _ _ D1) as (d0 & D0 & L0). destruct (deep_fun nt T _ _ _ D _ _ D0) as (<- & _).
    assert (DM : deep m (1 + d1) m) by (eapply d_queued; eassumption). destruct (q z m) as [|r1 rest] eqn:EQ; [cbn in LQ; unfold max_queue_size in LQ; lia|].
    destruct (thr z (Some m)) as [|a1 k1] eqn:EM; [eexists; eapply s_take; eassumption|]. apply (IH m (1 + d1) DM); [rewrite EM; discriminate|lia].
  - eexists. eapply s_ret. exact E.
Qed.
Lemma stuck_idle z : threads nt z -> (forall z', ~ pstep nt z z') -> (forall t, thr z t = []) /\ forall m, q z m = [].
Proof.
  intros TH ST. assert (A : forall t, thr z t = []).
  { intros t. destruct (thr z t) as [|a k] eqn:E; [reflexivity|]. exfalso. destruct t as [h|].
    - destruct (th_worker _ _ TH h) as ((d & D) & _); [rewrite E; discriminate|]. destruct (worker_goes z TH _ h d D ltac:(rewrite E; discriminate) (le_n _)) as (z' & H). apply (ST z' H).
    - destruct (th_main _ _ TH a) as (m & r & -> & _); [rewrite E; left; reflexivity|]. eapply ST. eapply s_add; [exact E|left; reflexivity]. }
  split; [exact A|]. intros m. destruct (q z m) as [|r k] eqn:E; [reflexivity|]. exfalso. eapply ST. eapply s_take; [apply A|exact E].
Qed.
Lemma stuck_done z : threads nt z -> flow nt frames z -> (forall z', ~ pstep nt z z') -> forall m l, expects nt frames m l -> log z m = l.
Proof.
  intros TH F ST m l X. destruct (stuck_idle z TH ST) as (A & B).
  assert (P : forall m t, pend z m t = []) by (intros x t; unfold pend; rewrite !A, B; reflexivity).
  induction X as [m I|p m l X IH I].
  - symmetry. pose proof (f_order _ _ _ F m None frames) as E. rewrite P, app_nil_r in E. apply E. left. repeat split. exact I.
  - destruct (expects_deep nt frames _ _ X) as (d & h & D). pose proof (f_order _ _ _ F m (Some h) (for_k m (makes nt p (p_start nt p) (log z p)))) as E. rewrite P, app_nil_r in E. rewrite <- IH. symmetry. apply E. right. exists p, d, h. repeat split; assumption.
Qed.

(** Steps so far, counted from what is there *)
Definition taken (z : pipe S C) (m : nat) : nat := length (refs_to m (thr z (Some m))).
Definition tally (z : pipe S C) : nat := 4 * total (fun m => length (log z m)) all + 2 * total (taken z) all + total (fun m => length (q z m)) all.
Definition open (z : pipe S C) : nat := total (fun m => rets (thr z (Some m))) all.
Lemma rets_pushed m l : rets (flat_map (pushed nt m) l) = 0.
Proof.
  induction l as [|(r & to) l IH]; [reflexivity|]. cbn [flat_map]. rewrite rets_app, IH. unfold pushed. cbn [fst snd]. destruct to as [j|].
  - rewrite rets_app. destruct (existsb _ _), (existsb _ _); reflexivity.
  - rewrite rets_app. assert (A : forall L g, (g = (fun k => Call k r) \/ g = (fun k => Add k r)) -> rets (map g L) = 0) by (intros L g [-> | ->]; induction L as [|x L IHL]; [reflexivity|exact IHL|reflexivity|exact IHL]).
    rewrite (A _ (fun k => Call k r)), (A _ (fun k => Add k r)) by auto. reflexivity.
Qed.
Lemma tally_step z z' n : threads nt z -> pstep nt z z' -> n + open z <= tally z -> 1 + n + open z' <= tally z'.
Proof.
  intros TH ST L. unfold tally, open in *. inversion ST as [z0 m r k E1 E2|z0 t m r k s1 i1 o n1 h1 l E1 E2 E3|z0 t m r k E1 E2|z0 t m k E1]; subst; cbn [log q thr].
  - destruct (th_queue _ _ TH m) as (d & D); [rewrite E2; discriminate|]. pose proof (deep_all _ _ _ D) as I.
    set (z' := Pipe _ _ _ _ _ _) in *.
    pose proof (total_one (taken z') (taken z) m all (proj1 FIN) I) as A. pose proof (total_one (fun x => length (on (q z) m k x)) (fun x => length (q z x)) m all (proj1 FIN) I) as B. pose proof (total_one (fun x => rets (to_thread (thr z) (Some m) [Call m r] (Some x))) (fun x => rets (thr z (Some x))) m all (proj1 FIN) I) as F. cbn beta in A, B, F.
    assert (OT : forall x, x <> m -> to_thread (thr z) (Some m) [Call m r] (Some x) = thr z (Some x)) by (intros x N; apply to_other; congruence).
    specialize (A ltac:(intros x N; unfold taken, z'; cbn [thr]; rewrite (OT x N); reflexivity)). specialize (B ltac:(intros x N; cbn beta; rewrite on_other by exact N; reflexivity)). specialize (F ltac:(intros x N; rewrite (OT x N); reflexivity)).
    assert (T1 : taken z' m = 1) by (unfold taken, z'; cbn [thr]; rewrite to_same; cbn; rewrite Nat.eqb_refl; reflexivity). assert (T0 : taken z m = 0) by (unfold taken; rewrite E1; reflexivity). rewrite T1, T0 in A. rewrite on_same, E2 in B. rewrite to_same, E1 in F. cbn [length] in B. assert (F1 : rets [Call m r] = 0) by reflexivity. assert (F0 : rets [] = 0) by reflexivity. rewrite F1, F0 in F. lia.
  - destruct t as [h|]; [|exfalso; destruct (th_main _ _ TH (Call m r)) as (m1 & r1 & E & _); [rewrite E1; left; reflexivity|discriminate]].
    destruct (called nt T _ _ _ _ _ E1 TH) as ((d & D) & _ & KE & _). pose proof (deep_all _ _ _ D) as IM. destruct (deep_host nt _ _ _ D) as (d0 & D0 & _). pose proof (deep_all _ _ _ D0) as IH.
    set (z' := Pipe _ _ _ _ _ _) in *.
    pose proof (total_one (fun x => length (on (log z) m (log z m ++ [heap z r]) x)) (fun x => length (log z x)) m all (proj1 FIN) IM) as A. specialize (A ltac:(intros x N; cbn beta; rewrite on_other by exact N; reflexivity)). cbn beta in A. rewrite on_same, app_length in A. cbn [length] in A.
    pose proof (total_one (taken z') (taken z) h all (proj1 FIN) IH) as B. specialize (B ltac:(intros x N; unfold taken, z'; cbn [thr]; rewrite to_other by congruence; reflexivity)).
    pose proof (total_one (fun x => rets (to_thread (thr z) (Some h) (flat_map (pushed nt m) l ++ Ret m :: k) (Some x))) (fun x => rets (thr z (Some x))) h all (proj1 FIN) IH) as F. specialize (F ltac:(intros x N; cbn beta; rewrite to_other by congruence; reflexivity)). cbn beta in F. rewrite to_same, E1, rets_app, rets_pushed in F.
    assert (FR : rets (Ret m :: k) = 1 + rets k) by reflexivity. assert (FC : rets (Call m r :: k) = rets k) by reflexivity. rewrite FR, FC in F.
    assert (TB : taken z h <= taken z' h + 1).
    { unfold taken, z'. cbn [thr]. rewrite to_same, E1, refs_app. rewrite (refs_pushed_none nt m h l); [|intros I; apply (kid_not_host nt T _ _ _ _ D I eq_refl)]. cbn. destruct (Nat.eqb_spec m h); cbn; fold (refs_to h k); lia. }
    lia.
  - assert (IM : In m all).
    { destruct t as [h|].
      - destruct (th_worker _ _ TH h) as ((d & D) & W); [rewrite E1; discriminate|]. rewrite E1 in W. destruct W as [(r0 & W)|(cur & W)]; [discriminate|]. inversion W as [| | |n0 m0 r0 k0 I W1]; subst. destruct (inside_deep nt _ _ _ W1 _ D) as (d1 & D1). apply (deep_all m (1 + d1) m). eapply d_queued; eassumption.
      - destruct (th_main _ _ TH (Add m r)) as (m1 & r1 & E & I); [rewrite E1; left; reflexivity|]. injection E as <- <-. apply (deep_all m 0 m), d_root, I. }
    set (z' := Pipe _ _ _ _ _ _) in *.
    pose proof (total_one (fun x => length (on (q z) m (q z m ++ [r]) x)) (fun x => length (q z x)) m all (proj1 FIN) IM) as A. specialize (A ltac:(intros x N; cbn beta; rewrite on_other by exact N; reflexivity)). cbn beta in A. rewrite on_same, app_length in A. cbn [length] in A.
    assert (B : total (taken z') all = total (taken z) all).
    { apply total_ext. intros x _. unfold taken, z'. cbn [thr]. destruct (thread_dec (Some x) t) as [<-|N]; [|rewrite to_other by exact N; reflexivity]. rewrite to_same, E1. cbn. destruct (Nat.eqb_spec m x) as [->|]; [|reflexivity]. exfalso.
      destruct (th_worker _ _ TH x) as ((d & D) & W); [rewrite E1; discriminate|]. rewrite E1 in W. destruct W as [(r0 & W)|(cur & W)]; [discriminate|]. inversion W as [| | |n0 m0 r0 k0 I W1]; subst. destruct (inside_deep nt _ _ _ W1 _ D) as (d1 & D1). apply (kid_not_host nt T _ _ _ _ D1 (kid_queued nt _ _ I) eq_refl). }
    assert (F : total (fun x => rets (to_thread (thr z) t k (Some x))) all = total (fun x => rets (thr z (Some x))) all).
    { apply total_ext. intros x _. destruct (thread_dec (Some x) t) as [<-|N]; [|rewrite to_other by exact N; reflexivity]. rewrite to_same, E1. reflexivity. }
    lia.
  - destruct t as [h|]; [|exfalso; destruct (th_main _ _ TH (Ret m)) as (m1 & r1 & E & _); [rewrite E1; left; reflexivity|discriminate]].
    destruct (th_worker _ _ TH h) as ((d & D) & _); [rewrite E1; discriminate|]. pose proof (deep_all _ _ _ D) as IH.
    set (z' := Pipe _ _ _ _ _ _) in *.
    assert (B : total (taken z') all = total (taken z) all).
    { apply total_ext. intros x _. unfold taken, z'. cbn [thr]. destruct (thread_dec (Some x) (Some h)) as [EX|N]; [|rewrite to_other by exact N; reflexivity]. injection EX as ->. rewrite to_same, E1. reflexivity. }
    pose proof (total_one (fun x => rets (to_thread (thr z) (Some h) k (Some x))) (fun x => rets (thr z (Some x))) h all (proj1 FIN) IH) as F. specialize (F ltac:(intros x N; cbn beta; rewrite to_other by congruence; reflexivity)). cbn beta in F. rewrite to_same, E1 in F. assert (FR : rets (Ret m :: k) = 1 + rets k) by reflexivity. rewrite FR in F. lia.
Qed.
Lemma tally_reached n z : psteps nt frames n z -> n + open z <= tally z.
Proof.
  induction 1 as [|n z z' P IH ST]; [unfold open, tally; cbn; assert (Z : total (fun _ => 0) all = 0) by (clear; induction all as [|m l IH]; [reflexivity|exact IH]); cbn in *; unfold rets; cbn; rewrite Z; lia|].
  apply (tally_step z z' n); [apply (flow_reached nt T G frames n z P)|exact ST|exact IH].
Qed.
Lemma bounded : exists B, forall n z, psteps nt frames n z -> n <= B.
Proof.
  assert (W : exists w : nat -> nat, forall m, In m all -> exists l, expects nt frames m l /\ length l = w m).
  { assert (D : forall m, In m all -> exists l, expects nt frames m l) by (intros m I; destruct (all_deep m I) as (d & h & DM); apply (deep_expects nt frames m d h DM)).
    revert D. generalize all. clear. intros L. induction L as [|m l IH]; intros D; [exists (fun _ => 0); intros m []|]. destruct (D m (or_introl eq_refl)) as (lm & X). destruct IH as (w & IH); [intros x I; apply D; right; exact I|].
    exists (fun x => if Nat.eqb x m then length lm else w x). intros x I. destruct (Nat.eqb_spec x m) as [->|N]; [exists lm; split; [exact X|reflexivity]|]. destruct I as [->|I]; [contradiction|apply IH, I]. }
  destruct W as (w & W). exists (4 * total w all). intros n z P. pose proof (tally_reached n z P) as A. destruct (flow_reached nt T G frames n z P) as (TH & F). unfold tally in A.
  assert (B : forall m, In m all -> length (log z m) + taken z m + length (q z m) <= w m).
  { intros m I. destruct (W m I) as (l & X & <-). destruct (flow_prefix nt frames z F m l X) as (t & _ & c & ->). unfold pend, taken. rewrite !app_length, map_length, !app_length. lia. }
  assert (Z : forall L, (forall m, In m L -> length (log z m) + taken z m + length (q z m) <= w m) -> 4 * total (fun m => length (log z m)) L + 2 * total (taken z) L + total (fun m => length (q z m)) L <= 4 * total w L).
  { induction L as [|m L IH]; intros H; [cbn; lia|]. cbn [total]. pose proof (H m (or_introl eq_refl)). pose proof (IH (fun x I => H x (or_intror I))). lia. }
  specialize (Z all B). lia.
Qed.
End Net.
