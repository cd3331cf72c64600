(** The tables of the reactor are what was asked for. *)
From Coq Require Import Lia Sorting.Sorted.
From Verif Require Import Base PollModel PollSpec.
Local Open Scope Z_scope.

(** *** Maps *)
Definition sorted (m : list (Z * nat)) : Prop := StronglySorted (fun x y => fst x < fst y) m.
Lemma put_in k v m k' v' : sorted m -> (In (k', v') (put k v m) <-> (k' = k /\ v' = v) \/ (k' <> k /\ In (k', v') m)).
Proof.
  intros S. induction S as [|[a b] m S IH F]; cbn [put].
  - cbn. split; [intros [E|[]]; injection E as <- <-; auto|intros [(-> & ->)|(_ & [])]; auto].
  - rewrite Forall_forall in F. cbn in F. assert (FR : forall v, In (k', v) m -> a < k') by (intros u I; exact (F _ I)).
    destruct (Z.ltb_spec k a) as [L|L]; [|destruct (Z.eqb_spec k a) as [->|N]].
    + cbn [In]. split.
      * intros [E|[E|I]]; [injection E as <- <-; auto|injection E as <- <-; right; split; [lia|auto]|]. specialize (FR _ I). right. split; [lia|auto].
      * intros [(-> & ->)|(N & [E|I])]; auto.
    + cbn [In]. split.
      * intros [E|I]; [injection E as <- <-; auto|]. specialize (FR _ I). right. split; [lia|auto].
      * intros [(-> & ->)|(N & [E|I])]; auto. injection E as <- _. congruence.
    + cbn [In]. rewrite IH. split.
      * intros [E|[(-> & ->)|(A & B)]]; auto. injection E as <- <-. right. split; [lia|auto].
      * intros [(-> & ->)|(A & [E|B])]; auto.
Qed.
Lemma put_sorted k v m : sorted m -> sorted (put k v m).
Proof.
  intros S. induction S as [|[a b] m S IH F]; cbn [put]; [repeat constructor|].
  destruct (Z.ltb_spec k a) as [L|L]; [|destruct (Z.eqb_spec k a) as [->|N]].
  - constructor; [constructor; assumption|]. constructor; [exact L|]. rewrite Forall_forall in *. intros x I. specialize (F x I). cbn in *. lia.
  - constructor; assumption.
  - constructor; [exact IH|]. rewrite Forall_forall in *. intros [k' v'] I. apply put_in in I; [|exact S]. destruct I as [(-> & ->)|(_ & I)]; [cbn; lia|exact (F _ I)].
Qed.
Lemma del_in k m k' v' : In (k', v') (del k m) <-> k' <> k /\ In (k', v') m.
Proof. unfold del. rewrite filter_In. cbn [fst]. destruct (Z.eqb_spec k' k); cbn; split; intros (A & B); split; auto; try discriminate; contradiction. Qed.
Lemma del_sorted k m : sorted m -> sorted (del k m).
Proof.
  intros S. induction S as [|x m S IH F]; [constructor|]. cbn. destruct (negb _); [|exact IH]. constructor; [exact IH|]. rewrite Forall_forall in *. intros y I. apply filter_In in I. apply F, I.
Qed.

(** *** Requests *)
Lemma registered_snoc h o i cb : registered (h ++ [o]) i cb <-> registers o i cb \/ (~ concerns o i /\ registered h i cb).
Proof.
  split.
  - intros (a & o' & b & E & R & N). destruct b as [|x b] using rev_ind.
    + apply app_inj_tail in E. destruct E as (-> & ->). auto.
    + clear IHb. rewrite app_comm_cons, app_assoc in E. apply app_inj_tail in E. destruct E as (-> & ->). right. split; [apply N, in_or_app; right; left; reflexivity|]. exists a, o', b. split; [reflexivity|]. split; [exact R|]. intros y I. apply N, in_or_app. auto.
  - intros [R|(N & a & o' & b & -> & R & M)]; [exists h, o, []; cbn; auto|]. exists a, o', (b ++ [o]). split; [rewrite <- app_assoc; reflexivity|]. split; [exact R|]. intros y I. apply in_app_or in I. destruct I as [I|[<-|[]]]; auto.
Qed.
Lemma timers_snoc h o n : timers (h ++ [o]) n <-> o = Timers n \/ ((forall m, o <> Timers m) /\ timers h n).
Proof.
  split.
  - intros [(a & b & E & N)|(-> & N)].
    + destruct b as [|x b] using rev_ind.
      * apply app_inj_tail in E. destruct E as (_ & ->). auto.
      * clear IHb. rewrite app_comm_cons, app_assoc in E. apply app_inj_tail in E. destruct E as (-> & ->). right. split; [intros m ->; apply (N m), in_or_app; right; left; reflexivity|]. left. exists a, b. split; [reflexivity|]. intros m I. apply (N m), in_or_app. auto.
    + right. split; [intros m ->; apply (N m), in_or_app; right; left; reflexivity|]. right. split; [reflexivity|]. intros m I. apply (N m), in_or_app. auto.
  - intros [->|(M & [(a & b & -> & N)|(-> & N)])].
    + left. exists h, []. split; [reflexivity|intros m []].
    + left. exists a, (b ++ [o]). split; [rewrite <- app_assoc; reflexivity|]. intros m I. apply in_app_or in I. destruct I as [I|[I|[]]]; [exact (N m I)|exact (M m I)].
    + right. split; [reflexivity|]. intros m I. apply in_app_or in I. destruct I as [I|[I|[]]]; [exact (N m I)|exact (M m I)].
Qed.
Record rep (h : list op) (r : reactor) : Prop := Rep {
  p_chans : sorted (r_chans r); p_socks : sorted (r_socks r);
  p_chan : forall p cb, In (p, cb) (r_chans r) <-> registered h (Chan p) cb;
  p_sock : forall p cb, In (p, cb) (r_socks r) <-> registered h (Sock p) cb;
  p_rebuild : r_rebuild r = true; p_stop : r_stop r = true <-> In Stop h; p_timers : timers h (r_timers r); p_rc : r_rc r = 0 }.
Lemma rep_init : rep [] reactor_init.
Proof.
  assert (N : forall i cb, ~ registered [] i cb) by (intros i cb (a & o & b & E & _); destruct a; discriminate).
  constructor; cbn; [constructor|constructor|intros p cb; split; [contradiction|intros R; destruct (N _ _ R)]|intros p cb; split; [contradiction|intros R; destruct (N _ _ R)]|reflexivity|split; [discriminate|contradiction]|right; auto|reflexivity].
Qed.
Lemma rep_op h r o : rep h r -> rep (h ++ [o]) (do_op o r).
Proof.
  intros [S1 S2 C S B T N Q]. destruct r as [c s b i t n rc]. cbn in *.
  assert (NS : forall o, o <> Stop -> (t = true <-> In Stop (h ++ [o]))) by (intros o' NE; rewrite in_app_iff, T; cbn; split; [auto|intros [I|[I|[]]]; [exact I|contradiction]]).
  assert (NT : forall o, (forall m, o <> Timers m) -> timers (h ++ [o]) n) by (intros o' NE; apply timers_snoc; auto).
  destruct o as [p cb|p|p cb|p| |m]; constructor; cbn; auto using put_sorted, del_sorted; try (apply NS; discriminate); try (apply NT; discriminate);
  try (intros q d; rewrite registered_snoc; cbn [registers concerns]; rewrite ?C, ?S; split; [intros I; right; split; [intros []|exact I]|intros [E|(_ & I)]; [discriminate E|exact I]]).
  - intros q d. rewrite registered_snoc, put_in by assumption. cbn. rewrite C. split; [intros [(-> & ->)|(NE & I)]; [auto|right; split; [congruence|exact I]]|]. intros [E|(NE & I)]; [injection E as -> ->; auto|right; split; [congruence|exact I]].
  - intros q d. rewrite registered_snoc, del_in. cbn. rewrite C. split; [intros (NE & I); right; split; [congruence|exact I]|]. intros [E|(NE & I)]; [discriminate|split; [congruence|exact I]].
  - intros q d. rewrite registered_snoc, put_in by assumption. cbn. rewrite S. split; [intros [(-> & ->)|(NE & I)]; [auto|right; split; [congruence|exact I]]|]. intros [E|(NE & I)]; [injection E as -> ->; auto|right; split; [congruence|exact I]].
  - intros q d. rewrite registered_snoc, del_in. cbn. rewrite S. split; [intros (NE & I); right; split; [congruence|exact I]|]. intros [E|(NE & I)]; [discriminate|split; [congruence|exact I]].
  - split; [intros _; apply in_or_app; right; left; reflexivity|reflexivity].
  - apply timers_snoc. auto.
Qed.
Lemma rep_ops l : forall h r, rep h r -> rep (h ++ l) (do_ops l r).
Proof. induction l as [|o l IH]; intros h r R; [rewrite app_nil_r; exact R|]. cbn. replace (h ++ o :: l) with ((h ++ [o]) ++ l) by (rewrite <- app_assoc; reflexivity). apply IH, rep_op, R. Qed.

(** *** Once around *)
Definition whole (r : reactor) : list (item * nat) := map (fun x => (Chan (fst x), snd x)) (r_chans r) ++ map (fun x => (Sock (fst x), snd x)) (r_socks r).
Lemma whole_in h r i cb : rep h r -> (In (i, cb) (whole r) <-> registered h i cb).
Proof.
  intros R. unfold whole. rewrite in_app_iff, !in_map_iff. destruct i as [p|p]; [rewrite <- (p_chan _ _ R)|rewrite <- (p_sock _ _ R)].
  - split; [intros [((q & d) & E & I)|((q & d) & E & I)]; [injection E as <- <-; exact I|discriminate]|intros I; left; exists (p, cb); auto].
  - split; [intros [((q & d) & E & I)|((q & d) & E & I)]; [discriminate|injection E as <- <-; exact I]|intros I; right; exists (p, cb); auto].
Qed.
Lemma whole_ordered h r : rep h r -> ordered (whole r).
Proof.
  intros R. unfold whole. pose proof (p_chans _ _ R) as A. pose proof (p_socks _ _ R) as B. induction A as [|[p cb] m A IH F]; cbn [map app].
  - induction B as [|[q d] n B IH F]; cbn; [exact Logic.I|]. split; [|exact IH]. rewrite Forall_forall in *. intros y I. apply in_map_iff in I. destruct I as ((q' & d') & <- & I). exact (F _ I).
  - cbn [ordered]. split; [|exact IH]. rewrite Forall_forall in *. intros y I. apply in_app_or in I. destruct I as [I|I]; apply in_map_iff in I; destruct I as ((q' & d') & <- & I); [exact (F _ I)|exact Logic.I].
Qed.
Lemma ordered_filter g l : ordered l -> ordered (filter g l).
Proof.
  induction l as [|x l IH]; intros O; [exact O|]. destruct O as (F & O). cbn. destruct (g x); [|apply IH, O]. cbn. split; [|apply IH, O]. rewrite Forall_forall in *. intros y I. apply filter_In in I. apply F, I.
Qed.
Lemma calls_fine f acts l : forall r, (forall i cb, snd (acts i cb) = Fine) ->
  calls f acts l r = (do_ops (flat_map (fun x => fst (acts (fst x) (snd x))) (filter (fun x => f (fst x)) l)) r, filter (fun x => f (fst x)) l, Fine).
Proof.
  intros r Q. revert r. induction l as [|[i cb] l IH]; intros r; [reflexivity|]. cbn [calls filter fst]. destruct (f i); [|apply IH]. rewrite Q, IH. cbn [flat_map fst snd]. unfold do_ops. rewrite fold_left_app. reflexivity.
Qed.
Lemma calls_cut f acts l : forall r r1 c e, calls f acts l r = (r1, c, e) -> e <> Fine ->
  exists d x, c = d ++ [x] /\ snd (acts (fst x) (snd x)) = e /\ (forall y, In y d -> snd (acts (fst y) (snd y)) = Fine) /\ exists t, filter (fun x => f (fst x)) l = c ++ t.
Proof.
  induction l as [|[i cb] l IH]; intros r r1 c e H NE; cbn [calls] in H; [congruence|]. cbn [filter fst]. destruct (f i); [|exact (IH _ _ _ _ H NE)].
  destruct (snd (acts i cb)) eqn:A.
  1: { destruct (calls f acts l _) as ((r2, c2), e2) eqn:K. injection H as <- <- <-. destruct (IH _ _ _ _ K NE) as (d & x & -> & B & C & t & D). exists ((i, cb) :: d), x. split; [reflexivity|]. split; [exact B|]. split; [intros y [<-|I]; [exact A|exact (C y I)]|]. exists t. rewrite D. reflexivity. }
  all: injection H as <- <- <-; exists [], (i, cb); repeat split; auto; [intros y []|eexists; reflexivity].
Qed.
Lemma called_filter h r f : rep h r -> called h f (filter (fun x => f (fst x)) (whole r)).
Proof. intros R. split; [apply ordered_filter, (whole_ordered h), R|]. intros i cb. rewrite filter_In, (whole_in h r i cb R). reflexivity. Qed.
Lemma rep_rebuild h r : rep h r -> rep h (rebuild r). Proof. intros [S1 S2 C S B T N Q]. constructor; assumption. Qed.
Lemma rep_turn h w r r' c : rep h r -> quiet w -> turn w r = (r', c, Going) -> rep (h ++ asked_by w c ++ fst (w_after w)) r' /\ (forall f, w_poll w = Ready f -> called h f c) /\ (w_poll w = Nothing -> c = []).
Proof.
  intros R ((Q1 & Q2) & Q3 & Q4) H. unfold turn in H. destruct (r_stop r); [discriminate|]. rewrite (p_rebuild _ _ R) in H. destruct (_ && _)%bool; [discriminate|].
  pose proof (rep_rebuild _ _ R) as R1. destruct (w_poll w) as [f| | |] eqn:P; try congruence.
  - rewrite (calls_fine _ _ _ _ Q3), Q4 in H. cbn [caught] in H. injection H as <- <-. split; [|split; [intros g E; injection E as <-; exact (called_filter h r f R)|discriminate]]. rewrite app_assoc. apply rep_ops, rep_ops, R1.
  - rewrite Q4 in H. cbn [caught] in H. injection H as <- <-. split; [|split; [discriminate|reflexivity]]. cbn [asked_by flat_map app]. apply rep_ops, R1.
Qed.
Lemma rep_run ws : forall h r r' cs, rep h r -> Forall quiet ws -> run ws r = (r', cs, Going) -> rep (h ++ history ws cs) r'.
Proof.
  induction ws as [|w ws IH]; intros h r r' cs R Q H; cbn [run] in H; [injection H as <- <-; cbn; rewrite app_nil_r; exact R|]. inversion_clear Q as [|? ? Q1 Q2].
  destruct (turn w r) as ((r1, c), s) eqn:T. destruct s; try discriminate. destruct (run ws r1) as ((r2, cs2), s2) eqn:U. injection H as <- <- ->. destruct (rep_turn _ _ _ _ _ R Q1 T) as (R1 & _). specialize (IH _ _ _ _ R1 Q2 U). cbn [history]. rewrite <- !app_assoc in IH. exact IH.
Qed.
