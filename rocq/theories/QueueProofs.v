(** Proofs about the work queue. *)
From Verif Require Import Base QueueModel QueueSpec.

Section Proofs.
Context {T : Type}.
Implicit Types (tr : list (lab T)) (m : nat -> th T) (s : wq T).

Lemma set_same {A} (m : nat -> A) t x : set_th m t x t = x.
Proof. unfold set_th. rewrite Nat.eqb_refl. reflexivity. Qed.
Lemma set_other {A} (m : nat -> A) t x u : u <> t -> set_th m t x u = m u.
Proof. unfold set_th. intros H. apply Nat.eqb_neq in H. rewrite H. reflexivity. Qed.

(** ** First in, first out *)
Lemma fifo tr s : qrun wq_init tr s -> added tr = removed tr ++ q_items s.
Proof.
  remember wq_init as s0 eqn:E. intros R. revert E. induction R as [s|s0 l s1 a s2 R IH St]; intros ->; [reflexivity|].
  specialize (IH eq_refl). unfold added, removed in *. rewrite !flat_map_app, IH. cbn.
  destruct St; cbn in *; rewrite ?app_nil_r; try reflexivity; rewrite <- !app_assoc; reflexivity.
Qed.

Definition pending (x : th T) : list T := match x with InAdd y _ | SleepAdd y | WokeAdd y => [y] | _ => [] end.
Lemma pending_woken (x : th T) : pending (woken x) = pending x.
Proof. destruct x; reflexivity. Qed.
Lemma signal_pending m m' t : signal m m' -> pending (m' t) = pending (m t).
Proof. intros (H & _). destruct (H t) as [->| ->]; [reflexivity|apply pending_woken]. Qed.

Lemma program_order tr s t : qrun wq_init tr s -> asked t tr = added_by t tr ++ pending (q_th s t).
Proof.
  remember wq_init as s0 eqn:E. intros R. revert E. induction R as [s|s0 l s1 a s2 R IH St]; intros ->; [reflexivity|].
  specialize (IH eq_refl). unfold asked, added_by in *. rewrite !flat_map_app, IH. cbn.
  destruct St as [u x ig q m H|u q m H|u x ig q m m' H H1 H2|u x q m H H1|u x q m m' H H1|u m H|u q m H]; cbn in *; rewrite ?app_nil_r;
    try (rewrite (signal_pending _ _ t H2)); try (rewrite (signal_pending _ _ t H1));
    unfold set_th; rewrite (Nat.eqb_sym t u); destruct (Nat.eqb_spec u t) as [->|Hn]; cbn; rewrite ?app_nil_r, ?pending_woken; try reflexivity;
    try rewrite H; repeat match goal with K : _ \/ _ |- _ => destruct K as [K|K] | K : _ /\ _ |- _ => destruct K | K : m _ = _ |- _ => rewrite K; clear K end; cbn; rewrite ?app_nil_r; reflexivity.
Qed.

Lemma limited_inv tr s : qrun wq_init tr s -> all_limited tr -> List.length (q_items s) <= max_queue_size /\ forall t x, q_th s t <> InAdd x true.
Proof.
  remember wq_init as s0 eqn:E. intros R. revert E. induction R as [s|s0 l s1 a s2 R IH St]; intros ->; [intros _; split; [cbn; lia|discriminate]|].
  intros L. destruct (IH eq_refl) as (A & B); [intros t x H; apply (L t x), in_or_app; auto|].
  destruct St as [u x ig q m H|u q m H|u x ig q m m' H H1 H2|u x q m H H1|u x q m m' H H1|u m H|u q m H]; cbn in *.
  - split; [exact A|]. intros t y. unfold set_th. destruct (t =? u)%nat; [|apply B]. intros [= _ ->]. apply (L u x), in_or_app. right. left. reflexivity.
  - split; [exact A|]. intros t y. unfold set_th. destruct (t =? u)%nat; [discriminate|apply B].
  - assert (ig = false) as ->. { destruct H as [H|(_ & H)]; [|exact H]. destruct ig; [destruct (B _ _ H)|reflexivity]. }
    split; [rewrite app_length; cbn; destruct H1; [discriminate|lia]|]. intros t y Hy. destruct H2 as (H2 & _).
    destruct (H2 t) as [E|E]; rewrite E in Hy; unfold set_th in Hy; (destruct (t =? u)%nat; [discriminate|]).
    + exact (B t y Hy).
    + apply (B t y). destruct (m t); try discriminate. exact Hy.
  - split; [exact A|]. intros t y. unfold set_th. destruct (t =? u)%nat; [discriminate|apply B].
  - split; [lia|]. intros t y Hy. destruct H1 as (H2 & _).
    destruct (H2 t) as [E|E]; rewrite E in Hy; unfold set_th in Hy; (destruct (t =? u)%nat; [discriminate|]).
    + exact (B t y Hy).
    + apply (B t y). destruct (m t); try discriminate. exact Hy.
  - split; [lia|]. intros t y. unfold set_th. destruct (t =? u)%nat; [discriminate|apply B].
  - split; [exact A|]. intros t y. unfold set_th. destruct (t =? u)%nat; [|apply B]. destruct (m u); discriminate.
Qed.

(** ** Counting *)
Definition cnt (P : th T -> bool) m (l : list nat) : nat := List.length (filter (fun t => P (m t)) l).
Definition b2n (b : bool) : nat := if b then 1 else 0.

Lemma cnt_cons P m t l : cnt P m (t :: l) = b2n (P (m t)) + cnt P m l.
Proof. unfold cnt. cbn. destruct (P (m t)); reflexivity. Qed.
Lemma cnt_ext P m m' l : (forall t, In t l -> P (m t) = P (m' t)) -> cnt P m l = cnt P m' l.
Proof. induction l as [|t l IH]; intros H; [reflexivity|]. rewrite !cnt_cons, IH, (H t); auto; [left; reflexivity|intros; apply H; right; assumption]. Qed.
Lemma cnt_out P m l t x : ~ In t l -> cnt P (set_th m t x) l = cnt P m l.
Proof. intros H. apply cnt_ext. intros u Hu. rewrite set_other; [reflexivity|congruence]. Qed.
Lemma cnt_in P m l t x : NoDup l -> In t l -> cnt P (set_th m t x) l + b2n (P (m t)) = cnt P m l + b2n (P x).
Proof.
  induction l as [|u l IH]; intros N H; [destruct H|]. inversion_clear N as [|? ? N1 N2]. rewrite !cnt_cons.
  destruct (Nat.eq_dec u t) as [->|Hn]; [rewrite set_same, cnt_out by exact N1; lia|].
  destruct H as [H|H]; [congruence|]. rewrite (set_other _ _ _ u Hn). specialize (IH N2 H). lia.
Qed.
Lemma cnt_le_len P m l : cnt P m l <= List.length l.
Proof. induction l as [|t l IH]; [reflexivity|]. rewrite cnt_cons. cbn. destruct (P (m t)); cbn; lia. Qed.
Lemma cnt_mono P m m' l : (forall t, In t l -> P (m' t) = true -> P (m t) = true) -> cnt P m' l <= cnt P m l.
Proof.
  induction l as [|t l IH]; intros H; [reflexivity|]. rewrite !cnt_cons. specialize (IH (fun u Hu => H u (or_intror Hu))).
  pose proof (H t (or_introl eq_refl)) as H0. destruct (P (m' t)), (P (m t)); cbn; try lia; discriminate (H0 eq_refl).
Qed.
Lemma cnt_less P m m' l t : (forall t, In t l -> P (m' t) = true -> P (m t) = true) -> In t l -> P (m t) = true -> P (m' t) = false ->
  cnt P m' l < cnt P m l.
Proof.
  induction l as [|u l IH]; intros H Ht A B; [destruct Ht|]. rewrite !cnt_cons.
  pose proof (cnt_mono P m m' l (fun u Hu => H u (or_intror Hu))) as C. pose proof (H u (or_introl eq_refl)) as H0.
  destruct Ht as [->|Ht]; [rewrite A, B; cbn; lia|]. specialize (IH (fun u Hu => H u (or_intror Hu)) Ht A B).
  destruct (P (m' u)), (P (m u)); cbn; try lia; discriminate (H0 eq_refl).
Qed.
Lemma cnt_pos P m l : 0 < cnt P m l <-> exists t, In t l /\ P (m t) = true.
Proof.
  unfold cnt. split.
  - destruct (filter _ l) as [|t r] eqn:E; cbn; [lia|]. intros _. exists t. apply (filter_In (fun t => P (m t))). rewrite E. left. reflexivity.
  - intros (t & H). apply (filter_In (fun t => P (m t))) in H. destruct (filter _ l); [destruct H|cbn; lia].
Qed.

Definition is_sa (x : th T) : bool := match x with SleepAdd _ => true | _ => false end.
Definition is_wa (x : th T) : bool := match x with WokeAdd _ => true | _ => false end.

(** ** One consumer, [ps] limited producers *)
Section One.
Variables (ps : list nat) (c : nat).
Hypothesis Nps : NoDup ps.
Hypothesis Cps : ~ In c ps.
Hypothesis Len : List.length ps < 2 * max_queue_size.

Definition typed (x : th T) (t : nat) : Prop :=
  match x with
  | Out => True
  | InAdd _ ig => t <> c /\ (ig = false -> In t ps)
  | SleepAdd _ | WokeAdd _ => In t ps
  | InRem | SleepRem | WokeRem => t = c
  end.
Definition A m := cnt is_sa m ps.

Record inv s : Prop := {
  i_typed : forall t, typed (q_th s t) t;
  i_1 : 0 < A (q_th s) -> A (q_th s) + max_queue_size <= List.length ps + List.length (q_items s);
  i_2 : q_th s c = SleepRem -> (q_items s = [] /\ A (q_th s) = 0) \/ A (q_th s) + max_queue_size + List.length (q_items s) <= List.length ps;
  i_3 : q_th s c = SleepRem -> q_items s <> [] -> exists t, In t ps /\ is_wa (q_th s t) = true;
  i_4 : 0 < A (q_th s) -> List.length (q_items s) < max_queue_size ->
        (exists t, In t ps /\ is_wa (q_th s t) = true) \/ (q_th s c = WokeRem /\ q_items s <> []) }.

Lemma typed_woken x t : typed x t -> typed (woken x) t.
Proof. destruct x; auto. Qed.
Lemma signal_typed m m' : signal m m' -> (forall t, typed (m t) t) -> forall t, typed (m' t) t.
Proof. intros (H & _) K t. destruct (H t) as [->| ->]; [apply K|apply typed_woken, K]. Qed.
Lemma signal_sa m m' t : signal m m' -> is_sa (m' t) = true -> is_sa (m t) = true.
Proof. intros (H & _) K. destruct (H t) as [E|E]; rewrite E in K; [exact K|]. destruct (m t); try discriminate. Qed.
Lemma signal_mono m m' : signal m m' -> A m' <= A m.
Proof. intros H. apply cnt_mono. intros t _. apply (signal_sa m m' t H). Qed.
(** A signal wakes the consumer, or a producer, if one of them sleeps. *)
Lemma signal_wakes m m' : signal m m' -> (forall t, typed (m t) t) -> 0 < A m \/ m c = SleepRem ->
  (m c = SleepRem /\ m' c = WokeRem) \/ (A m' < A m /\ exists t, In t ps /\ is_wa (m' t) = true).
Proof.
  intros S K H. pose proof S as (_ & W). destruct W as (t & Ht & Et).
  - destruct H as [H|H]; [|exists c; rewrite H; reflexivity]. apply cnt_pos in H as (t & _ & Ht). exists t. destruct (m t); try discriminate. reflexivity.
  - specialize (K t). destruct (m t) eqn:Em; try discriminate; cbn in K, Et.
    + right. split; [|exists t; rewrite Et; auto]. apply (cnt_less is_sa m m' ps t).
      * intros u _. apply signal_sa, S.
      * exact K.
      * rewrite Em. reflexivity.
      * rewrite Et. reflexivity.
    + subst t. left. auto.
Qed.
Lemma signal_sr m m' t : signal m m' -> m' t = SleepRem -> m t = SleepRem.
Proof. intros (H & _) K. destruct (H t) as [E|E]; rewrite E in K; [exact K|]. destruct (m t); discriminate. Qed.
Lemma signal_wa m m' t : signal m m' -> is_wa (m t) = true -> is_wa (m' t) = true.
Proof. intros (H & _) K. destruct (H t) as [->| ->]; [exact K|]. destruct (m t); try discriminate. exact K. Qed.
Lemma signal_wr m m' t : signal m m' -> m t = WokeRem -> m' t = WokeRem.
Proof. intros (H & _) K. destruct (H t) as [->| ->]; rewrite K; reflexivity. Qed.

Lemma A_set m t x : is_sa (m t) = is_sa x -> A (set_th m t x) = A m.
Proof. intros H. apply cnt_ext. intros u _. unfold set_th. destruct (Nat.eqb_spec u t) as [->|]; congruence. Qed.
Lemma A_le m : A m <= List.length ps.
Proof. apply cnt_le_len. Qed.
Lemma typed_set m t x : (forall t, typed (m t) t) -> typed x t -> forall u, typed (set_th m t x u) u.
Proof. intros K H u. unfold set_th. destruct (Nat.eqb_spec u t) as [->|]; [exact H|apply K]. Qed.

(** A call that starts changes nothing that matters. *)
Lemma call_inv q m t x : inv (Wq q m) -> m t = Out -> runnable x = true -> is_sa x = false -> is_wa x = false -> x <> WokeRem -> typed x t ->
  inv (Wq q (set_th m t x)).
Proof.
  intros [I0 I1 I2 I3 I4] Ht Hr Hs Hw Hwr Hx. cbn in *.
  assert (EA : A (set_th m t x) = A m) by (apply A_set; rewrite Ht, Hs; reflexivity).
  assert (SR : set_th m t x c = SleepRem -> m c = SleepRem) by (unfold set_th; destruct (c =? t)%nat; [intros ->; discriminate|auto]).
  assert (WA : (exists u, In u ps /\ is_wa (m u) = true) -> exists u, In u ps /\ is_wa (set_th m t x u) = true).
  { intros (u & Hu & Eu). exists u. split; [exact Hu|]. unfold set_th. destruct (Nat.eqb_spec u t) as [->|]; [rewrite Ht in Eu; discriminate|exact Eu]. }
  constructor; cbn; rewrite ?EA; auto using typed_set.
  intros H1 H2. destruct (I4 H1 H2) as [H|(H & H3)]; [auto|]. right. split; [|exact H3].
  rewrite set_other; [exact H|]. intros ->. congruence.
Qed.

Lemma step_inv a s s' : inv s -> roles ps c a -> qstep a s s' -> inv s'.
Proof.
  intros I Ro St. destruct St as [t x ig q m H|t q m H|t x ig q m m' H H1 H2|t x q m H H1|t x q m m' H H1|t m H|t q m H].
  - apply call_inv; auto; try discriminate. cbn in *. destruct ig; [split; [exact Ro|discriminate]|]. split; [|auto]. intros ->. auto.
  - apply call_inv; auto; discriminate.
  - destruct I as [I0 I1 I2 I3 I4]. cbn in *.
    assert (EA : A (set_th m t Out) = A m) by (apply A_set; destruct H as [->|(-> & _)]; reflexivity).
    assert (K0 : forall u, typed (set_th m t Out u) u) by (apply typed_set; [exact I0|exact I]).
    pose proof (signal_mono _ _ H2) as Mo. rewrite EA in Mo.
    pose proof (signal_wakes _ _ H2 K0) as Wa. rewrite EA in Wa.
    assert (Tc : t <> c) by (pose proof (I0 t) as K; destruct H as [E|(E & _)]; rewrite E in K; cbn in K; [tauto|intros ->; auto]).
    rewrite (set_other m t Out c) in Wa by congruence.
    assert (SR : m' c = SleepRem -> m c = SleepRem).
    { intros E. pose proof (signal_sr _ _ c H2 E) as F. rewrite set_other in F by congruence. exact F. }
    constructor; cbn; rewrite ?app_length; cbn.
    + apply (signal_typed _ _ H2 K0).
    + intros P. specialize (I1 ltac:(lia)). lia.
    + intros E. specialize (I2 (SR E)). destruct (Wa (or_intror (SR E))) as [(_ & F)|(F & _)]; [congruence|]. right. lia.
    + intros E _. destruct (Wa (or_intror (SR E))) as [(_ & F)|(_ & F)]; [congruence|exact F].
    + intros P _. assert (Pm : 0 < A m) by lia; destruct (Wa (or_introl Pm)) as [(_ & F)|(_ & F)]; [right|left; exact F]. split; [exact F|]. destruct q; discriminate.
  - destruct I as [I0 I1 I2 I3 I4]. cbn in *.
    assert (Tp : In t ps) by (pose proof (I0 t) as K; destruct H as [E|E]; rewrite E in K; cbn in K; [apply K; reflexivity|exact K]).
    assert (Tc : t <> c) by (intros ->; auto).
    pose proof (A_le (set_th m t (SleepAdd x))) as L.
    assert (SR : m c = SleepRem -> False).
    { intros E. destruct (I2 E) as [(-> & _)|F]; [cbn in H1; unfold max_queue_size in H1; lia|unfold max_queue_size in *; lia]. }
    constructor; cbn.
    + apply typed_set; [exact I0|exact Tp].
    + lia.
    + intros E. rewrite set_other in E by congruence. destruct (SR E).
    + intros E. rewrite set_other in E by congruence. destruct (SR E).
    + lia.
  - destruct I as [I0 I1 I2 I3 I4]. cbn in *.
    assert (t = c) as -> by (pose proof (I0 t) as K; destruct H as [E|E]; rewrite E in K; exact K).
    assert (EA : A (set_th m c Out) = A m) by (apply A_set; destruct H as [-> | ->]; reflexivity).
    assert (K0 : forall u, typed (set_th m c Out u) u) by (apply typed_set; [exact I0|exact I]).
    pose proof (signal_mono _ _ H1) as Mo. rewrite EA in Mo.
    pose proof (signal_wakes _ _ H1 K0) as Wa. rewrite EA, set_same in Wa.
    assert (NR : m' c = SleepRem -> False) by (intros E; apply (signal_sr _ _ c H1) in E; rewrite set_same in E; discriminate).
    constructor; cbn.
    + apply (signal_typed _ _ H1 K0).
    + intros P. assert (Pm : 0 < A m) by lia; destruct (Wa (or_introl Pm)) as [(F & _)|(F & _)]; [discriminate|]. specialize (I1 ltac:(lia)). lia.
    + intros E. destruct (NR E).
    + intros E. destruct (NR E).
    + intros P _. assert (Pm : 0 < A m) by lia; destruct (Wa (or_introl Pm)) as [(F & _)|(_ & F)]; [discriminate|auto].
  - destruct I as [I0 I1 I2 I3 I4]. cbn in *.
    assert (t = c) as -> by (pose proof (I0 t) as K; destruct H as [E|E]; rewrite E in K; exact K).
    assert (EA : A (set_th m c SleepRem) = A m) by (apply A_set; destruct H as [-> | ->]; reflexivity).
    constructor; cbn; rewrite ?EA.
    + apply typed_set; [exact I0|reflexivity].
    + exact I1.
    + intros _. destruct (A m) eqn:E; [auto|]. right. specialize (I1 ltac:(lia)). lia.
    + intros _ F. congruence.
    + intros P L. destruct (I4 P L) as [(u & Hu & Eu)|(_ & F)]; [|congruence]. left. exists u. split; [exact Hu|].
      rewrite set_other; [exact Eu|]. intros ->. auto.
  - destruct I as [I0 I1 I2 I3 I4]. cbn in *.
    assert (Mo : A (set_th m t (woken (m t))) <= A m).
    { apply cnt_mono. intros u _. unfold set_th. destruct (Nat.eqb_spec u t) as [->|]; [destruct (m t); discriminate|auto]. }
    assert (SR : set_th m t (woken (m t)) c = SleepRem -> m c = SleepRem).
    { unfold set_th. destruct (c =? t)%nat; [destruct (m t); discriminate|auto]. }
    assert (WA : (exists u, In u ps /\ is_wa (m u) = true) -> exists u, In u ps /\ is_wa (set_th m t (woken (m t)) u) = true).
    { intros (u & Hu & Eu). exists u. split; [exact Hu|]. unfold set_th. destruct (Nat.eqb_spec u t) as [->|]; [destruct (m t); discriminate|exact Eu]. }
    constructor; cbn.
    + apply typed_set; [exact I0|]. apply typed_woken, I0.
    + intros P. specialize (I1 ltac:(lia)). lia.
    + intros E. destruct (I2 (SR E)) as [(F & G)|F]; [left; split; [exact F|lia]|right; lia].
    + intros E F. apply WA, I3; auto.
    + intros P L. destruct (I4 ltac:(lia) L) as [F|(F & G)]; [left; apply WA, F|]. right. split; [|exact G].
      unfold set_th. destruct (Nat.eqb_spec c t) as [<-|]; [rewrite F; reflexivity|exact F].
Qed.

Lemma init_inv : inv wq_init.
Proof.
  assert (A0 : forall l, cnt is_sa (fun _ : nat => @Out T) l = 0) by (induction l as [|t l IH]; [reflexivity|rewrite cnt_cons, IH; reflexivity]).
  constructor; cbn; unfold A; rewrite ?A0; try lia; try discriminate; intros t; exact I.
Qed.

Lemma run_inv tr s : qrun wq_init tr s -> Forall (roles ps c) tr -> inv s.
Proof.
  remember wq_init as s0 eqn:E. intros R. revert E. induction R as [s|s0 l s1 a s2 R IH St]; intros ->; [intros _; apply init_inv|].
  intros F. apply Forall_app in F as (F1 & F2). inversion_clear F2. eapply step_inv; eauto.
Qed.

Lemma not_stuck s : inv s -> ~ stuck s.
Proof.
  intros [I0 I1 I2 I3 I4] ((t & H) & N).
  assert (NW : (exists t, In t ps /\ is_wa (q_th s t) = true) -> False).
  { intros (u & _ & Hu). specialize (N u). destruct (q_th s u); discriminate. }
  destruct H as [(H1 & H2)|(x & H1 & H2)].
  - pose proof (I0 t) as K. rewrite H1 in K. cbn in K. subst t. apply NW, I3; assumption.
  - pose proof (I0 t) as K. rewrite H1 in K. cbn in K. destruct I4 as [F|(F & _)]; [|exact H2|exact (NW F)|].
    + apply cnt_pos. exists t. rewrite H1. auto.
    + specialize (N c). rewrite F in N. discriminate.
Qed.

(** ** Draining *)
Definition busy_add (x : th T) : bool := match x with InAdd _ _ | SleepAdd _ | WokeAdd _ => true | _ => false end.
Definition weight (x : th T) : nat := match x with Out => 0 | SleepAdd _ => 0 | SleepRem => 0 | _ => 1 end.
Definition runs (x : th T) : bool := match x with InAdd _ _ | WokeAdd _ => true | _ => false end.

Lemma finite_threads tr s : qrun wq_init tr s -> exists ts, NoDup ts /\ forall t, ~ In t ts -> q_th s t = Out.
Proof.
  remember wq_init as s0 eqn:E. intros R. revert E. induction R as [s|s0 l s1 a s2 R IH St]; intros ->; [exists []; split; [constructor|reflexivity]|].
  destruct (IH eq_refl) as (ts & N & H).
  assert (D : exists t, forall u, u <> t -> ~ In u ts -> q_th s2 u = Out).
  { destruct St as [t x ig q m Ht|t q m Ht|t x ig q m m' Ht H1 H2|t x q m Ht H1|t x q m m' Ht H1|t m Ht|t q m Ht]; exists t; intros u Hu Hn; cbn in *;
      rewrite ?set_other by exact Hu; auto.
    - destruct H2 as (H2 & _). destruct (H2 u) as [->| ->]; rewrite set_other by exact Hu; rewrite H by exact Hn; reflexivity.
    - destruct H1 as (H2 & _). destruct (H2 u) as [->| ->]; rewrite set_other by exact Hu; rewrite H by exact Hn; reflexivity. }
  destruct D as (t & D). destruct (in_dec Nat.eq_dec t ts) as [Ht|Ht].
  - exists ts. split; [exact N|]. intros u Hu. apply D; [congruence|exact Hu].
  - exists (t :: ts). split; [constructor; assumption|]. intros u Hu. apply D; [intros ->; apply Hu; left; reflexivity|intros K; apply Hu; right; exact K].
Qed.

Definition cw (x : th T) : nat := match x with Out => 2 | InRem | WokeRem => 1 | _ => 0 end.
Definition m1 ts s := 2 * cnt busy_add (q_th s) ts + List.length (q_items s).
Definition m2 ts s := cnt runs (q_th s) ts + cw (q_th s c).

Lemma signal_busy m m' ts : signal m m' -> cnt busy_add m' ts = cnt busy_add m ts.
Proof. intros (H & _). apply cnt_ext. intros t _. destruct (H t) as [->| ->]; [reflexivity|]. destruct (m t); reflexivity. Qed.

Lemma drain_less ts s s' : NoDup ts -> In c ts -> (forall t, ~ In t ts -> q_th s t = Out) -> inv s -> drain_step c s s' ->
  (forall t, ~ In t ts -> q_th s' t = Out) /\ (m1 ts s' < m1 ts s \/ (m1 ts s' = m1 ts s /\ m2 ts s' < m2 ts s)).
Proof.
  intros N Ic O I (a & D & St). destruct I as [I0 _ _ _ _].
  assert (InT : forall t x, q_th s t = x -> x <> Out -> In t ts).
  { intros t x H1 H2. destruct (in_dec Nat.eq_dec t ts) as [|Ht]; [assumption|]. apply O in Ht. congruence. }
  unfold m1, m2. destruct St as [t x ig q m H|t q m H|t x ig q m m' H H1 H2|t x q m H H1|t x q m m' H H1|t m H|t q m H]; cbn in *; try contradiction.
  - subst t. split; [intros u Hu; rewrite set_other by congruence; auto|]. right.
    pose proof (cnt_in busy_add m ts c InRem N Ic) as E1. pose proof (cnt_in runs m ts c InRem N Ic) as E2. rewrite H in *. rewrite set_same. cbn in *. lia.
  - assert (It : In t ts) by (destruct H as [H|(H & _)]; eapply InT; try exact H; discriminate).
    split; [intros u Hu; destruct H2 as (H2 & _); destruct (H2 u) as [->| ->]; rewrite set_other by congruence; rewrite O by exact Hu; reflexivity|]. left.
    pose proof (cnt_in busy_add m ts t Out N It) as E1. rewrite (signal_busy _ _ ts H2), app_length. cbn.
    destruct H as [H|(H & _)]; rewrite H in *; cbn in *; lia.
  - assert (It : In t ts) by (destruct H as [H|H]; eapply InT; try exact H; discriminate).
    assert (Tp : In t ps) by (pose proof (I0 t) as K; destruct H as [E|E]; rewrite E in K; cbn in K; [apply K; reflexivity|exact K]).
    split; [intros u Hu; rewrite set_other by congruence; auto|]. right. rewrite (set_other m t _ c) by congruence.
    pose proof (cnt_in busy_add m ts t (SleepAdd x) N It) as E1. pose proof (cnt_in runs m ts t (SleepAdd x) N It) as E2.
    destruct H as [H|H]; rewrite H in *; cbn in *; lia.
  - assert (It : In t ts) by (destruct H as [H|H]; eapply InT; try exact H; discriminate).
    split; [intros u Hu; destruct H1 as (H2 & _); destruct (H2 u) as [->| ->]; rewrite set_other by congruence; rewrite O by exact Hu; reflexivity|]. left.
    pose proof (cnt_in busy_add m ts t Out N It) as E1. rewrite (signal_busy _ _ ts H1). destruct H as [H|H]; rewrite H in *; cbn in *; lia.
  - assert (It : In t ts) by (destruct H as [H|H]; eapply InT; try exact H; discriminate).
    assert (t = c) as -> by (pose proof (I0 t) as K; destruct H as [E|E]; rewrite E in K; exact K).
    split; [intros u Hu; rewrite set_other by congruence; auto|]. right. rewrite set_same.
    pose proof (cnt_in busy_add m ts c SleepRem N It) as E1. pose proof (cnt_in runs m ts c SleepRem N It) as E2.
    destruct H as [H|H]; rewrite H in *; cbn in *; lia.
Qed.

Lemma drain_roles (a : lab T) : draining c a -> roles ps c a.
Proof. destruct a as [t x ig|t|t x|t x|t|t]; cbn; tauto. Qed.

Lemma drain_acc_aux ts : NoDup ts -> In c ts -> forall n k s, m1 ts s <= n -> m2 ts s <= k -> (forall t, ~ In t ts -> q_th s t = Out) -> inv s ->
  Acc (fun s' s => drain_step c s s') s.
Proof.
  intros N Ic. induction n as [n IHn] using lt_wf_ind. induction k as [k IHk] using lt_wf_ind. intros s L1 L2 O I. constructor. intros s' D.
  assert (I' : inv s') by (destruct D as (a & D1 & D2); eapply step_inv; eauto using drain_roles).
  destruct (drain_less ts s s' N Ic O I D) as (O' & [Lt|(E & Lt)]).
  - apply (IHn (m1 ts s') ltac:(lia) (m2 ts s') s'); auto.
  - apply (IHk (m2 ts s') ltac:(lia) s'); auto. lia.
Qed.

Lemma drain_acc tr s : qrun wq_init tr s -> Forall (roles ps c) tr -> Acc (fun s' s => drain_step c s s') s.
Proof.
  intros R F. destruct (finite_threads tr s R) as (ts & N & O). pose proof (run_inv tr s R F) as I.
  destruct (in_dec Nat.eq_dec c ts) as [Hc|Hc]; [apply (drain_acc_aux ts N Hc (m1 ts s) (m2 ts s)); auto|].
  apply (drain_acc_aux (c :: ts)) with (n := m1 (c :: ts) s) (k := m2 (c :: ts) s); auto; [constructor; assumption|left; reflexivity|].
  intros t Ht. apply O. intros K. apply Ht. right. exact K.
Qed.

Lemma signal_exists m : exists m', signal m m'.
Proof. exists (fun t => woken (m t)). split; [auto|]. intros (t & H). exists t. auto. Qed.

Lemma drained s : inv s -> (forall s', ~ drain_step c s s') -> q_items s = [] /\ q_th s c = SleepRem /\ forall t, t <> c -> q_th s t = Out.
Proof.
  intros I E. pose proof (not_stuck s I) as NS. destruct I as [I0 _ _ _ _].
  assert (NR : forall t, runnable (q_th s t) = false).
  { intros t. destruct (runnable (q_th s t)) eqn:Rt; [exfalso|reflexivity]. destruct s as [q m]. cbn in *.
    destruct (signal_exists (set_th m t Out)) as (m' & Sg).
    destruct (m t) as [|x ig|x|x| | |] eqn:Mt; try discriminate.
    - destruct (Nat.lt_ge_cases (List.length q) max_queue_size) as [L|L].
      + eapply (E (Wq (q ++ [x]) m')). exists (Added t x). split; [exact I|]. eapply q_add; eauto.
      + destruct ig.
        * eapply (E (Wq (q ++ [x]) m')). exists (Added t x). split; [exact I|]. eapply q_add; eauto.
        * eapply (E (Wq q (set_th m t (SleepAdd x)))). exists (Slept t). split; [exact I|]. apply q_add_wait; auto.
    - destruct (Nat.lt_ge_cases (List.length q) max_queue_size) as [L|L].
      + eapply (E (Wq (q ++ [x]) m')). exists (Added t x). split; [exact I|]. eapply q_add; eauto.
      + eapply (E (Wq q (set_th m t (SleepAdd x)))). exists (Slept t). split; [exact I|]. apply q_add_wait; auto.
    - destruct q as [|x q].
      + eapply (E (Wq [] (set_th m t SleepRem))). exists (Slept t). split; [exact I|]. apply q_rem_wait; auto.
      + eapply (E (Wq q m')). exists (Removed t x). split; [exact I|]. apply q_rem; auto.
    - destruct q as [|x q].
      + eapply (E (Wq [] (set_th m t SleepRem))). exists (Slept t). split; [exact I|]. apply q_rem_wait; auto.
      + eapply (E (Wq q m')). exists (Removed t x). split; [exact I|]. apply q_rem; auto. }
  assert (Hc : q_th s c = SleepRem).
  { pose proof (I0 c) as K. pose proof (NR c) as Rc. destruct (q_th s c) as [|x ig|x|x| | |] eqn:Mc; try discriminate; cbn in K; try tauto.
    exfalso. destruct s as [q m]. eapply (E (Wq q (set_th m c InRem))). exists (CallRem c). split; [reflexivity|]. apply q_call_rem. exact Mc. }
  assert (Q : q_items s = []).
  { destruct (q_items s) as [|x q] eqn:Q; [reflexivity|exfalso]. apply NS. split; [|exact NR]. exists c. left. rewrite Q. split; [exact Hc|discriminate]. }
  split; [exact Q|]. split; [exact Hc|]. intros t Ht. pose proof (I0 t) as K. pose proof (NR t) as Rt.
  destruct (q_th s t) as [|x ig|x|x| | |] eqn:Mt; try discriminate; cbn in K; try tauto.
  exfalso. apply NS. split; [|exact NR]. exists t. right. exists x. rewrite Q. split; [exact Mt|]. unfold max_queue_size. cbn. lia.
Qed.
End One.
End Proofs.
