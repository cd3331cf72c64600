(** Frames through connected plugins: where threads are. *)
From Verif Require Import Base QueueModel PipeModel PipeSpec.

Lemma on_same {A} (f : nat -> A) k x : on f k x k = x. Proof. unfold on. rewrite Nat.eqb_refl. reflexivity. Qed.
Lemma on_other {A} (f : nat -> A) k x i : i <> k -> on f k x i = f i. Proof. intros H. unfold on. destruct (Nat.eqb_spec i k); [contradiction|reflexivity]. Qed.
Lemma teq_spec a b : teq a b = true <-> a = b.
Proof. destruct a as [x|], b as [y|]; cbn; split; try discriminate; try reflexivity; intros H; [apply Nat.eqb_eq in H; subst; reflexivity|injection H as ->; apply Nat.eqb_refl]. Qed.
Lemma to_same {A} (f : option nat -> A) k x : to_thread f k x k = x. Proof. unfold to_thread. rewrite (proj2 (teq_spec k k) eq_refl). reflexivity. Qed.
Lemma to_other {A} (f : option nat -> A) k x i : i <> k -> to_thread f k x i = f i. Proof. intros H. unfold to_thread. destruct (teq i k) eqn:E; [apply teq_spec in E; contradiction|reflexivity]. Qed.

Lemma nodup_app {A} (a b : list A) : NoDup (a ++ b) -> NoDup a /\ NoDup b.
Proof. induction a as [|x a IH]; cbn; intros H; [split; [constructor|exact H]|]. inversion H as [|? ? H1 H2]; subst. destruct (IH H2) as (A1 & A2). split; [|exact A2]. constructor; [|exact A1]. intros I. apply H1, in_or_app. left. exact I. Qed.
(** Depth of a plugin, and the thread in which it is called *)
Inductive deep {S C} (nt : net S C) : nat -> nat -> nat -> Prop :=
| d_root m : In m (p_roots nt) -> deep nt m 0 m
| d_queued p d t m : deep nt p d t -> In m (p_queued nt p) -> deep nt m (Datatypes.S d) m
| d_blocking p d t m : deep nt p d t -> In m (p_blocking nt p) -> deep nt m (Datatypes.S d) t.

Section Net.
Context {S C : Type} (nt : net S C) (T : tree nt).
Notation deep := (deep nt). Notation kids := (kids nt).
Lemma kid_blocking p m : In m (p_blocking nt p) -> In m (kids p). Proof. intros H. apply in_or_app. left. exact H. Qed.
Lemma kid_queued p m : In m (p_queued nt p) -> In m (kids p). Proof. intros H. apply in_or_app. right. exact H. Qed.
Lemma not_both p m : In m (p_blocking nt p) -> In m (p_queued nt p) -> False.
Proof.
  intros A B. destruct T as (_ & N & _). specialize (N p). unfold PipeSpec.kids in N. revert A N. induction (p_blocking nt p) as [|x l IH]; [intros []|]. cbn. intros [->|A] N; inversion N as [|? ? N1 N2]; subst; [apply N1, in_or_app; right; exact B|apply IH; assumption].
Qed.
Lemma deep_kid p d t m : deep p d t -> In m (kids p) -> exists t', deep m (1 + d) t'.
Proof. intros D I. apply in_app_or in I as [I|I]; [exists t; eapply d_blocking; eassumption|exists m; eapply d_queued; eassumption]. Qed.
Lemma deep_fun m d t : deep m d t -> forall d' t', deep m d' t' -> d = d' /\ t = t'.
Proof.
  destruct T as (_ & _ & R & U).
  induction 1 as [m I|p d t m D IH I|p d t m D IH I]; intros d' t' D'; inversion D' as [? I'|p' d1 t1 ? D1 I'|p' d1 t1 ? D1 I']; subst.
  - split; reflexivity.
  - destruct (R _ _ (kid_queued _ _ I') I).
  - destruct (R _ _ (kid_blocking _ _ I') I).
  - destruct (R _ _ (kid_queued _ _ I) I').
  - assert (E : p' = p) by (eapply U; [apply (kid_queued _ _ I')|apply (kid_queued _ _ I)]); subst p'. destruct (IH _ _ D1) as (-> & _). split; reflexivity.
  - assert (E : p' = p) by (eapply U; [apply (kid_blocking _ _ I')|apply (kid_queued _ _ I)]); subst p'. destruct (not_both _ _ I' I).
  - destruct (R _ _ (kid_blocking _ _ I) I').
  - assert (E : p' = p) by (eapply U; [apply (kid_queued _ _ I')|apply (kid_blocking _ _ I)]); subst p'. destruct (not_both _ _ I I').
  - assert (E : p' = p) by (eapply U; [apply (kid_blocking _ _ I')|apply (kid_blocking _ _ I)]); subst p'. destruct (IH _ _ D1) as (-> & ->). split; reflexivity.
Qed.
Lemma deep_host m d t : deep m d t -> exists d', deep t d' t /\ d' <= d.
Proof.
  induction 1 as [m I|p d t m D IH I|p d t m D IH I]; [exists 0; split; [apply d_root, I|lia]|exists (Datatypes.S d); split; [eapply d_queued; eassumption|lia]|].
  destruct IH as (d' & H & L). exists d'. split; [exact H|lia].
Qed.
Lemma kid_not_host p d h m : deep p d h -> In m (kids p) -> m <> h.
Proof. intros D I ->. destruct (deep_kid _ _ _ _ D I) as (t' & D1). destruct (deep_host _ _ _ D) as (d' & D2 & L). destruct (deep_fun _ _ _ D1 _ _ D2) as (E & _). lia. Qed.
Lemma kid_not_self p d h m : deep p d h -> In m (kids p) -> m <> p.
Proof. intros D I ->. destruct (deep_kid _ _ _ _ D I) as (t' & D1). destruct (deep_fun _ _ _ D1 _ _ D) as (E & _). lia. Qed.

(** A thread within callbacks: [cur] the innermost *)
Inductive inside (h : nat) : nat -> list act -> Prop :=
| in_host : inside h h [Ret h]
| in_ret n p k : In n (p_blocking nt p) -> inside h p k -> inside h n (Ret n :: k)
| in_call n m r k : In m (p_blocking nt n) -> inside h n k -> inside h n (Call m r :: k)
| in_add n m r k : In m (p_queued nt n) -> inside h n k -> inside h n (Add m r :: k).
Lemma inside_deep h cur k : inside h cur k -> forall d0, deep h d0 h -> exists d, deep cur d h.
Proof. induction 1 as [|n p k I H IH|n m r k I H IH|n m r k I H IH]; intros d0 D; [exists d0; exact D| |apply (IH _ D)..]. destruct (IH _ D) as (d & D1). exists (1 + d). eapply d_blocking; eassumption. Qed.
Lemma inside_acts h m l k : inside h m k -> inside h m (flat_map (pushed nt m) l ++ k).
Proof.
  intros H. induction l as [|(r & to) l IH]; [exact H|]. cbn [flat_map]. rewrite <- app_assoc. revert IH. generalize (flat_map (pushed nt m) l ++ k). intros k1 H1. unfold pushed. cbn [fst snd]. destruct to as [j|].
  - rewrite <- app_assoc. assert (H2 : inside h m ((if existsb (Nat.eqb j) (p_queued nt m) then [Add j r] else []) ++ k1)).
    { destruct (existsb _ (p_queued nt m)) eqn:E; [|exact H1]. apply existsb_exists in E as (x & I & E). apply Nat.eqb_eq in E as <-. apply in_add; assumption. }
    destruct (existsb _ (p_blocking nt m)) eqn:E; [|exact H2]. apply existsb_exists in E as (x & I & E). apply Nat.eqb_eq in E as <-. apply in_call; assumption.
  - rewrite <- app_assoc. assert (H2 : inside h m (map (fun k0 => Add k0 r) (p_queued nt m) ++ k1)).
    { assert (G : incl (p_queued nt m) (p_queued nt m)) by (intros x Hx; exact Hx). revert G. generalize (p_queued nt m) at 1 3. intros l0. induction l0 as [|x l0 IH]; intros G; [exact H1|]. cbn. apply in_add; [apply G; left; reflexivity|apply IH; intros y Hy; apply G; right; exact Hy]. }
    assert (G : incl (p_blocking nt m) (p_blocking nt m)) by (intros x Hx; exact Hx). revert G. generalize (p_blocking nt m) at 1 3. intros l0. induction l0 as [|x l0 IH]; intros G; [exact H2|]. cbn. apply in_call; [apply G; left; reflexivity|apply IH; intros y Hy; apply G; right; exact Hy].
Qed.

(** The frame objects on the way to a plugin in a thread *)
Definition refs_to (m : nat) (l : list act) : list nat := flat_map (fun a => match a with Call k r | Add k r => if Nat.eqb k m then [r] else [] | Ret _ => [] end) l.
Lemma refs_app m a b : refs_to m (a ++ b) = refs_to m a ++ refs_to m b. Proof. unfold refs_to. apply flat_map_app. Qed.
Lemma refs_pushed_none x m l : ~ In m (kids x) -> refs_to m (flat_map (pushed nt x) l) = [].
Proof.
  intros N. assert (N1 : ~ In m (p_blocking nt x)) by (intros I; apply N, kid_blocking, I). assert (N2 : ~ In m (p_queued nt x)) by (intros I; apply N, kid_queued, I).
  induction l as [|(r & to) l IH]; [reflexivity|]. cbn [flat_map]. rewrite refs_app, IH, app_nil_r. unfold pushed. cbn [fst snd]. destruct to as [j|].
  - rewrite refs_app. assert (A : forall L, ~ In m L -> forall g, (g = (fun a b => Call a b) \/ g = (fun a b => Add a b)) -> refs_to m (if existsb (Nat.eqb j) L then [g j r] else []) = []).
    { intros L NL g G. destruct (existsb (Nat.eqb j) L) eqn:E; [|reflexivity]. apply existsb_exists in E as (y & I & E). apply Nat.eqb_eq in E as <-. destruct G as [-> | ->]; cbn; (destruct (Nat.eqb_spec j m) as [->|]; [contradiction|reflexivity]). }
    rewrite (A _ N1 (fun a b => Call a b) (or_introl eq_refl)), (A _ N2 (fun a b => Add a b) (or_intror eq_refl)). reflexivity.
  - rewrite refs_app. assert (A : forall L, ~ In m L -> forall g, (g = (fun a b => Call a b) \/ g = (fun a b => Add a b)) -> refs_to m (map (fun k => g k r) L) = []).
    { intros L NL g G. induction L as [|y L IHL]; [reflexivity|]. cbn [map]. change (g y r :: map (fun k => g k r) L) with ([g y r] ++ map (fun k => g k r) L). rewrite refs_app, IHL by (intros I; apply NL; right; exact I). destruct G as [-> | ->]; cbn; (destruct (Nat.eqb_spec y m) as [->|]; [destruct NL; left; reflexivity|reflexivity]). }
    rewrite (A _ N1 (fun a b => Call a b) (or_introl eq_refl)), (A _ N2 (fun a b => Add a b) (or_intror eq_refl)). reflexivity.
Qed.
Lemma refs_pushed x m l : In m (kids x) -> refs_to m (flat_map (pushed nt x) l) = map fst (filter (fun p => match snd p with None => true | Some j => Nat.eqb j m end) l).
Proof.
  intros I. assert (U : (In m (p_blocking nt x) /\ ~ In m (p_queued nt x)) \/ (~ In m (p_blocking nt x) /\ In m (p_queued nt x))).
  { apply in_app_or in I as [I|I]; [left|right]; split; try exact I; intros J; eapply not_both; eassumption. }
  assert (ND : NoDup (p_blocking nt x) /\ NoDup (p_queued nt x)).
  { destruct T as (_ & N & _). specialize (N x). unfold PipeSpec.kids in N. apply nodup_app, N. }
  assert (A0 : forall L r, ~ In m L -> forall g, (g = (fun a b => Call a b) \/ g = (fun a b => Add a b)) -> refs_to m (map (fun k => g k r) L) = []).
  { intros L r NL g G. induction L as [|y L IHL]; [reflexivity|]. cbn [map]. change (g y r :: map (fun k => g k r) L) with ([g y r] ++ map (fun k => g k r) L). rewrite refs_app, IHL by (intros J; apply NL; right; exact J). destruct G as [-> | ->]; cbn; (destruct (Nat.eqb_spec y m) as [->|]; [destruct NL; left; reflexivity|reflexivity]). }
  assert (A1 : forall L r, In m L -> NoDup L -> forall g, (g = (fun a b => Call a b) \/ g = (fun a b => Add a b)) -> refs_to m (map (fun k => g k r) L) = [r]).
  { intros L r IL NL g G. induction L as [|y L IHL]; [destruct IL|]. inversion NL as [|? ? N1 N2]; subst. cbn [map]. change (g y r :: map (fun k => g k r) L) with ([g y r] ++ map (fun k => g k r) L). rewrite refs_app. destruct IL as [->|IL].
    - rewrite (A0 L r N1 g G). destruct G as [-> | ->]; cbn; rewrite Nat.eqb_refl; reflexivity.
    - rewrite (IHL IL N2). assert (y <> m) by (intros ->; contradiction). destruct G as [-> | ->]; cbn; (destruct (Nat.eqb_spec y m); [contradiction|reflexivity]). }
  assert (B : forall j L, existsb (Nat.eqb j) L = true <-> In j L).
  { intros j L. rewrite existsb_exists. split; [intros (y & J & E); apply Nat.eqb_eq in E; subst; exact J|intros J; exists j; split; [exact J|apply Nat.eqb_refl]]. }
  induction l as [|(r & to) l IH]; [reflexivity|]. cbn [flat_map filter snd]. rewrite refs_app, IH. unfold pushed at 1. cbn [fst snd]. destruct to as [j|].
  - destruct (Nat.eqb_spec j m) as [->|N].
    + rewrite refs_app. cbn [map fst]. destruct U as [(U1 & U2)|(U1 & U2)].
      * rewrite (proj2 (B m _) U1). destruct (existsb (Nat.eqb m) (p_queued nt x)) eqn:E; [apply B in E; contradiction|]. cbn. rewrite Nat.eqb_refl. reflexivity.
      * rewrite (proj2 (B m _) U2). destruct (existsb (Nat.eqb m) (p_blocking nt x)) eqn:E; [apply B in E; contradiction|]. cbn. rewrite Nat.eqb_refl. reflexivity.
    + rewrite refs_app. replace (refs_to m (if existsb (Nat.eqb j) (p_blocking nt x) then [Call j r] else [])) with (@nil nat); [replace (refs_to m (if existsb (Nat.eqb j) (p_queued nt x) then [Add j r] else [])) with (@nil nat); [reflexivity|]|]; (destruct (existsb _ _); [cbn; destruct (Nat.eqb_spec j m); [contradiction|reflexivity]|reflexivity]).
  - rewrite refs_app. cbn [map fst]. destruct ND as (ND1 & ND2). destruct U as [(U1 & U2)|(U1 & U2)].
    + rewrite (A1 _ r U1 ND1 (fun a b => Call a b) (or_introl eq_refl)), (A0 _ r U2 (fun a b => Add a b) (or_intror eq_refl)). reflexivity.
    + rewrite (A0 _ r U1 (fun a b => Call a b) (or_introl eq_refl)), (A1 _ r U2 ND2 (fun a b => Add a b) (or_intror eq_refl)). reflexivity.
Qed.
Lemma refs_depth h cur k : inside h cur k -> forall d m r, deep cur d h -> In r (refs_to m k) -> exists p dp, In m (kids p) /\ deep p dp h /\ dp <= d.
Proof.
  induction 1 as [|n p k I H IH|n m r k I H IH|n m r k I H IH]; intros d m0 r0 D IR.
  - destruct IR.
  - cbn in IR. inversion D as [? R|p' d1 t1 ? D1 I1|p' d1 t1 ? D1 I1]; subst.
    + destruct T as (_ & _ & TR & _). destruct (TR _ _ (kid_blocking _ _ I) R).
    + destruct T as (_ & _ & _ & TU). assert (E : p' = p) by (eapply TU; [apply (kid_queued _ _ I1)|apply (kid_blocking _ _ I)]); subst p'. destruct (not_both _ _ I I1).
    + destruct T as (_ & _ & _ & TU). assert (E : p' = p) by (eapply TU; [apply (kid_blocking _ _ I1)|apply (kid_blocking _ _ I)]); subst p'. destruct (IH _ _ _ D1 IR) as (x & dx & A & B & L). exists x, dx. repeat split; try assumption. lia.
  - cbn in IR. destruct (Nat.eqb_spec m m0) as [->|N]; [|apply (IH _ _ _ D IR)]. exists n, d. split; [apply kid_blocking, I|]. split; [exact D|lia].
  - cbn in IR. destruct (Nat.eqb_spec m m0) as [->|N]; [|apply (IH _ _ _ D IR)]. exists n, d. split; [apply kid_queued, I|]. split; [exact D|lia].
Qed.
Lemma ret_depth h cur k : inside h cur k -> forall d m, deep cur d h -> In (Ret m) k -> exists dm, deep m dm h /\ dm <= d.
Proof.
  induction 1 as [|n p k I H IH|n m r k I H IH|n m r k I H IH]; intros d m0 D IR.
  - destruct IR as [E|[]]. injection E as <-. exists d. split; [exact D|lia].
  - destruct IR as [E|IR]; [injection E as <-; exists d; split; [exact D|lia]|]. inversion D as [? R|p' d1 t1 ? D1 I1|p' d1 t1 ? D1 I1]; subst.
    + destruct T as (_ & _ & TR & _). destruct (TR _ _ (kid_blocking _ _ I) R).
    + destruct T as (_ & _ & _ & TU). assert (E : p' = p) by (eapply TU; [apply (kid_queued _ _ I1)|apply (kid_blocking _ _ I)]); subst p'. destruct (not_both _ _ I I1).
    + destruct T as (_ & _ & _ & TU). assert (E : p' = p) by (eapply TU; [apply (kid_blocking _ _ I1)|apply (kid_blocking _ _ I)]); subst p'. destruct (IH _ _ D1 IR) as (dm & A & L). exists dm. split; [exact A|lia].
  - destruct IR as [E|IR]; [discriminate|]. apply (IH _ _ D IR).
  - destruct IR as [E|IR]; [discriminate|]. apply (IH _ _ D IR).
Qed.

(** Threads in all executions *)
Record threads (z : pipe S C) : Prop := {
  th_worker : forall h, thr z (Some h) <> [] -> (exists d, deep h d h) /\ ((exists r, thr z (Some h) = [Call h r]) \/ exists cur, inside h cur (thr z (Some h)));
  th_main : forall a, In a (thr z None) -> exists m r, a = Add m r /\ In m (p_roots nt);
  th_queue : forall m, q z m <> [] -> exists d, deep m d m }.
Lemma threads_step z z' : pstep nt z z' -> threads z -> threads z'.
Proof.
  intros ST H. inversion ST as [z0 m r k E1 E2|z0 t m r k s1 i1 o n1 h1 l E1 E2 E3|z0 t m r k E1 E2|z0 t m k E1]; subst.
  - assert (D : exists d, deep m d m) by (apply (th_queue _ H); rewrite E2; discriminate). constructor; cbn [thr q].
    + intros h N. destruct (Nat.eq_dec h m) as [->|NE]; [rewrite to_same in *; split; [exact D|left; exists r; reflexivity]|rewrite to_other in * by congruence; apply (th_worker _ H h N)].
    + rewrite to_other by discriminate. apply (th_main _ H).
    + intros x N. destruct (Nat.eq_dec x m) as [->|NE]; [exact D|rewrite on_other in N by exact NE; apply (th_queue _ H x N)].
  - destruct t as [h|].
    2:{ exfalso. destruct (th_main _ H (Call m r)) as (m1 & r1 & E & _); [rewrite E1; left; reflexivity|discriminate]. }
    destruct (th_worker _ H h) as (D & W); [rewrite E1; discriminate|]. constructor; cbn [thr q].
    + intros x N. destruct (Nat.eq_dec x h) as [->|NE]; [|rewrite to_other in * by congruence; apply (th_worker _ H x N)]. rewrite to_same. split; [exact D|]. right. rewrite E1 in W. destruct W as [(r0 & W)|(cur & W)].
      * injection W as -> _ ->. exists h. apply inside_acts. constructor.
      * inversion W as [| |n m0 r0 k0 I W1|]; subst. exists m. apply inside_acts. eapply in_ret; eassumption.
    + rewrite to_other by discriminate. apply (th_main _ H).
    + apply (th_queue _ H).
  - assert (D : exists d, deep m d m).
    { destruct t as [h|].
      - destruct (th_worker _ H h) as ((d & D) & W); [rewrite E1; discriminate|]. rewrite E1 in W. destruct W as [(r0 & W)|(cur & W)]; [discriminate|]. inversion W as [| | |n m0 r0 k0 I W1]; subst. destruct (inside_deep _ _ _ W1 _ D) as (d1 & D1). exists (1 + d1). eapply d_queued; eassumption.
      - destruct (th_main _ H (Add m r)) as (m1 & r1 & E & I); [rewrite E1; left; reflexivity|]. injection E as <- <-. exists 0. apply d_root, I. }
    constructor; cbn [thr q].
    + intros x N. destruct t as [h|].
      * destruct (Nat.eq_dec x h) as [->|NE]; [|rewrite to_other in * by congruence; apply (th_worker _ H x N)]. rewrite to_same in *. destruct (th_worker _ H h) as (DH & W); [rewrite E1; discriminate|]. split; [exact DH|]. rewrite E1 in W. destruct W as [(r0 & W)|(cur & W)]; [discriminate|]. inversion W; subst. right. exists cur. assumption.
      * rewrite to_other in * by discriminate. apply (th_worker _ H x N).
    + intros a I. destruct t as [h|]; [rewrite to_other in I by discriminate; apply (th_main _ H a I)|]. rewrite to_same in I. apply (th_main _ H). rewrite E1. right. exact I.
    + intros x N. destruct (Nat.eq_dec x m) as [->|NE]; [exact D|rewrite on_other in N by exact NE; apply (th_queue _ H x N)].
  - destruct t as [h|].
    2:{ exfalso. destruct (th_main _ H (Ret m)) as (m1 & r1 & E & _); [rewrite E1; left; reflexivity|discriminate]. }
    constructor; cbn [thr q].
    + intros x N. destruct (Nat.eq_dec x h) as [->|NE]; [|rewrite to_other in * by congruence; apply (th_worker _ H x N)]. rewrite to_same in *. destruct (th_worker _ H h) as (DH & W); [rewrite E1; discriminate|]. split; [exact DH|]. rewrite E1 in W. destruct W as [(r0 & W)|(cur & W)]; [discriminate|]. inversion W as [|n p k0 I W1| |]; subst; [contradiction|]. right. exists p. exact W1.
    + rewrite to_other by discriminate. apply (th_main _ H).
    + apply (th_queue _ H).
Qed.
Lemma threads_init frames : threads (pipe_init nt frames).
Proof.
  constructor; cbn; [intros h N; contradiction| |intros m N; contradiction]. intros a I. apply in_flat_map in I as (r & _ & I). apply in_map_iff in I as (m & <- & I). exists m, r. split; [reflexivity|exact I].
Qed.
Lemma threads_reached frames n z : psteps nt frames n z -> threads z.
Proof. induction 1 as [|n z z' _ IH ST]; [apply threads_init|apply (threads_step _ _ ST IH)]. Qed.
End Net.
