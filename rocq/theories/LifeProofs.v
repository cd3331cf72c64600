(** Invariant of the life of the frame processor. *)
From Coq Require Import Lia.
From Verif Require Import Base QueueModel LifeModel LifeSpec.
Local Open Scope Z_scope.

Definition trail (p : mpos) (n : nat) : list xevent :=
  let stopped := VWaiting :: map VStopped (seq 0 n) in
  match p with
  | MConf | MLock => []
  | MWait => [VWaiting]
  | MStop k | MNull k => VWaiting :: map VStopped (seq 0 k)
  | MSent => stopped
  | MCheck _ | MClear => stopped ++ [VSent]
  | MSelf | MSelfNull => stopped ++ [VSent; VCleared]
  | MReactor => stopped ++ [VSent; VCleared; VSelf]
  | MJoin => stopped ++ [VSent; VCleared; VSelf; VReactor]
  | MClose => stopped ++ [VSent; VCleared; VSelf; VReactor; VJoined]
  | MShm => stopped ++ [VSent; VCleared; VSelf; VReactor; VJoined; VClosed]
  | MTear => stopped ++ [VSent; VCleared; VSelf; VReactor; VJoined; VClosed; VReleased]
  | MEnd => stopped ++ [VSent; VCleared; VSelf; VReactor; VJoined; VClosed; VReleased; VTorn]
  end.
Definition serving (p : mpos) (m : nat) : bool := match p with MConf | MLock | MWait => true | MStop k => Nat.leb k m | MNull k => Nat.ltb k m | _ => false end.
Definition own_on (p : mpos) : bool := match p with MConf | MSelfNull | MReactor | MJoin | MClose | MShm | MTear | MEnd => false | _ => true end.
Definition told (p : mpos) : bool := match p with MJoin | MClose | MShm | MTear | MEnd => true | _ => false end.
Definition sent (p : mpos) : bool := match p with MConf | MLock | MWait | MStop _ | MNull _ | MSent => false | _ => true end.
Record linv (s : life) : Prop := {
  l_log : own (e_log s) = trail (e_main s) (e_n s);
  l_k : match e_main s with MStop k => (k <= e_n s)%nat | MNull k => (k < e_n s)%nat | _ => True end;
  l_work : forall m, (m < e_n s)%nat -> k_working (e_w s m) = serving (e_main s) m;
  l_own : k_working (e_self s) = own_on (e_main s);
  l_ownq : match e_main s with MReactor | MJoin | MClose | MShm | MTear | MEnd => True | _ => k_queue (e_self s) = [] end;
  l_stop : e_stop s = told (e_main s);
  l_done : e_reactor s = RDone -> e_stop s = true;
  l_joined : match e_main s with MClose | MShm | MTear | MEnd => e_reactor s = RDone | _ => True end;
  l_sent : e_sent s = sent (e_main s) }.

Lemma own_app a b : own (a ++ b) = own a ++ own b.
Proof. apply filter_app. Qed.
(** What a worker's step leaves. *)
Lemma work_frame c m l s s' : work c m l s = Some s' ->
  e_n s' = e_n s /\ e_self s' = e_self s /\ e_reactor s' = e_reactor s /\ e_stop s' = e_stop s /\ e_sent s' = e_sent s /\ e_race s' = e_race s /\ e_dangling s' = e_dangling s /\
  (forall k, k_working (e_w s' k) = k_working (e_w s k)) /\
  ((e_main s' = e_main s /\ e_log s' = e_log s) \/ (e_main s' = e_main (notify s) /\ e_log s' = e_log s ++ [VLimit])).
Proof.
  intros W. unfold work in W.
  assert (ONE : forall b q p t, e_w s m = Wk b q p -> s' = set_w m (Wk b t (k_pos (e_w s' m))) s -> True) by auto. clear ONE.
  assert (KW : forall w, k_working w = k_working (e_w s m) -> forall k, k_working (e_w (set_w m w s) k) = k_working (e_w s k)).
  { intros w E k. cbn [set_w e_w]. destruct (Nat.eqb_spec k m) as [->|]; [exact E|reflexivity]. }
  destruct (e_w s m) as [b q p] eqn:EW. cbn [k_working] in KW.
  destruct p as [| |[|[k|k|d|] r]|].
  - cbn [turn] in W. destruct q as [|[|] q]; injection W as <-; repeat split; auto; intros k; rewrite KW; reflexivity.
  - destruct q as [|[|] q]; cbn [turn] in W; try discriminate; injection W as <-; repeat split; auto; intros k; rewrite KW; reflexivity.
  - cbn [turn] in W. destruct q as [|[|] q]; injection W as <-; repeat split; auto; intros k; rewrite KW; reflexivity.
  - assert (W' : (if forallb (allowed c k) l then Some (set_w m (Wk b q (PIn (l ++ r))) s) else None) = Some s') by (destruct q as [|[|] q]; exact W). clear W. destruct (forallb _ _); [|discriminate]. injection W' as <-. repeat split; auto; intros j; rewrite KW; reflexivity.
  - assert (W' : (if Nat.ltb (length (k_queue (e_w s k))) max_queue_size then
      let s1 := set_w m (Wk b q (PIn r)) s in let t := e_w s1 k in Some (set_w k (Wk (k_working t) (k_queue t ++ [true]) (k_pos t)) s1) else None) = Some s') by (destruct q as [|[|] q]; exact W). clear W. destruct (Nat.ltb _ _); [|discriminate]. cbv zeta in W'. injection W' as <-. repeat split; auto.
    intros j. cbn [set_w e_w]. destruct (Nat.eqb_spec j k) as [->|]; cbn [k_working]; [destruct (Nat.eqb_spec k m) as [->|]|destruct (Nat.eqb_spec j m) as [->|]]; rewrite ?EW; reflexivity.
  - assert (W' : (let t := if d then e_total s + 1 else e_total s in
    if t =? e_limit s then Some (notify (note VLimit (set_total t (set_w m (Wk b q (PIn (ASpin :: r))) s)))) else Some (set_total t (set_w m (Wk b q (PIn r)) s))) = Some s') by (destruct q as [|[|] q]; exact W). clear W. cbv zeta in W'. destruct (_ =? _); injection W' as <-.
    + unfold notify, note, set_total, at_main. cbn [e_main set_w e_n e_self e_reactor e_stop e_sent e_race e_dangling e_w e_log]. destruct (e_main s) eqn:PM; cbn [e_main e_n e_self e_reactor e_stop e_sent e_race e_dangling e_w e_log]; (do 7 (split; [reflexivity|])); (split; [|right; split; [cbn [e_main]; auto|reflexivity]]); intros j; destruct (Nat.eqb_spec j m) as [->|]; rewrite ?EW; reflexivity.
    + unfold set_total. cbn [e_main set_w e_n e_self e_reactor e_stop e_sent e_race e_dangling e_w e_log]. repeat split; auto; intros j; destruct (Nat.eqb_spec j m) as [->|]; rewrite ?EW; reflexivity.
  - assert (W' : (if e_sent s then Some (set_w m (Wk b q (PIn r)) s) else None) = Some s') by (destruct q as [|[|] q]; exact W). clear W. destruct (e_sent s) eqn:ES; [|discriminate]. injection W' as <-. repeat split; auto; intros j; rewrite KW; reflexivity.
  - cbn [turn] in W. destruct q as [|[|] q]; discriminate.
Qed.
Lemma turn_frame w w' : turn w = Some w' -> k_working w' = k_working w /\ (k_queue w' = k_queue w \/ exists b, k_queue w = b :: k_queue w').
Proof. destruct w as [b [|[|] q] [| |[|? ?]|]]; cbn; intros E; try discriminate; injection E as <-; cbn; eauto. Qed.

(** A step that leaves all but the main thread's position (woken or not) and causes in the log. *)
Lemma linv_same s s' : linv s -> e_n s' = e_n s -> (forall k, k_working (e_w s' k) = k_working (e_w s k)) -> k_working (e_self s') = k_working (e_self s) -> (k_queue (e_self s) = [] -> k_queue (e_self s') = []) ->
  e_stop s' = e_stop s -> (e_reactor s' = e_reactor s \/ (e_reactor s <> RDone /\ e_reactor s' <> RDone) \/ e_stop s = true /\ e_reactor s' = RDone) -> e_sent s' = e_sent s ->
  (e_main s' = e_main s \/ e_main s = MWait /\ e_main s' = MStop 0) -> own (e_log s') = own (e_log s) -> linv s'.
Proof.
  intros [L1 L2 L3 L4 L5 L6 L7 L8 L9] EN EW ES EQ ET ER EX EM EL.
  assert (DONE : e_reactor s' = RDone -> e_stop s' = true) by (intros R; rewrite ET; destruct ER as [E|[(E1 & E2)|(E1 & E2)]]; [apply L7; congruence|contradiction|exact E1]).
  destruct EM as [EM|(E1 & E2)].
  - constructor; rewrite ?EM, ?EN, ?ES, ?ET, ?EX, ?EL; try assumption.
    + intros m M. rewrite EW. apply L3, M.
    + destruct (e_main s); auto.
    + intros R. rewrite <- ET. apply DONE, R.
    + destruct (e_main s); auto; (destruct ER as [E|[(E1' & E2')|(E1' & E2')]]; congruence).
  - rewrite E1 in *. constructor; rewrite ?E2, ?EN, ?ES, ?ET, ?EX, ?EL; try assumption; auto.
    + lia.
    + intros m M. rewrite EW. rewrite (L3 m M). reflexivity.
    + intros R. rewrite <- ET. apply DONE, R.
Qed.
Lemma linv_main c s s' : linv s -> main c s = Some s' -> linv s'.
Proof.
  intros [L1 L2 L3 L4 L5 L6 L7 L8 L9] M. unfold main in M. destruct (e_main s) as [| | |k|k| |k| | | | | | | | |] eqn:P; try discriminate; cbn [trail serving own_on told sent] in *.
  - injection M as <-. constructor; cbn; auto.
  - injection M as <-. constructor; cbn; auto. rewrite own_app, L1. reflexivity.
  - destruct (Nat.ltb_spec k (e_n s)) as [K|K].
    + rewrite (L3 k K), Nat.leb_refl in M. injection M as <-. constructor; cbn [at_main set_w e_main e_n e_w e_self e_reactor e_stop e_sent e_log trail serving own_on told sent]; auto. intros m MM. destruct (Nat.eqb_spec m k) as [->|NE]; cbn [k_working]; [symmetry; apply Nat.ltb_irrefl|]. rewrite (L3 m MM). destruct (Nat.leb_spec k m), (Nat.ltb_spec k m); try reflexivity; lia.
    + injection M as <-. assert (k = e_n s) by lia. subst k. constructor; cbn; auto. intros m MM. rewrite (L3 m MM). apply Nat.leb_gt. exact MM.
  - destruct (Nat.ltb_spec (length (k_queue (e_w s k))) max_queue_size) as [Q|Q]; [|discriminate]. injection M as <-. constructor; cbn [at_main note set_w e_main e_n e_w e_self e_reactor e_stop e_sent e_log]; auto.
    + rewrite own_app, L1. cbn [own filter cause negb trail]. rewrite seq_S, map_app. reflexivity.
    + intros m MM. cbn [serving]. destruct (Nat.eqb_spec m k) as [->|NE]; cbn [k_working]; [rewrite (L3 k MM), Nat.ltb_irrefl; symmetry; apply Nat.leb_gt; lia|]. rewrite (L3 m MM). reflexivity.
  - injection M as <-. constructor; cbn; auto. rewrite own_app, L1. reflexivity.
  - destruct (Nat.ltb_spec k (e_n s)) as [K|K].
    + rewrite (L3 k K) in M. injection M as <-. constructor; cbn; auto.
    + injection M as <-. constructor; cbn; auto.
  - injection M as <-. constructor; cbn; auto. rewrite own_app, L1. cbn [own filter cause negb]. cbn [app]. rewrite <- app_assoc. reflexivity.
  - rewrite L4 in M. injection M as <-. constructor; cbn; auto.
  - rewrite L5 in M. cbn [length Nat.ltb Nat.leb max_queue_size] in M. injection M as <-. constructor; cbn; auto. rewrite own_app, L1. cbn [own filter cause negb]. cbn [app]. rewrite <- app_assoc. reflexivity.
  - injection M as <-. constructor; cbn; auto. rewrite own_app, L1. cbn [own filter cause negb]. cbn [app]. rewrite <- app_assoc. reflexivity.
  - destruct (e_reactor s) eqn:R; try discriminate. injection M as <-. constructor; cbn; auto. rewrite own_app, L1. cbn [own filter cause negb]. cbn [app]. rewrite <- app_assoc. reflexivity.
  - injection M as <-. constructor; cbn; auto. rewrite own_app, L1. cbn [own filter cause negb]. cbn [app]. rewrite <- app_assoc. reflexivity.
  - injection M as <-. constructor; cbn; auto. rewrite own_app, L1. cbn [own filter cause negb]. cbn [app]. rewrite <- app_assoc. reflexivity.
  - injection M as <-. constructor; cbn; auto. rewrite own_app, L1. cbn [own filter cause negb]. cbn [app]. rewrite <- app_assoc. reflexivity.
Qed.
Lemma race_step c a s s' : xstep c a s = Some s' -> e_race s' = false -> e_race s = false.
Proof.
  intros S. unfold xstep in S. destruct (e_main s) eqn:P; try discriminate; destruct a; try discriminate;
  try (match type of S with (if Nat.ltb ?m _ then work c ?m ?l s else None) = _ => destruct (Nat.ltb m (e_n s)); [|discriminate]; destruct (work_frame _ _ _ _ _ S) as (_ & _ & _ & _ & _ & E & _); rewrite E; auto end);
  try (unfold main in S; rewrite P in S); cbv zeta in S;
  repeat match type of S with
  | (match ?x with _ => _ end) = _ => destruct x eqn:?; try discriminate
  end; try discriminate; try injection S as <-; cbn; unfold notify; cbn; rewrite ?P; cbn; auto; rewrite ?orb_false_r; auto; try (intros E; apply orb_false_elim in E; tauto).
Qed.
Lemma linv_step c a s s' : linv s -> xstep c a s = Some s' -> e_race s' = false -> linv s'.
Proof.
  intros L S R. unfold xstep in S.
  assert (NE : e_main s <> MEnd) by (intros E; rewrite E in S; discriminate).
  assert (S2 : match a with
  | XMain => main c s
  | XSpurious => match e_main s with MWait => Some (at_main (MStop 0) (note VSpurious s)) | _ => None end
  | XWork m l => if Nat.ltb m (e_n s) then work c m l s else None
  | XSelf => match turn (e_self s) with Some w => Some (set_self w s) | None => None end
  | XInput m => match e_reactor s with
                | RLoop => if Nat.ltb m (e_n s) then let w := e_w s m in Some (set_w m (Wk (k_working w) (k_queue w ++ [true]) (k_pos w)) s) else None
                | _ => None end
  | XAck => match e_reactor s with RLoop => Some (notify (note VAck s)) | _ => None end
  | XUse => match e_reactor s with RLoop => Some (set_reactor RBusy s) | _ => None end
  | XUsed => match e_reactor s with RBusy => Some (set_reactor RLoop s) | _ => None end
  | XLoad => match e_reactor s, e_main s with
             | RBusy, p => let m := e_n s in
                 let s1 := race (ending p) s in
                 Some (set_w m started (Life (e_main s1) (Datatypes.S m) (e_w s1) (e_self s1) (e_reactor s1) (e_stop s1) (e_sent s1) (e_total s1) (e_limit s1) (e_race s1) (e_dangling s1) (e_log s1)))
             | RLoop, MConf => let m := e_n s in
                 Some (set_w m started (Life (e_main s) (Datatypes.S m) (e_w s) (e_self s) (e_reactor s) (e_stop s) (e_sent s) (e_total s) (e_limit s) (e_race s) (e_dangling s) (e_log s)))
             | _, _ => None end
  | XTick => match e_reactor s with RLoop => if e_stop s then Some (set_reactor RDone s) else None | _ => None end
  end = Some s') by (destruct (e_main s); try exact S; congruence). clear S. rename S2 into S.
  assert (LOAD : ending (e_main s) = false -> forall r, e_n s' = Datatypes.S (e_n s) -> (forall k, e_w s' k = if Nat.eqb k (e_n s) then started else e_w s k) -> e_main s' = e_main s -> e_self s' = e_self s -> e_reactor s' = r -> e_reactor s = r -> e_stop s' = e_stop s -> e_sent s' = e_sent s -> e_log s' = e_log s -> linv s').
  { intros ND r E1 E2 E3 E4 E5 E6 E7 E8 E9. destruct L as [L1 L2 L3 L4 L5 L6 L7 L8 L9]. constructor; rewrite ?E1, ?E3, ?E4, ?E7, ?E8, ?E9, ?E5; try assumption.
    - rewrite L1. destruct (e_main s); try discriminate; reflexivity.
    - destruct (e_main s); try discriminate; exact Logic.I.
    - intros m M. rewrite E2. destruct (Nat.eqb_spec m (e_n s)) as [->|]; [destruct (e_main s); try discriminate; reflexivity|]. apply L3. lia.
    - rewrite <- E6. exact L7.
    - rewrite <- E6. exact L8. }
  destruct a.
  - exact (linv_main _ _ _ L S).
  - destruct (e_main s) eqn:P; try discriminate. injection S as <-. apply (linv_same s); try reflexivity; auto. cbn. rewrite own_app. apply app_nil_r.
  - destruct (Nat.ltb m (e_n s)); [|discriminate]. destruct (work_frame _ _ _ _ _ S) as (E1 & E2 & E3 & E4 & E5 & E6 & E7 & E8 & E9). apply (linv_same s); try assumption; try (rewrite E2; auto; fail); auto.
    + destruct E9 as [(E9 & _)|(E9 & _)]; [auto|]. unfold notify in E9. destruct (e_main s) eqn:P; cbn [at_main e_main] in E9; rewrite ?P in E9; auto.
    + destruct E9 as [(_ & E9)|(_ & E9)]; rewrite E9; [reflexivity|]. rewrite own_app. apply app_nil_r.
  - destruct (turn (e_self s)) as [w|] eqn:T; [|discriminate]. injection S as <-. destruct (turn_frame _ _ T) as (E1 & E2). apply (linv_same s); try reflexivity; auto. intros Q. cbn [set_self e_self]. destruct E2 as [E2|(b & E2)]; congruence.
  - destruct (e_reactor s) eqn:RE; try discriminate. destruct (Nat.ltb m (e_n s)); [|discriminate]. cbv zeta in S. injection S as <-. apply (linv_same s); try reflexivity; auto. intros k. cbn [set_w e_w]. destruct (Nat.eqb_spec k m) as [->|]; reflexivity.
  - destruct (e_reactor s) eqn:RE; try discriminate. injection S as <-. unfold notify. cbn [note e_main]. destruct (e_main s) eqn:P; (apply (linv_same s); try reflexivity; auto; [cbn; rewrite P; auto..|cbn; rewrite own_app; apply app_nil_r]).
  - destruct (e_reactor s) eqn:RE; try discriminate. injection S as <-. apply (linv_same s); try reflexivity; auto. right. left. split; [congruence|discriminate].
  - destruct (e_reactor s) eqn:RE; try discriminate. injection S as <-. apply (linv_same s); try reflexivity; auto. right. left. split; [congruence|discriminate].
  - destruct (e_reactor s) eqn:RE; [|cbv zeta in S; injection S as <-; cbn in R; apply orb_false_elim in R as (_ & R); apply (LOAD R RBusy); auto|discriminate].
    destruct (e_main s) eqn:P; try discriminate. injection S as <-. apply (LOAD eq_refl RLoop); auto.
  - destruct (e_reactor s) eqn:RE; try discriminate. destruct (e_stop s) eqn:ST; [|discriminate]. injection S as <-. apply (linv_same s); try reflexivity; auto.
Qed.
Lemma linv_init limit : linv (life_init limit).
Proof. constructor; cbn; auto; try discriminate. intros m M. lia. Qed.
Lemma xrun_inv c limit s : xrun c limit s -> e_race s = false -> linv s.
Proof. intros R. induction R as [|s a s' R IH S]; intros RC; [apply linv_init|]. eapply linv_step; [apply IH; eapply race_step; eassumption|exact S|exact RC]. Qed.
