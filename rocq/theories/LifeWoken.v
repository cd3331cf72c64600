(** A worker that was stopped does not wait for frames any more. *)
From Coq Require Import Lia.
From Verif Require Import Base QueueModel LifeModel LifeSpec LifeProofs.
Local Open Scope Z_scope.

Definition woken (w : wk) : Prop := k_working w = false /\ (k_pos w = PRemove -> k_queue w <> []).
Definition past_self (p : mpos) : bool := match p with MReactor | MJoin | MClose | MShm | MTear | MEnd => true | _ => false end.
Record winv (s : life) : Prop := Winv {
  w_null : forall k, e_main s = MNull k -> (k < e_n s)%nat /\ k_working (e_w s k) = false;
  w_plugin : forall m, In (VStopped m) (e_log s) -> (m < e_n s)%nat /\ woken (e_w s m);
  w_self : e_main s = MSelfNull -> k_working (e_self s) = false;
  w_own : In VSelf (e_log s) -> past_self (e_main s) = true /\ woken (e_self s) }.
Lemma woken_turn w w' : turn w = Some w' -> woken w -> woken w'.
Proof. intros T (A & B). destruct w as [b q p]. cbn in A, B. subst b. destruct p as [| |[|a r]|], q as [|[|] q]; try discriminate; injection T as <-; split; auto; discriminate. Qed.
Lemma woken_add w x : woken w -> woken (Wk (k_working w) (k_queue w ++ [x]) (k_pos w)).
Proof. intros (A & B). split; [exact A|]. intros _ E. cbn in E. apply app_eq_nil in E. destruct E; discriminate. Qed.
Lemma woken_set k m w s : (k = m -> woken (e_w s m) -> woken w) -> woken (e_w s k) -> woken (e_w (set_w m w s) k).
Proof. intros H W. cbn [set_w e_w]. destruct (Nat.eqb_spec k m) as [->|]; auto. Qed.
Lemma woken_work c m l s s' k : work c m l s = Some s' -> woken (e_w s k) -> woken (e_w s' k).
Proof.
  intros W H. unfold work in W. destruct (e_w s m) as [b q p] eqn:EW.
  assert (IN : forall q' r, woken (e_w s k) -> woken (e_w (set_w m (Wk b q' (PIn r)) s) k)) by (intros q' r; apply woken_set; rewrite EW; intros _ (A & _); split; [exact A|discriminate]).
  assert (TU : match turn (Wk b q p) with Some w' => Some (set_w m w' s) | None => None end = Some s' -> woken (e_w s' k)).
  { destruct (turn (Wk b q p)) as [w'|] eqn:T; [|discriminate]. intros E. injection E as <-. revert H. apply woken_set. rewrite EW. intros _. exact (woken_turn _ _ T). }
  destruct p as [| |[|[j|j|d|] r]|].
  - destruct q as [|[|] q]; exact (TU W).
  - destruct q as [|[|] q]; try exact (TU W). injection W as <-. apply IN, H.
  - destruct q as [|[|] q]; exact (TU W).
  - assert (W2 : (if forallb (allowed c j) l then Some (set_w m (Wk b q (PIn (l ++ r))) s) else None) = Some s') by (destruct q as [|[|] q]; exact W). destruct (forallb _ _); [|discriminate]. injection W2 as <-. apply IN, H.
  - assert (W2 : (if Nat.ltb (length (k_queue (e_w s j))) max_queue_size then let s1 := set_w m (Wk b q (PIn r)) s in let t := e_w s1 j in Some (set_w j (Wk (k_working t) (k_queue t ++ [true]) (k_pos t)) s1) else None) = Some s') by (destruct q as [|[|] q]; exact W).
    destruct (Nat.ltb _ _); [|discriminate]. cbv zeta in W2. injection W2 as <-. apply woken_set; [intros _; apply woken_add|apply IN, H].
  - assert (W2 : (let t := if d then e_total s + 1 else e_total s in if t =? e_limit s then Some (notify (note VLimit (set_total t (set_w m (Wk b q (PIn (ASpin :: r))) s)))) else Some (set_total t (set_w m (Wk b q (PIn r)) s))) = Some s') by (destruct q as [|[|] q]; exact W).
    cbv zeta in W2. assert (NT : forall t, e_w (notify t) = e_w t) by (intros t; unfold notify; destruct (e_main t); reflexivity). destruct (_ =? _); injection W2 as <-; [rewrite NT|]; apply IN, H.
  - assert (W2 : (if e_sent s then Some (set_w m (Wk b q (PIn r)) s) else None) = Some s') by (destruct q as [|[|] q]; exact W). destruct (e_sent s); [|discriminate]. injection W2 as <-. apply IN, H.
  - destruct q as [|[|] q]; exact (TU W).
Qed.
(** Steps that leave the workers and the notes of interest alone *)
Lemma winv_same s s' : (forall k, e_main s' = MNull k -> e_main s = MNull k) -> e_n s' = e_n s -> e_w s' = e_w s -> e_self s' = e_self s -> (forall m, In (VStopped m) (e_log s') -> In (VStopped m) (e_log s)) -> (In VSelf (e_log s') -> In VSelf (e_log s)) ->
  (e_main s' = MSelfNull -> e_main s = MSelfNull) -> (past_self (e_main s) = true -> past_self (e_main s') = true) -> winv s -> winv s'.
Proof. intros A B C D E F G H [W1 W2 W3 W4]. constructor; rewrite ?B, ?C, ?D; auto. intros I. destruct (W4 (F I)). auto. Qed.
Lemma in_snoc {A} (x y : A) l : In x (l ++ [y]) -> In x l \/ x = y. Proof. intros I. apply in_app_or in I. destruct I as [I|[I|[]]]; auto. Qed.
Lemma strip (s : life) (o : option life) x : match e_main s with MEnd => None | _ => o end = Some x -> o = Some x. Proof. destruct (e_main s); try discriminate; auto. Qed.
Lemma winv_note e t : (e = VAck \/ e = VLimit) -> winv t -> winv (notify (note e t)).
Proof.
  intros E. assert (N : e_log (notify (note e t)) = e_log t ++ [e]) by (unfold notify; cbn [note e_main]; destruct (e_main t); reflexivity).
  apply winv_same; rewrite ?N; try (intros; match goal with I : In _ (_ ++ _) |- _ => apply in_snoc in I; destruct I as [I|I]; [exact I|destruct E; congruence] end);
  unfold notify; cbn [note e_main]; destruct (e_main t) eqn:P; cbn [note at_main e_main e_n e_w e_self past_self]; try rewrite P; auto; try discriminate.
Qed.
Ltac logs := cbn [at_main note set_w set_self set_reactor set_stop set_sent set_total race dangle e_main e_n e_w e_self e_log past_self] in *.
Lemma winv_main c s s' : winv s -> main c s = Some s' -> winv s'.
Proof.
  intros W X. pose proof W as [W1 W2 W3 W4]. unfold main in X. cbv zeta in X.
  destruct (e_main s) as [| | |k|k| |k| | | | | | | | |] eqn:P; try discriminate X.
  (* MConf *)
  { injection X as <-. constructor; logs; try discriminate; auto. all: try (intros I; destruct (W4 I); discriminate). }
  (* MLock *)
  { injection X as <-. revert W. apply winv_same; logs; auto; try discriminate; try rewrite P; try discriminate; intros; match goal with I : In _ (_ ++ _) |- _ => apply in_snoc in I; destruct I as [I|I]; [exact I|discriminate] end. }
  (* MStop *)
  { destruct (Nat.ltb_spec k (e_n s)) as [K|K].
    - destruct (k_working (e_w s k)) eqn:KW.
      + injection X as <-. constructor; logs; try discriminate; auto.
        * intros j E. injection E as <-. rewrite Nat.eqb_refl. auto.
        * intros m I. destruct (W2 m I) as (A & B). split; [exact A|]. destruct (Nat.eqb_spec m k) as [->|]; [|exact B]. destruct B as (B & _). congruence.
      + injection X as <-. revert W. apply winv_same; logs; auto; try discriminate; try rewrite P; discriminate.
    - injection X as <-. revert W. apply winv_same; logs; auto; try discriminate; try rewrite P; discriminate. }
  (* MNull *)
  { destruct (Nat.ltb _ _); [|discriminate]. injection X as <-. destruct (W1 k eq_refl) as (K & KW). constructor; logs; try discriminate; auto.
    - intros m I. apply in_snoc in I. destruct (Nat.eqb_spec m k) as [->|N].
      + split; [exact K|]. split; [exact KW|]. intros _ E. cbn in E. apply app_eq_nil in E. destruct E; discriminate.
      + destruct I as [I|I]; [exact (W2 m I)|congruence].
    - intros I. apply in_snoc in I. destruct I as [I|I]; [destruct (W4 I); discriminate|discriminate]. }
  (* MSent *)
  { injection X as <-. revert W. apply winv_same; logs; auto; try discriminate; try rewrite P; try discriminate; intros; match goal with I : In _ (_ ++ _) |- _ => apply in_snoc in I; destruct I as [I|I]; [exact I|discriminate] end. }
  (* MCheck *)
  { destruct (Nat.ltb k (e_n s)); [destruct (k_working (e_w s k)); [discriminate|]|]; injection X as <-; revert W; apply winv_same; logs; auto; try discriminate; try rewrite P; discriminate. }
  (* MClear *)
  { injection X as <-. revert W. apply winv_same; logs; auto; try discriminate; try rewrite P; try discriminate; intros; match goal with I : In _ (_ ++ _) |- _ => apply in_snoc in I; destruct I as [I|I]; [exact I|discriminate] end. }
  (* MSelf *)
  { destruct (k_working (e_self s)) eqn:KW; injection X as <-.
    - constructor; logs; try discriminate; auto. all: try (intros I; destruct (W4 I); discriminate).
    - revert W. apply winv_same; logs; auto; try discriminate; try rewrite P; discriminate. }
  (* MSelfNull *)
  { destruct (Nat.ltb _ _); [|discriminate]. injection X as <-. constructor; logs; try discriminate; auto.
    - intros m I. apply in_snoc in I. destruct I as [I|I]; [exact (W2 m I)|discriminate].
    - intros _. split; [reflexivity|]. split; [exact (W3 eq_refl)|]. intros _ E. cbn in E. apply app_eq_nil in E. destruct E; discriminate. }
  (* the rest *)
  all: try (destruct (e_reactor s); try discriminate).
  all: injection X as <-; revert W; apply winv_same; logs; auto; try discriminate; try rewrite P; try discriminate; intros; match goal with I : In _ (_ ++ _) |- _ => apply in_snoc in I; destruct I as [I|I]; [exact I|discriminate] end.
Qed.
Lemma winv_step c a s s' : winv s -> xstep c a s = Some s' -> winv s'.
Proof.
  intros W X. apply strip in X. pose proof W as [W1 W2 W3 W4]. destruct a as [| |m l| |m| | | | |].
  - exact (winv_main c s s' W X).
  - destruct (e_main s) eqn:P; try discriminate. injection X as <-. revert W. apply winv_same; logs; auto; try discriminate; try rewrite P; try discriminate; intros; match goal with I : In _ (_ ++ _) |- _ => apply in_snoc in I; destruct I as [I|I]; [exact I|discriminate] end.
  - destruct (Nat.ltb m (e_n s)); [|discriminate]. destruct (work_frame _ _ _ _ _ X) as (E1 & E2 & _ & _ & _ & _ & _ & E3 & E4).
    assert (MN : forall k, e_main s' = MNull k -> e_main s = MNull k) by (intros k; destruct E4 as [(-> & _)|(-> & _)]; unfold notify; destruct (e_main s) eqn:P; cbn [at_main e_main]; rewrite ?P; auto; discriminate).
    assert (MS : e_main s' = MSelfNull -> e_main s = MSelfNull) by (destruct E4 as [(-> & _)|(-> & _)]; unfold notify; destruct (e_main s) eqn:P; cbn [at_main e_main]; rewrite ?P; auto; discriminate).
    assert (PS : past_self (e_main s) = true -> past_self (e_main s') = true) by (destruct E4 as [(-> & _)|(-> & _)]; unfold notify; destruct (e_main s) eqn:P; cbn [at_main e_main past_self]; rewrite ?P; auto; discriminate).
    assert (LG : forall e, e <> VLimit -> In e (e_log s') -> In e (e_log s)) by (intros e NE; destruct E4 as [(_ & ->)|(_ & ->)]; auto; intros I; apply in_snoc in I; destruct I; [assumption|contradiction]).
    constructor; rewrite ?E1, ?E2.
    + intros k E. rewrite E3. apply W1, MN, E.
    + intros k I. destruct (W2 k (LG (VStopped k) (fun Z => ltac:(discriminate Z)) I)) as (A & B). split; [exact A|exact (woken_work _ _ _ _ _ _ X B)].
    + auto.
    + intros I. destruct (W4 (LG VSelf (fun Z => ltac:(discriminate Z)) I)). auto.
  - destruct (turn (e_self s)) as [w|] eqn:T; [|discriminate]. injection X as <-. constructor; logs; auto.
    + intros E. specialize (W3 E). destruct (e_self s) as [b q p]. cbn in W3. subst b. destruct p as [| |[|a r]|], q as [|[|] q]; try discriminate; injection T as <-; reflexivity.
    + intros I. destruct (W4 I) as (A & B). split; [exact A|exact (woken_turn _ _ T B)].
  - destruct (e_reactor s); try discriminate. destruct (Nat.ltb m (e_n s)); [|discriminate]. cbv zeta in X. injection X as <-. constructor; logs; auto.
    + intros k E. destruct (W1 k E) as (A & B). split; [exact A|]. destruct (Nat.eqb_spec k m) as [->|]; exact B.
    + intros k I. destruct (W2 k I) as (A & B). split; [exact A|]. destruct (Nat.eqb_spec k m) as [->|]; [apply woken_add|]; exact B.
  - destruct (e_reactor s); try discriminate. injection X as <-. apply winv_note; auto.
  - destruct (e_reactor s); try discriminate. injection X as <-. revert W. apply winv_same; auto.
  - destruct (e_reactor s); try discriminate. injection X as <-. revert W. apply winv_same; auto.
  - assert (L : forall p t b, e_main t = p -> e_n t = S (e_n s) -> e_w t = e_w s -> e_self t = e_self s -> e_log t = e_log s -> e_main t = e_main s -> b = e_n s -> winv (set_w b started t)).
    { intros p t b _ N E1 E2 E3 E4 ->. constructor; logs; rewrite ?N, ?E1, ?E2, ?E3, ?E4; auto.
      - intros k E. destruct (W1 k E) as (A & B). split; [lia|]. destruct (Nat.eqb_spec k (e_n s)); [lia|exact B].
      - intros k I. destruct (W2 k I) as (A & B). split; [lia|]. destruct (Nat.eqb_spec k (e_n s)); [lia|exact B]. }
    destruct (e_reactor s); [destruct (e_main s) eqn:P; try discriminate| |discriminate]; injection X as <-; eapply L; reflexivity || (symmetry; exact P) || auto.
  - destruct (e_reactor s); try discriminate. destruct (e_stop s); [|discriminate]. injection X as <-. revert W. apply winv_same; auto.
Qed.
Lemma winv_run c limit s : xrun c limit s -> winv s.
Proof. intros R. induction R as [|s a s' R IH X]; [|exact (winv_step _ _ _ _ IH X)]. constructor; cbn; try discriminate; contradiction. Qed.
