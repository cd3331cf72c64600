(** Commands and statistics of the plugins; the reply as it is sent. *)
From Coq Require Import String Ascii.
From Verif Require Import Base StrOrder PluginModel CtrlModel JsonModel JsonSpec JsonProofs JsonProps MessageProps JsonReadModel JsonDoubleModel PrcModel PrcSpec PrcMoves PrcExec PrcEnds PrcReply.
Local Open Scope string_scope.
Local Open Scope list_scope.

Section Ask.
  Context {P : Type}.
  Variable v : env P.
  Notation M := (M P).
  Notation st := (prc P).

  (** ** execute *)
  Lemma has_none m x k : params_of m = Some x -> has_param m k = Ret false -> no_slash k -> no_nul k -> at_path [k] x = None.
  Proof.
    intros E H S N. unfold has_param in H. rewrite E, pieces_no_slash in H by exact S. cbn in H. rewrite cstr_id in H by exact N. destruct x; try discriminate. cbn. destruct (find_member k l); [discriminate|reflexivity].
  Qed.
  Lemma at_two_none a b x y : at_path [a] x = Some y -> at_path [b] y = None -> at_path [a; b] x = None.
  Proof. cbn. destruct x; try discriminate. destruct (find_member a l); [|discriminate]. intros H. injection H as ->. auto. Qed.
  Lemma at_one_none a b x : at_path [a] x = None -> at_path [a; b] x = None.
  Proof. cbn. destruct x; try reflexivity. destruct (find_member a l); [discriminate|reflexivity]. Qed.
  Lemma exec_run m x l : params_of m = Some x -> forall p (s s1 : st) p', NoDup l -> (forall i, In i l -> nice i /\ sm_get (p_objs s) i <> None) -> commands v m l p s = (s1, Ret p') ->
    (forall i o, In i l -> sm_get (p_objs s) i = Some o ->
      (exists n r, at_path [i; "command"] x = Some (JStr n) /\ sm_get (p_objs s1) i = Some (fst (fst (v_execute v o (cstr n) r))) /\ snd (v_execute v o (cstr n) r) = Ret tt) \/ (at_path [i; "command"] x = None /\ sm_get (p_objs s1) i = Some o)) /\
    (forall i, ~ In i l -> sm_get (p_objs s1) i = sm_get (p_objs s) i) /\ (p' = true <-> p = true \/ exists i, In i l /\ at_path [i; "command"] x <> None) /\
    ((forall i, In i l -> at_path [i; "command"] x = None) -> s1 = s) /\
    ((forall i o n r, In i l -> sm_get (p_objs s) i = Some o -> at_path [i; "command"] x = Some (JStr n) -> snd (v_execute v o (cstr n) r) = Ret tt -> g_type (snd (fst (v_execute v o (cstr n) r))) = g_type r) -> g_type (p_reply s1) = g_type (p_reply s)) /\
    (polite v -> g_type (p_reply s) = TNack \/ (exists i o n, In i l /\ sm_get (p_objs s) i = Some o /\ at_path [i; "command"] x = Some (JStr n) /\ forall r, snd (v_execute v o (cstr n) r) = Ret tt -> g_type (snd (fst (v_execute v o (cstr n) r))) = TNack) -> g_type (p_reply s1) = TNack).
  Proof.
    intros PX. induction l as [|i l IH]; intros p s s1 p' ND NA H; cbn [commands] in H.
    { injection H as <- <-. split; [intros i o []|]. split; [reflexivity|]. split; [split; [auto|]; intros [E|(i & [] & _)]; exact E|]. split; [reflexivity|]. split; [reflexivity|]. intros _ [E|(i & _ & _ & [] & _)]. exact E. }
    inversion ND as [|? ? NI ND']; subst. destruct (NA i (or_introl eq_refl)) as ((S & N & _) & G). destruct (sm_get (p_objs s) i) as [o|] eqn:GO; [|congruence]. clear G.
    assert (SKIP : forall s1, commands v m l p s = (s1, Ret p') -> at_path [i; "command"] x = None ->
      (forall j o, In j (i :: l) -> sm_get (p_objs s) j = Some o ->
        (exists n r, at_path [j; "command"] x = Some (JStr n) /\ sm_get (p_objs s1) j = Some (fst (fst (v_execute v o (cstr n) r))) /\ snd (v_execute v o (cstr n) r) = Ret tt) \/ (at_path [j; "command"] x = None /\ sm_get (p_objs s1) j = Some o)) /\
      (forall j, ~ In j (i :: l) -> sm_get (p_objs s1) j = sm_get (p_objs s) j) /\ (p' = true <-> p = true \/ exists j, In j (i :: l) /\ at_path [j; "command"] x <> None) /\
      ((forall j, In j (i :: l) -> at_path [j; "command"] x = None) -> s1 = s) /\
      ((forall j o n r, In j (i :: l) -> sm_get (p_objs s) j = Some o -> at_path [j; "command"] x = Some (JStr n) -> snd (v_execute v o (cstr n) r) = Ret tt -> g_type (snd (fst (v_execute v o (cstr n) r))) = g_type r) -> g_type (p_reply s1) = g_type (p_reply s)) /\
      (polite v -> g_type (p_reply s) = TNack \/ (exists j o n, In j (i :: l) /\ sm_get (p_objs s) j = Some o /\ at_path [j; "command"] x = Some (JStr n) /\ forall r, snd (v_execute v o (cstr n) r) = Ret tt -> g_type (snd (fst (v_execute v o (cstr n) r))) = TNack) -> g_type (p_reply s1) = TNack)).
    { clear s1 H. intros s1 H A. destruct (IH p s s1 p' ND' (fun j J => NA j (or_intror J)) H) as (I1 & I2 & I3 & I4 & I5 & I6). split; [|split; [|split; [|split; [|split]]]].
      - intros j oj [<-|J] GJ; [right; split; [exact A|rewrite I2 by exact NI; exact GJ]|apply I1; assumption].
      - intros j J. apply I2. intros X. apply J. right. exact X.
      - rewrite I3. split; (intros [E|(j & J & X)]; [left; exact E|right; exists j]); [split; [right; exact J|exact X]|]. destruct J as [<-|J]; [congruence|split; assumption].
      - intros Q. apply I4. intros j J. apply Q. right. exact J.
      - intros Q. apply I5. intros j oj n r J. apply Q. right. exact J.
      - intros PO [E|(j & oj & n & J & GJ & AJ & Q)]; apply (I6 PO); [left; exact E|]. right. destruct J as [<-|J]; [congruence|]. exists j, oj, n. auto. }
    apply seq_ret in H as (h & s' & HH & H). unfold lift in HH. destruct (has_param m i) as [h0| |] eqn:HP; try discriminate. injection HH as <- ->. apply seq_ret in H as (pp & s2 & H & H2). destruct h.
    2:{ injection H as <- <-. apply SKIP; [exact H2|]. apply at_one_none. apply (has_none _ _ _ PX HP S N). }
    apply seq_ret in H as (y & s3 & HH & H). unfold lift in HH. destruct (get_ref m i) as [y0| |] eqn:GR; try discriminate. injection HH as <- ->. pose proof (part_at m x i y PX S N GR) as AY. cbv zeta in H. set (c := msg_of_value y (g_type m) (g_val m) true (v_now v)) in H. assert (PC : params_of c = Some y) by reflexivity.
    assert (SC : no_slash "command" /\ no_nul "command") by (split; intros X; cbn in X; intuition discriminate). destruct SC as (SC & NC).
    apply seq_ret in H as (h & s4 & HH & H). unfold lift in HH. destruct (has_param c "command") as [h0| |] eqn:HC; try discriminate. injection HH as <- ->. destruct h.
    2:{ injection H as <- <-. apply SKIP; [exact H2|]. apply (at_two_none _ _ _ y AY). apply (has_none _ _ _ PC HC SC NC). }
    apply seq_ret in H as (n & s5 & HH & H). unfold str_param, lift in HH. destruct (bind (get_param GStr c "command") _) as [n0| |] eqn:GP; try discriminate. injection HH as <- ->. destruct (str_at c y "command" n PC SC NC GP) as (n1 & AN & ->). pose proof (at_two _ _ _ _ _ AY AN) as AT.
    apply seq_ret in H as ([] & s6 & CA & H). injection H as <- <-. apply (call_run i _ _ _ o GO) in CA as (RE & OB & RT). assert (OT : forall j, j <> i -> sm_get (p_objs s6) j = sm_get (p_objs s) j) by (intros j J; rewrite OB, sm_get_put; apply String.eqb_neq in J; rewrite J; reflexivity).
    destruct (IH true s6 s1 p' ND') as (I1 & I2 & I3 & I4 & I5 & I6); [|exact H2|].
    { intros j J. destruct (NA j (or_intror J)) as (NJ & GJ). split; [exact NJ|]. rewrite OT; [exact GJ|]. intros ->. contradiction. }
    split; [|split; [|split; [|split; [|split]]]].
    - intros j oj [<-|J] GJ.
      + left. exists n1, (p_reply s). split; [exact AT|]. rewrite I2 by exact NI. rewrite OB, sm_get_put, String.eqb_refl. assert (o = oj) as <- by congruence. split; [reflexivity|exact RT].
      + apply I1; [exact J|]. rewrite OT; [exact GJ|]. intros ->. contradiction.
    - intros j J. rewrite I2 by (intros X; apply J; right; exact X). apply OT. intros ->. apply J. left. reflexivity.
    - rewrite I3. split; [|auto]. intros _. right. exists i. split; [left; reflexivity|]. congruence.
    - intros Q. rewrite (Q i (or_introl eq_refl)) in AT. discriminate.
    - intros Q. rewrite I5; [rewrite RE; apply (Q i o n1 _ (or_introl eq_refl) GO AT RT)|]. intros j oj n r J GJ. apply Q; [right; exact J|]. rewrite <- OT; [exact GJ|]. intros ->. contradiction.
    - intros PO Q. apply (I6 PO). destruct Q as [E|(j & oj & n & [<-|J] & GJ & AJ & Q)].
      + left. destruct (PO o (p_reply s)) as (_ & _ & KH & _). destruct (KH (cstr n1)) as (_ & _ & [K|K]); rewrite <- RE in K; congruence.
      + left. assert (o = oj) as <- by congruence. assert (n = n1) as -> by congruence. rewrite RE. apply Q, RT.
      + right. exists j, oj, n. split; [exact J|]. split; [|split; assumption]. rewrite OT; [exact GJ|]. intros ->. contradiction.
  Qed.

  (** ** Statistics *)
  Definition objectp (s : st) : Prop := exists l, params_of (p_reply s) = Some (JObj l).
  Lemma put_error w (s : st) : objectp s -> exists s1, put "error" (XStr w) s = (s1, Ret tt) /\ objectp s1 /\ p_objs s1 = p_objs s /\ g_type (p_reply s1) = g_type (p_reply s) /\ here s1 ["error"] = Some (JStr (cstr w)).
  Proof.
    intros (l & E). unfold put. assert (G : good_path ["error"]) by (apply path_check_ok; reflexivity). pose proof (set_param_eq (p_reply s) ["error"] (XStr w) G) as SE. cbn [slashed] in SE. unfold params_of in E. cbn [set_at] in SE. rewrite E in SE.
    assert (SP : exists r, set_param (p_reply s) "error" (XStr w) = (r, Ret tt)).
    { unfold set_param, params_of. rewrite E. vm_compute lines. cbn. eexists. reflexivity. }
    destruct SP as (r & SP). rewrite SP. eexists. split; [reflexivity|]. pose proof (set_param_keeps (p_reply s) "error" (XStr w)) as (_ & _ & K). destruct (set_ok _ ["error"] _ _ G SP) as (A & _).
    split; [|split; [reflexivity|split; [|exact A]]].
    - unfold objectp, params_of. cbn [p_reply w_reply]. unfold at_param in A. cbn in A. destruct (find_member "params" (g_doc r)) as [p|]; [|discriminate]. destruct p; try discriminate. eauto.
    - cbn. unfold set_param, params_of in SP. rewrite E in SP. cbn in SP. injection SP as <-. reflexivity.
  Qed.
  Definition refuses (o : P) : bool := negb (snd (v_reset v (v_reset_perf v o))).
  Definition reset_of (o : P) : P := fst (v_reset v (v_reset_perf v o)).
  Definition reset_one (i : string) : M unit :=
    touch i (v_reset_perf v) ;; ok <- ask i true (fun o => snd (v_reset v o)) ;; touch i (fun o => fst (v_reset v o)) ;; when (negb ok) (reply_type TNack ;; put "error" (XStr ("Failed to reset statistics on plugin " ++ i))).
  Lemma reset_step i o (s : st) : objectp s -> sm_get (p_objs s) i = Some o -> exists s1, reset_one i s = (s1, Ret tt) /\ objectp s1 /\ sm_get (p_objs s1) i = Some (reset_of o) /\ (forall j, j <> i -> sm_get (p_objs s1) j = sm_get (p_objs s) j) /\
    (if refuses o then g_type (p_reply s1) = TNack /\ here s1 ["error"] = Some (JStr (cstr ("Failed to reset statistics on plugin " ++ i)))
     else g_type (p_reply s1) = g_type (p_reply s) /\ here s1 ["error"] = here s ["error"]).
  Proof.
    intros OP G. unfold reset_one, touch. unfold seq at 1, call at 1. rewrite G. set (s2 := w_reply _ _). assert (G2 : sm_get (p_objs s2) i = Some (v_reset_perf v o)) by (unfold s2; cbn; rewrite sm_get_put, String.eqb_refl; reflexivity).
    rewrite (ask_ret i _ _ _ s2 _ G2). unfold seq at 1, call at 1. rewrite G2. set (s3 := w_reply _ _). assert (G3 : sm_get (p_objs s3) i = Some (reset_of o)) by (unfold s3; cbn; rewrite sm_get_put, String.eqb_refl; reflexivity).
    assert (OT : forall j, j <> i -> sm_get (p_objs s3) j = sm_get (p_objs s) j) by (intros j J; apply String.eqb_neq in J; unfold s3, s2; cbn; rewrite !sm_get_put, J; reflexivity).
    unfold refuses. destruct (snd (v_reset v (v_reset_perf v o))); cbn [negb when].
    - exists s3. split; [reflexivity|]. split; [exact OP|]. split; [exact G3|]. split; [exact OT|]. split; reflexivity.
    - unfold seq, reply_type, change. match goal with |- context [put _ _ ?S] => destruct (put_error (append "Failed to reset statistics on plugin " i) S) as (s1 & E & A & B & C & D); [exact OP|]; rewrite E end.
      exists s1. split; [reflexivity|]. split; [exact A|]. rewrite B. split; [exact G3|]. split; [exact OT|]. split; [exact C|exact D].
  Qed.
  (** The last plugin that refuses *)
  Definition last_refusal (m : smap P) (l : list string) (i : string) : Prop := exists a b o, l = a ++ i :: b /\ sm_get m i = Some o /\ refuses o = true /\ forall j p, In j b -> sm_get m j = Some p -> refuses p = false.
  Lemma reset_run l : forall s : st, objectp s -> NoDup l -> (forall i, In i l -> sm_get (p_objs s) i <> None) -> exists s1, each l reset_one s = (s1, Ret tt) /\ objectp s1 /\
    (forall i o, In i l -> sm_get (p_objs s) i = Some o -> sm_get (p_objs s1) i = Some (reset_of o)) /\ (forall i, ~ In i l -> sm_get (p_objs s1) i = sm_get (p_objs s) i) /\
    (((forall i o, In i l -> sm_get (p_objs s) i = Some o -> refuses o = false) /\ g_type (p_reply s1) = g_type (p_reply s) /\ here s1 ["error"] = here s ["error"]) \/
     (exists i, last_refusal (p_objs s) l i /\ g_type (p_reply s1) = TNack /\ here s1 ["error"] = Some (JStr (cstr ("Failed to reset statistics on plugin " ++ i))))).
  Proof.
    induction l as [|i l IH]; intros s OP ND NA.
    { exists s. split; [reflexivity|]. split; [exact OP|]. split; [intros i o []|]. split; [reflexivity|]. left. split; [intros i o []|]. auto. }
    inversion ND as [|? ? NI ND']; subst. destruct (sm_get (p_objs s) i) as [o|] eqn:G; [|destruct (NA i (or_introl eq_refl) G)]. destruct (reset_step i o s OP G) as (s0 & E & OP0 & G0 & OT & RF).
    assert (NE : forall j, In j l -> j <> i) by (intros j J ->; contradiction).
    destruct (IH s0 OP0 ND') as (s1 & E1 & OP1 & R1 & R2 & R3). { intros j J. rewrite OT by (apply NE, J). apply NA. right. exact J. }
    exists s1. split; [cbn; unfold seq; rewrite E; exact E1|]. split; [exact OP1|]. split; [|split].
    - intros j oj [<-|J] GJ; [rewrite R2 by exact NI; rewrite G0; congruence|apply R1; [exact J|]; rewrite OT by (apply NE, J); exact GJ].
    - intros j J. rewrite R2 by (intros X; apply J; right; exact X). apply OT. intros ->. apply J. left. reflexivity.
    - destruct R3 as [(A & B & C)|(j & LR & B & C)].
      + destruct (refuses o) eqn:RO.
        * right. exists i. split; [|destruct RF as (F1 & F2); rewrite B, C; auto]. exists [], l, o. split; [reflexivity|]. split; [exact G|]. split; [exact RO|]. intros j p J GJ. apply (A j p J). rewrite OT by (apply NE, J). exact GJ.
        * left. split; [|destruct RF as (F1 & F2); rewrite B, C; auto]. intros j p [<-|J] GJ; [congruence|]. apply (A j p J). rewrite OT by (apply NE, J). exact GJ.
      + right. exists j. split; [|auto]. destruct LR as (a & b & p & EL & GJ & RJ & RB). exists (i :: a), b, p. split; [cbn; congruence|]. rewrite <- OT by (apply NE; rewrite EL; apply in_or_app; right; left; reflexivity). split; [exact GJ|]. split; [exact RJ|]. intros k q K GK. apply (RB k q K). rewrite OT; [exact GK|]. apply NE. rewrite EL. apply in_or_app. right. right. exact K.
  Qed.

  (** ** The reply that is sent *)
  Lemma encode_says c m i d : g_id m = Some i -> encode c m = Ret d ->
    says d "id" (JInt i) /\ says d "msg_val" (JStr (name_of_val (g_val m))) /\ says d "msg_type" (JStr (name_of_type (g_type m))) /\ forall q x, param d q x <-> at_param m q = Some x.
  Proof.
    intros I E. unfold encode in E. rewrite I in E. injection E as <-. assert (L : forall k l x, leads [k] (JObj l) x <-> find_member k l = Some x) by (intros k l x; rewrite leads_at; cbn; destruct (find_member k l); split; congruence).
    unfold says, param. rewrite !L, !find_put. cbn [String.eqb Ascii.eqb Bool.eqb]. do 3 (split; [reflexivity|]). intros q x. rewrite leads_at. unfold at_param. cbn [at_path]. rewrite !find_put. cbn [String.eqb Ascii.eqb Bool.eqb]. reflexivity.
  Qed.
  Lemma last_reply (c : string) (d : list (string * json)) e (s s1 : st) l : replies c d s s1 -> p_out s1 = p_out s ++ l -> (l = [] -> False) -> last l FExit = e -> e = FReply c d.
  Proof. intros (k & E & _) E1 N <-. rewrite E in E1. apply app_inv_head in E1. subst l. apply last_last. Qed.
  Lemma replied (PO : polite v) n c t m d s s1 o : msg_of_text (v_clock v) t true = Ret m -> handle_ctrl v n c t s = (s1, o) -> replies c d s s1 ->
    exists s2, request v n t m (begun v m s) = (s2, Ret tt) /\ encode (v_clock v) (p_reply s2) = Ret d /\ p_objs s1 = p_objs s2.
  Proof.
    intros MT H R. destruct (request v n t m (begun v m s)) as (s2, o2) eqn:RQ. pose proof (handle_request v PO n c t m s s2 o2 MT RQ) as HR. pose proof (request_fair v PO n t m (begun v m s)) as F. rewrite RQ in F. destruct F as ((l & OUT & F) & _). change (p_out (begun v m s)) with (p_out s) in OUT.
    assert (NO : s1 = s2 -> False). { intros ->. destruct R as (k & E & _). rewrite OUT in E. apply app_inv_head in E. subst l. apply Forall_app in F as (_ & F). inversion F. discriminate. }
    destruct o2 as [[]|e|].
    - destruct HR as (d' & EN & HC). rewrite H in HC. injection HC as -> _. exists s2. split; [reflexivity|]. split; [|reflexivity]. destruct R as (k & E & _). cbn in E. rewrite OUT, <- app_assoc in E. apply app_inv_head in E. apply app_inj_tail in E as (_ & E). injection E as ->. exact EN.
    - destruct e as [[[]|w|]|]; try (rewrite H in HR; injection HR as -> _; destruct (NO eq_refl)). destruct HR as (d' & r & _ & HC). rewrite H in HC. injection HC as -> _. destruct R as (k & E & _). cbn in E. rewrite OUT, <- app_assoc in E. apply app_inv_head in E. apply app_inj_tail in E as (_ & E). discriminate.
    - rewrite H in HR. injection HR as -> _. destruct (NO eq_refl).
  Qed.
End Ask.
