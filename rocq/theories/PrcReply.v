(** What stands in the replies of the frame processor. *)
From Coq Require Import String Ascii.
From Verif Require Import Base StrOrder PluginModel CtrlModel JsonModel JsonSpec JsonProofs JsonProps MessageProps JsonReadModel JsonDoubleModel PrcModel PrcSpec PrcMoves PrcExec.
Local Open Scope string_scope.
Local Open Scope list_scope.

(** ** Setting a parameter, and appending to an array *)
Definition at_param (r : msg) (q : list string) : option json := at_path ("params" :: q) (JObj (g_doc r)).
Lemma set_ok m c x m' : good_path c -> set_param m (slashed c) x = (m', Ret tt) -> at_param m' c = Some (set_value x) /\ forall q, apart c q -> at_param m' q = at_param m q.
Proof.
  intros G. rewrite (set_param_eq m c x G). destruct (set_at ("params" :: c) (set_value x) (JObj (g_doc m))) as [y|] eqn:S; [|discriminate]. destruct y as [| | | | | |d]; try discriminate. intros H. injection H as <-. split.
  - pose proof (set_at_below _ _ _ _ [] S) as B. rewrite app_nil_r in B. exact B.
  - intros q A. apply (set_at_apart _ _ _ _ _ S). apply apart_cons, A.
Qed.
Lemma set_rest_push_fails d n v x : Forall no_nul (d ++ [n]) -> ~ In (append n "[]") d -> (forall z, set_at (d ++ [n]) z x = None) -> exists y, set_rest (append n "[]") (d ++ [append n "[]"]) false v x = (y, Throw EAssert).
Proof.
  revert x. induction d as [|k d IH]; intros x F N S; cbn.
  - inversion F as [|? ? A _]; subst. rewrite String.eqb_refl, ends_array_name. cbn [orb]. specialize (S JNull). cbn in S. destruct x; try (eexists; reflexivity). discriminate.
  - inversion F as [|? ? A B]; subst. destruct (String.eqb_spec k (append n "[]")) as [E|_]; [destruct N; left; exact E|]. cbn [orb]. rewrite (cstr_id _ A). destruct x; try (eexists; reflexivity). cbn in S.
    destruct (IH (match find_member k l with Some y => y | None => JObj [] end) B (fun X => N (or_intror X))) as (y & ->); [|eauto]. intros z. specialize (S z). destruct (set_at (d ++ [n]) z _); [discriminate|reflexivity].
Qed.
Lemma set_at_any c z z' x : set_at c z x = None -> set_at c z' x = None.
Proof. revert x. induction c as [|n c IH]; intros x; cbn; [discriminate|]. destruct x; try reflexivity. destruct (set_at c z _) eqn:S; [discriminate|]. rewrite (IH _ S). reflexivity. Qed.
Lemma push_ok m d n x m' : good_path (d ++ [n]) -> ~ In (append n "[]") d -> set_param m (slashed (d ++ [append n "[]"])) x = (m', Ret tt) ->
  at_param m' (d ++ [n]) = Some (JArr (elements (at_param m (d ++ [n])) ++ [set_value x])) /\ forall q, apart (d ++ [n]) q -> at_param m' q = at_param m q.
Proof.
  intros (_ & G1 & G2 & G3 & _) N S.
  assert (SA : exists dd, set_at ("params" :: d ++ [n]) (JArr (elements (at_param m (d ++ [n])) ++ [set_value x])) (JObj (g_doc m)) = Some (JObj dd) /\ m' = with_doc dd m).
  { assert (NS : Forall no_slash (d ++ [append n "[]"])).
    { apply Forall_app in G1 as (Y1 & Y2). apply Forall_app. split; [exact Y1|]. constructor; [|constructor]. inversion Y2; subst. apply no_slash_app; [assumption|]. intros X. cbn in X. intuition discriminate. }
    unfold set_param in S. rewrite lines_slashed in S by (try exact NS; destruct n; discriminate). unfold at_param. cbn [set_at at_path]. unfold params_of in S. destruct d as [|t d]; cbn [app] in *.
    - rewrite ends_array_name, cut_array_name in S. inversion G2 as [|? ? A _]; subst. rewrite (cstr_id _ A) in S. cbn [set_rest last set_at at_path] in *. destruct (find_member "params" (g_doc m)) as [p|] eqn:FP.
      + destruct p as [| | | | | |l]; try discriminate S. injection S as <-. eexists. split; [|reflexivity]. destruct (find_member n l) as [[]|]; reflexivity.
      + injection S as <-. eexists. split; reflexivity.
    - cbn [hd] in G3. rewrite (ends_plain _ G3) in S. inversion G2 as [|? ? G2a G2b]; subst. rewrite (cstr_id _ G2a), last_snoc in S. cbn [set_at at_path]. set (p := match find_member "params" (g_doc m) with Some p => p | None => JObj [] end) in *.
      assert (AP : forall r, match find_member "params" (g_doc m) with Some y0 => at_path (t :: r) y0 | None => None end = at_path (t :: r) p) by (intros r; unfold p; destruct (find_member "params" (g_doc m)); reflexivity).
      cbn [at_path] in AP. rewrite AP. destruct p as [| | | | | |l]; try discriminate S. set (y := match find_member t l with Some x => x | None => JObj [] end) in *.
      assert (AX : match find_member t l with Some y0 => at_path (d ++ [n]) y0 | None => None end = at_path (d ++ [n]) y) by (unfold y; destruct (find_member t l); [reflexivity|rewrite at_path_empty by (destruct d; discriminate); reflexivity]).
      rewrite AX. destruct (set_at (d ++ [n]) _ y) as [x'|] eqn:SX.
      + rewrite (set_rest_push d n (set_value x) y G2b (fun X => N (or_intror X)) x' SX) in S. injection S as <-. eauto.
      + destruct (set_rest_push_fails d n (set_value x) y G2b (fun X => N (or_intror X)) (fun z => set_at_any _ _ z _ SX)) as (y' & E). rewrite E in S. discriminate. }
  destruct SA as (dd & SA & ->). split.
  - pose proof (set_at_below _ _ _ _ [] SA) as B. rewrite app_nil_r in B. exact B.
  - intros q A. apply (set_at_apart _ _ _ _ _ SA). apply (apart_cons "params"), A.
Qed.

Lemma holds_param r q x : holds r q x <-> at_param r q = Some x. Proof. apply holds_at. Qed.
Section Reply.
  Context {P : Type}.
  Variable v : env P.
  Notation M := (M P).
  Notation st := (prc P).
  Definition here (s : st) (q : list string) : option json := at_param (p_reply s) q.
  Lemma seq_ret {A B} (a : M A) (f : A -> M B) s s1 (b : B) : seq a f s = (s1, Ret b) -> exists x s0, a s = (s0, Ret x) /\ f x s0 = (s1, Ret b).
  Proof. unfold seq. destruct (a s) as [s0 [x|e|]]; intros H; try discriminate. eauto. Qed.
  Lemma put_run n x (s s1 : st) : put n x s = (s1, Ret tt) -> exists r, s1 = w_reply r s /\ set_param (p_reply s) n x = (r, Ret tt).
  Proof. unfold put. destruct (set_param (p_reply s) n x) as (r, [[]|e|]); intros H; try discriminate. injection H as <-. eauto. Qed.
  Lemma put_set c x (s s1 : st) : good_path c -> put (slashed c) x s = (s1, Ret tt) -> p_objs s1 = p_objs s /\ here s1 c = Some (set_value x) /\ forall q, apart c q -> here s1 q = here s q.
  Proof. intros G H. apply put_run in H as (r & -> & H). destruct (set_ok _ _ _ _ G H) as (A & B). split; [reflexivity|]. split; [exact A|exact B]. Qed.
  Fixpoint sets (l : list (list string * value)) : list (string * value) := match l with [] => [] | (c, x) :: r => (slashed c, x) :: sets r end.
  Lemma puts_set l : forall (s s1 : st), Forall (fun p => good_path (fst p)) l -> ForallOrdPairs (fun a b => apart (fst b) (fst a)) l -> puts (sets l) s = (s1, Ret tt) ->
    p_objs s1 = p_objs s /\ (forall c x, In (c, x) l -> here s1 c = Some (set_value x)) /\ forall q, (forall c x, In (c, x) l -> apart c q) -> here s1 q = here s q.
  Proof.
    induction l as [|(c, x) l IH]; intros s s1 G A H; cbn in H; [injection H as <-; split; [reflexivity|]; split; [intros c x []|reflexivity]|]. inversion G as [|? ? G1 G2]; subst. inversion A as [|? ? A1 A2]; subst. apply seq_ret in H as ([] & s0 & H1 & H2).
    destruct (put_set c x s s0 G1 H1) as (E0 & V0 & F0). destruct (IH s0 s1 G2 A2 H2) as (E1 & V1 & F1). split; [congruence|]. split.
    - intros c' x' [E|I]; [|apply V1, I]. injection E as <- <-. rewrite F1; [exact V0|]. intros c' x' I. rewrite Forall_forall in A1. apply (A1 _ I).
    - intros q Q. rewrite F1; [apply F0, (Q c x); left; reflexivity|]. intros c' x' I. apply (Q c' x'). right. exact I.
  Qed.
  Lemma put_push d n x (s s1 : st) : good_path (d ++ [n]) -> ~ In (append n "[]") d -> put (slashed (d ++ [append n "[]"])) x s = (s1, Ret tt) ->
    p_objs s1 = p_objs s /\ here s1 (d ++ [n]) = Some (JArr (elements (here s (d ++ [n])) ++ [set_value x])) /\ forall q, apart (d ++ [n]) q -> here s1 q = here s q.
  Proof. intros G N H. apply put_run in H as (r & -> & H). destruct (push_ok _ _ _ _ _ G N H) as (A & B). split; [reflexivity|]. split; [exact A|exact B]. Qed.
  Lemma puts_push d n l : good_path (d ++ [n]) -> ~ In (append n "[]") d -> forall s s1 : st, puts (map (fun x => (slashed (d ++ [append n "[]"]), XStr x)) l) s = (s1, Ret tt) ->
    p_objs s1 = p_objs s /\ here s1 (d ++ [n]) = match l with [] => here s (d ++ [n]) | _ => Some (JArr (elements (here s (d ++ [n])) ++ map (fun x => JStr (cstr x)) l)) end /\ forall q, apart (d ++ [n]) q -> here s1 q = here s q.
  Proof.
    intros G N. induction l as [|x l IH]; intros s s1 H; cbn in H; [injection H as <-; auto|]. apply seq_ret in H as ([] & s0 & H1 & H2). destruct (put_push d n _ s s0 G N H1) as (E0 & V0 & F0). destruct (IH s0 s1 H2) as (E1 & V1 & F1). split; [congruence|]. split.
    - rewrite V1, V0. cbn. destruct l; [reflexivity|]. rewrite <- app_assoc. reflexivity.
    - intros q Q. rewrite F1, F0 by exact Q. reflexivity.
  Qed.
  Lemma call_run i f (s s1 : st) o : sm_get (p_objs s) i = Some o -> call i f s = (s1, Ret tt) -> p_reply s1 = snd (fst (f o (p_reply s))) /\ p_objs s1 = sm_put (p_objs s) i (fst (fst (f o (p_reply s)))) /\ snd (f o (p_reply s)) = Ret tt.
  Proof. intros G. unfold call. rewrite G. destruct (f o (p_reply s)) as ((o', r), [[]|e|]); intros H; try discriminate. injection H as <-. repeat split; reflexivity. Qed.
  Lemma stays_here i (f : P -> msg -> P * msg * outcome fault unit) o (s s1 : st) : stays_in i f o -> p_reply s1 = snd (fst (f o (p_reply s))) -> forall q, q <> [] -> hd "" q <> i -> here s1 q = here s q.
  Proof.
    intros S E q N H. unfold here. rewrite E. specialize (S (p_reply s) q). destruct (at_param (snd (fst (f o (p_reply s)))) q) as [x|] eqn:A.
    - apply holds_param in A. apply S in A; [|exact N|exact H]. apply holds_param in A. congruence.
    - destruct (at_param (p_reply s) q) as [x|] eqn:B; [|reflexivity]. apply holds_param in B. apply S in B; [|exact N|exact H]. apply holds_param in B. congruence.
  Qed.

  (** ** Loops over plugins *)
  Section Loop.
    Variable body : string -> M unit.
    (** Paths of the reply that belong to a plugin, and paths of others that the loop changes *)
    Variable own : string -> list string -> Prop.
    Variable common : list string -> Prop.
    Variable pre : string -> P -> Prop.
    Variable post : string -> P -> P -> (list string -> option json) -> (list string -> option json) -> Prop.
    Hypothesis own_some : forall i q, own i q -> q <> [] /\ ~ common q.
    Hypothesis own_one : forall i j q, own i q -> own j q -> i = j.
    Hypothesis post_own : forall i a b f f' g g', (forall q, own i q -> f q = f' q /\ g q = g' q) -> post i a b f g -> post i a b f' g'.
    Definition step_ok (i : string) : Prop := forall s s1 o, sm_get (p_objs s) i = Some o -> pre i o -> body i s = (s1, Ret tt) ->
      exists o1, sm_get (p_objs s1) i = Some o1 /\ post i o o1 (here s) (here s1) /\ (forall q, q <> [] -> ~ own i q -> ~ common q -> here s1 q = here s q) /\ forall j, j <> i -> sm_get (p_objs s1) j = sm_get (p_objs s) j.
    Lemma loop l : (forall i, In i l -> step_ok i) -> forall s s1, NoDup l -> (forall i, In i l -> exists o, sm_get (p_objs s) i = Some o /\ pre i o) -> each l body s = (s1, Ret tt) ->
      (forall i, In i l -> exists o o1, sm_get (p_objs s) i = Some o /\ sm_get (p_objs s1) i = Some o1 /\ post i o o1 (here s) (here s1)) /\
      (forall q, q <> [] -> (forall i, In i l -> ~ own i q) -> ~ common q -> here s1 q = here s q) /\ forall j, ~ In j l -> sm_get (p_objs s1) j = sm_get (p_objs s) j.
    Proof.
      induction l as [|i l IH]; intros OK s s1 ND PR H; cbn in H; [injection H as <-; split; [intros i []|]; auto|]. apply seq_ret in H as ([] & s0 & H1 & H2). inversion ND as [|? ? NI ND']; subst.
      destruct (PR i (or_introl eq_refl)) as (o & G & PO). destruct (OK i (or_introl eq_refl) s s0 o G PO H1) as (o1 & G1 & PT & FR & OT).
      destruct (IH (fun j J => OK j (or_intror J)) s0 s1 ND') as (A & B & C); [|exact H2|].
      { intros j J. destruct (PR j (or_intror J)) as (oj & Gj & Pj). exists oj. split; [|exact Pj]. rewrite OT; [exact Gj|]. intros ->. contradiction. }
      split; [|split].
      - intros j [<-|J].
        + exists o, o1. split; [exact G|]. rewrite C by exact NI. split; [exact G1|]. eapply post_own; [|exact PT]. intros q OQ. split; [reflexivity|]. destruct (own_some i q OQ) as (NQ & CQ). symmetry. apply B; [exact NQ| |exact CQ]. intros j J O2. pose proof (own_one _ _ _ OQ O2) as ->. contradiction.
        + destruct (A j J) as (oj & o1j & Gj & G1j & Pj). exists oj, o1j. split; [rewrite <- Gj; symmetry; apply OT; intros ->; contradiction|]. split; [exact G1j|]. eapply post_own; [|exact Pj]. intros q OQ. split; [|reflexivity]. destruct (own_some j q OQ) as (NQ & CQ). apply FR; [exact NQ| |exact CQ]. intros O2. pose proof (own_one _ _ _ OQ O2) as ->. contradiction.
      - intros q N OW CQ. rewrite B; [|exact N|intros j J; apply OW; right; exact J|exact CQ]. apply FR; [exact N|apply OW; left; reflexivity|exact CQ].
      - intros j J. rewrite C by (intros X; apply J; right; exact X). apply OT. intros ->. apply J. left. reflexivity.
    Qed.
  End Loop.

  (** ** The requests *)
  Lemma in_keys {A} (m : smap A) i : sm_ok m -> In i (map fst m) -> exists o, sm_get m i = Some o.
  Proof.
    induction m as [|(j, y) m IH]; cbn; [tauto|]. intros (F & O) [->|I]; [rewrite String.eqb_refl; eauto|]. destruct (String.eqb i j); [eauto|]. apply IH; assumption.
  Qed.
  Lemma loop_names (body : string -> M unit) (own : string -> list string -> Prop) (common : list string -> Prop) (pre : string -> P -> Prop) (post : string -> P -> P -> (list string -> option json) -> (list string -> option json) -> Prop) (s s1 : st) :
    (forall i q, own i q -> q <> [] /\ ~ common q) -> (forall i j q, own i q -> own j q -> i = j) -> (forall i a b f f' g g', (forall q, own i q -> f q = f' q /\ g q = g' q) -> post i a b f g -> post i a b f' g') ->
    sm_ok (p_objs s) -> (forall i, In i (map fst (p_objs s)) -> step_ok body own common pre post i) -> (forall i o, sm_get (p_objs s) i = Some o -> pre i o) -> each (map fst (p_objs s)) body s = (s1, Ret tt) ->
    (forall i o, sm_get (p_objs s) i = Some o -> exists o1, sm_get (p_objs s1) i = Some o1 /\ post i o o1 (here s) (here s1)) /\
    (forall q, q <> [] -> (forall i, In i (map fst (p_objs s)) -> ~ own i q) -> ~ common q -> here s1 q = here s q).
  Proof.
    intros A1 A2 A3 OK ST PR H. destruct (loop body own common pre post A1 A2 A3 _ ST s s1 (sm_nodup _ OK)) as (L1 & L2 & _); [|exact H|].
    - intros i I. destruct (in_keys _ _ OK I) as (o & G). exists o. auto.
    - split; [|exact L2]. intros i o G. assert (I : In i (map fst (p_objs s))). { clear -G. induction (p_objs s) as [|(j, y) m IH]; cbn in *; [discriminate|]. destruct (String.eqb_spec i j); [left; congruence|right; apply IH, G]. }
      destruct (L1 i I) as (o' & o1 & G' & G1 & PT). rewrite G in G'. injection G' as <-. eauto.
  Qed.
  Definition owns (i : string) (q : list string) : Prop := exists c, q = i :: c.
  Lemma owns_some i q : owns i q -> q <> [] /\ ~ False. Proof. intros (c & ->). split; [discriminate|tauto]. Qed.
  Lemma owns_one i j q : owns i q -> owns j q -> i = j. Proof. intros (c & ->) (c' & E). congruence. Qed.
  Lemma not_owned i n q : ~ owns i (n :: q) <-> n <> i. Proof. split; [intros H ->; apply H; exists q; reflexivity|intros N (c & E); congruence]. Qed.
  (** What a plugin adds *)
  Definition adds (f : P -> msg -> P * msg * outcome fault unit) (i : string) (o o1 : P) (a b : list string -> option json) : Prop :=
    exists r, o1 = fst (fst (f o r)) /\ snd (f o r) = Ret tt /\ (forall q, at_param r (i :: q) = a (i :: q)) /\ forall q, b (i :: q) = at_param (snd (fst (f o r))) (i :: q).
  Lemma adds_own f i a b x x' y y' : (forall q, owns i q -> x q = x' q /\ y q = y' q) -> adds f i a b x y -> adds f i a b x' y'.
  Proof. intros H (r & A & A0 & B & C). exists r. split; [exact A|]. split; [exact A0|]. split; intros q; (destruct (H (i :: q)) as (X & Y); [exists q; reflexivity|]); [rewrite <- X; apply B|rewrite <- Y; apply C]. Qed.

  Lemma configuration_run (s s1 : st) : sm_ok (p_objs s) -> (forall i o, sm_get (p_objs s) i = Some o -> stays_in i (v_request v) o) -> (forall i, In i (map fst (p_objs s)) -> ~ In i ["ctrl_endpoint"; "meta_endpoint"; "fr_setup"]) ->
    request_configuration v s = (s1, Ret tt) ->
    here s1 ["ctrl_endpoint"] = Some (JStr (cstr (p_ctrl s))) /\ here s1 ["meta_endpoint"] = Some (JStr (cstr (p_meta s))) /\
    here s1 ["fr_setup"; "fr_ready_cnxn"] = Some (JStr (cstr (snd (k_ends (p_graph s))))) /\ here s1 ["fr_setup"; "fr_release_cnxn"] = Some (JStr (cstr (fst (k_ends (p_graph s))))) /\
    forall i o, sm_get (p_objs s) i = Some o -> exists o1, sm_get (p_objs s1) i = Some o1 /\ adds (v_request v) i o o1 (here s) (here s1).
  Proof.
    intros OK ST NA H. unfold request_configuration in H. apply seq_ret in H as (e & s' & H & H1). injection H as <- <-. apply seq_ret in H1 as (f & s' & H & H1). injection H as <- <-. apply seq_ret in H1 as (g & s' & H & H1). injection H as <- <-. apply seq_ret in H1 as ([] & s0 & H0 & H1).
    apply (puts_set [(["ctrl_endpoint"], XStr (p_ctrl s)); (["meta_endpoint"], XStr (p_meta s)); (["fr_setup"; "fr_ready_cnxn"], XStr (snd (k_ends (p_graph s)))); (["fr_setup"; "fr_release_cnxn"], XStr (fst (k_ends (p_graph s))))]) in H0 as (E0 & V0 & F0).
    2: repeat (apply Forall_cons; [apply path_check_ok; vm_compute; reflexivity|]); apply Forall_nil.
    2: repeat (apply FOP_cons; [repeat (apply Forall_cons; [cbn [fst]; first [apply apart_head; discriminate | apply apart_cons, apart_head; discriminate]|]); apply Forall_nil|]); apply FOP_nil.
    unfold each_plugin in H1. apply seq_ret in H1 as (l & s' & H & H1). injection H as <- <-. rewrite <- E0 in OK, ST, NA.
    destruct (loop_names (fun i => call i (v_request v)) owns (fun _ => False) (fun i o => stays_in i (v_request v) o) (adds (v_request v)) s0 s1 owns_some owns_one (adds_own _) OK) as (L1 & L2); [|exact ST|exact H1|].
    { intros i I s2 s3 o G S C. destruct (call_run _ _ _ _ _ G C) as (R & O & RT). eexists. rewrite O, sm_get_put, String.eqb_refl. split; [reflexivity|]. split; [exists (p_reply s2); split; [reflexivity|]; split; [exact RT|]; split; [reflexivity|]; intros q; unfold here; rewrite R; reflexivity|]. split.
      - intros q N W _. destruct q as [|n q]; [congruence|]. apply (stays_here i _ o _ _ S R); [discriminate|]. cbn. apply not_owned in W. exact W.
      - intros j J. rewrite sm_get_put. apply String.eqb_neq in J. rewrite J. reflexivity. }
    assert (K : forall n q, In n ["ctrl_endpoint"; "meta_endpoint"; "fr_setup"] -> here s1 (n :: q) = here s0 (n :: q)).
    { intros n q I. apply L2; [discriminate| |tauto]. intros i J O. apply (NA i J). destruct O as (c & E). injection E as <- _. exact I. }
    rewrite !K by (cbn; tauto). do 4 (split; [apply (V0 _ (XStr _)); cbn; tauto|]). intros i o G. rewrite <- E0 in G. destruct (L1 i o G) as (o1 & G1 & r & A & A0 & B & C). exists o1. split; [exact G1|]. exists r. split; [exact A|]. split; [exact A0|]. split; [|exact C]. intros q. rewrite B. apply F0. intros c x I.
    assert (J : In (hd "" c) ["ctrl_endpoint"; "meta_endpoint"; "fr_setup"] /\ c = hd "" c :: tl c) by (cbn in I; repeat destruct I as [I|I]; try (injection I as <- _; cbn; tauto); destruct I).
    destruct J as (J & ->). apply apart_head. cbn [hd] in J. intros E. rewrite E in J. apply (NA i); [|exact J]. apply sm_get_in in G. apply in_map_iff. exists (i, o). auto.
  Qed.

  Lemma nice_path i k c : nice i -> good_path (k :: c) -> good_path (i :: k :: c).
  Proof. intros (A & B & C) (_ & D & E & F & G). split; [discriminate|]. split; [constructor; assumption|]. split; [constructor; assumption|]. split; [exact C|exact G]. Qed.
  Lemma nice_path2 n i k : nice n -> nice i -> nice k -> good_path [n; i; k].
  Proof. intros (A & B & C) (A' & B' & C') (A2 & B2 & C2). split; [discriminate|]. split; [repeat (constructor; [assumption|]); constructor|]. split; [repeat (constructor; [assumption|]); constructor|]. split; assumption. Qed.
  Lemma nice_check i : path_check [i] = true -> nice i.
  Proof. intros H. apply path_check_ok in H as (_ & A & B & C & _). inversion A; inversion B; subst. repeat split; try assumption; apply C. Qed.
  Lemma ask_ret {A B} i (d : A) f (g : A -> M B) s o : sm_get (p_objs s) i = Some o -> seq (ask i d f) g s = g (f o) s. Proof. intros G. unfold seq, ask, get. rewrite G. reflexivity. Qed.
  Lemma fst_in {A} (m : smap A) i o : sm_get m i = Some o -> In i (map fst m).
  Proof. induction m as [|(j, y) m IH]; cbn; [discriminate|]. destruct (String.eqb_spec i j) as [->|]; [auto|]. intros H. right. apply IH, H. Qed.

  Definition lists (o : list string) (a b : option json) : Prop := b = match o with [] => a | _ => Some (JArr (elements a ++ map (fun x => JStr (cstr x)) o)) end.
  Lemma puts_objs l : forall s s1 : st, puts l s = (s1, Ret tt) -> p_objs s1 = p_objs s.
  Proof. induction l as [|(n, x) l IH]; intros s s1 H; cbn in H; [injection H as <-; reflexivity|]. apply seq_ret in H as ([] & s0 & H & H1). apply put_run in H as (r & -> & _). apply IH in H1. exact H1. Qed.
  Lemma each_objs {A} (l : list A) (f : A -> M unit) : (forall i s s1, f i s = (s1, Ret tt) -> p_objs s1 = p_objs s) -> forall s s1, each l f s = (s1, Ret tt) -> p_objs s1 = p_objs s.
  Proof. intros F. induction l as [|i l IH]; intros s s1 H; cbn in H; [injection H as <-; reflexivity|]. apply seq_ret in H as ([] & s0 & H & H1). rewrite (IH _ _ H1). apply (F _ _ _ H). Qed.
  Lemma not_array i n : nice i -> ~ In (append n "[]") [i]. Proof. intros (_ & _ & (_ & X)) [E|[]]. apply X. exists n. exact E. Qed.
  Lemma commands_run (s s1 : st) : sm_ok (p_objs s) -> (forall i, In i (map fst (p_objs s)) -> nice i) -> request_commands v s = (s1, Ret tt) ->
    p_objs s1 = p_objs s /\ (forall i o, sm_get (p_objs s) i = Some o -> lists (v_commands v o) (here s [i; "command"]) (here s1 [i; "command"])) /\
    (forall n q, ~ In n (map fst (p_objs s)) -> here s1 (n :: q) = here s (n :: q)).
  Proof.
    intros OK NA H. unfold request_commands, each_plugin in H. apply seq_ret in H as (l & s' & H & H1). injection H as <- <-. split.
    { revert H1. apply each_objs. intros i s2 s3 H. apply seq_ret in H as (k & s' & H & H2). injection H as <- <-. apply (puts_objs _ _ _ H2). }
    destruct (loop_names (fun i => l <- ask i [] (v_commands v) ;; puts (map (fun c => ((i ++ "/command[]")%string, XStr c)) l)) owns (fun q => False) (fun _ _ => True) (fun i o o1 a b => lists (v_commands v o) (a [i; "command"]) (b [i; "command"])) s s1 owns_some owns_one) as (L1 & L2).
    - intros i a b f f' g g' E. destruct (E [i; "command"]) as (-> & ->); [exists ["command"]; reflexivity|]. auto.
    - exact OK.
    - intros i I s2 s3 o G _ C. rewrite (ask_ret _ _ _ _ _ _ G) in C. apply (puts_push [i] "command") in C as (O & V & F); [|apply nice_path; [apply NA, I|apply path_check_ok; reflexivity]|apply not_array, NA, I].
      exists o. rewrite O. split; [exact G|]. split; [exact V|]. split; [|reflexivity]. intros [|n q] N W _; [congruence|]. apply F. apply apart_head. apply not_owned in W. congruence.
    - auto.
    - exact H1.
    - split; [intros i o G; destruct (L1 i o G) as (o1 & _ & L); exact L|]. intros n q W. apply L2; [discriminate|intros i I O; apply not_owned in O; [exact O|congruence]|tauto].
  Qed.

  (** Five entries of a version *)
  Definition version_is (h : list string -> option json) (n : string) (x : Z * Z * Z * string * string) : Prop :=
    let '(a, b, c, s, f) := x in h ["version"; n; "major"] = Some (JInt a) /\ h ["version"; n; "minor"] = Some (JInt b) /\ h ["version"; n; "patch"] = Some (JInt c) /\ h ["version"; n; "short"] = Some (JStr (cstr s)) /\ h ["version"; n; "full"] = Some (JStr (cstr f)).
  Lemma texts_run n a b c x y (s s1 : st) : nice n -> puts (version_texts n a b c x y) s = (s1, Ret tt) -> p_objs s1 = p_objs s /\ version_is (here s1) n (a, b, c, x, y) /\ forall q, q <> [] -> q <> ["version"] -> (forall r, q <> "version" :: n :: r) -> here s1 q = here s q.
  Proof.
    intros N H. apply (puts_set [(["version"; n; "major"], XInt a); (["version"; n; "minor"], XInt b); (["version"; n; "patch"], XInt c); (["version"; n; "short"], XStr x); (["version"; n; "full"], XStr y)]) in H as (O & V & F).
    2: repeat (apply Forall_cons; [apply nice_path2; [apply nice_check; reflexivity|exact N|apply nice_check; reflexivity]|]); apply Forall_nil.
    2: repeat (apply FOP_cons; [repeat (apply Forall_cons; [cbn [fst]; apply apart_cons, apart_cons, apart_head; discriminate|]); apply Forall_nil|]); apply FOP_nil.
    split; [exact O|]. split; [repeat split; first [apply (V _ (XInt _)); cbn; tauto|apply (V _ (XStr _)); cbn; tauto]|]. intros q Q1 Q2 Q3. apply F. intros d z I.
    assert (E : exists k, d = ["version"; n; k]) by (cbn in I; repeat destruct I as [I|I]; try (injection I as <- _; eauto); destruct I). destruct E as (k & ->).
    destruct q as [|p q]; [congruence|]. destruct (string_dec "version" p) as [<-|NE]; [|apply apart_head, NE]. apply apart_cons. destruct q as [|p q]; [congruence|]. apply apart_head. intros <-. apply (Q3 q). reflexivity.
  Qed.
  Lemma version_run (s s1 : st) : sm_ok (p_objs s) -> (forall i, In i (map fst (p_objs s)) -> nice i /\ i <> "odin-data") -> provide_version v s = (s1, Ret tt) ->
    p_objs s1 = p_objs s /\ version_is (here s1) "odin-data" (v_major v, v_minor v, v_patch v, v_short v, v_full v) /\ forall i o, sm_get (p_objs s) i = Some o -> version_is (here s1) i (v_vers v o).
  Proof.
    intros OK NA H. unfold provide_version, each_plugin in H. apply seq_ret in H as ([] & s0 & H & H1). apply seq_ret in H1 as (l & s' & H' & H1). injection H' as <- <-. apply texts_run in H as (E0 & V0 & _); [|apply nice_check; reflexivity].
    assert (OB : p_objs s1 = p_objs s0). { revert H1. apply each_objs. intros i s2 s3 H. apply seq_ret in H as (k & s' & H & H2). injection H as <- <-. destruct (match _ with Some _ => _ | None => _ end) as ((((? & ?) & ?) & ?) & ?). apply (puts_objs _ _ _ H2). }
    split; [congruence|]. rewrite <- E0 in OK, NA |- *.
    set (own := fun i q => exists c, q = "version" :: i :: c).
    destruct (loop_names (fun i => x <- ask i (0, 0, 0, "", "")%Z (v_vers v) ;; let '(a, b, c, s, f) := x in puts (version_texts i a b c s f)) own (fun q => q = ["version"]) (fun _ _ => True) (fun i o o1 a b => version_is b i (v_vers v o)) s0 s1) as (L1 & L2).
    - intros i q (r & ->). split; discriminate.
    - intros i j q (r & ->) (r' & E). congruence.
    - intros i a b f f' g g' E. unfold version_is. destruct (v_vers v a) as ((((? & ?) & ?) & ?) & ?). intros (A & B & C & D & F). repeat split; match goal with |- g' ?q = _ => destruct (E q) as (_ & <-); [eexists; reflexivity|assumption] end.
    - exact OK.
    - intros i I s2 s3 o G _ C. rewrite (ask_ret _ _ _ _ _ _ G) in C. destruct (v_vers v o) as ((((a & b) & c) & x) & y) eqn:VV. apply texts_run in C as (O & V & F); [|apply NA, I].
      exists o. rewrite O. split; [exact G|]. split; [exact V|]. split; [|reflexivity]. intros q N W C. apply F; [exact N|exact C|]. intros r ->. apply W. exists r. reflexivity.
    - auto.
    - exact H1.
    - split; [|intros i o G; destruct (L1 i o G) as (o1 & _ & L); exact L].
      assert (K : forall k, here s1 ["version"; "odin-data"; k] = here s0 ["version"; "odin-data"; k]). { intros k. apply L2; [discriminate| |discriminate]. intros i I (c & E). injection E as <- _. apply NA in I as (_ & I). congruence. }
      unfold version_is in V0 |- *. rewrite !K. exact V0.
  Qed.

  (** What the status of a plugin adds *)
  Definition timed (h : list string -> option json) (i : string) (t : Z * Z * Z) : Prop :=
    let '(a, b, c) := t in h [i; "timing"; "last_process"] = Some (JInt a) /\ h [i; "timing"; "max_process"] = Some (JInt b) /\ h [i; "timing"; "mean_process"] = Some (JDouble c).
  Definition shows (i : string) (o o1 : P) (a b : list string -> option json) : Prop :=
    timed b i (v_perf v o1) /\ exists r, o1 = fst (fst (v_status v o r)) /\ snd (v_status v o r) = Ret tt /\ (forall q, at_param r (i :: q) = a (i :: q)) /\ forall q, untimed q -> b (i :: q) = at_param (snd (fst (v_status v o r))) (i :: q).
  Lemma shows_own i a b x x' y y' : (forall q, owns i q -> x q = x' q /\ y q = y' q) -> shows i a b x y -> shows i a b x' y'.
  Proof.
    intros H (T & r & A & A0 & B & C). split.
    - unfold timed in *. destruct (v_perf v b) as ((? & ?) & ?). destruct T as (T1 & T2 & T3). repeat split; match goal with |- y' ?q = _ => destruct (H q) as (_ & <-); [eexists; reflexivity|assumption] end.
    - exists r. split; [exact A|]. split; [exact A0|]. split; [intros q|intros q N]; destruct (H (i :: q)) as (X & Y); try (eexists; reflexivity); [rewrite <- X; apply B|rewrite <- Y; apply C, N].
  Qed.
  Definition ownp (i : string) (q : list string) : Prop := i <> "plugins" /\ owns i q.
  Definition status_of (i : string) : M unit :=
    put "plugins/names[]" (XStr i) ;; call i (v_status v) ;; t <- ask i (0, 0, 0)%Z (v_perf v) ;; let '(a, b, c) := t in
    puts [((i ++ "/timing/last_process")%string, XUint64 a); ((i ++ "/timing/max_process")%string, XUint64 b); ((i ++ "/timing/mean_process")%string, XDouble c)].
  Lemma statuses_each l : forall es ws s s1 x, statuses v l es ws s = (s1, Ret x) -> each l status_of s = (s1, Ret tt).
  Proof.
    induction l as [|i l IH]; intros es ws s s1 x H; cbn [statuses each] in *; [injection H as <- <-; reflexivity|]. apply seq_ret in H as ([] & s2 & H2 & H). apply seq_ret in H as ([] & s3 & H3 & H). apply seq_ret in H as (t & s4 & H4 & H). injection H4 as <- <-.
    unfold seq at 1, status_of. unfold seq at 1. rewrite H2. unfold seq at 1. rewrite H3. unfold seq at 1, ask at 1, get at 1. destruct (match sm_get (p_objs s3) i with Some o => v_perf v o | None => (0, 0, 0)%Z end) as ((a & b) & c). apply seq_ret in H as ([] & s5 & H5 & H). rewrite H5. apply seq_ret in H as (e & s6 & H6 & H). injection H6 as <- <-. apply seq_ret in H as (w & s6 & H6 & H). injection H6 as <- <-. apply (IH _ _ _ _ _ H).
  Qed.
  Lemma status_others i s s1 : status_of i s = (s1, Ret tt) -> forall j, j <> i -> sm_get (p_objs s1) j = sm_get (p_objs s) j.
  Proof.
    intros H j J. unfold status_of in H. apply seq_ret in H as ([] & s2 & H2 & H). apply seq_ret in H as ([] & s3 & H3 & H). apply seq_ret in H as (t & s4 & H4 & H). injection H4 as <- <-. destruct (match sm_get (p_objs s3) i with Some o => v_perf v o | None => (0, 0, 0)%Z end) as ((a & b) & c).
    rewrite (puts_objs _ _ _ H). apply put_run in H2 as (r & -> & _). destruct (sm_get (p_objs s) i) as [o|] eqn:G; [|unfold call in H3; cbn in H3; rewrite G in H3; injection H3 as <-; reflexivity].
    apply (call_run i _ _ _ o) in H3 as (_ & O & _); [|exact G]. rewrite O, sm_get_put. apply String.eqb_neq in J. rewrite J. reflexivity.
  Qed.
  Definition errors_of (m : smap P) (i : string) : list string := match sm_get m i with Some o => v_errors v o | None => [] end.
  Definition warnings_of (m : smap P) (i : string) : list string := match sm_get m i with Some o => v_warnings v o | None => [] end.
  Lemma each_others l : forall s s1, each l status_of s = (s1, Ret tt) -> forall j, ~ In j l -> sm_get (p_objs s1) j = sm_get (p_objs s) j.
  Proof. induction l as [|i l IH]; intros s s1 H j J; cbn in H; [injection H as <-; reflexivity|]. apply seq_ret in H as ([] & s0 & H & H1). rewrite (IH _ _ H1) by (cbn in J; tauto). apply (status_others _ _ _ H). cbn in J. intuition congruence. Qed.
  Lemma statuses_texts l : forall es ws s s1 x, NoDup l -> statuses v l es ws s = (s1, Ret x) -> fst x = es ++ flat_map (errors_of (p_objs s1)) l /\ snd x = ws ++ flat_map (warnings_of (p_objs s1)) l.
  Proof.
    induction l as [|i l IH]; intros es ws s s1 x ND H; cbn [statuses] in H; [injection H as <- <-; cbn; rewrite !app_nil_r; auto|]. inversion ND as [|? ? NI ND']; subst. apply seq_ret in H as ([] & s2 & H2 & H). apply seq_ret in H as ([] & s3 & H3 & H). apply seq_ret in H as (t & s4 & H4 & H). injection H4 as <- <-.
    destruct (match sm_get (p_objs s3) i with Some o => v_perf v o | None => (0, 0, 0)%Z end) as ((a & b) & c). apply seq_ret in H as ([] & s5 & H5 & H). apply seq_ret in H as (e & s6 & H6 & H). injection H6 as <- <-. apply seq_ret in H as (w & s6 & H6 & H). injection H6 as <- <-.
    destruct (IH _ _ _ _ _ ND' H) as (E1 & E2). pose proof (each_others _ _ _ (statuses_each _ _ _ _ _ _ H) i NI) as G. cbn [flat_map]. unfold errors_of at 1, warnings_of at 1. rewrite E1, E2, G, <- !app_assoc. auto.
  Qed.
  Lemma status_step i : nice i -> i <> "plugins" -> step_ok status_of ownp (fun q => exists c, q = "plugins" :: c) (fun i o => stays_in i (v_status v) o) shows i.
  Proof.
    intros NI NP s s1 o G S H. pose proof (status_others _ _ _ H) as OT. unfold status_of in H. apply seq_ret in H as ([] & s2 & H2 & H). apply seq_ret in H as ([] & s3 & H3 & H). 
    apply (put_push ["plugins"] "names") in H2 as (O2 & _ & F2); [|apply path_check_ok; reflexivity|intros [E|[]]; discriminate]. rewrite <- O2 in G. destruct (call_run _ _ _ _ _ G H3) as (R3 & O3 & RT3). assert (G3 : sm_get (p_objs s3) i = Some (fst (fst (v_status v o (p_reply s2))))) by (rewrite O3, sm_get_put, String.eqb_refl; reflexivity).
    rewrite (ask_ret _ _ _ _ _ _ G3) in H. destruct (v_perf v (fst (fst (v_status v o (p_reply s2))))) as ((a & b) & c) eqn:VP.
    apply (puts_set [([i; "timing"; "last_process"], XUint64 a); ([i; "timing"; "max_process"], XUint64 b); ([i; "timing"; "mean_process"], XDouble c)]) in H as (O & V & F).
    2: repeat (apply Forall_cons; [cbn [fst]; apply nice_path; [exact NI|apply path_check_ok; reflexivity]|]); apply Forall_nil.
    2: repeat (apply FOP_cons; [repeat (apply Forall_cons; [cbn [fst]; apply apart_cons, apart_cons, apart_head; discriminate|]); apply Forall_nil|]); apply FOP_nil.
    assert (FT : forall d z q, In (d, z) [([i; "timing"; "last_process"], XUint64 a); ([i; "timing"; "max_process"], XUint64 b); ([i; "timing"; "mean_process"], XDouble c)] -> q <> [] -> (hd "" q = i -> untimed (tl q)) -> apart d q).
    { intros d z q I N W. assert (E : exists k, In k ["last_process"; "max_process"; "mean_process"] /\ d = [i; "timing"; k]) by (cbn in I; repeat destruct I as [I|I]; try (injection I as <- _; eexists; split; [|reflexivity]; cbn; tauto); destruct I). destruct E as (k & K & ->). destruct q as [|n q]; [congruence|]. cbn in W. destruct (string_dec i n) as [<-|NE]; [|apply apart_head, NE]. apply apart_cons. apply (W eq_refl k K). }
    exists (fst (fst (v_status v o (p_reply s2)))). rewrite O. split; [exact G3|]. split; [|split].
    - split; [rewrite VP; repeat split; first [apply (V _ (XUint64 _)); cbn; tauto|apply (V _ (XDouble _)); cbn; tauto]|]. exists (p_reply s2). split; [reflexivity|]. split; [exact RT3|]. split.
      + intros q. apply F2. apply apart_head. congruence.
      + intros q N. rewrite F; [unfold here; rewrite R3; reflexivity|]. intros d z I. apply (FT d z _ I); [discriminate|]. cbn. intros _. exact N.
    - intros [|n q] N W0 C; [congruence|]. assert (W : n <> i) by (apply (not_owned i n q); intros X; apply W0; split; assumption). rewrite F; [|intros d z I; apply (FT d z _ I); [discriminate|cbn; congruence]]. rewrite (stays_here i _ o _ _ S R3); [|discriminate|exact W]. apply F2. apply apart_head. intros <-. apply C. exists q. reflexivity.
    - intros j J. rewrite <- O. apply OT, J.
  Qed.
  Lemma status_names i s s1 o : nice i -> i <> "plugins" -> sm_get (p_objs s) i = Some o -> stays_in i (v_status v) o -> status_of i s = (s1, Ret tt) -> here s1 ["plugins"; "names"] = Some (JArr (elements (here s ["plugins"; "names"]) ++ [JStr i])).
  Proof.
    intros NI NP G S H. unfold status_of in H. apply seq_ret in H as ([] & s2 & H2 & H). apply seq_ret in H as ([] & s3 & H3 & H). 
    apply (put_push ["plugins"] "names") in H2 as (O2 & V2 & _); [|apply path_check_ok; reflexivity|intros [E|[]]; discriminate]. rewrite <- O2 in G. destruct (call_run _ _ _ _ _ G H3) as (R3 & O3 & RT3). assert (G3 : sm_get (p_objs s3) i = Some (fst (fst (v_status v o (p_reply s2))))) by (rewrite O3, sm_get_put, String.eqb_refl; reflexivity).
    rewrite (ask_ret _ _ _ _ _ _ G3) in H. destruct (v_perf v (fst (fst (v_status v o (p_reply s2))))) as ((a & b) & c) eqn:VP.
    apply (puts_set [([i; "timing"; "last_process"], XUint64 a); ([i; "timing"; "max_process"], XUint64 b); ([i; "timing"; "mean_process"], XDouble c)]) in H as (_ & _ & F).
    2: repeat (apply Forall_cons; [cbn [fst]; apply nice_path; [exact NI|apply path_check_ok; reflexivity]|]); apply Forall_nil.
    2: repeat (apply FOP_cons; [repeat (apply Forall_cons; [cbn [fst]; apply apart_cons, apart_cons, apart_head; discriminate|]); apply Forall_nil|]); apply FOP_nil.
    rewrite F; [|intros d z I; cbn in I; repeat destruct I as [I|I]; try (injection I as <- _; apply apart_head, NP); destruct I]. rewrite (stays_here i _ o _ _ S R3); [|discriminate|cbn; congruence]. cbn [app] in V2. rewrite V2. cbn [set_value]. destruct NI as (_ & NI & _). rewrite (cstr_id _ NI). reflexivity.
  Qed.
  Lemma names_run l : forall s s1, NoDup l -> (forall i, In i l -> nice i /\ i <> "plugins" /\ exists o, sm_get (p_objs s) i = Some o /\ stays_in i (v_status v) o) -> each l status_of s = (s1, Ret tt) ->
    elements (here s1 ["plugins"; "names"]) = elements (here s ["plugins"; "names"]) ++ map JStr l.
  Proof.
    induction l as [|i l IH]; intros s s1 ND PR H; cbn in H; [injection H as <-; cbn; rewrite app_nil_r; reflexivity|]. apply seq_ret in H as ([] & s0 & H & H1). inversion ND as [|? ? NI ND']; subst. destruct (PR i (or_introl eq_refl)) as (N1 & N2 & o & G & S). rewrite (IH s0 s1 ND'); [|intros j J; destruct (PR j (or_intror J)) as (M1 & M2 & oj & Gj & Sj)|exact H1].
    - rewrite (status_names i s s0 o N1 N2 G S H). cbn. rewrite <- app_assoc. reflexivity.
    - split; [exact M1|]. split; [exact M2|]. exists oj. split; [|exact Sj]. rewrite (status_others _ _ _ H); [exact Gj|]. intros ->. contradiction.
  Qed.
  Lemma status_run (s s1 : st) : sm_ok (p_objs s) -> (forall i, In i (map fst (p_objs s)) -> nice i /\ ~ In i ["plugins"; "error"; "warning"; "shared_memory"]) -> (forall i o, sm_get (p_objs s) i = Some o -> stays_in i (v_status v) o) ->
    (forall q, q <> [] -> here s q = None) -> provide_status v s = (s1, Ret tt) ->
    elements (here s1 ["plugins"; "names"]) = map (fun p => JStr (fst p)) (p_objs s) /\
    (forall i o, sm_get (p_objs s) i = Some o -> exists o1, sm_get (p_objs s1) i = Some o1 /\ shows i o o1 (here s) (here s1)) /\
    lists (flat_map (errors_of (p_objs s1)) (map fst (p_objs s))) None (here s1 ["error"]) /\
    lists (flat_map (warnings_of (p_objs s1)) (map fst (p_objs s))) None (here s1 ["warning"]) /\
    (forall x, k_shm (p_graph s) = Some x -> here s1 ["shared_memory"; "configured"] = Some (JBool (v_shm_ok v))) /\ (k_shm (p_graph s) = None -> here s1 ["shared_memory"] = None).
  Proof.
    intros OK NA ST FR H. unfold provide_status in H. apply seq_ret in H as (g & s' & H0 & H). injection H0 as <- <-. apply seq_ret in H as ([] & s0 & H0 & H).
    assert (S0 : p_objs s0 = p_objs s /\ (forall n q, n <> "shared_memory" -> here s0 (n :: q) = None) /\ (forall x, k_shm (p_graph s) = Some x -> here s0 ["shared_memory"; "configured"] = Some (JBool (v_shm_ok v))) /\ (k_shm (p_graph s) = None -> here s0 ["shared_memory"] = None)).
    { destruct (k_shm (p_graph s)) as [x|].
      - apply (put_set ["shared_memory"; "configured"]) in H0 as (O & V & F); [|apply path_check_ok; reflexivity]. split; [exact O|]. split; [intros n q N; rewrite F; [apply FR; discriminate|apply apart_head; congruence]|]. split; [intros _ _; exact V|discriminate].
      - injection H0 as <-. split; [reflexivity|]. split; [intros n q _; apply FR; discriminate|]. split; [discriminate|intros _; apply FR; discriminate]. }
    destruct S0 as (O0 & F0 & V0 & V0'). apply seq_ret in H as (l & s' & H1 & H). injection H1 as <- <-. apply seq_ret in H as (x & s2 & H1 & H). apply seq_ret in H as ([] & s3 & H2 & H3). rewrite O0 in H1.
    pose proof (sm_nodup _ OK) as ND. destruct (statuses_texts _ _ _ _ _ _ ND H1) as (X1 & X2). pose proof (statuses_each _ _ _ _ _ _ H1) as EA. rewrite <- O0 in EA, ND, OK, NA, ST.
    assert (ST' : forall i, In i (map fst (p_objs s0)) -> step_ok status_of ownp (fun q => exists c, q = "plugins" :: c) (fun i o => stays_in i (v_status v) o) (fun i o o1 a b => i <> "plugins" /\ shows i o o1 a b) i).
    { intros i I. destruct (NA i I) as (N1 & N2). assert (NP : i <> "plugins") by (intros ->; apply N2; cbn; tauto). intros sa sb o G S B. destruct (status_step i N1 NP sa sb o G S B) as (o1 & Y1 & Y2 & Y3 & Y4). exists o1. split; [exact Y1|]. split; [split; [exact NP|exact Y2]|]. split; [exact Y3|exact Y4]. }
    assert (PR : forall i, In i (map fst (p_objs s0)) -> exists o, sm_get (p_objs s0) i = Some o /\ stays_in i (v_status v) o). { intros i I. destruct (in_keys _ _ OK I) as (o & G). eauto. }
    destruct (loop status_of ownp (fun q => exists c, q = "plugins" :: c) (fun i o => stays_in i (v_status v) o) (fun i o o1 a b => i <> "plugins" /\ shows i o o1 a b)) with (l := map fst (p_objs s0)) (s := s0) (s1 := s2) as (L1 & L2 & _); [| | |exact ST'|exact ND|exact PR|exact EA|].
    { intros i q (N & c & ->). split; [discriminate|]. intros (c' & E). congruence. }
    { intros i j q (_ & A) (_ & B). apply (owns_one _ _ _ A B). }
    { intros i a b f f' g g' E (N & X). split; [exact N|]. apply (shows_own i a b f f' g g'); [|exact X]. intros q Q. apply E. split; assumption. }
    apply (puts_push [] "error") in H2 as (O2 & V2 & F2); [|apply path_check_ok; reflexivity|intros []]. apply (puts_push [] "warning") in H3 as (O3 & V3 & F3); [|apply path_check_ok; reflexivity|intros []]. cbn [app] in *.
    assert (OUT : forall n q, ~ In n (map fst (p_objs s0)) -> n <> "plugins" -> here s2 (n :: q) = here s0 (n :: q)).
    { intros n q I N. apply L2; [discriminate| |intros (c & E); congruence]. intros i J (_ & c & E). injection E as -> _. contradiction. }
    assert (RES : forall n, In n ["plugins"; "error"; "warning"; "shared_memory"] -> ~ In n (map fst (p_objs s0))) by (intros n I J; apply NA in J as (_ & J); contradiction).
    assert (LAST : forall n q, n <> "error" -> n <> "warning" -> here s1 (n :: q) = here s2 (n :: q)) by (intros n q N1 N2; rewrite F3, F2 by (apply apart_head; congruence); reflexivity).
    split; [|split; [|split; [|split]]].
    - rewrite LAST by discriminate. rewrite (names_run _ s0 s2 ND); [rewrite F0 by discriminate; cbn; rewrite O0, map_map; reflexivity| |exact EA]. intros i I. destruct (NA i I) as (N1 & N2). split; [exact N1|]. split; [intros ->; apply N2; cbn; tauto|apply PR, I].
    - intros i o G. rewrite <- O0 in G. pose proof (fst_in _ _ _ G) as I. destruct (L1 i I) as (o' & o1 & G' & G1 & _ & SH). rewrite G in G'. injection G' as <-. exists o1. rewrite O3, O2. split; [exact G1|]. eapply shows_own; [|exact SH].
      assert (N : forall k, In k ["plugins"; "error"; "warning"; "shared_memory"] -> i <> k) by (intros k K ->; apply (RES k K I)). intros q (c & ->). split; [rewrite F0, FR; [reflexivity|discriminate|apply N; cbn; tauto]|]. symmetry. apply LAST; apply N; cbn; tauto.
    - unfold lists. rewrite F3 by (apply apart_head; discriminate). rewrite V2, O3, O2, <- O0. rewrite (OUT "error") by (try discriminate; apply RES; cbn; tauto). rewrite F0 by discriminate. rewrite X1. cbn [app]. rewrite O0. destruct (flat_map _ _); reflexivity.
    - unfold lists. rewrite V3, O3, O2, <- O0. rewrite F2 by (apply apart_head; discriminate). rewrite (OUT "warning") by (try discriminate; apply RES; cbn; tauto). rewrite F0 by discriminate. rewrite X2. cbn [app]. rewrite O0. clear X1. destruct (flat_map (warnings_of (p_objs s2)) (map fst (p_objs s))); reflexivity.
    - split; [intros y Y; rewrite <- (V0 y Y)|intros Y; rewrite <- (V0' Y)]; rewrite LAST by discriminate; apply OUT; try discriminate; apply RES; cbn; tauto.
  Qed.
End Reply.
