(** Requests that are answered. *)
From Coq Require Import String Ascii.
From Verif Require Import Base StrOrder PluginModel CtrlModel JsonModel JsonSpec JsonProofs JsonProps MessageProps JsonReadModel JsonDoubleModel PrcModel PrcSpec PrcMoves PrcExec PrcReply PrcAsk.
Local Open Scope string_scope.
Local Open Scope list_scope.

Lemma way_after2 c v x x' d : set_at c v x = Some x' -> (forall r, r <> [] -> d <> c ++ r) -> way d x -> way d x'.
Proof.
  intros S A W q r y E N L. destruct (classic_starts q c) as [(s & Es)|NS].
  - destruct s as [|n s]; [|destruct (set_at_above _ _ _ _ q (n :: s) S Es ltac:(discriminate)) as (l & X); rewrite X in L; injection L as <-; eexists; reflexivity].
    rewrite app_nil_r in Es. subst q. destruct (A r N E).
  - apply (W q r y E N). rewrite <- (set_at_apart _ _ _ _ q S); [exact L|]. split; [|exact NS]. intros (s & ->). apply (A (s ++ r)); [destruct s; [exact N|discriminate]|]. rewrite E, app_assoc. reflexivity.
Qed.
Section Live.
  Context {P : Type}.
  Variable v : env P.
  Notation M := (M P).
  Notation st := (prc P).
  (** There is room for the paths of a set. *)
  Definition open_to (D : list string -> Prop) (s : st) : Prop := forall d, D d -> way ("params" :: d) (JObj (g_doc (p_reply s))).
  Definition loose (D : list string -> Prop) : Prop := forall c d r, D c -> D d -> r <> [] -> d <> c ++ r.
  Lemma open_fresh (D : list string -> Prop) m s : (forall d, D d -> d <> []) -> open_to D (begun v m s).
  Proof. intros N d Dd q r y E R L. cbn in L. destruct q as [|k q]; [injection L as <-; eexists; reflexivity|]. injection E as <- E. cbn in L. destruct q; [injection L as <-; eexists; reflexivity|discriminate]. Qed.
  Lemma put_open (D : list string -> Prop) c x s : loose D -> good_path c -> D c -> open_to D s -> exists s1, put (slashed c) x s = (s1, Ret tt) /\ open_to D s1 /\ p_objs s1 = p_objs s.
  Proof.
    intros LO G Dc O. destruct (set_at_some _ (set_value x) _ (O c Dc)) as (y & S). unfold put. rewrite (set_param_eq _ _ _ G), S. pose proof S as S0. cbn [set_at] in S. destruct (set_at c _ _); [|discriminate]. injection S as <-. eexists. split; [reflexivity|]. split; [|reflexivity].
    intros d Dd. cbn. apply (way_after2 _ _ _ _ _ S0); [|apply O, Dd]. intros r N E. injection E as E. apply (LO c d r Dc Dd N E).
  Qed.
  Lemma puts_open (D : list string -> Prop) l : forall s, loose D -> Forall (fun p => good_path (fst p) /\ D (fst p)) l -> open_to D s -> exists s1, puts (sets l) s = (s1, Ret tt) /\ open_to D s1 /\ p_objs s1 = p_objs s.
  Proof.
    induction l as [|(c, x) l IH]; intros s LO F O; cbn; [exists s; split; [reflexivity|auto]|]. inversion F as [|? ? (G & Dc) F']; subst. destruct (put_open D c x s LO G Dc O) as (s0 & E & O0 & B). destruct (IH s0 LO F' O0) as (s1 & E1 & O1 & B1). exists s1. unfold seq. rewrite E. split; [exact E1|]. split; [exact O1|congruence].
  Qed.
  Lemma push_some m d n x : good_path (d ++ [n]) -> ~ In (append n "[]") d -> way ("params" :: d ++ [n]) (JObj (g_doc m)) ->
    exists dd, set_at ("params" :: d ++ [n]) (JArr (elements (at_param m (d ++ [n])) ++ [set_value x])) (JObj (g_doc m)) = Some (JObj dd) /\ set_param m (slashed (d ++ [append n "[]"])) x = (with_doc dd m, Ret tt).
  Proof.
    intros (_ & G1 & G2 & G3 & _) N W. destruct (set_at_some _ (JArr (elements (at_param m (d ++ [n])) ++ [set_value x])) _ W) as (y & S). rewrite S.
    assert (NS : Forall no_slash (d ++ [append n "[]"])).
    { apply Forall_app in G1 as (Y1 & Y2). apply Forall_app. split; [exact Y1|]. constructor; [|constructor]. inversion Y2; subst. apply no_slash_app; [assumption|]. intros X. cbn in X. intuition discriminate. }
    unfold set_param. rewrite lines_slashed by (try exact NS; destruct n; discriminate). unfold at_param in S. cbn [set_at at_path] in S. unfold params_of. destruct d as [|t d]; cbn [app] in *.
    - rewrite ends_array_name, cut_array_name. inversion G2 as [|? ? A _]; subst. rewrite (cstr_id _ A). cbn [set_rest last set_at at_path] in *. destruct (find_member "params" (g_doc m)) as [p|] eqn:FP.
      + destruct p as [| | | | | |l]; try discriminate S. injection S as <-. eexists. split; [reflexivity|]. destruct (find_member n l) as [[]|]; reflexivity.
      + injection S as <-. eexists. split; reflexivity.
    - cbn [hd] in G3. rewrite (ends_plain _ G3). inversion G2 as [|? ? G2a G2b]; subst. rewrite (cstr_id _ G2a), last_snoc. cbn [set_at at_path] in S. set (p := match find_member "params" (g_doc m) with Some p => p | None => JObj [] end) in *.
      assert (AP : forall r, match find_member "params" (g_doc m) with Some y0 => at_path (t :: r) y0 | None => None end = at_path (t :: r) p) by (intros r; unfold p; destruct (find_member "params" (g_doc m)); reflexivity).
      cbn [at_path] in AP. rewrite AP in S. destruct p as [| | | | | |l]; try discriminate S. set (z := match find_member t l with Some x => x | None => JObj [] end) in *.
      assert (AX : match find_member t l with Some y0 => at_path (d ++ [n]) y0 | None => None end = at_path (d ++ [n]) z) by (unfold z; destruct (find_member t l); [reflexivity|rewrite at_path_empty by (destruct d; discriminate); reflexivity]).
      rewrite AX in S. destruct (set_at (d ++ [n]) _ z) as [x'|] eqn:SX; [|discriminate]. rewrite (set_rest_push d n (set_value x) z G2b (fun X => N (or_intror X)) x' SX). injection S as <-. eauto.
  Qed.
  Lemma push_open (D : list string -> Prop) d n x s : loose D -> good_path (d ++ [n]) -> ~ In (append n "[]") d -> D (d ++ [n]) -> open_to D s -> exists s1, put (slashed (d ++ [append n "[]"])) x s = (s1, Ret tt) /\ open_to D s1 /\ p_objs s1 = p_objs s.
  Proof.
    intros LO G N Dc O. destruct (push_some (p_reply s) d n x G N (O _ Dc)) as (dd & S & E). unfold put. rewrite E. eexists. split; [reflexivity|]. split; [|reflexivity].
    intros e De. cbn. apply (way_after2 _ _ _ _ _ S); [|apply O, De]. intros r R X. injection X as X. apply (LO _ e r Dc De R X).
  Qed.
  Lemma pushes_open (D : list string -> Prop) d n l : loose D -> good_path (d ++ [n]) -> ~ In (append n "[]") d -> D (d ++ [n]) -> forall s, open_to D s -> exists s1, puts (map (fun x => (slashed (d ++ [append n "[]"]), XStr x)) l) s = (s1, Ret tt) /\ open_to D s1 /\ p_objs s1 = p_objs s.
  Proof.
    intros LO G N Dc. induction l as [|x l IH]; intros s O; cbn; [exists s; split; [reflexivity|auto]|]. destruct (push_open D d n (XStr x) s LO G N Dc O) as (s0 & E & O0 & B). destruct (IH s0 O0) as (s1 & E1 & O1 & B1). exists s1. unfold seq. rewrite E. split; [exact E1|]. split; [exact O1|congruence].
  Qed.
  (** [K l s]: the plugins [l] are still to come *)
  Lemma each_inv (K : list string -> st -> Prop) (I : string -> P -> Prop) (f : string -> M unit) l : (forall i r o s, incl (i :: r) l -> ~ In i r -> K (i :: r) s -> sm_get (p_objs s) i = Some o -> I i o -> exists s1, f i s = (s1, Ret tt) /\ K r s1 /\ forall j, j <> i -> sm_get (p_objs s1) j = sm_get (p_objs s) j) ->
    forall s, NoDup l -> K l s -> (forall i, In i l -> exists o, sm_get (p_objs s) i = Some o /\ I i o) -> exists s1, each l f s = (s1, Ret tt) /\ K [] s1.
  Proof.
    intros F. assert (G : forall r, incl r l -> forall s, NoDup r -> K r s -> (forall i, In i r -> exists o, sm_get (p_objs s) i = Some o /\ I i o) -> exists s1, each r f s = (s1, Ret tt) /\ K [] s1); [|intros s; apply G, incl_refl].
    induction r as [|i r IH]; intros IN s ND O NA; cbn; [exists s; split; [reflexivity|exact O]|]. inversion ND as [|? ? NI ND']; subst. destruct (NA i (or_introl eq_refl)) as (o & G & II). destruct (F i r o s IN NI O G II) as (s0 & E & O0 & B).
    destruct (IH (fun j J => IN j (or_intror J)) s0 ND' O0) as (s1 & E1 & O1). { intros j J. rewrite B by (intros ->; contradiction). apply NA. right. exact J. }
    exists s1. unfold seq. rewrite E. split; [exact E1|exact O1].
  Qed.
  Lemma each_open (D : list string -> Prop) (I : string -> P -> Prop) (f : string -> M unit) l : (forall i o s, In i l -> open_to D s -> sm_get (p_objs s) i = Some o -> I i o -> exists s1, f i s = (s1, Ret tt) /\ open_to D s1 /\ forall j, j <> i -> sm_get (p_objs s1) j = sm_get (p_objs s) j) ->
    forall s, NoDup l -> open_to D s -> (forall i, In i l -> exists o, sm_get (p_objs s) i = Some o /\ I i o) -> exists s1, each l f s = (s1, Ret tt) /\ open_to D s1.
  Proof. intros F. apply (each_inv (fun _ => open_to D) I). intros i r o s IN _. apply F, IN. left. reflexivity. Qed.
  (** Parts of the reply that are the same have the same room. *)
  Lemma way_same n q r r1 : (forall p, params_of r1 = Some p -> object p) -> (forall t, at_param r1 (n :: t) = at_param r (n :: t)) -> way ("params" :: n :: q) (JObj (g_doc r)) -> way ("params" :: n :: q) (JObj (g_doc r1)).
  Proof.
    intros OB E W p t y EQ N L. destruct p as [|k p]; [injection L as <-; eexists; reflexivity|]. injection EQ as <- EQ. destruct p as [|k p]; [cbn in L; apply OB; unfold params_of; destruct (find_member "params" (g_doc r1)); [exact L|discriminate]|].
    injection EQ as <- EQ. apply (W ("params" :: n :: p) t y); [cbn; congruence|exact N|]. rewrite <- L. symmetry. apply (E p).
  Qed.
  Lemma way_object n q r : way ("params" :: n :: q) (JObj (g_doc r)) -> forall p, params_of r = Some p -> object p.
  Proof. intros W p E. apply (W ["params"] (n :: q) p eq_refl); [discriminate|]. cbn. unfold params_of in E. rewrite E. reflexivity. Qed.
  Lemma kept_at i r r1 : (forall q x, q <> [] -> hd "" q <> i -> (holds r1 q x <-> holds r q x)) -> forall n q, n <> i -> at_param r1 (n :: q) = at_param r (n :: q).
  Proof.
    intros K n q N. destruct (at_param r1 (n :: q)) as [x|] eqn:A.
    - apply holds_param, K, holds_param in A; [congruence|discriminate|exact N].
    - destruct (at_param r (n :: q)) as [x|] eqn:B; [|reflexivity]. apply holds_param, K, holds_param in B; [congruence|discriminate|exact N].
  Qed.
  Lemma ready_here i (s : st) : (forall p, params_of (p_reply s) = Some p -> object p) -> here s [i] = None -> ready i (p_reply s).
  Proof. intros A B. split; [exact A|]. intros x H. apply holds_param in H. unfold here in B. congruence. Qed.
  Lemma ready_way i r d : ready i r -> way ("params" :: i :: d) (JObj (g_doc r)).
  Proof.
    intros (A & B) p t y EQ N L. destruct p as [|k p]; [injection L as <-; eexists; reflexivity|]. injection EQ as <- EQ. destruct p as [|k p]; [cbn in L; apply A; unfold params_of; destruct (find_member "params" (g_doc r)); [exact L|discriminate]|].
    injection EQ as <- EQ. exfalso. change (at_param r ([i] ++ p) = Some y) in L. destruct (at_param r [i]) as [x|] eqn:X; [apply holds_param in X; apply (B x X)|]. unfold at_param in *. cbn in L, X. destruct (find_member "params" (g_doc r)) as [[]|]; try discriminate. destruct (find_member i l); discriminate.
  Qed.
  Lemma loose_by (D : list string -> Prop) n : (forall d, D d -> List.length d = n) -> loose D.
  Proof. intros H c d r A B N E. apply H in A. apply H in B. rewrite E, app_length in B. destruct r; [congruence|]. cbn in B. lia. Qed.

  Lemma call_ret i f o (s : st) : sm_get (p_objs s) i = Some o -> snd (f o (p_reply s)) = Ret tt -> call i f s = (w_reply (snd (fst (f o (p_reply s)))) (w_objs (sm_put (p_objs s) i (fst (fst (f o (p_reply s))))) s), Ret tt).
  Proof. intros G R. unfold call. rewrite G. destruct (f o (p_reply s)) as ((o' & r) & x). cbn in *. subst x. reflexivity. Qed.
  Lemma configuration_live s : (forall d, d <> [] -> way ("params" :: d) (JObj (g_doc (p_reply s)))) -> (forall q, q <> [] -> here s q = None) -> sm_ok (p_objs s) -> (forall i, In i (map fst (p_objs s)) -> ~ In i ["ctrl_endpoint"; "meta_endpoint"; "fr_setup"]) -> (forall i o, sm_get (p_objs s) i = Some o -> willing i (v_request v) o) -> exists s1, request_configuration v s = (s1, Ret tt).
  Proof.
    intros W EM OK NA R. set (D := fun d => d = ["ctrl_endpoint"] \/ d = ["meta_endpoint"] \/ d = ["fr_setup"; "fr_ready_cnxn"] \/ d = ["fr_setup"; "fr_release_cnxn"]).
    assert (LO : loose D). { intros c d r A B N E. assert (r = []); [|congruence]. unfold D in A, B. destruct r as [|x r]; [reflexivity|]. exfalso. repeat destruct A as [->|A]; try subst c; repeat destruct B as [->|B]; try subst d; try discriminate. }
    assert (O : open_to D s) by (intros d Dd; apply W; unfold D in Dd; intros ->; intuition discriminate).
    set (l := [(["ctrl_endpoint"], XStr (p_ctrl s)); (["meta_endpoint"], XStr (p_meta s)); (["fr_setup"; "fr_ready_cnxn"], XStr (snd (k_ends (p_graph s)))); (["fr_setup"; "fr_release_cnxn"], XStr (fst (k_ends (p_graph s))))]).
    assert (GP : Forall (fun p => good_path (fst p)) l) by (repeat (apply Forall_cons; [apply path_check_ok; vm_compute; reflexivity|]); apply Forall_nil).
    destruct (puts_open D l s LO) as (s0 & E & O0 & B); [|exact O|].
    { repeat (apply Forall_cons; [split; [apply path_check_ok; vm_compute; reflexivity|unfold D; cbn; tauto]|]). apply Forall_nil. }
    assert (F0 : forall j, In j (map fst (p_objs s)) -> here s0 [j] = None).
    { intros j J. destruct (puts_set l s s0 GP) as (_ & _ & F); [|exact E|].
      - repeat (apply FOP_cons; [repeat (apply Forall_cons; [cbn [fst]; first [apply apart_head; discriminate | apply apart_cons, apart_head; discriminate]|]); apply Forall_nil|]); apply FOP_nil.
      - rewrite F; [apply EM; discriminate|]. intros c x I. assert (X : In (hd "" c) ["ctrl_endpoint"; "meta_endpoint"; "fr_setup"] /\ c = hd "" c :: tl c) by (cbn in I; repeat destruct I as [I|I]; try (injection I as <- _; cbn; tauto); destruct I). destruct X as (X & ->). apply apart_head. intros Q. rewrite Q in X. apply (NA j J X). }
    destruct (each_inv (fun r s => (forall p, params_of (p_reply s) = Some p -> object p) /\ forall j, In j r -> here s [j] = None) (fun i o => willing i (v_request v) o) (fun i => call i (v_request v)) (map fst (p_objs s0))) with (s := s0) as (s1 & E1 & _).
    - intros i r o s2 IN NI (OB & EP) G Q. destruct (Q (p_reply s2) (ready_here i s2 OB (EP i (or_introl eq_refl)))) as (RT & KP & OB1). rewrite (call_ret i _ o s2 G RT). eexists. split; [reflexivity|]. split; [split; [exact OB1|]|].
      + intros j J. unfold here. cbn [p_reply w_reply]. rewrite (kept_at i (p_reply s2)); [apply (EP j (or_intror J))|exact KP|]. intros ->. contradiction.
      + intros j J. cbn. rewrite sm_get_put. apply String.eqb_neq in J. rewrite J. reflexivity.
    - rewrite B. apply sm_nodup, OK.
    - split; [apply (way_object "ctrl_endpoint" []), O0; unfold D; tauto|]. rewrite B. exact F0.
    - rewrite B. intros i I. destruct (in_keys _ _ OK I) as (o & G). eauto.
    - exists s1. unfold request_configuration, seq, get. change (puts (sets l) s) with (puts [("ctrl_endpoint", XStr (p_ctrl s)); ("meta_endpoint", XStr (p_meta s)); ("fr_setup/fr_ready_cnxn", XStr (snd (k_ends (p_graph s)))); ("fr_setup/fr_release_cnxn", XStr (fst (k_ends (p_graph s))))] s) in E. rewrite E. exact E1.
  Qed.
  Lemma commands_live s : (forall d, d <> [] -> way ("params" :: d) (JObj (g_doc (p_reply s)))) -> sm_ok (p_objs s) -> (forall i, In i (map fst (p_objs s)) -> nice i) -> exists s1, request_commands v s = (s1, Ret tt).
  Proof.
    intros W OK NA. set (D := fun d => exists i, d = [i; "command"]). assert (LO : loose D) by (apply (loose_by D 2); intros d (i & ->); reflexivity).
    destruct (each_open D (fun _ _ => True) (fun i => l <- ask i [] (v_commands v) ;; puts (map (fun c => ((i ++ "/command[]")%string, XStr c)) l)) (map fst (p_objs s))) with (s := s) as (s1 & E1 & _).
    - intros i o s2 I O G _. rewrite (ask_ret _ _ _ _ _ _ G). destruct (pushes_open D [i] "command" (v_commands v o) LO) with (s := s2) as (s3 & E & O3 & B); [apply nice_path; [apply NA, I|apply path_check_ok; reflexivity]|apply not_array, NA, I|exists i; reflexivity|exact O|]. exists s3. split; [exact E|]. split; [exact O3|]. intros j _. rewrite B. reflexivity.
    - apply sm_nodup, OK.
    - intros d (i & ->). apply W. discriminate.
    - intros i I. destruct (in_keys _ _ OK I) as (o & G). eauto.
    - exists s1. exact E1.
  Qed.
  Lemma version_live s : (forall d, d <> [] -> way ("params" :: d) (JObj (g_doc (p_reply s)))) -> sm_ok (p_objs s) -> (forall i, In i (map fst (p_objs s)) -> nice i) -> exists s1, provide_version v s = (s1, Ret tt).
  Proof.
    intros W OK NA. set (D := fun d => exists i k, d = ["version"; i; k]). assert (LO : loose D) by (apply (loose_by D 3); intros d (i & k & ->); reflexivity).
    assert (ONE : forall n a b c x y (s : st), nice n -> open_to D s -> exists s1, puts (version_texts n a b c x y) s = (s1, Ret tt) /\ open_to D s1 /\ p_objs s1 = p_objs s).
    { intros n a b c x y s2 N O. apply (puts_open D [(["version"; n; "major"], XInt a); (["version"; n; "minor"], XInt b); (["version"; n; "patch"], XInt c); (["version"; n; "short"], XStr x); (["version"; n; "full"], XStr y)] s2 LO); [|exact O].
      repeat (apply Forall_cons; [split; [apply nice_path2; [apply nice_check; reflexivity|exact N|apply nice_check; reflexivity]|eexists; eexists; reflexivity]|]); apply Forall_nil. }
    assert (O : open_to D s) by (intros d (i & k & ->); apply W; discriminate). destruct (ONE "odin-data" (v_major v) (v_minor v) (v_patch v) (v_short v) (v_full v) s ltac:(apply nice_check; reflexivity) O) as (s0 & E & O0 & B).
    destruct (each_open D (fun _ _ => True) (fun i => x <- ask i (0, 0, 0, "", "")%Z (v_vers v) ;; let '(a, b, c, s, f) := x in puts (version_texts i a b c s f)) (map fst (p_objs s0))) with (s := s0) as (s1 & E1 & _).
    - intros i o s2 I O2 G _. rewrite (ask_ret _ _ _ _ _ _ G). destruct (v_vers v o) as ((((a & b) & c) & x) & y). destruct (ONE i a b c x y s2) as (s3 & E3 & O3 & B3); [apply NA; rewrite <- B; exact I|exact O2|]. exists s3. split; [exact E3|]. split; [exact O3|]. intros j _. rewrite B3. reflexivity.
    - rewrite B. apply sm_nodup, OK.
    - exact O0.
    - rewrite B. intros i I. destruct (in_keys _ _ OK I) as (o & G). eauto.
    - exists s1. unfold provide_version. unfold seq at 1. rewrite E. exact E1.
  Qed.
  Lemma statuses_some l : forall es ws s s1, each l (status_of v) s = (s1, Ret tt) -> exists x, statuses v l es ws s = (s1, Ret x).
  Proof.
    induction l as [|i l IH]; intros es ws s s1 H; cbn [statuses each] in *; [injection H as <-; eexists; reflexivity|]. apply seq_ret in H as ([] & s0 & H & H1). unfold status_of in H. apply seq_ret in H as ([] & s2 & H2 & H). apply seq_ret in H as ([] & s3 & H3 & H). unfold seq at 1. rewrite H2. unfold seq at 1. rewrite H3. unfold seq at 1, ask at 1, get at 1. unfold seq at 1, ask at 1, get at 1 in H.
    destruct (match sm_get (p_objs s3) i with Some o => v_perf v o | None => (0, 0, 0)%Z end) as ((a & b) & c). unfold seq at 1. rewrite H. unfold seq, ask, get. apply IH, H1.
  Qed.
  Lemma status_live s : (forall d, d <> [] -> way ("params" :: d) (JObj (g_doc (p_reply s)))) -> (forall q, q <> [] -> here s q = None) -> sm_ok (p_objs s) -> (forall i, In i (map fst (p_objs s)) -> nice i /\ ~ In i ["plugins"; "error"; "warning"; "shared_memory"]) -> (forall i o, sm_get (p_objs s) i = Some o -> obliging i (v_status v) o) -> exists s1, provide_status v s = (s1, Ret tt).
  Proof.
    intros W EM OK NA OB. set (D := fun d => d = ["plugins"; "names"] \/ d = ["error"] \/ d = ["warning"] \/ d = ["shared_memory"; "configured"]).
    assert (HD : forall d, D d -> exists n q, d = n :: q /\ In n ["plugins"; "error"; "warning"; "shared_memory"]) by (intros d [->|[->|[->| ->]]]; eexists; eexists; (split; [reflexivity|cbn; tauto])).
    set (T := fun i d => D d \/ exists k, d = [i; "timing"; k]).
    assert (LO : loose D). { intros c d r A B N E. destruct r as [|x r]; [congruence|]. unfold D in A, B. destruct A as [->|[->|[->| ->]]]; destruct B as [->|[->|[->| ->]]]; discriminate. }
    assert (LT : forall i, In i (map fst (p_objs s)) -> loose (T i)).
    { intros i I c d r [A|(k & ->)] [B|(k' & ->)] N E.
      - apply (LO c d r A B N E).
      - destruct (HD c A) as (n & q & -> & J). cbn in E. injection E as <- _. apply NA in I as (_ & I). contradiction.
      - destruct (HD d B) as (n & q & -> & J). cbn in E. injection E as -> _. apply NA in I as (_ & I). contradiction.
      - cbn in E. injection E as _ E. destruct r; [congruence|discriminate]. }
    assert (O : open_to D s). { intros d Dd. apply W. destruct (HD d Dd) as (n & q & -> & _). discriminate. }
    assert (S0 : exists s0, (match k_shm (p_graph s) with Some _ => put "shared_memory/configured" (XBool (v_shm_ok v)) | None => ret tt end) s = (s0, Ret tt) /\ open_to D s0 /\ p_objs s0 = p_objs s /\ forall j, In j (map fst (p_objs s)) -> here s0 [j] = None).
    { destruct (k_shm (p_graph s)) as [ends|]; [|exists s; split; [reflexivity|]; split; [exact O|]; split; [reflexivity|]; intros j _; apply EM; discriminate].
      destruct (put_open D ["shared_memory"; "configured"] (XBool (v_shm_ok v)) s LO) as (s0 & E & O0 & B); [apply path_check_ok; reflexivity|unfold D; tauto|exact O|]. exists s0. split; [exact E|]. split; [exact O0|]. split; [exact B|].
      intros j J. apply (put_set ["shared_memory"; "configured"]) in E as (_ & _ & F); [|apply path_check_ok; reflexivity]. rewrite F; [apply EM; discriminate|]. apply apart_head. intros <-. apply NA in J as (_ & J). apply J. cbn. tauto. }
    destruct S0 as (s0 & E0 & O0 & B0 & P0).
    destruct (each_inv (fun r s => open_to D s /\ forall j, In j r -> here s [j] = None) (fun i o => obliging i (v_status v) o) (status_of v) (map fst (p_objs s))) with (s := s0) as (s1 & E1 & O1 & _).
    - intros i r o s2 IN NIR (O2 & EP) G Q. assert (I : In i (map fst (p_objs s))) by (apply IN; left; reflexivity). destruct (NA i I) as (NI & NR). assert (OT := fun s3 => status_others v i s2 s3).
      destruct (push_open D ["plugins"] "names" (XStr i) s2 LO) as (s3 & E3 & O3 & B3); [apply path_check_ok; reflexivity|intros [X|[]]; discriminate|unfold D; tauto|exact O2|]. change (put "plugins/names[]" (XStr i) s2 = (s3, Ret tt)) in E3.
      assert (P3 : forall j, In j (i :: r) -> here s3 [j] = None).
      { intros j J. pose proof E3 as E3'. apply (put_push ["plugins"] "names") in E3' as (_ & _ & F); [|apply path_check_ok; reflexivity|intros [X|[]]; discriminate]. rewrite F; [apply EP, J|]. apply apart_head. intros <-. apply IN, NA in J as (_ & J). apply J. cbn. tauto. }
      rewrite <- B3 in G. assert (RD : ready i (p_reply s3)) by (apply ready_here; [apply (way_object "error" []), O3; unfold D; tauto|apply P3; left; reflexivity]). destruct Q as (QW & QT). destruct (QW _ RD) as (RT & KP & OB4). pose proof (call_ret i (v_status v) o s3 G RT) as E4. set (s4 := w_reply _ _) in E4. assert (G4 : sm_get (p_objs s4) i = Some (fst (fst (v_status v o (p_reply s3))))) by (unfold s4; cbn; rewrite sm_get_put, String.eqb_refl; reflexivity).
      assert (H4 : forall n q, n <> i -> here s4 (n :: q) = here s3 (n :: q)) by (intros n q N; apply (kept_at i _ _ KP n q N)).
      assert (O4 : open_to (T i) s4).
      { intros d [Dd|(k & ->)].
        - pose proof (O3 d Dd) as Wd. destruct (HD d Dd) as (n & q & -> & J). apply (way_same n q (p_reply s3)); [exact OB4|intros t; apply H4; intros ->; contradiction|exact Wd].
        - apply way_clear. apply (QT (p_reply s3) k RD). }
      destruct (v_perf v (fst (fst (v_status v o (p_reply s3))))) as ((a & b) & c) eqn:VP.
      set (l := [([i; "timing"; "last_process"], XUint64 a); ([i; "timing"; "max_process"], XUint64 b); ([i; "timing"; "mean_process"], XDouble c)]).
      assert (GP : forall k, path_check ["timing"; k] = true -> good_path [i; "timing"; k]) by (intros k K; apply nice_path; [exact NI|apply path_check_ok, K]).
      destruct (puts_open (T i) l s4 (LT i I)) as (s5 & E5 & O5 & B5); [|exact O4|].
      { repeat (apply Forall_cons; [cbn [fst]; split; [apply GP; reflexivity|right; eexists; reflexivity]|]); apply Forall_nil. }
      assert (P5 : forall j, j <> i -> here s5 [j] = here s4 [j]).
      { intros j J. destruct (puts_set l s4 s5) as (_ & _ & F); [| |exact E5|].
        - repeat (apply Forall_cons; [cbn [fst]; apply GP; reflexivity|]); apply Forall_nil.
        - repeat (apply FOP_cons; [repeat (apply Forall_cons; [cbn [fst]; apply apart_cons, apart_cons, apart_head; discriminate|]); apply Forall_nil|]); apply FOP_nil.
        - apply F. intros q x X. cbn in X. repeat destruct X as [X|X]; try (injection X as <- _; apply apart_head; congruence). destruct X. }
      assert (E : status_of v i s2 = (s5, Ret tt)). { unfold status_of. unfold seq at 1. rewrite E3. unfold seq at 1. rewrite E4. rewrite (ask_ret _ _ _ _ _ _ G4), VP. exact E5. }
      exists s5. split; [exact E|]. split; [split; [intros d Dd; apply O5; left; exact Dd|]|apply OT, E]. intros j J. assert (JI : j <> i) by (intros ->; contradiction). rewrite (P5 j JI), (H4 j [] JI). apply P3. right. exact J.
    - apply sm_nodup, OK.
    - split; [exact O0|exact P0].
    - rewrite B0. intros i I. destruct (in_keys _ _ OK I) as (o & G). eauto.
    - destruct (statuses_some _ [] [] _ _ E1) as ((es & ws) & E2).
      destruct (pushes_open D [] "error" es LO) with (s := s1) as (s2 & E3 & O3 & B3); [apply path_check_ok; reflexivity|intros []|unfold D; tauto|exact O1|]. destruct (pushes_open D [] "warning" ws LO) with (s := s2) as (s3 & E4 & O4 & B4); [apply path_check_ok; reflexivity|intros []|unfold D; tauto|exact O3|].
      exists s3. unfold provide_status. unfold seq at 1, get at 1. unfold seq at 1. rewrite E0. unfold seq at 1, get at 1. rewrite B0. unfold seq at 1. rewrite E2. cbn [fst snd]. unfold seq at 1. change (puts (map (fun e => ("error[]", XStr e)) es) s1 = (s2, Ret tt)) in E3. rewrite E3. exact E4.
  Qed.
End Live.
