(** Proofs about wiring plugins. *)
From Verif Require Import Base StrOrder PluginModel PluginSpec PluginProofs CtrlModel CtrlSpec.
Local Open Scope string_scope.
Local Open Scope list_scope.

Lemma snoc_split {A} (h : list A) c h1 x h2 : h ++ [c] = h1 ++ x :: h2 ->
  (h2 = [] /\ c = x /\ h = h1) \/ exists h2', h2 = h2' ++ [c] /\ h = h1 ++ x :: h2'.
Proof.
  destruct h2 as [|y h2' _] using rev_ind; intros E.
  - left. apply app_inj_tail in E as (-> & ->). auto.
  - right. replace (h1 ++ x :: h2' ++ [y]) with ((h1 ++ x :: h2') ++ [y]) in E by (rewrite <- app_assoc; reflexivity).
    apply app_inj_tail in E as (-> & ->). eauto.
Qed.

Lemma loaded_snoc h c i : loaded (h ++ [c]) i <-> loaded h i \/ exists n, c = Load i n true.
Proof.
  unfold loaded. split.
  - intros (n & H). apply in_app_iff in H as [H|[->|[]]]; eauto.
  - intros [(n & H)|(n & ->)]; exists n; apply in_or_app; cbn; auto.
Qed.
Lemma receiver_snoc h c : has_receiver (h ++ [c]) <-> has_receiver h \/ exists p q, c = Setup p q.
Proof.
  unfold has_receiver. split.
  - intros (p & q & H). apply in_app_iff in H as [H|[->|[]]]; eauto.
  - intros [(p & q & H)|(p & q & ->)]; exists p, q; apply in_or_app; cbn; auto.
Qed.
Lemma edge_snoc h c a b : edge (h ++ [c]) a b <->
  (c = Connect b a /\ a <> "frame_receiver" /\ loaded h a /\ loaded h b) \/ (edge h a b /\ c <> Disconnect b a /\ c <> DisconnectAll).
Proof.
  split.
  - intros (h1 & h2 & E & F & La & Lb & D1 & D2). apply snoc_split in E as [(-> & -> & ->)|(h2' & -> & ->)]; [left; auto|right].
    rewrite in_app_iff in D1, D2. split; [exists h1, h2'; tauto|]. split; intros ->; cbn in *; tauto.
  - intros [(-> & F & La & Lb)|((h1 & h2 & -> & F & La & Lb & D1 & D2) & N1 & N2)].
    + exists h, []. cbn. auto 10.
    + exists h1, (h2 ++ [c]). rewrite <- app_assoc. split; [reflexivity|]. rewrite !in_app_iff. cbn. intuition.
Qed.
Lemma last_ends_app h1 h2 : forall now, last_ends (h1 ++ h2) now = last_ends h2 (last_ends h1 now).
Proof. induction h1 as [|c h1 IH]; intros now; [reflexivity|]. cbn. destruct c; apply IH. Qed.
Lemma last_ends_same h e : (forall p q, In (Setup p q) h -> Some (p, q) = e) -> last_ends h e = e.
Proof.
  induction h as [|c h IH]; intros H; [reflexivity|]. cbn. destruct c; try (apply IH; intros; apply H; right; assumption).
  rewrite (H pub sub) by (left; reflexivity). apply IH. intros; apply H; right; assumption.
Qed.
Lemma fr_edge_snoc h c b : fr_edge (h ++ [c]) b <->
  (c = Connect b "frame_receiver" /\ loaded h b /\ has_receiver h) \/
  (fr_edge h b /\ c <> Disconnect b "frame_receiver" /\ forall p q, c = Setup p q -> Some (p, q) = last_ends h None).
Proof.
  split.
  - intros (h1 & h2 & E & L & R & D & S). apply snoc_split in E as [(-> & -> & ->)|(h2' & -> & ->)]; [left; auto|right].
    rewrite in_app_iff in D. assert (S' : forall p q, In (Setup p q) h2' -> Some (p, q) = last_ends h1 None) by (intros; apply S, in_or_app; auto).
    split; [exists h1, h2'; tauto|]. split; [intros ->; cbn in *; tauto|]. intros p q ->.
    rewrite last_ends_app. cbn. rewrite (last_ends_same h2' (last_ends h1 None) S'). apply S, in_or_app. right. left. reflexivity.
  - intros [(-> & L & R)|((h1 & h2 & -> & L & R & D & S) & N & K)].
    + exists h, []. cbn. split; [reflexivity|]. split; [exact L|]. split; [exact R|]. split; [auto|]. intros p q [].
    + exists h1, (h2 ++ [c]). rewrite <- app_assoc. split; [reflexivity|]. split; [exact L|]. split; [exact R|].
      split; [rewrite in_app_iff; cbn; intuition|]. intros p q H. apply in_app_iff in H as [H|[H|[]]]; [apply S, H|].
      rewrite (K p q H), last_ends_app. cbn. apply last_ends_same, S.
Qed.

Lemma do_cmds_snoc h c : forall s, do_cmds (h ++ [c]) s =
  match do_cmds h s with Some s' => match do_cmd c s' with Ret s'' => Some s'' | Throw _ => Some s' | Undef => None end | None => None end.
Proof.
  induction h as [|x h IH]; intros s; [cbn; destruct (do_cmd c s); reflexivity|]. cbn. destruct (do_cmd x s); auto.
Qed.

Record wired (h : list cmd) (s : ctrl) : Prop := {
  w_ok : sm_ok (k_plugins s);
  w_loaded : forall i, sm_get (k_plugins s) i <> None <-> loaded h i;
  w_conns : forall a p, sm_get (k_plugins s) a = Some p -> conns_ok p;
  w_edge : forall a p b x, sm_get (k_plugins s) a = Some p -> b <> "controller" -> (entry p b = Some x <-> x = (false, Plugin b) /\ edge h a b);
  w_shm : k_shm s <> None <-> has_receiver h;
  w_ends : forall cbs, k_shm s = Some cbs -> last_ends h None = Some (k_ends s);
  w_cbs : forall cbs, k_shm s = Some cbs -> sm_ok cbs /\ (forall b x, sm_get cbs b = Some x <-> x = b /\ fr_edge h b) }.

Lemma put_get {A} (m : smap A) k v k' : sm_get (sm_put m k v) k' = if String.eqb k' k then Some v else sm_get m k'.
Proof. apply sm_get_put. Qed.

Lemma not_loaded_no_edge h a b : ~ loaded h a -> ~ edge h a b.
Proof.
  intros L (h1 & h2 & -> & _ & (n & H) & _). apply L. exists n. apply in_or_app. auto.
Qed.
Lemma not_loaded_no_edge2 h a b : ~ loaded h b -> ~ edge h a b.
Proof. intros L (h1 & h2 & -> & _ & _ & (n & H) & _). apply L. exists n. apply in_or_app. auto. Qed.
Lemma edge_fr h b : ~ edge h "frame_receiver" b.
Proof. intros (h1 & h2 & _ & N & _). auto. Qed.

Lemma sm_map_get {A} (f : A -> A) (m : smap A) k : sm_get (map (fun e => (fst e, f (snd e))) m) k = option_map f (sm_get m k).
Proof. induction m as [|[a b] t IH]; cbn; [reflexivity|]. destruct (String.eqb k a); auto. Qed.
Lemma sm_map_ok {A} (f : A -> A) (m : smap A) : sm_ok m -> sm_ok (map (fun e => (fst e, f (snd e))) m).
Proof. induction m as [|[a b] t IH]; cbn; [auto|]. intros (F & O). split; [|auto]. rewrite Forall_map. exact F. Qed.

Lemma wired_run h s : do_cmds h ctrl_init = Some s -> wired h s.
Proof.
  revert s. induction h as [|c h IH] using rev_ind; intros s E.
  { cbn in E. injection E as <-. constructor; cbn; try discriminate; try tauto.
    - intros i. split; [congruence|intros (n & [])].
    - split; [congruence|intros (p & q & [])]. }
  rewrite do_cmds_snoc in E. destruct (do_cmds h ctrl_init) as [s0|]; [|discriminate]. destruct (IH s0 eq_refl) as [W1 W2 W3 W4 W5 W6 W7]. clear IH.
  destruct c as [i n f|i t|i t| |p q]; cbn [do_cmd] in E.
  - (* load *)
    assert (K : s = s0 \/ (f = true /\ ~ loaded h i /\ exists p, conns_ok p /\ (forall b, b <> "controller" -> entry p b = None) /\ s = set_plugins (sm_put (k_plugins s0) i p) s0)).
    { unfold load in E. destruct (sm_get (k_plugins s0) i) eqn:G; [injection E as <-; auto|]. destruct f; [|injection E as <-; auto]. injection E as <-. right.
      split; [reflexivity|]. split; [intros L; apply W2 in L; congruence|].
      destruct (String.eqb n "FileWriterPlugin"); eexists; (split; [|split; [|reflexivity]]).
      - apply (reg_do_ok (Register "controller" Controller true) no_conns). constructor; cbn; auto.
      - intros b Hb. unfold entry. cbn. destruct (String.eqb_spec b "controller"); [congruence|reflexivity].
      - constructor; cbn; auto.
      - intros b Hb. reflexivity. }
    assert (Hl : loaded (h ++ [Load i n f]) i <-> f = true \/ loaded h i).
    { rewrite loaded_snoc. split; [intros [L|(n' & [= _ ->])]; auto|]. intros [->|L]; eauto. }
    destruct K as [->|(-> & NL & p & P1 & P2 & ->)].
    + assert (Lf : f = true -> loaded h i).
      { intros ->. unfold load in E. destruct (sm_get (k_plugins s0) i) eqn:G; [apply W2; congruence|]. injection E as E. exfalso.
        assert (X : sm_get (k_plugins s0) i <> None); [|congruence]. rewrite <- E at 1. cbn. rewrite sm_get_put, String.eqb_refl. discriminate. }
      assert (Le : forall j, loaded (h ++ [Load i n f]) j <-> loaded h j).
      { intros j. rewrite loaded_snoc. split; [intros [L|(n' & [= -> _ ->])]; auto|auto]. }
      constructor; auto.
      * intros j. rewrite Le. apply W2.
      * intros a p b x G Hb. rewrite (W4 a p b x G Hb), edge_snoc. split; intros (X & Y); (split; [exact X|]); [right; repeat split; auto; discriminate|].
        destruct Y as [(Y & _)|(Y & _)]; [discriminate|exact Y].
      * rewrite receiver_snoc. rewrite W5. split; [auto|]. intros [R|(p & q & R)]; [exact R|discriminate].
      * intros cbs G. rewrite last_ends_app. cbn. eapply W6, G.
      * intros cbs G. destruct (W7 cbs G) as (O & F). split; [exact O|]. intros b x. rewrite F, fr_edge_snoc.
        split; intros (X & Y); (split; [exact X|]); [right; repeat split; auto; discriminate|]. destruct Y as [(Y & _)|(Y & _)]; [discriminate|exact Y].
    + constructor; cbn.
      * apply sm_put_ok, W1.
      * intros j. rewrite sm_get_put, loaded_snoc. destruct (String.eqb_spec j i) as [->|Hj]; [split; [eauto|discriminate]|].
        rewrite W2. split; [auto|]. intros [L|(n' & [= -> _])]; [exact L|congruence].
      * intros a p'. rewrite sm_get_put. destruct (String.eqb_spec a i) as [->|Ha]; [intros [= <-]; exact P1|apply W3].
      * intros a p' b x. rewrite sm_get_put. destruct (String.eqb_spec a i) as [->|Ha].
        -- intros [= <-] Hb. rewrite (P2 b Hb). split; [discriminate|]. intros (_ & X). apply edge_snoc in X as [(X & _)|(X & _)]; [discriminate|].
           destruct (not_loaded_no_edge h i b NL X).
        -- intros G Hb. rewrite (W4 a p' b x G Hb), edge_snoc. split; intros (X & Y); (split; [exact X|]); [right; repeat split; auto; discriminate|].
           destruct Y as [(Y & _)|(Y & _)]; [discriminate|exact Y].
      * rewrite receiver_snoc, W5. split; [auto|]. intros [R|(p' & q & R)]; [exact R|discriminate].
      * intros cbs G. rewrite last_ends_app. cbn. eapply W6, G.
      * intros cbs G. destruct (W7 cbs G) as (O & F). split; [exact O|]. intros b x. rewrite F, fr_edge_snoc.
        split; intros (X & Y); (split; [exact X|]); [right; repeat split; auto; discriminate|]. destruct Y as [(Y & _)|(Y & _)]; [discriminate|exact Y].
  - (* connect *)
    assert (Le : forall j, loaded (h ++ [Connect i t]) j <-> loaded h j).
    { intros j. rewrite loaded_snoc. split; [intros [L|(n' & X)]; [auto|discriminate]|auto]. }
    assert (Re : has_receiver (h ++ [Connect i t]) <-> has_receiver h).
    { rewrite receiver_snoc. split; [intros [R|(p & q & R)]; [auto|discriminate]|auto]. }
    assert (Ee : forall a b, (a = t /\ b = i /\ a <> "frame_receiver" /\ loaded h t /\ loaded h i) \/ edge h a b <-> edge (h ++ [Connect i t]) a b).
    { intros a b. rewrite edge_snoc. split; [intros [(-> & -> & X)|X]; [left; tauto|right; repeat split; auto; discriminate]|].
      intros [([= -> ->] & X)|(X & _)]; [left; tauto|right; exact X]. }
    assert (Fe : forall b, (b = i /\ t = "frame_receiver" /\ loaded h i /\ has_receiver h) \/ fr_edge h b <-> fr_edge (h ++ [Connect i t]) b).
    { intros b. rewrite fr_edge_snoc. split; [intros [(-> & -> & X)|X]; [left; tauto|right; repeat split; auto; discriminate]|].
      intros [([= -> ->] & X)|(X & _)]; [left; tauto|right; exact X]. }
    assert (En : forall cbs, k_shm s0 = Some cbs -> last_ends (h ++ [Connect i t]) None = Some (k_ends s0)).
    { intros cbs G. rewrite last_ends_app. cbn. eapply W6, G. }
    unfold connect in E. destruct (sm_get (k_plugins s0) i) as [pi|] eqn:Gi.
    2: { injection E as <-. assert (NL : ~ loaded h i) by (rewrite <- W2; congruence). constructor; auto.
      - intros j. rewrite Le. apply W2.
      - intros a p b x G Hb. rewrite (W4 a p b x G Hb), <- Ee. tauto.
      - rewrite Re. exact W5.
      - intros cbs G. destruct (W7 cbs G) as (O & F). split; [exact O|]. intros b x. rewrite F, <- Fe. tauto. }
    assert (Li : loaded h i) by (apply W2; congruence).
    destruct (String.eqb_spec t "frame_receiver") as [->|Ht].
    + destruct (k_shm s0) as [cbs0|] eqn:Gs; [|].
      2: { injection E as <-. assert (NR : ~ has_receiver h) by (rewrite <- W5; congruence). constructor; auto.
        - intros j. rewrite Le. apply W2.
        - intros a p b x G Hb. rewrite (W4 a p b x G Hb), <- Ee. intuition.
        - rewrite Re, <- W5, Gs. reflexivity.
        - intros cbs G. congruence.
        - intros cbs G. congruence. }
      assert (HR : has_receiver h) by (apply W5; congruence). destruct (W7 cbs0 eq_refl) as (O & F).
      assert (Ks : exists cbs1, s = set_shm (Some cbs1) s0 /\ sm_ok cbs1 /\ forall b x, sm_get cbs1 b = Some x <-> x = b /\ (b = i \/ fr_edge h b)).
      { destruct (sm_get cbs0 i) as [y|] eqn:Gc; injection E as <-; eexists; (split; [reflexivity|]).
        - apply F in Gc as (_ & Gc). split; [exact O|]. intros b x. rewrite F. split; [tauto|]. intros (X & [->|Y]); auto.
        - split; [apply sm_put_ok, O|]. intros b x. rewrite sm_get_put. destruct (String.eqb_spec b i) as [->|Hb]; [split; [intros [= <-]; auto|intros (-> & _); reflexivity]|].
          rewrite F. tauto. }
      destruct Ks as (cbs1 & -> & O1 & F1). constructor; cbn; auto.
      * intros j. rewrite Le. apply W2.
      * intros a p b x G Hb. rewrite (W4 a p b x G Hb), <- Ee. intuition.
      * rewrite Re. split; [auto|discriminate].
      * intros cbs [= <-]. eapply En. reflexivity.
      * intros cbs [= <-]. split; [exact O1|]. intros b x. rewrite F1, <- Fe. tauto.
    + assert (K : (sm_get (k_plugins s0) t = None /\ s = s0) \/ exists p, sm_get (k_plugins s0) t = Some p /\ s = set_plugins (sm_put (k_plugins s0) t (register i (Plugin i) false p)) s0).
      { destruct (sm_get (k_plugins s0) t) as [p|]; injection E as <-; eauto. }
      destruct K as [(Gt & ->)|(p & Gt & ->)].
      * assert (NL : ~ loaded h t) by (rewrite <- W2; congruence). constructor; auto.
        -- intros j. rewrite Le. apply W2.
        -- intros a p b x G Hb. rewrite (W4 a p b x G Hb), <- Ee. tauto.
        -- rewrite Re. exact W5.
        -- intros cbs G. destruct (W7 cbs G) as (O & F). split; [exact O|]. intros b x. rewrite F, <- Fe. tauto.
      * assert (Lt : loaded h t) by (apply W2; congruence).
        pose proof (reg_do_ok (Register i (Plugin i) false) p (W3 t p Gt)) as P1.
        pose proof (fun b => reg_do_entry (Register i (Plugin i) false) p b (W3 t p Gt)) as P2. cbn [reg_do] in P1, P2.
        revert P1 P2. generalize (register i (Plugin i) false p). intros p1 P1 P2. constructor; cbn; auto.
        -- apply sm_put_ok, W1.
        -- intros j. rewrite sm_get_put, Le. destruct (String.eqb_spec j t) as [->|Hj]; [split; [auto|discriminate]|apply W2].
        -- intros a p'. rewrite sm_get_put. destruct (String.eqb_spec a t) as [->|Ha]; [|apply W3].
           intros [= <-]. exact P1.
        -- intros a p' b x. rewrite sm_get_put. destruct (String.eqb_spec a t) as [->|Ha].
           ++ intros [= <-] Hb. rewrite <- Ee, P2. cbn.
              destruct (String.eqb_spec i b) as [->|Hib].
              ** destruct (entry p b) as [y|] eqn:Y.
                 --- apply (W4 t p b y Gt Hb) in Y as (-> & Y). split; [intros [= <-]; auto|intros (-> & _); reflexivity].
                 --- split; [intros [= <-]; tauto|intros (-> & _); reflexivity].
              ** rewrite (W4 t p b x Gt Hb). intuition congruence.
           ++ intros G Hb. rewrite (W4 a p' b x G Hb), <- Ee. intuition congruence.
        -- rewrite Re. exact W5.
        -- intros cbs G. destruct (W7 cbs G) as (O & F). split; [exact O|]. intros b x. rewrite F, <- Fe. tauto.
  - (* disconnect *)
    assert (Le : forall j, loaded (h ++ [Disconnect i t]) j <-> loaded h j).
    { intros j. rewrite loaded_snoc. split; [intros [L|(n' & X)]; [auto|discriminate]|auto]. }
    assert (Re : has_receiver (h ++ [Disconnect i t]) <-> has_receiver h).
    { rewrite receiver_snoc. split; [intros [R|(p & q & R)]; [auto|discriminate]|auto]. }
    assert (Ee : forall a b, edge h a b /\ ~ (a = t /\ b = i) <-> edge (h ++ [Disconnect i t]) a b).
    { intros a b. rewrite edge_snoc. split.
      - intros (X & Y). right. split; [exact X|]. split; [intros [= -> ->]; auto|discriminate].
      - intros [(X & _)|(X & Y & _)]; [discriminate|]. split; [exact X|]. intros (-> & ->). auto. }
    assert (Fe : forall b, fr_edge h b /\ ~ (t = "frame_receiver" /\ b = i) <-> fr_edge (h ++ [Disconnect i t]) b).
    { intros b. rewrite fr_edge_snoc. split.
      - intros (X & Y). right. split; [exact X|]. split; [intros [= -> ->]; auto|discriminate].
      - intros [(X & _)|(X & Y & _)]; [discriminate|]. split; [exact X|]. intros (-> & ->). auto. }
    assert (En : forall cbs, k_shm s0 = Some cbs -> last_ends (h ++ [Disconnect i t]) None = Some (k_ends s0)).
    { intros cbs G. rewrite last_ends_app. cbn. eapply W6, G. }
    unfold disconnect in E. destruct (sm_get (k_plugins s0) i) as [pi|] eqn:Gi.
    2: { injection E as <-. assert (NL : ~ loaded h i) by (rewrite <- W2; congruence). constructor; auto.
      - intros j. rewrite Le. apply W2.
      - intros a p b x G Hb. rewrite (W4 a p b x G Hb), <- Ee. split; [|tauto]. intros (X & Y). split; [exact X|]. split; [exact Y|].
        intros (_ & ->). exact (not_loaded_no_edge2 h a i NL Y).
      - rewrite Re. exact W5.
      - intros cbs G. destruct (W7 cbs G) as (O & F). split; [exact O|]. intros b x. rewrite F, <- Fe. split; [|tauto]. intros (X & Y). split; [exact X|].
        split; [exact Y|]. intros (_ & ->). destruct Y as (h1 & h2 & -> & (n & L) & _). apply NL. exists n. apply in_or_app. auto. }
    destruct (String.eqb_spec t "frame_receiver") as [->|Ht].
    + destruct (k_shm s0) as [cbs0|] eqn:Gs; [|discriminate].
      destruct (W7 cbs0 eq_refl) as (O & F).
      assert (Ks : exists cbs1, s = set_shm (Some cbs1) s0 /\ sm_ok cbs1 /\ forall b x, sm_get cbs1 b = Some x <-> x = b /\ b <> i /\ fr_edge h b).
      { destruct (sm_get cbs0 i) as [y|] eqn:Gc; injection E as <-; eexists; (split; [reflexivity|]).
        - split; [apply sm_del_ok, O|]. intros b x. rewrite sm_get_del by exact O. destruct (String.eqb_spec b i) as [->|Hb]; [split; [discriminate|tauto]|].
          rewrite F. tauto.
        - split; [exact O|]. intros b x. rewrite F. split; [|tauto]. intros (X & Y). split; [exact X|]. split; [|exact Y]. intros ->.
          assert (sm_get cbs0 i = Some i) by (apply F; auto). congruence. }
      destruct Ks as (cbs1 & -> & O1 & F1). constructor; cbn; auto.
      * intros j. rewrite Le. apply W2.
      * intros a p b x G Hb. rewrite (W4 a p b x G Hb), <- Ee. split; [|tauto]. intros (X & Y). split; [exact X|]. split; [exact Y|]. intros (-> & _). exact (edge_fr h b Y).
      * rewrite Re. rewrite <- W5. split; discriminate.
      * intros cbs [= <-]. eapply En. reflexivity.
      * intros cbs [= <-]. split; [exact O1|]. intros b x. rewrite F1, <- Fe. tauto.
    + assert (K : (sm_get (k_plugins s0) t = None /\ s = s0) \/ exists p, sm_get (k_plugins s0) t = Some p /\ s = set_plugins (sm_put (k_plugins s0) t (remove i p)) s0).
      { destruct (sm_get (k_plugins s0) t) as [p|]; injection E as <-; eauto. }
      destruct K as [(Gt & ->)|(p & Gt & ->)].
      * assert (NL : ~ loaded h t) by (rewrite <- W2; congruence). constructor; auto.
        -- intros j. rewrite Le. apply W2.
        -- intros a p b x G Hb. rewrite (W4 a p b x G Hb), <- Ee. split; [|tauto]. intros (X & Y). split; [exact X|]. split; [exact Y|].
           intros (-> & _). exact (not_loaded_no_edge h t b NL Y).
        -- rewrite Re. exact W5.
        -- intros cbs G. destruct (W7 cbs G) as (O & F). split; [exact O|]. intros b x. rewrite F, <- Fe. tauto.
      * pose proof (reg_do_ok (Remove i) p (W3 t p Gt)) as P1.
        pose proof (fun b => reg_do_entry (Remove i) p b (W3 t p Gt)) as P2. cbn [reg_do] in P1, P2.
        revert P1 P2. generalize (remove i p). intros p1 P1 P2. constructor; cbn; auto.
        -- apply sm_put_ok, W1.
        -- intros j. rewrite sm_get_put, Le. destruct (String.eqb_spec j t) as [->|Hj]; [split; [intros _; apply W2; congruence|discriminate]|apply W2].
        -- intros a p'. rewrite sm_get_put. destruct (String.eqb_spec a t) as [->|Ha]; [|apply W3].
           intros [= <-]. exact P1.
        -- intros a p' b x. rewrite sm_get_put. destruct (String.eqb_spec a t) as [->|Ha].
           ++ intros [= <-] Hb. rewrite <- Ee, P2. cbn.
              destruct (String.eqb_spec i b) as [->|Hib]; [split; [discriminate|tauto]|].
              rewrite (W4 t p b x Gt Hb). intuition congruence.
           ++ intros G Hb. rewrite (W4 a p' b x G Hb), <- Ee. intuition congruence.
        -- rewrite Re. exact W5.
        -- intros cbs G. destruct (W7 cbs G) as (O & F). split; [exact O|]. intros b x. rewrite F, <- Fe. tauto.
  - (* disconnect all *)
    injection E as <-. unfold disconnect_all. constructor; cbn; auto.
    + apply sm_map_ok, W1.
    + intros j. rewrite sm_map_get, loaded_snoc. rewrite <- W2. destruct (sm_get (k_plugins s0) j); cbn; [split; [left; discriminate|discriminate]|].
      split; [congruence|]. intros [X|(n & X)]; [congruence|discriminate].
    + intros a p G. rewrite sm_map_get in G. destruct (sm_get (k_plugins s0) a); [|discriminate]. injection G as <-. constructor; cbn; auto.
    + intros a p b x G Hb. rewrite sm_map_get in G. destruct (sm_get (k_plugins s0) a); [|discriminate]. injection G as <-. cbn.
      split; [discriminate|]. intros (_ & X). apply edge_snoc in X as [(X & _)|(_ & _ & X)]; [discriminate|congruence].
    + rewrite receiver_snoc, W5. split; [auto|]. intros [R|(p & q & R)]; [exact R|discriminate].
    + intros cbs G. rewrite last_ends_app. cbn. eapply W6, G.
    + intros cbs G. destruct (W7 cbs G) as (O & F). split; [exact O|]. intros b x. rewrite F, fr_edge_snoc.
      split; intros (X & Y); (split; [exact X|]); [right; repeat split; auto; discriminate|]. destruct Y as [(Y & _)|(Y & _)]; [discriminate|exact Y].
  - (* setup *)
    injection E as <-.
    assert (Le : forall j, loaded (h ++ [Setup p q]) j <-> loaded h j).
    { intros j. rewrite loaded_snoc. split; [intros [L|(n' & X)]; [auto|discriminate]|auto]. }
    assert (Ee : forall a b, edge (h ++ [Setup p q]) a b <-> edge h a b).
    { intros a b. rewrite edge_snoc. split; [intros [(X & _)|(X & _)]; [discriminate|exact X]|]. intros X. right. repeat split; auto; discriminate. }
    assert (Fe : forall b, fr_edge (h ++ [Setup p q]) b <-> fr_edge h b /\ Some (p, q) = last_ends h None).
    { intros b. rewrite fr_edge_snoc. split.
      - intros [(X & _)|(X & _ & Y)]; [discriminate|auto].
      - intros (X & Y). right. split; [exact X|]. split; [discriminate|]. intros p' q' [= <- <-]. exact Y. }
    assert (Pl : k_plugins (setup p q s0) = k_plugins s0) by (unfold setup; destruct (k_shm s0); [destruct (_ && _)|]; reflexivity).
    assert (Rc : k_shm (setup p q s0) <> None <-> has_receiver (h ++ [Setup p q])).
    { split; [intros _; apply receiver_snoc; right; eauto|]. intros _. unfold setup. destruct (k_shm s0) eqn:G; [destruct (_ && _)|]; cbn; rewrite ?G; discriminate. }
    constructor; rewrite ?Pl; auto.
    + intros j. rewrite Le. apply W2.
    + intros a p' b x G Hb. rewrite Ee. apply W4; auto.
    + intros cbs G. rewrite last_ends_app. cbn. unfold setup. destruct (k_shm s0) eqn:G0; [|reflexivity].
      destruct (_ && _) eqn:B; [|reflexivity]. apply andb_prop in B as (B1 & B2). apply String.eqb_eq in B1, B2. rewrite B1, B2. destruct (k_ends s0); reflexivity.
    + intros cbs G. unfold setup in G. destruct (k_shm s0) as [cbs0|] eqn:G0.
      * specialize (W6 cbs0 eq_refl). destruct (String.eqb p (fst (k_ends s0)) && String.eqb q (snd (k_ends s0))) eqn:B.
        -- apply andb_prop in B as (B1 & B2). apply String.eqb_eq in B1, B2. rewrite G0 in G. injection G as <-. destruct (W7 cbs0 eq_refl) as (O & F).
           split; [exact O|]. intros b x. rewrite F, Fe, W6, B1, B2. destruct (k_ends s0); cbn. tauto.
        -- cbn in G. injection G as <-. split; [exact I|]. intros b x. rewrite Fe, W6. split; [discriminate|]. intros (_ & _ & X).
           injection X as X. destruct (k_ends s0) as [e1 e2]. injection X as -> ->. cbn in B. rewrite !String.eqb_refl in B. discriminate.
      * cbn in G. injection G as <-. split; [exact I|]. intros b x. rewrite Fe. split; [discriminate|]. intros (_ & (h1 & h2 & Eh & _ & HR & _) & _).
        exfalso. assert (HR' : has_receiver h). { destruct HR as (p' & q' & HR). exists p', q'. rewrite Eh. apply in_or_app. auto. }
        apply W5 in HR'. congruence.
Qed.
