(** C57: meta data that is published.  C58: what a message to configure changes.  C59: the limit on frames. *)
From Coq Require Import String Ascii.
From Verif Require Import Base StrOrder PluginModel CtrlModel JsonModel JsonSpec JsonProofs JsonProps MessageProps JsonReadModel JsonDoubleModel JsonRoundSpec JsonReadValue JsonReadProps JsonMachineProps PrcModel PrcSpec PrcMoves PrcExec PrcEnds PrcReply PrcAsk PrcProps PrcAskProps PrcSetSpec PrcSet PrcKeep.
Local Open Scope string_scope.
Local Open Scope list_scope.

(** ** Meta data *)
Lemma meta_machine x : machine (meta_doc x).
Proof.
  unfold meta_doc. apply machine_obj. do 3 (apply Forall_cons; [apply machine_leaf; discriminate|]). apply Forall_cons; [|apply Forall_nil]. cbn [snd]. destruct (parse (list_ascii_of_string (t_header x))) as [j|] eqn:E; [eapply c54_machine; exact E|apply machine_leaf; discriminate].
Qed.
Lemma meta_double x b : occurs (JDouble b) (meta_doc x) -> exists j, parse (list_ascii_of_string (t_header x)) = Some j /\ occurs (JDouble b) j.
Proof.
  unfold meta_doc. intros O. inversion O as [|? ? ? I _|? n y l I OY]; subst. cbn in I. destruct I as [E|[E|[E|[E|[]]]]]; injection E as <- <-; try (inversion OY; fail). destruct (parse (list_ascii_of_string (t_header x))) as [j|]; [eauto|inversion OY].
Qed.
(** Published is one message of two parts: a text with the name of the plugin, the parameter, the type and the header, and the data.  A header that is JSON is taken as such, up to what doubles become; any other is a string. *)
Theorem c57_published_partial {P} x (s : prc P) : (forall j b, parse (list_ascii_of_string (t_header x)) = Some j -> occurs (JDouble b) j -> ~ no_number b) ->
  exists t y h, handle_meta x s = (w_out (p_out s ++ [FMeta t (t_data x)]) s, Ret tt) /\ parse t = Some y /\
    leads ["plugin"] y (JStr (t_plugin x)) /\ leads ["parameter"] y (JStr (t_item x)) /\ leads ["type"] y (JStr (t_type x)) /\ leads ["header"] y h /\
    (forall j, parse (list_ascii_of_string (t_header x)) = Some j -> like read_back j h) /\ (parse (list_ascii_of_string (t_header x)) = None -> h = JStr (t_header x)).
Proof.
  intros N. destruct (c55_written (meta_doc x) (meta_machine x)) as (y & _ & PY & LK). { intros b O. apply meta_double in O as (j & E & O). eapply N; eassumption. }
  exists (cut (fst (emit (meta_doc x)))), y. unfold meta_doc in LK. inversion LK as [| | | | | |l l' ML]; subst. inversion ML as [|? ? y1 ? l1 L1 M1]; subst. inversion M1 as [|? ? y2 ? l2 L2 M2]; subst. inversion M2 as [|? ? y3 ? l3 L3 M3]; subst. inversion M3 as [|? ? h ? l4 L4 M4]; subst. inversion M4; subst. inversion L1; subst. inversion L2; subst. inversion L3; subst.
  exists h. split; [reflexivity|]. split; [rewrite cut_id by (apply no_zero_written, meta_machine); exact PY|]. do 4 (split; [apply leads_at; reflexivity|]). destruct (parse (list_ascii_of_string (t_header x))) as [j|]; [split; [intros j' E; injection E as <-; exact L4|discriminate]|]. split; [discriminate|]. intros _. inversion L4. reflexivity.
Qed.
Definition a_meta := Meta "hdf" "createfile" "string" "{""file"":""run_1.h5"",""acqID"":""scan""}" [1; 2; 3]%Z.
Example c57_case : exists t, p_out (fst (handle_meta a_meta (prc_init (P := bool) 0 0))) = [FMeta t [1; 2; 3]%Z] /\ parse t = Some (JObj [("plugin", JStr "hdf"); ("parameter", JStr "createfile"); ("type", JStr "string"); ("header", JObj [("file", JStr "run_1.h5"); ("acqID", JStr "scan")])]) /\
  (forall j b, parse (list_ascii_of_string (t_header a_meta)) = Some j -> occurs (JDouble b) j -> ~ no_number b).
Proof.
  eexists. split; [reflexivity|]. split; [vm_compute; reflexivity|]. intros j b E. vm_compute in E. injection E as <-. intros O. inversion O as [|? ? ? I _|? n y l I OY]; subst. destruct I as [E|[E|[]]]; injection E as <- <-; inversion OY.
Qed.
Example c57_text_case : exists t, p_out (fst (handle_meta (Meta "hdf" "p" "string" "run 1" []) (prc_init (P := bool) 0 0))) = [FMeta t []] /\ parse t = Some (JObj [("plugin", JStr "hdf"); ("parameter", JStr "p"); ("type", JStr "string"); ("header", JStr "run 1")]).
Proof. eexists. split; [reflexivity|]. vm_compute. reflexivity. Qed.
(** A number in the header that the reader makes an infinity: what is published is cut off there. *)
Theorem c57_infinity_refuted : exists x t, p_out (fst (handle_meta x (prc_init (P := bool) 0 0))) = [FMeta t (t_data x)] /\ parse (list_ascii_of_string (t_header x)) <> None /\ parse t = None /\
  t = list_ascii_of_string "{""plugin"":""hdf"",""parameter"":""p"",""type"":""double"",""header"":{""a"":1,""b"":".
Proof. exists (Meta "hdf" "p" "double" "{""a"":1,""b"":1.8e308,""c"":2}" []). eexists. split; [reflexivity|]. split; [vm_compute; discriminate|]. split; vm_compute; reflexivity. Qed.

(** ** Settings *)
Lemma leads_one q x y z : leads q x y -> leads q x z -> y = z. Proof. intros A B. apply leads_at in A, B. congruence. Qed.
(** In every state the plugins that are there are those that can be connected. *)
Theorem c58_matched {P} (v : env P) n ok limit debug s : reached v n ok (prc_init limit debug) s -> matched s.
Proof. induction 1 as [|s c t s1 _ IH _ H]; [split; [exact Logic.I|intros i; split; reflexivity]|]. pose proof (sf_handle v n c t s IH) as K. rewrite H in K. exact K. Qed.
Lemma to_configured {P} (v : env P) n c te x s s1 o : polite v -> carries v te x -> handle_ctrl v n c te s = (s1, o) -> answered c s s1 ->
  exists m s2, params_of m = Some x /\ g_type m = TCmd /\ g_val m = VConfigure /\ configure v n m (started v m s) = (s2, Ret tt) /\ s1 = w_out (p_out s1) s2.
Proof.
  intros PO C H AN. destruct (carried v te x C) as (m & MT & T & V & PX). destruct (configure v n m (started v m s)) as (sa, oa) eqn:CF.
  destruct (handle_configure v PO n c te m s sa oa MT T V CF) as [(-> & s3 & d & HC & _ & E3 & _)|(_ & s3 & HC & _ & NA & _)]; [|rewrite H in HC; cbn in HC; subst s3; contradiction].
  rewrite H in HC. injection HC as -> _. exists m, sa. do 3 (split; [assumption|]). split; [exact CF|]. rewrite E3. reflexivity.
Qed.
(** A message that gets a reply and executes nothing stored: all that it asks for is done, and nothing else. *)
Theorem c58_settings {P} (v : env P) n c te x s s1 o : polite v -> carries v te x -> (forall z, ~ leads ["execute"] x z) -> matched s -> handle_ctrl v (S n) c te s = (s1, o) -> answered c s s1 ->
  text_set x ["hdf"; "master"] (p_master s) (p_master s1) /\ number_set x ["frames"] (limit_of (p_limit s)) (p_limit s) (p_limit s1) /\ number_set x ["debug_level"] (fun z => z) (p_debug s) (p_debug s1) /\
  text_set x ["ctrl_endpoint"] (p_ctrl s) (p_ctrl s1) /\ text_set x ["meta_endpoint"] (p_meta s) (p_meta s1) /\ p_total s1 = p_total s /\
  exists l, orders x l /\ all_done l (p_graph s) (p_graph s1).
Proof.
  intros PO C NE (OK & _) H AN. destruct (to_configured v _ c te x s s1 o PO C H AN) as (m & s2 & PX & T & V & CF & E). assert (NX : at_path ["execute"] x = None). { destruct (at_path ["execute"] x) as [z|] eqn:A; [|reflexivity]. destruct (NE z). apply leads_at, A. }
  destruct (configured v n m x (started v m s) s2 PX T V NX OK CF) as (A1 & A2 & A3 & A4 & A5 & A6 & a & l & _ & A7 & A8 & _). rewrite E. do 6 (split; [assumption|]). eauto.
Qed.
Lemma load_one x i n j k : asks_load x [Load i n true] -> asks_load x [Load j k true] -> i = j /\ n = k.
Proof. intros A B. inversion A; inversion B; subst. split; f_equal; [assert (JStr i0 = JStr i1) by (eapply leads_one; eassumption)|assert (JStr n0 = JStr n1) by (eapply leads_one; eassumption)]; congruence. Qed.
Lemma load_none x i n : asks_load x [Load i n true] -> asks_load x [] -> False.
Proof.
  intros A B. inversion A; subst. inversion B as [|(k & I & N)]; subst. destruct I as [<-|[<-|[<-|[]]]]; eapply N; cbn; eassumption.
Qed.
(** Plugins that were there: errors cleared if asked for, then configured with their section of the message, unchanged without one.  Others are loaded, if the message asks for that, and configured with their section. *)
Theorem c58_plugins {P} (v : env P) n c te x s s1 o i : polite v -> carries v te x -> (forall z, ~ leads ["execute"] x z) -> matched s -> handle_ctrl v (S n) c te s = (s1, o) -> answered c s s1 -> no_slash i -> no_nul i ->
  match sm_get (p_objs s) i with
  | Some p => exists p1, sm_get (p_objs s1) i = Some p1 /\ plugin_set v x i p p1
  | None => match sm_get (p_objs s1) i with
            | Some p1 => exists k p, asks_load x [Load i k true] /\ v_make v k i = Some p /\ section_given v x i p p1
            | None => forall k, ~ asks_load x [Load i k true] end
  end.
Proof.
  intros PO C NE (OK & MA) H AN SL NU. destruct (to_configured v _ c te x s s1 o PO C H AN) as (m & s2 & PX & T & V & CF & E). assert (NX : at_path ["execute"] x = None). { destruct (at_path ["execute"] x) as [z|] eqn:A; [|reflexivity]. destruct (NE z). apply leads_at, A. }
  destruct (configured v n m x (started v m s) s2 PX T V NX OK CF) as (_ & _ & _ & _ & _ & _ & a & l & AL & _ & _ & o1 & o2 & CL & OB & SE & _). assert (E2 : p_objs s1 = p_objs s2) by (rewrite E; reflexivity). rewrite E2. clear E E2. specialize (SE i SL NU).
  change (p_objs (started v m s)) with (p_objs s) in CL. unfold objs_after in OB. change (p_graph (w_objs o1 (started v m s))) with (p_graph s) in OB. cbn [p_objs w_objs] in OB.
  destruct (sm_get (p_objs s) i) as [p|] eqn:G.
  - assert (G2 : sm_get o2 i = sm_get o1 i).
    { destruct OB as [(_ & ->)|(j & k & _ & [(_ & ->)|(NJ & q & _ & ->)])]; [reflexivity..|]. rewrite sm_get_put. destruct (String.eqb_spec i j) as [->|_]; [|reflexivity]. apply MA in NJ. congruence. }
    rewrite G2 in SE. destruct CL as [(CY & CL)|(CN & ->)].
    + rewrite CL, G in SE. cbn in SE. destruct SE as (p1 & G1 & SG). exists p1. split; [exact G1|]. left. auto.
    + rewrite G in SE. destruct SE as (p1 & G1 & SG). exists p1. split; [exact G1|]. right. auto.
  - assert (G1 : sm_get o1 i = None) by (destruct CL as [(_ & CL)|(_ & ->)]; [rewrite CL, G; reflexivity|exact G]). destruct OB as [(-> & ->)|(j & k & -> & OB)].
    + rewrite G1 in SE. rewrite SE. intros k A. eapply load_none; eassumption.
    + destruct (String.eqb_spec i j) as [<-|N].
      * destruct OB as [(X & _)|(_ & p & MK & ->)]; [apply MA in G; congruence|]. rewrite sm_get_put, String.eqb_refl in SE. destruct SE as (p1 & G2 & SG). rewrite G2. eauto.
      * assert (G2 : sm_get o2 i = None). { destruct OB as [(_ & ->)|(_ & p & _ & ->)]; [exact G1|]. rewrite sm_get_put. apply String.eqb_neq in N. rewrite N. exact G1. }
        rewrite G2 in SE. rewrite SE. intros k' A. destruct (load_one _ _ _ _ _ A AL). congruence.
Qed.

(** The reply acknowledges if no plugin refuses its section, and does not if one refuses it whatever the reply is. *)
Theorem c58_reply {P} (v : env P) n c te x d s s1 o : polite v -> carries v te x -> (forall z, ~ leads ["execute"] x z) -> matched s -> handle_ctrl v (S n) c te s = (s1, o) -> replies c d s s1 ->
  ((forall i p, addressed v x s i p -> no_slash i /\ no_nul i /\ forall y m r, leads [i] x y -> holds m [] y -> g_type m = TCmd -> g_val m = VConfigure -> snd (v_configure v p m r) = Ret tt -> g_type (snd (fst (v_configure v p m r))) = g_type r) -> says d "msg_type" (JStr "ack")) /\
  ((exists i p y, addressed v x s i p /\ no_slash i /\ no_nul i /\ leads [i] x y /\ forall m r, holds m [] y -> g_type m = TCmd -> g_val m = VConfigure -> snd (v_configure v p m r) = Ret tt -> g_type (snd (fst (v_configure v p m r))) = TNack) -> says d "msg_type" (JStr "nack")).
Proof.
  intros PO C NE (OK & MA) H (rl & RO & RF). assert (NX : at_path ["execute"] x = None). { destruct (at_path ["execute"] x) as [z|] eqn:A; [|reflexivity]. destruct (NE z). apply leads_at, A. }
  assert (AN : answered c s s1) by (exists rl, d; exact RO). destruct (carried v te x C) as (m & MT & T & V & PX). destruct (strict_id v te m MT) as (id & ID). destruct (configure v (S n) m (started v m s)) as (sa, oa) eqn:CF.
  pose proof (does_configure v (S n) m (started v m s)) as MV. rewrite CF in MV. cbn [fst] in MV. destruct (moves_head v _ _ _ PO MV) as (HI & HV & _). destruct (moves_out v _ _ _ MV) as (ml & MO & _).
  destruct (handle_configure v PO (S n) c te m s sa oa MT T V CF) as [(-> & s3 & d' & HC & EN & E3 & _)|(_ & s3 & HC & _ & NA & _)]; [|rewrite H in HC; cbn in HC; subst s3; contradiction].
  rewrite H in HC. injection HC as <- _. assert (d' = d) as ->. { rewrite E3 in RO. cbn in RO. rewrite MO in RO. change (p_out (started v m s)) with (p_out s) in RO. rewrite <- app_assoc in RO. apply app_inv_head in RO. apply app_inj_tail in RO as (_ & RO). congruence. }
  change (g_id (p_reply (started v m s))) with (g_id m) in HI. rewrite ID in HI. destruct (encode_says _ _ _ _ HI EN) as (_ & _ & SY & _).
  destruct (configured v n m x (started v m s) sa PX T V NX OK CF) as (_ & _ & _ & _ & _ & _ & a & l & AL & _ & _ & o1 & o2 & CL & OB & _ & K1 & K2).
  change (p_objs (started v m s)) with (p_objs s) in CL. unfold objs_after in OB. change (p_graph (w_objs o1 (started v m s))) with (p_graph s) in OB. cbn [p_objs w_objs] in OB.
  assert (O1 : forall i, match sm_get (p_objs s) i with Some p => exists q, sm_get o1 i = Some q /\ addressed v x s i q | None => sm_get o1 i = None end).
  { intros i. destruct CL as [((y & CY) & CL)|(CN & ->)]; [rewrite CL|]; destruct (sm_get (p_objs s) i) as [p|] eqn:G; cbn; try reflexivity; eexists; (split; [reflexivity|]); [eapply ad_cleared|eapply ad_there]; eassumption. }
  assert (AD : forall i p, sm_get o2 i = Some p <-> addressed v x s i p).
  { assert (ONE : forall i p q, addressed v x s i p -> addressed v x s i q -> p = q).
    { intros i p q A B. inversion A as [p1 A1 A2|p1 y A1 A2|k p1 A1 A2 A3]; inversion B as [q1 B1 B2|q1 z B1 B2|k' q1 B1 B2 B3]; subst; try congruence; try (exfalso; eapply A2; eassumption); try (exfalso; eapply B2; eassumption). destruct (load_one _ _ _ _ _ A2 B2) as (_ & <-). congruence. }
    assert (TO : forall i p, sm_get o2 i = Some p -> addressed v x s i p).
    { intros i p G. specialize (O1 i). assert (OLD : sm_get o1 i = Some p -> addressed v x s i p) by (intros G1; destruct (sm_get (p_objs s) i); [destruct O1 as (q & Q & AQ); congruence|congruence]).
      destruct OB as [(_ & ->)|(j & k & EA & [(_ & ->)|(NJ & q & MK & ->)])]; [exact (OLD G)..|]. rewrite sm_get_put in G. destruct (String.eqb_spec i j) as [->|_]; [|exact (OLD G)]. injection G as <-. eapply ad_loaded; [apply MA, NJ|rewrite <- EA; exact AL|exact MK]. }
    intros i p. split; [apply TO|]. intros A. destruct (sm_get o2 i) as [q|] eqn:G; [f_equal; apply (ONE i); [apply TO, G|exact A]|]. exfalso. specialize (O1 i). assert (G1 : sm_get o1 i = None).
    { destruct OB as [(_ & ->)|(j & k & _ & [(_ & ->)|(_ & q & _ & ->)])]; [exact G..|]. rewrite sm_get_put in G. destruct (String.eqb i j); [discriminate|exact G]. }
    destruct (sm_get (p_objs s) i) as [p0|] eqn:G0; [destruct O1 as (q & Q & _); congruence|]. inversion A as [p1 A1 _|p1 y A1 _|k p1 A1 A2 A3]; subst; try congruence. destruct OB as [(-> & _)|(j & k' & -> & OB)]; [eapply load_none; eassumption|]. destruct (load_one _ _ _ _ _ A2 AL) as (-> & ->).
    destruct OB as [(X & _)|(_ & q & _ & ->)]; [apply MA in G0; congruence|]. rewrite sm_get_put, String.eqb_refl in G. discriminate. }
  split.
  - intros A. rewrite K1 in SY; [exact SY|]. intros i p G. apply A, AD, G.
  - intros (i & p & y & A & Q). rewrite (K2 PO) in SY; [exact SY|]. exists i, p, y. split; [apply AD, A|exact Q].
Qed.

(** ** The limit on frames *)
Lemma callback_eq {P} d (s : prc P) : callback d s = (let s1 := if String.eqb (p_master s) "" || String.eqb d (p_master s) then w_total (i32 (p_total s + 1)) s else s in if (p_total s1 =? p_limit s1)%Z then w_out (p_out s1 ++ [FExit]) s1 else s1, Ret tt).
Proof. unfold callback, seq, get, when, change, tell. destruct (_ || _); cbn; destruct (_ =? _)%Z; reflexivity. Qed.
Lemma counts_step m d l k : counts m (d :: l) k -> (String.eqb m "" || String.eqb d m = true /\ exists j, k = S j /\ counts m l j) \/ (String.eqb m "" || String.eqb d m = false /\ counts m l k).
Proof.
  intros C. inversion C as [|? ? j Y C'|? ? ? N1 N2 C']; subst.
  - left. split; [|eauto]. apply Bool.orb_true_iff. destruct Y as [->| ->]; [left; reflexivity|right; apply String.eqb_refl].
  - right. split; [|exact C']. apply Bool.orb_false_iff. split; apply String.eqb_neq; assumption.
Qed.
(** Frames reach the end of the chain in any order, with a limit above the count so far: the main thread is told to exit when, and only when, the count reaches the limit; nothing else changes. *)
Theorem c59_exit {P} l k (s s1 : prc P) : counts (p_master s) l k -> finished l s s1 -> (0 <= p_total s < p_limit s)%Z -> (p_limit s < 2 ^ 31)%Z ->
  exists e, p_out s1 = p_out s ++ e /\ Forall (eq FExit) e /\ (e <> [] <-> (p_limit s <= p_total s + Z.of_nat k)%Z) /\ p_limit s1 = p_limit s /\ p_master s1 = p_master s /\ ((p_total s + Z.of_nat k < 2 ^ 31)%Z -> p_total s1 = p_total s + Z.of_nat k)%Z /\ p_objs s1 = p_objs s /\ p_graph s1 = p_graph s /\ p_stored s1 = p_stored s.
Proof.
  intros C F. revert k C.
  assert (G : forall k, counts (p_master s) l k -> exists e, p_out s1 = p_out s ++ e /\ Forall (eq FExit) e /\ ((0 <= p_total s < p_limit s)%Z -> (p_limit s < 2 ^ 31)%Z -> (e <> [] <-> (p_limit s <= p_total s + Z.of_nat k)%Z)) /\
    ((0 <= p_total s)%Z -> (p_total s + Z.of_nat k < 2 ^ 31)%Z -> p_total s1 = p_total s + Z.of_nat k)%Z /\ p_limit s1 = p_limit s /\ p_master s1 = p_master s /\ p_objs s1 = p_objs s /\ p_graph s1 = p_graph s /\ p_stored s1 = p_stored s).
  { induction F as [s|d l s s1 s2 CB F IH]; intros k C.
    { inversion C; subst. exists []. split; [rewrite app_nil_r; reflexivity|]. split; [apply Forall_nil|]. split; [intros T L; split; [congruence|cbn; lia]|]. split; [intros _ _; cbn; lia|auto]. }
    rewrite callback_eq in CB. injection CB as CB. set (b := (String.eqb (p_master s) "" || String.eqb d (p_master s))%bool) in CB. set (s' := if b then w_total (i32 (p_total s + 1)) s else s) in CB.
    assert (S' : p_out s' = p_out s /\ p_limit s' = p_limit s /\ p_master s' = p_master s /\ p_objs s' = p_objs s /\ p_graph s' = p_graph s /\ p_stored s' = p_stored s) by (unfold s'; destruct b; repeat split). destruct S' as (O1 & O2 & O3 & O4 & O5 & O6).
    assert (S1 : p_out s1 = p_out s' ++ (if (p_total s' =? p_limit s')%Z then [FExit] else []) /\ p_limit s1 = p_limit s' /\ p_total s1 = p_total s' /\ p_master s1 = p_master s' /\ p_objs s1 = p_objs s' /\ p_graph s1 = p_graph s' /\ p_stored s1 = p_stored s').
    { rewrite <- CB. destruct (p_total s' =? p_limit s')%Z; [repeat split|]. rewrite app_nil_r. repeat split. }
    destruct S1 as (Q1 & Q2 & Q3 & Q4 & Q5 & Q6 & Q7). rewrite Q4, O3 in IH.
    assert (K : exists j, counts (p_master s) l j /\ ((0 <= p_total s)%Z -> (p_total s + 1 < 2 ^ 31)%Z -> p_total s' + Z.of_nat j = p_total s + Z.of_nat k /\ p_total s <= p_total s' <= p_total s + 1)%Z /\ (j <= k) /\ (k = 0 -> p_total s' = p_total s) /\ (p_total s' <> p_total s -> k = S j)).
    { unfold s'. unfold b. destruct (counts_step _ _ _ _ C) as [(B & j & -> & C')|(B & C')]; rewrite B.
      - exists j. split; [exact C'|]. split; [|split; [lia|split; [discriminate|reflexivity]]]. cbn [p_total w_total]. intros T0 T1. unfold i32. rewrite Z.mod_small by lia. lia.
      - exists k. split; [exact C'|]. split; [intros; lia|]. split; [lia|]. split; [reflexivity|congruence]. }
    destruct K as (j & CJ & KT & KJ & K0 & KS). destruct (IH j CJ) as (e & E1 & E2 & E3 & E4 & E5 & E6 & E7 & E8 & E9). eexists. split; [rewrite E1, Q1, O1, <- app_assoc; reflexivity|].
    split; [apply Forall_app; split; [destruct (_ =? _)%Z; [apply Forall_cons; [reflexivity|]|]; apply Forall_nil|exact E2]|]. rewrite Q2, Q3 in *. rewrite O2 in *. split; [|split; [|repeat split; congruence]].
    - intros T L. destruct (KT ltac:(lia) ltac:(lia)) as (KA & KB). destruct (Z.eqb_spec (p_total s') (p_limit s)) as [EQ|NE].
      + split; [intros _; lia|intros _ X; discriminate X].
      + cbn [app]. rewrite (E3 ltac:(lia) L). lia.
    - intros T L. destruct k as [|k].
      + assert (j = 0) as -> by lia. cbn in *. rewrite (K0 eq_refl) in *. rewrite E4 by lia. lia.
      + destruct (KT T ltac:(lia)) as (KA & KB). rewrite E4 by lia. lia. }
  intros k C T L. destruct (G k C) as (e & A & B & D & E & R). exists e. split; [exact A|]. split; [exact B|]. split; [apply D; lia|]. destruct R as (R1 & R2 & R3). split; [exact R1|]. split; [exact R2|]. split; [apply E; lia|exact R3].
Qed.
(** *** Cases *)
Definition whole := "{""hdf"":{""master"":""data"",""on"":true},""frames"":3,""debug_level"":2,""ctrl_endpoint"":""tcp://*:5014"",""meta_endpoint"":""tcp://*:5008"",""clear_errors"":true,""fr_setup"":{""fr_release_cnxn"":""a"",""fr_ready_cnxn"":""b""},""plugin"":{""load"":{""name"":""Writer"",""index"":""raw"",""library"":""libWriter.so""},""connect"":{""index"":""raw"",""connection"":""hdf""}}}".
Definition whole_json := match parse (list_ascii_of_string whole) with Some x => x | None => JNull end.
Lemma loaded_matched : matched loaded.
Proof. unfold loaded, sent. apply sf_handle. split; [exact Logic.I|intros i; split; reflexivity]. Qed.
Example c58_case : carries writer_env (command_text "configure" whole) whole_json /\ (forall z, ~ leads ["execute"] whole_json z) /\ matched loaded /\ answered "c" loaded (sent "configure" whole loaded) /\
  let s := sent "configure" whole loaded in (p_master s, p_limit s, p_debug s, p_ctrl s, p_meta s, p_total s) = ("data", 3%Z, 2%Z, "tcp://*:5014", "tcp://*:5008", 0%Z) /\ p_objs s = [("hdf", true); ("raw", false)] /\ k_ends (p_graph s) = ("a", "b") /\ pushed_by "hdf" (p_graph s) = [Queued "raw" (Plugin "raw")] /\ orders whole_json [Load "raw" "Writer" true; Connect "raw" "hdf"; Setup "a" "b"].
Proof.
  split; [eexists; split; [vm_compute; reflexivity|]; split; [reflexivity|]; split; [reflexivity|]; apply holds_at; vm_compute; reflexivity|]. split; [intros z L; apply leads_at in L; vm_compute in L; discriminate|]. split; [exact loaded_matched|].
  split; [eexists [_; _; _], _; vm_compute; reflexivity|]. split; [vm_compute; reflexivity|]. split; [vm_compute; reflexivity|]. split; [vm_compute; reflexivity|]. split; [vm_compute; reflexivity|].
  exists [Load "raw" "Writer" true], [Connect "raw" "hdf"], [], [Setup "a" "b"].
  split; [apply (al_load whole_json "raw" "Writer" "libWriter.so"); apply leads_at; vm_compute; reflexivity|]. split; [apply (ac_connect whole_json "raw" "hdf"); apply leads_at; vm_compute; reflexivity|].
  split; [apply ad_none; [exists "connection"; split; [left; reflexivity|]; intros y L; apply leads_at in L; vm_compute in L; discriminate|intros t L; apply leads_at in L; vm_compute in L; discriminate]|].
  split; [apply (ar_setup whole_json "a" "b"); apply leads_at; vm_compute; reflexivity|reflexivity].
Qed.
Example c58_reply_case : exists d, replies "c" d loaded (sent "configure" whole loaded) /\ says d "msg_type" (JStr "ack") /\
  forall i p, addressed writer_env whole_json loaded i p -> no_slash i /\ no_nul i /\ forall y m r, leads [i] whole_json y -> holds m [] y -> g_type m = TCmd -> g_val m = VConfigure -> g_type (snd (fst (v_configure writer_env p m r))) = g_type r.
Proof.
  eexists. split; [eexists [_; _; _]; split; [vm_compute; reflexivity|]; intros e I; vm_compute in I; destruct I as [<-|[<-|[<-|[]]]]; reflexivity|]. split; [apply leads_at; vm_compute; reflexivity|].
  assert (K : forall i, nice i -> forall p, no_slash i /\ no_nul i /\ forall y m r, leads [i] whole_json y -> holds m [] y -> g_type m = TCmd -> g_val m = VConfigure -> g_type (snd (fst (v_configure writer_env p m r))) = g_type r).
  { intros i (S & N & _) p. split; [exact S|]. split; [exact N|]. intros y m r _ _ _ _. unfold writer_env. cbn. destruct (get_param GBool m "on") as [[]|e|]; reflexivity. }
  assert (T : forall i p, sm_get (p_objs loaded) i = Some p -> nice i). { intros i p G. apply (loaded_named [] ltac:(intros [])). eapply fst_in, G. }
  intros i p [q G _|q y G _|k q G A _]; apply K; [eapply T, G|eapply T, G|]. inversion A as [j n b L1|]; subst. apply leads_at in L1. vm_compute in L1. injection L1 as <-. apply nice_check. reflexivity.
Qed.
(** The master data set is read from the section "hdf" of the message, whatever the file writer is called. *)
Theorem c58_master_refuted : exists s s1, sent "configure" "{""plugin"":{""load"":{""name"":""Writer"",""index"":""raw"",""library"":""libWriter.so""}}}" (prc_init 0 0) = s /\ sent "configure" "{""raw"":{""master"":""data"",""on"":true}}" s = s1 /\ answered "c" s s1 /\ p_master s1 = "".
Proof. do 2 eexists. split; [reflexivity|]. split; [reflexivity|]. split; [eexists [], _; vm_compute; reflexivity|vm_compute; reflexivity]. Qed.
(** A connection to a plugin that is not there is acknowledged; nothing is connected. *)
Theorem c58_nowhere_refuted : exists s1, sent "configure" "{""plugin"":{""connect"":{""index"":""hdf"",""connection"":""raw""}}}" loaded = s1 /\ answered "c" loaded s1 /\ p_graph s1 = p_graph loaded.
Proof. eexists. split; [reflexivity|]. split; [eexists [], _; vm_compute; reflexivity|vm_compute; reflexivity]. Qed.

Definition counting (master : string) (limit total : Z) : prc bool := w_master master (w_total total (prc_init limit 0)).
Fixpoint through (l : list string) (s : prc bool) : prc bool := match l with [] => s | d :: r => through r (fst (callback d s)) end.
Lemma through_finished l : forall s, finished l s (through l s).
Proof. induction l as [|d l IH]; intros s; [constructor|]. cbn [through]. apply (fi_cons d l s (fst (callback d s))); [|apply IH]. rewrite callback_eq. reflexivity. Qed.
Example c59_case : counts "data" ["data"; "other"; "data"; "other"] 2 /\ finished ["data"; "other"; "data"; "other"] (counting "data" 2 0) (through ["data"; "other"; "data"; "other"] (counting "data" 2 0)) /\
  p_out (through ["data"; "other"] (counting "data" 2 0)) = [] /\ p_out (through ["data"; "other"; "data"; "other"] (counting "data" 2 0)) = [FExit; FExit].
Proof. split; [|split; [apply through_finished|split; reflexivity]]. apply ct_yes; [auto|]. apply ct_no; [discriminate..|]. apply ct_yes; [auto|]. apply ct_no; [discriminate..|]. constructor. Qed.
(** A limit below the count so far is not reached. *)
Theorem c59_passed {P} l k (s s1 : prc P) : counts (p_master s) l k -> finished l s s1 -> (0 <= p_limit s < p_total s)%Z -> (p_total s + Z.of_nat k < 2 ^ 31)%Z -> p_out s1 = p_out s.
Proof.
  intros C F. revert k C. induction F as [s|d l s s1 s2 CB F IH]; intros k C L T; [reflexivity|]. rewrite callback_eq in CB. injection CB as CB. destruct (counts_step _ _ _ _ C) as [(B & j & -> & C')|(B & C')]; rewrite B in CB; cbv zeta in CB.
  - assert (E : i32 (p_total s + 1) = (p_total s + 1)%Z) by (unfold i32; rewrite Z.mod_small by lia; lia). cbn [p_total p_limit w_total] in CB. rewrite E in CB. destruct (Z.eqb_spec (p_total s + 1) (p_limit s)); [lia|]. subst s1. cbn in IH. rewrite (IH j C'); [reflexivity|lia|lia].
  - destruct (Z.eqb_spec (p_total s) (p_limit s)); [lia|]. subst s1. apply (IH k C'); assumption.
Qed.
(** The limit is not set in the constructor: with 0 and a master, a frame that is not counted ends the process. *)
Theorem c59_uncounted_refuted : exists d s, p_limit s = 0%Z /\ p_total s = 0%Z /\ counts (p_master s) [d] 0 /\ finished [d] s (through [d] s) /\ p_out (through [d] s) = p_out s ++ [FExit].
Proof. exists "other", (counting "data" 0 0). do 2 (split; [reflexivity|]). split; [apply ct_no; [discriminate..|constructor]|]. split; [apply through_finished|reflexivity]. Qed.
(** A limit that was passed, and one of 2^31, are acknowledged; 0 does not take a limit back. *)
Theorem c59_limit_refuted : exists s1 s2 s3, sent "configure" "{""frames"":2}" (counting "" 9 3) = s1 /\ answered "c" (counting "" 9 3) s1 /\ p_limit s1 = 2%Z /\ p_total s1 = 3%Z /\
  sent "configure" "{""frames"":2147483648}" s1 = s2 /\ answered "c" s1 s2 /\ p_limit s2 = (- 2147483648)%Z /\ sent "configure" "{""frames"":0}" s1 = s3 /\ answered "c" s1 s3 /\ p_limit s3 = 2%Z.
Proof. do 3 eexists. split; [reflexivity|]. split; [eexists [], _; vm_compute; reflexivity|]. do 2 (split; [vm_compute; reflexivity|]). split; [reflexivity|]. split; [eexists [], _; vm_compute; reflexivity|]. split; [vm_compute; reflexivity|]. split; [reflexivity|]. split; [eexists [], _; vm_compute; reflexivity|vm_compute; reflexivity]. Qed.

Print Assumptions c57_published_partial.
Print Assumptions c57_infinity_refuted.
Print Assumptions c58_matched.
Print Assumptions c58_settings.
Print Assumptions c58_plugins.
Print Assumptions c58_reply.
Print Assumptions c59_exit.
Print Assumptions c58_master_refuted.
Print Assumptions c58_nowhere_refuted.
Print Assumptions c59_passed.
Print Assumptions c59_uncounted_refuted.
Print Assumptions c59_limit_refuted.
