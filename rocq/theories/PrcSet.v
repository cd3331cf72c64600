(** The settings that a message to configure makes. *)
From Coq Require Import String Ascii.
From Verif Require Import Base StrOrder PluginModel CtrlModel JsonModel JsonSpec JsonProofs JsonProps MessageProps JsonReadModel JsonDoubleModel PrcModel PrcSpec PrcMoves PrcExec PrcEnds PrcReply PrcAsk PrcSetSpec.
Local Open Scope string_scope.
Local Open Scope list_scope.

Lemma any_check q : path_check q = true -> any_path q. Proof. intros H. apply path_check_ok in H. destruct H as (A & B & C & _). split; [exact A|split; assumption]. Qed.
Lemma one_path k : no_slash k -> no_nul k -> any_path [k]. Proof. intros S N. split; [discriminate|]. split; (apply Forall_cons; [assumption|apply Forall_nil]). Qed.
Lemma holds_part m x q y : params_of m = Some x -> (holds m q y <-> at_path q x = Some y).
Proof. intros E. rewrite holds_at. cbn. unfold params_of in E. rewrite E. reflexivity. Qed.
Lemma no_lead q x : at_path q x = None -> forall y, ~ leads q x y. Proof. intros H y L. apply leads_at in L. congruence. Qed.
Lemma no_lead_more a b x : at_path a x = None -> forall y, ~ leads (a ++ b) x y.
Proof.
  intros H y L. apply leads_at in L. revert x H L. induction a as [|k a IH]; intros x H L; [discriminate|]. cbn in *. destruct x; try discriminate. destruct (find_member k l) as [z|]; [|discriminate]. eapply IH; eassumption.
Qed.
Lemma at_app a b x y : at_path a x = Some y -> at_path (a ++ b) x = at_path b y.
Proof. revert x. induction a as [|k a IH]; intros x H; cbn in *; [injection H as ->; reflexivity|]. destruct x; try discriminate. destruct (find_member k l) as [z|]; [|discriminate]. apply IH, H. Qed.

Lemma at1 a r x y : at_path [a] x = Some y -> at_path (a :: r) x = at_path r y. Proof. apply (at_app [a] r). Qed.
Lemma at2 a b r x y : at_path [a; b] x = Some y -> at_path (a :: b :: r) x = at_path r y. Proof. apply (at_app [a; b] r). Qed.

Section Settings.
  Context {P : Type}.
  Variable v : env P.
  Notation M := (M P).
  Notation st := (prc P).

  (** ** Reading parameters, when nothing is thrown *)
  Lemma has_ret {B} q m x (f : bool -> M B) s s1 b : any_path q -> params_of m = Some x -> seq (lift (has_param m (slashed q))) f s = (s1, Ret b) ->
    (exists y, at_path q x = Some y /\ f true s = (s1, Ret b)) \/ (at_path q x = None /\ f false s = (s1, Ret b)).
  Proof.
    intros A E H. apply seq_ret in H as (h & s0 & HH & H). unfold lift in HH. destruct (has_param m (slashed q)) as [h0| |] eqn:HP; try discriminate. injection HH as <- ->. destruct (c33_has m q h A HP) as (T & _).
    destruct h; [left; destruct (proj1 T eq_refl) as (y & Y); exists y; split; [apply (holds_part m x); assumption|exact H]|]. right. split; [|exact H]. destruct (at_path q x) as [y|] eqn:Y; [|reflexivity]. apply (holds_part m x) in Y; [|exact E]. destruct T as (_ & T). discriminate T. eauto.
  Qed.
  Lemma raw_at q m x y : any_path q -> params_of m = Some x -> get_raw m (slashed q) = Ret y -> at_path q x = Some y.
  Proof. intros A E H. apply (get_raw_holds m q y A) in H. apply (holds_part m x) in H; assumption. Qed.
  Lemma str_ret {B} q m x (f : string -> M B) s s1 b : any_path q -> params_of m = Some x -> seq (str_param m (slashed q)) f s = (s1, Ret b) -> exists t, at_path q x = Some (JStr t) /\ f (cstr t) s = (s1, Ret b).
  Proof.
    intros A E H. apply seq_ret in H as (h & s0 & HH & H). unfold str_param, lift, bind, get_param in HH. destruct (get_raw m (slashed q)) as [y| |] eqn:G; try discriminate. apply (raw_at q m x) in G; [|assumption..]. destruct y; try discriminate. cbn in HH. injection HH as <- <-. eauto.
  Qed.
  Lemma uint_ret {B} q m x (f : Z -> M B) s s1 b : any_path q -> params_of m = Some x -> seq (uint_param m (slashed q)) f s = (s1, Ret b) -> exists z, at_path q x = Some (JInt z) /\ (0 <= z < 2 ^ 32)%Z /\ f z s = (s1, Ret b).
  Proof.
    intros A E H. apply seq_ret in H as (h & s0 & HH & H). unfold uint_param, lift, bind, get_param in HH. destruct (get_raw m (slashed q)) as [y| |] eqn:G; try discriminate. apply (raw_at q m x) in G; [|assumption..]. destruct y; try discriminate. unfold get_value, in_range in HH. destruct ((0 <=? z) && (z <? 2 ^ 32))%Z eqn:R; [|discriminate]. injection HH as <- <-. apply andb_prop in R as (R1 & R2). exists z. split; [exact G|]. split; [lia|exact H].
  Qed.
  Lemma part_ret {B} k m x (f : msg -> M B) s s1 b : no_slash k -> no_nul k -> params_of m = Some x -> seq (section v m k) f s = (s1, Ret b) -> exists y, at_path [k] x = Some y /\ f (msg_of_value y TIllegal VIllegal true (v_now v)) s = (s1, Ret b).
  Proof.
    intros S N E H. apply seq_ret in H as (h & s0 & HH & H). unfold section, seq, lift in HH. destruct (get_ref m k) as [y| |] eqn:G; try discriminate. injection HH as <- <-. apply (part_at m x) in G; [|assumption..]. eauto.
  Qed.
  Lemma all_ret {B} l m x (f : bool -> M B) s s1 b : Forall (fun k => no_slash k /\ no_nul k) l -> params_of m = Some x -> seq (has_all m l) f s = (s1, Ret b) ->
    ((forall k, In k l -> at_path [k] x <> None) /\ f true s = (s1, Ret b)) \/ ((exists k, In k l /\ at_path [k] x = None) /\ f false s = (s1, Ret b)).
  Proof.
    intros F E H. apply seq_ret in H as (h & s0 & HH & H). assert (X : s0 = s /\ if h then (forall k, In k l -> at_path [k] x <> None) else (exists k, In k l /\ at_path [k] x = None)).
    { clear f H. revert HH. induction F as [|k l (S & N) F IH]; cbn [has_all]; intros HH; [injection HH as <- <-; split; [reflexivity|intros k []]|].
      apply (has_ret [k] m x) in HH as [(y & Y & HH)|(Y & HH)]; [| |apply one_path; assumption|exact E].
      - destruct (IH HH) as (-> & IH'). split; [reflexivity|]. destruct h; [intros k' [<-|I]; [rewrite Y; discriminate|apply IH', I]|]. destruct IH' as (k' & I & Z). exists k'. split; [right; exact I|exact Z].
      - injection HH as <- <-. split; [reflexivity|]. exists k. split; [left; reflexivity|exact Y]. }
    destruct X as (-> & X). destruct h; auto.
  Qed.
  Lemma when_ret b (a : M unit) s s1 : when b a s = (s1, Ret tt) -> if b then a s = (s1, Ret tt) else s1 = s. Proof. destruct b; cbn; [auto|]. intros H. injection H as <-. reflexivity. Qed.

  Ltac ok_path := apply any_check; reflexivity.
  Ltac name := unfold no_slash, no_nul; cbn; intuition discriminate.
  Ltac names := repeat (apply Forall_cons; [split; name|]); apply Forall_nil.

  (** ** The steps of configure *)
  Lemma set_master_ret m x (s s1 : st) : params_of m = Some x -> set_master m s = (s1, Ret tt) -> exists t, s1 = w_master t s /\ text_set x ["hdf"; "master"] (p_master s) t.
  Proof.
    intros E H. unfold set_master in H. change "hdf/master" with (slashed ["hdf"; "master"]) in H. apply (has_ret _ m x) in H as [(y & Y & H)|(Y & H)]; [cbn [when] in H|injection H as <-|ok_path|exact E].
    - apply (str_ret _ m x) in H as (t & T & H); [|ok_path|exact E]. injection H as <-. exists (cstr t). split; [reflexivity|]. left. exists t. split; [apply leads_at, T|reflexivity].
    - exists (p_master s). split; [destruct s; reflexivity|]. right. split; [apply no_lead, Y|reflexivity].
  Qed.
  Lemma i32_limit z : (0 <= z < 2 ^ 32)%Z -> i32 z = if (z <? 2 ^ 31)%Z then z else (z - 2 ^ 32)%Z.
  Proof. intros R. unfold i32. destruct (Z.ltb_spec z (2 ^ 31)); [rewrite Z.mod_small by lia; lia|]. replace (z + 2 ^ 31)%Z with ((z - 2 ^ 31) + 1 * 2 ^ 32)%Z by lia. rewrite Z.mod_add, Z.mod_small by lia. lia. Qed.
  Lemma set_frames_ret m x (s s1 : st) : params_of m = Some x -> set_frames m s = (s1, Ret tt) -> exists z, s1 = w_limit z s /\ number_set x ["frames"] (limit_of (p_limit s)) (p_limit s) z.
  Proof.
    intros E H. unfold set_frames in H. change "frames" with (slashed ["frames"]) in H. apply (has_ret _ m x) in H as [(y & Y & H)|(Y & H)]; [cbn [when] in H|injection H as <-|ok_path|exact E].
    - apply (uint_ret _ m x) in H as (z & T & R & H); [|ok_path|exact E]. exists (limit_of (p_limit s) z). split; [|left; exists z; split; [apply leads_at, T|split; [exact R|reflexivity]]]. unfold limit_of. destruct (z =? 0)%Z; cbn in H; injection H as <-; [destruct s; reflexivity|]. rewrite i32_limit by exact R. reflexivity.
    - exists (p_limit s). split; [destruct s; reflexivity|]. right. split; [apply no_lead, Y|reflexivity].
  Qed.
  Lemma set_debug_ret m x (s s1 : st) : params_of m = Some x -> set_debug m s = (s1, Ret tt) -> exists z, s1 = w_debug z s /\ number_set x ["debug_level"] (fun z => z) (p_debug s) z.
  Proof.
    intros E H. unfold set_debug in H. change "debug_level" with (slashed ["debug_level"]) in H. apply (has_ret _ m x) in H as [(y & Y & H)|(Y & H)]; [cbn [when] in H|injection H as <-|ok_path|exact E].
    - apply (uint_ret _ m x) in H as (z & T & R & H); [|ok_path|exact E]. injection H as <-. exists z. split; [reflexivity|]. left. exists z. split; [apply leads_at, T|split; [exact R|reflexivity]].
    - exists (p_debug s). split; [destruct s; reflexivity|]. right. split; [apply no_lead, Y|reflexivity].
  Qed.
  Lemma set_ctrl_ret m x (s s1 : st) : params_of m = Some x -> set_ctrl v m s = (s1, Ret tt) -> exists t b l, s1 = w_out l (w_ctrl t (w_bound b s)) /\ text_set x ["ctrl_endpoint"] (p_ctrl s) t.
  Proof.
    intros E H. unfold set_ctrl in H. change "ctrl_endpoint" with (slashed ["ctrl_endpoint"]) in H. apply (has_ret _ m x) in H as [(y & Y & H)|(Y & H)]; [cbn [when] in H|injection H as <-|ok_path|exact E].
    - apply (str_ret _ m x) in H as (t & T & H); [|ok_path|exact E]. unfold setup_control, seq at 1, get in H. destruct (v_bind v (p_bound s) (cstr t)); [discriminate|]. injection H as <-. do 3 eexists. split; [reflexivity|]. left. exists t. split; [apply leads_at, T|reflexivity].
    - exists (p_ctrl s), (p_bound s), (p_out s). split; [destruct s; reflexivity|]. right. split; [apply no_lead, Y|reflexivity].
  Qed.
  Lemma set_meta_ret m x (s s1 : st) : params_of m = Some x -> set_meta v m s = (s1, Ret tt) -> exists t b l, s1 = w_out l (w_meta t (w_metabound b s)) /\ text_set x ["meta_endpoint"] (p_meta s) t.
  Proof.
    intros E H. unfold set_meta in H. change "meta_endpoint" with (slashed ["meta_endpoint"]) in H. apply (has_ret _ m x) in H as [(y & Y & H)|(Y & H)]; [cbn [when] in H|injection H as <-|ok_path|exact E].
    - apply (str_ret _ m x) in H as (t & T & H); [|ok_path|exact E]. unfold setup_meta, seq at 1, get in H. destruct (v_bind_meta v (p_metabound s) (cstr t)); [discriminate|]. injection H as <-. do 3 eexists. split; [reflexivity|]. left. exists t. split; [apply leads_at, T|reflexivity].
    - exists (p_meta s), (p_metabound s), (p_out s). split; [destruct s; reflexivity|]. right. split; [apply no_lead, Y|reflexivity].
  Qed.
  Lemma inject_ret m x (s s1 : st) : params_of m = Some x -> inject m s = (s1, Ret tt) -> exists l, s1 = w_out l s.
  Proof.
    intros E H. unfold inject in H. change "inject_eoa" with (slashed ["inject_eoa"]) in H. apply (has_ret _ m x) in H as [(y & Y & H)|(Y & H)]; [cbn [when] in H|injection H as <-|ok_path|exact E].
    - unfold seq, get in H. destruct (k_shm (p_graph s)); injection H as <-; [eexists; reflexivity|exists (p_out s); destruct s; reflexivity].
    - exists (p_out s). destruct s; reflexivity.
  Qed.

  (** ** Plugins *)
  Lemma wire_ret c (s s1 : st) : wire c s = (s1, Ret tt) -> exists g, do_cmd c (p_graph s) = Ret g /\ s1 = w_graph g s.
  Proof. unfold wire. destruct (do_cmd c (p_graph s)) as [g| |] eqn:E; try discriminate. intros H. injection H as <-. eauto. Qed.
  Lemma load_ret i n l (s s1 : st) : load_plugin v i n l s = (s1, Ret tt) -> exists o cl ou g, s1 = w_out ou (w_graph g (w_objs o (w_classes cl s))) /\ do_cmd (Load i n true) (p_graph s) = Ret g /\
    ((sm_get (k_plugins (p_graph s)) i <> None /\ o = p_objs s) \/ (sm_get (k_plugins (p_graph s)) i = None /\ exists p, v_make v n i = Some p /\ o = sm_put (p_objs s) i p)).
  Proof.
    intros H. unfold load_plugin in H. unfold seq at 1, get in H. destruct (sm_get (k_plugins (p_graph s)) i) eqn:G.
    { injection H as <-. exists (p_objs s), (p_classes s), (p_out s), (p_graph s). split; [destruct s; reflexivity|]. split; [cbn; unfold load; rewrite G; reflexivity|]. left. split; [discriminate|reflexivity]. }
    apply seq_ret in H as (oo & s0 & LC & H). assert (X : exists cl, s0 = w_classes cl s /\ (forall p, oo = Some p -> v_make v n i = Some p)).
    { unfold load_class in LC. unfold seq at 1, get in LC. destruct (existsb (String.eqb n) (p_classes s)) eqn:EX.
      - cbn in LC. unfold seq, get in LC. cbn in LC. rewrite EX in LC. injection LC as <- <-. exists (p_classes s). split; [destruct s; reflexivity|auto].
      - destruct (v_dlopen v l) as [|cl]; [discriminate|]. unfold seq, get, change in LC. cbn in LC. injection LC as <- <-. exists (cl ++ p_classes s)%list. split; [reflexivity|]. intros p. destruct (existsb (String.eqb n) (cl ++ p_classes s)); [auto|discriminate]. }
    destruct X as (cl & -> & MK). destruct oo as [p|]; [|discriminate]. destruct (v_meta v i); [discriminate|]. unfold seq at 1, change in H. apply seq_ret in H as ([] & s2 & W & H). apply wire_ret in W as (g & D & ->). injection H as <-. do 4 eexists. split; [reflexivity|]. split; [exact D|]. right. split; [reflexivity|]. exists p. split; [apply MK; reflexivity|reflexivity].
  Qed.
  (** What becomes of the plugins when [a] is done *)
  Definition objs_after (a : list cmd) (s : st) (o : smap P) : Prop :=
    (a = [] /\ o = p_objs s) \/ exists i n, a = [Load i n true] /\ ((sm_get (k_plugins (p_graph s)) i <> None /\ o = p_objs s) \/ (sm_get (k_plugins (p_graph s)) i = None /\ exists p, v_make v n i = Some p /\ o = sm_put (p_objs s) i p)).
  Lemma done_one c g g1 : do_cmd c g = Ret g1 -> all_done [c] g g1. Proof. intros H. econstructor; [exact H|constructor]. Qed.
  Lemma done_app a b g g1 g2 : all_done a g g1 -> all_done b g1 g2 -> all_done (a ++ b) g g2. Proof. induction 1; intros H2; [exact H2|]. cbn. econstructor; [eassumption|auto]. Qed.
  Lemma lacks_part x q y l : at_path q x = Some y -> (exists k, In k l /\ at_path [k] y = None) -> lacks x q l.
  Proof. intros A (k & I & N). exists k. split; [exact I|]. apply no_lead. rewrite (at_app q [k] x y A). exact N. Qed.
  Lemma lacks_none x q l k : In k l -> at_path q x = None -> lacks x q l. Proof. intros I N. exists k. split; [exact I|]. apply no_lead_more, N. Qed.
  Lemma at_below q k x y : at_path q x = None -> at_path (q ++ [k]) x = Some y -> False. Proof. intros N A. apply (no_lead_more q [k] x N y). apply leads_at, A. Qed.
  Lemma load_section x y m (s s1 : st) : at_path ["plugin"] x = Some y -> params_of m = Some y -> plugin_load v m s = (s1, Ret tt) ->
    exists a g o cl ou, asks_load x a /\ all_done a (p_graph s) g /\ objs_after a s o /\ s1 = w_out ou (w_graph g (w_objs o (w_classes cl s))).
  Proof.
    intros A E H. unfold plugin_load in H. apply (has_ret ["load"] m y) in H as [(z & Z & H)|(Z & H)]; [| |ok_path|exact E].
    2:{ injection H as <-. exists [], (p_graph s), (p_objs s), (p_classes s), (p_out s). split; [|split; [constructor|split; [left; auto|destruct s; reflexivity]]]. apply al_none. apply (lacks_none _ _ _ "name"); [left; reflexivity|]. rewrite (at1 _ _ _ _ A). exact Z. }
    cbn [when] in H. apply (part_ret "load" m y) in H as (z' & Z' & H); [|name..|exact E]. rewrite Z in Z'. injection Z' as <-. set (c := msg_of_value z TIllegal VIllegal true (v_now v)) in H. assert (PC : params_of c = Some z) by reflexivity.
    assert (AZ : at_path ["plugin"; "load"] x = Some z) by (rewrite (at1 _ _ _ _ A); exact Z).
    apply (all_ret _ c z) in H as [(Y & H)|(N & H)]; [| |names|exact PC].
    2:{ injection H as <-. exists [], (p_graph s), (p_objs s), (p_classes s), (p_out s). split; [|split; [constructor|split; [left; auto|destruct s; reflexivity]]]. apply al_none. apply (lacks_part _ _ z); assumption. }
    cbn [when] in H. apply (str_ret ["index"] c z) in H as (i & I & H); [|ok_path|exact PC]. apply (str_ret ["name"] c z) in H as (n & N & H); [|ok_path|exact PC]. apply (str_ret ["library"] c z) in H as (l & L & H); [|ok_path|exact PC].
    apply load_ret in H as (o & cl & ou & g & -> & D & OB). exists [Load (cstr i) (cstr n) true], g, o, cl, ou. split; [|split; [apply done_one, D|split; [right; eauto|reflexivity]]].
    apply al_load with (b := l); apply leads_at; rewrite (at2 _ _ _ _ _ AZ); assumption.
  Qed.
  Lemma connect_section x y m (s s1 : st) : at_path ["plugin"] x = Some y -> params_of m = Some y -> plugin_connect v m s = (s1, Ret tt) ->
    exists a g, asks_connect x a /\ all_done a (p_graph s) g /\ s1 = w_graph g s.
  Proof.
    intros A E H. unfold plugin_connect in H. apply (has_ret ["connect"] m y) in H as [(z & Z & H)|(Z & H)]; [| |ok_path|exact E].
    2:{ injection H as <-. exists [], (p_graph s). split; [|split; [constructor|destruct s; reflexivity]]. apply ac_none. apply (lacks_none _ _ _ "connection"); [left; reflexivity|]. rewrite (at1 _ _ _ _ A). exact Z. }
    cbn [when] in H. apply (part_ret "connect" m y) in H as (z' & Z' & H); [|name..|exact E]. rewrite Z in Z'. injection Z' as <-. set (c := msg_of_value z TIllegal VIllegal true (v_now v)) in H. assert (PC : params_of c = Some z) by reflexivity.
    assert (AZ : at_path ["plugin"; "connect"] x = Some z) by (rewrite (at1 _ _ _ _ A); exact Z).
    apply (all_ret _ c z) in H as [(Y & H)|(N & H)]; [| |names|exact PC].
    2:{ injection H as <-. exists [], (p_graph s). split; [|split; [constructor|destruct s; reflexivity]]. apply ac_none. apply (lacks_part _ _ z); assumption. }
    cbn [when] in H. apply (str_ret ["index"] c z) in H as (i & I & H); [|ok_path|exact PC]. apply (str_ret ["connection"] c z) in H as (n & N & H); [|ok_path|exact PC].
    apply wire_ret in H as (g & D & ->). exists [Connect (cstr i) (cstr n)], g. split; [|split; [apply done_one, D|reflexivity]].
    apply ac_connect; apply leads_at; rewrite (at2 _ _ _ _ _ AZ); assumption.
  Qed.
  Lemma disconnect_section x y m (s s1 : st) : at_path ["plugin"] x = Some y -> params_of m = Some y -> plugin_disconnect v m s = (s1, Ret tt) ->
    exists a g, asks_disconnect x a /\ all_done a (p_graph s) g /\ s1 = w_graph g s.
  Proof.
    intros A E H. unfold plugin_disconnect in H. apply (has_ret ["disconnect"] m y) in H as [(z & Z & H)|(Z & H)]; [| |ok_path|exact E].
    2:{ injection H as <-. exists [], (p_graph s). assert (AN : at_path ["plugin"; "disconnect"] x = None) by (rewrite (at1 _ _ _ _ A); exact Z). split; [|split; [constructor|destruct s; reflexivity]]. apply ad_none; [apply (lacks_none _ _ _ "connection"); [left; reflexivity|exact AN]|]. intros t L. apply leads_at in L. congruence. }
    cbn [when] in H. assert (AZ : at_path ["plugin"; "disconnect"] x = Some z) by (rewrite (at1 _ _ _ _ A); exact Z).
    assert (SEC : forall B (f : msg -> M B), seq (section v m "disconnect") f s = f (msg_of_value z TIllegal VIllegal true (v_now v)) s).
    { intros B f. unfold section, seq, lift, get_ref, get_raw. rewrite E. change (pieces "disconnect") with ["disconnect"]. cbn. cbn in Z. destruct y; try discriminate. destruct (find_member "disconnect" l); [injection Z as ->; reflexivity|discriminate]. }
    rewrite SEC in H. set (c := msg_of_value z TIllegal VIllegal true (v_now v)) in H. assert (PC : params_of c = Some z) by reflexivity.
    destruct ((h <- has_all c ["connection"; "index"] ;; when h (i <- str_param c "index" ;; n <- str_param c "connection" ;; wire (Disconnect i n))) s) as (s0, r) eqn:X.
    assert (STR : forall s0, (i <- str_param m "disconnect" ;; when (String.eqb i "all") (wire DisconnectAll)) s0 = (s1, Ret tt) -> s0 = s -> exists a g, asks_disconnect x a /\ all_done a (p_graph s) g /\ s1 = w_graph g s).
    { intros s2 H2 ->. apply (str_ret ["disconnect"] m y) in H2 as (t & T & H2); [|ok_path|exact E]. assert (z = JStr t) as -> by congruence. destruct (String.eqb_spec (cstr t) "all") as [AL|AL]; cbn [when] in H2.
      - apply wire_ret in H2 as (g & D & ->). exists [DisconnectAll], g. split; [apply (ad_all x t); [apply leads_at, AZ|exact AL]|]. split; [apply done_one, D|reflexivity].
      - injection H2 as <-. exists [], (p_graph s). split; [|split; [constructor|destruct s; reflexivity]]. apply ad_none; [apply (lacks_part _ _ (JStr t) _ AZ); exists "connection"; split; [left; reflexivity|reflexivity]|]. intros u L. apply leads_at in L. congruence. }
    assert (NS : forall t, z = JStr t -> r <> Ret tt). { intros t ->. unfold seq at 1, has_all, seq at 1, lift, has_param in X. rewrite PC in X. cbn in X. injection X as _ <-. discriminate. }
    destruct r as [[]|e|]; [injection H as ->; specialize (fun t Z => NS t Z eq_refl)|destruct e as [[e|w|]|]; try discriminate; destruct e; try discriminate|discriminate].
    { apply (all_ret _ c z) in X as [(Y & X)|(N & X)]; [| |names|exact PC].
      2:{ injection X as <-. exists [], (p_graph s). split; [|split; [constructor|destruct s; reflexivity]]. apply ad_none; [apply (lacks_part _ _ z); assumption|]. intros t L AL. apply leads_at in L. assert (z = JStr t) as -> by congruence. apply (NS t). reflexivity. }
      cbn [when] in X. apply (str_ret ["index"] c z) in X as (i & I & X); [|ok_path|exact PC]. apply (str_ret ["connection"] c z) in X as (n & N & X); [|ok_path|exact PC].
      apply wire_ret in X as (g & D & ->). exists [Disconnect (cstr i) (cstr n)], g. split; [|split; [apply done_one, D|reflexivity]].
      apply ad_disconnect; apply leads_at; rewrite (at2 _ _ _ _ _ AZ); assumption. }
    all: apply (STR s0 H).
    all: apply all_cases in X as [(b & X)|(-> & _)]; [|reflexivity]; apply when_cases in X as [(_ & X)|(-> & _)]; [|reflexivity]; apply lift_cases in X as [(i & _ & X)|(-> & _)]; [|reflexivity]; apply lift_cases in X as [(n & _ & X)|(-> & _)]; [|reflexivity].
    all: unfold wire in X; destruct (do_cmd _ (p_graph s)); inversion X; reflexivity.
  Qed.
  Lemma set_plugin_ret m x (s s1 : st) : params_of m = Some x -> set_plugin v m s = (s1, Ret tt) ->
    exists a b c g o cl ou, asks_load x a /\ asks_connect x b /\ asks_disconnect x c /\ all_done (a ++ b ++ c) (p_graph s) g /\ objs_after a s o /\ s1 = w_out ou (w_graph g (w_objs o (w_classes cl s))).
  Proof.
    intros E H. unfold set_plugin in H. apply (has_ret ["plugin"] m x) in H as [(z & Z & H)|(Z & H)]; [| |ok_path|exact E].
    2:{ injection H as <-. exists [], [], [], (p_graph s), (p_objs s), (p_classes s), (p_out s). assert (N : forall k q l, In k l -> lacks x ["plugin"; q] l) by (intros k q l I; apply (lacks_none _ _ _ k I), (at_one_none _ _ _ Z)).
      split; [apply al_none, (N "name"); left; reflexivity|]. split; [apply ac_none, (N "connection"); left; reflexivity|]. split; [apply ad_none; [apply (N "connection"); left; reflexivity|]; intros t L; apply leads_at in L; rewrite (at_one_none _ _ _ Z) in L; discriminate|].
      split; [constructor|]. split; [left; auto|destruct s; reflexivity]. }
    cbn [when] in H. apply (part_ret "plugin" m x) in H as (z' & Z' & H); [|name..|exact E]. rewrite Z in Z'. injection Z' as <-. unfold configure_plugin in H. apply seq_ret in H as ([] & s2 & H1 & H). apply seq_ret in H as ([] & s3 & H2 & H3).
    apply (load_section x z) in H1 as (a & g1 & o & cl & ou & A & D1 & OB & ->); [|exact Z|reflexivity]. apply (connect_section x z) in H2 as (b & g2 & B & D2 & ->); [|exact Z|reflexivity]. apply (disconnect_section x z) in H3 as (c & g3 & C & D3 & ->); [|exact Z|reflexivity].
    exists a, b, c, g3, o, cl, ou. do 3 (split; [assumption|]). split; [|split; [exact OB|reflexivity]]. eapply done_app; [exact D1|]. eapply done_app; [exact D2|exact D3].
  Qed.
  Lemma set_receiver_ret m x (s s1 : st) : params_of m = Some x -> set_receiver v m s = (s1, Ret tt) -> exists d g, asks_receiver x d /\ all_done d (p_graph s) g /\ s1 = w_graph g s.
  Proof.
    intros E H. unfold set_receiver in H. apply (has_ret ["fr_setup"] m x) in H as [(z & Z & H)|(Z & H)]; [| |ok_path|exact E].
    2:{ injection H as <-. exists [], (p_graph s). split; [|split; [constructor|destruct s; reflexivity]]. apply ar_none. apply (lacks_none _ _ _ "fr_release_cnxn"); [left; reflexivity|exact Z]. }
    cbn [when] in H. apply (part_ret "fr_setup" m x) in H as (z' & Z' & H); [|name..|exact E]. rewrite Z in Z'. injection Z' as <-. set (c := msg_of_value z TIllegal VIllegal true (v_now v)) in H. assert (PC : params_of c = Some z) by reflexivity.
    apply (all_ret _ c z) in H as [(Y & H)|(N & H)]; [| |names|exact PC].
    2:{ injection H as <-. exists [], (p_graph s). split; [|split; [constructor|destruct s; reflexivity]]. apply ar_none. apply (lacks_part _ _ z); assumption. }
    cbn [when] in H. apply (str_ret ["fr_release_cnxn"] c z) in H as (p & I & H); [|ok_path|exact PC]. apply (str_ret ["fr_ready_cnxn"] c z) in H as (q & N & H); [|ok_path|exact PC].
    exists [Setup (cstr p) (cstr q)]. unfold setup_receiver, seq at 1, get in H. assert (X : exists g, do_cmd (Setup (cstr p) (cstr q)) (p_graph s) = Ret g /\ s1 = w_graph g s).
    { destruct (k_shm (p_graph s)) eqn:K; [destruct (String.eqb (cstr p) (fst (k_ends (p_graph s))) && String.eqb (cstr q) (snd (k_ends (p_graph s)))) eqn:EQ|].
      - injection H as <-. exists (p_graph s). split; [cbn; unfold setup; rewrite K, EQ; reflexivity|destruct s; reflexivity].
      - destruct (v_shm v (cstr p) (cstr q)); [discriminate|]. apply wire_ret, H.
      - destruct (v_shm v (cstr p) (cstr q)); [discriminate|]. apply wire_ret, H. }
    destruct X as (g & D & ->). exists g. split; [|split; [apply done_one, D|reflexivity]]. apply ar_setup; apply leads_at; rewrite (at1 _ _ _ _ Z); assumption.
  Qed.

  (** ** Loops over the plugins *)
  Lemma touch_ret i f (s s1 : st) : touch i f s = (s1, Ret tt) -> s1 = match sm_get (p_objs s) i with Some o => w_objs (sm_put (p_objs s) i (f o)) s | None => s end.
  Proof. unfold touch, call. destruct (sm_get (p_objs s) i); intros H; injection H as <-; destruct s; reflexivity. Qed.
  Lemma clear_ret m x (s s1 : st) : sm_ok (p_objs s) -> params_of m = Some x -> clear_errors v m s = (s1, Ret tt) -> exists o, s1 = w_objs o s /\ sm_ok o /\
    (((exists y, leads ["clear_errors"] x y) /\ forall i, sm_get o i = option_map (v_clear v) (sm_get (p_objs s) i)) \/ ((forall y, ~ leads ["clear_errors"] x y) /\ o = p_objs s)).
  Proof.
    intros OK E H. unfold clear_errors in H. apply (has_ret ["clear_errors"] m x) in H as [(z & Z & H)|(Z & H)]; [| |ok_path|exact E].
    2:{ injection H as <-. exists (p_objs s). split; [destruct s; reflexivity|]. split; [exact OK|]. right. split; [apply no_lead, Z|reflexivity]. }
    cbn [when] in H. unfold each_plugin, seq at 1, get in H. assert (X : forall l (s s1 : st), sm_ok (p_objs s) -> NoDup l -> each l (fun i => touch i (v_clear v)) s = (s1, Ret tt) -> exists o, s1 = w_objs o s /\ sm_ok o /\ forall i, sm_get o i = if in_dec string_dec i l then option_map (v_clear v) (sm_get (p_objs s) i) else sm_get (p_objs s) i).
    { clear. induction l as [|k l IH]; intros s s1 OK ND H; [injection H as <-; exists (p_objs s); split; [destruct s; reflexivity|split; [exact OK|reflexivity]]|]. inversion ND as [|? ? NI ND']; subst. cbn [each] in H. apply seq_ret in H as ([] & s2 & T & H). apply touch_ret in T.
      assert (OK2 : sm_ok (p_objs s2)) by (rewrite T; destruct (sm_get (p_objs s) k); [cbn; apply sm_put_ok, OK|exact OK]). destruct (IH s2 s1 OK2 ND' H) as (o & -> & OK3 & G). exists o. split; [rewrite T; destruct (sm_get (p_objs s) k); reflexivity|]. split; [exact OK3|]. intros i. rewrite G.
      assert (G2 : sm_get (p_objs s2) i = if string_dec i k then option_map (v_clear v) (sm_get (p_objs s) i) else sm_get (p_objs s) i).
      { rewrite T. destruct (string_dec i k) as [->|N]; [destruct (sm_get (p_objs s) k) eqn:GK; cbn; [rewrite sm_get_put, String.eqb_refl; reflexivity|rewrite GK; reflexivity]|]. destruct (sm_get (p_objs s) k); [|reflexivity]. cbn. rewrite sm_get_put. apply String.eqb_neq in N. rewrite N. reflexivity. }
      rewrite G2. destruct (string_dec i k) as [->|N].
      - destruct (in_dec string_dec k l); [contradiction|]. destruct (in_dec string_dec k (k :: l)) as [|X]; [reflexivity|destruct X; left; reflexivity].
      - destruct (in_dec string_dec i l), (in_dec string_dec i (k :: l)) as [X|X]; try reflexivity; [destruct X; right; assumption|destruct X; [congruence|contradiction]]. }
    destruct (X _ s s1 OK (sm_nodup _ OK) H) as (o & -> & OK2 & G). exists o. split; [reflexivity|]. split; [exact OK2|]. left. split; [exists z; apply leads_at, Z|]. intros i. rewrite G. destruct (in_dec string_dec i _) as [|N]; [reflexivity|]. destruct (sm_get (p_objs s) i) as [p|] eqn:GI; [|reflexivity]. destruct N. eapply fst_in. exact GI.
  Qed.
  Lemma pass_ret m x (s s1 : st) : sm_ok (p_objs s) -> params_of m = Some x -> g_type m = TCmd -> g_val m = VConfigure -> pass_on v m s = (s1, Ret tt) -> exists o r, s1 = w_reply r (w_objs o s) /\ sm_ok o /\
    forall i, no_slash i -> no_nul i -> match sm_get (p_objs s) i with None => sm_get o i = None | Some p => exists p1, sm_get o i = Some p1 /\ section_given v x i p p1 end.
  Proof.
    intros OK E TY VA H. unfold pass_on, each_plugin, seq at 1, get in H. set (body := fun i => h <- lift (has_param m i) ;; when h (x0 <- lift (get_ref m i) ;; call i (fun o r => v_configure v o (msg_of_value x0 (g_type m) (g_val m) true (v_now v)) r))) in H.
    assert (STEP : forall i (s s1 : st), sm_ok (p_objs s) -> body i s = (s1, Ret tt) -> exists o r, s1 = w_reply r (w_objs o s) /\ sm_ok o /\ (forall j, j <> i -> sm_get o j = sm_get (p_objs s) j) /\ (sm_get (p_objs s) i = None -> sm_get o i = None) /\ (no_slash i -> no_nul i -> forall p, sm_get (p_objs s) i = Some p -> exists p1, sm_get o i = Some p1 /\ section_given v x i p p1)).
    { clear s s1 OK H. intros i s s1 OK H. unfold body in H. apply seq_ret in H as (h & s0 & HH & H). unfold lift in HH. destruct (has_param m i) as [h0| |] eqn:HP; try discriminate. injection HH as <- ->. destruct h; cbn [when] in H.
      2:{ injection H as <-. exists (p_objs s), (p_reply s). split; [destruct s; reflexivity|]. split; [exact OK|]. split; [reflexivity|]. split; [auto|]. intros S N p G. exists p. split; [exact G|]. right. split; [|reflexivity]. apply no_lead, (has_none m x i E HP S N). }
      apply seq_ret in H as (y & s0 & HH & H). unfold lift in HH. destruct (get_ref m i) as [y0| |] eqn:GR; try discriminate. injection HH as <- ->. unfold call in H. destruct (sm_get (p_objs s) i) as [p|] eqn:G.
      2:{ injection H as <-. exists (p_objs s), (p_reply s). split; [destruct s; reflexivity|]. split; [exact OK|]. split; [reflexivity|]. split; [auto|]. discriminate. }
      destruct (v_configure v p (msg_of_value y (g_type m) (g_val m) true (v_now v)) (p_reply s)) as ((p1, r), rr) eqn:VC. injection H as <- HR. destruct rr as [[]| |]; try discriminate. exists (sm_put (p_objs s) i p1), r. split; [reflexivity|]. split; [apply sm_put_ok, OK|]. split; [intros j N; rewrite sm_get_put; apply String.eqb_neq in N; rewrite N; reflexivity|]. split; [discriminate|].
      intros S N p0 E0. injection E0 as <-. exists p1. split; [rewrite sm_get_put, String.eqb_refl; reflexivity|]. left. exists y, (msg_of_value y (g_type m) (g_val m) true (v_now v)), (p_reply s). split; [apply leads_at, (part_at m x i y E S N GR)|]. split; [apply (holds_part _ y); reflexivity|]. split; [exact TY|]. split; [exact VA|]. rewrite VC. reflexivity. }
    assert (X : forall l (s s1 : st), sm_ok (p_objs s) -> NoDup l -> each l body s = (s1, Ret tt) -> exists o r, s1 = w_reply r (w_objs o s) /\ sm_ok o /\ (forall j, ~ In j l -> sm_get o j = sm_get (p_objs s) j) /\ forall i, In i l -> no_slash i -> no_nul i -> match sm_get (p_objs s) i with None => sm_get o i = None | Some p => exists p1, sm_get o i = Some p1 /\ section_given v x i p p1 end).
    { clear s s1 OK H. induction l as [|k l IH]; intros s s1 OK ND H; [injection H as <-; exists (p_objs s), (p_reply s); split; [destruct s; reflexivity|]; split; [exact OK|]; split; [reflexivity|intros i []]|]. inversion ND as [|? ? NI ND']; subst. cbn [each] in H. apply seq_ret in H as ([] & s2 & T & H).
      destruct (STEP k s s2 OK T) as (o & r & -> & OK2 & OT & NO & HK). destruct (IH (w_reply r (w_objs o s)) s1 OK2 ND' H) as (o' & r' & -> & OK3 & OT' & HL). exists o', r'. split; [reflexivity|]. split; [exact OK3|]. cbn [p_objs w_objs w_reply] in OT', HL. split.
      - intros j N. rewrite OT' by (intros I; apply N; right; exact I). apply OT. intros ->. apply N. left. reflexivity.
      - intros i I S N. destruct (string_dec i k) as [->|D].
        + rewrite OT' by exact NI. destruct (sm_get (p_objs s) k) as [p|] eqn:G; [apply HK; auto|apply NO; reflexivity].
        + destruct I as [<-|I]; [congruence|]. specialize (HL i I S N). rewrite OT in HL by exact D. exact HL. }
    destruct (X _ s s1 OK (sm_nodup _ OK) H) as (o & r & -> & OK2 & OT & HL). exists o, r. split; [reflexivity|]. split; [exact OK2|]. intros i S N. destruct (in_dec string_dec i (map fst (p_objs s))) as [I|I]; [apply HL; assumption|]. rewrite OT by exact I. destruct (sm_get (p_objs s) i) as [p|] eqn:G; [|reflexivity]. destruct I. eapply fst_in, G.
  Qed.
  (** The type of the reply: refused if a plugin refuses, unchanged if none touches it *)
  Lemma pass_type m x (s s1 : st) : sm_ok (p_objs s) -> params_of m = Some x -> g_type m = TCmd -> g_val m = VConfigure -> pass_on v m s = (s1, Ret tt) ->
    ((forall i p, sm_get (p_objs s) i = Some p -> no_slash i /\ no_nul i /\ forall y m r, leads [i] x y -> holds m [] y -> g_type m = TCmd -> g_val m = VConfigure -> snd (v_configure v p m r) = Ret tt -> g_type (snd (fst (v_configure v p m r))) = g_type r) -> g_type (p_reply s1) = g_type (p_reply s)) /\
    (polite v -> g_type (p_reply s) = TNack \/ (exists i p y, sm_get (p_objs s) i = Some p /\ no_slash i /\ no_nul i /\ leads [i] x y /\ forall m r, holds m [] y -> g_type m = TCmd -> g_val m = VConfigure -> snd (v_configure v p m r) = Ret tt -> g_type (snd (fst (v_configure v p m r))) = TNack) -> g_type (p_reply s1) = TNack).
  Proof.
    intros OK E TY VA H. unfold pass_on, each_plugin, seq at 1, get in H. set (body := fun i => h <- lift (has_param m i) ;; when h (x0 <- lift (get_ref m i) ;; call i (fun o r => v_configure v o (msg_of_value x0 (g_type m) (g_val m) true (v_now v)) r))) in H.
    assert (STEP : forall i (s s1 : st), body i s = (s1, Ret tt) -> (forall j, j <> i -> sm_get (p_objs s1) j = sm_get (p_objs s) j) /\
      (forall p, sm_get (p_objs s) i = Some p -> no_slash i -> no_nul i -> (forall y m r, leads [i] x y -> holds m [] y -> g_type m = TCmd -> g_val m = VConfigure -> snd (v_configure v p m r) = Ret tt -> g_type (snd (fst (v_configure v p m r))) = g_type r) -> g_type (p_reply s1) = g_type (p_reply s)) /\
      (polite v -> g_type (p_reply s) = TNack \/ (exists p y, sm_get (p_objs s) i = Some p /\ no_slash i /\ no_nul i /\ leads [i] x y /\ forall m r, holds m [] y -> g_type m = TCmd -> g_val m = VConfigure -> snd (v_configure v p m r) = Ret tt -> g_type (snd (fst (v_configure v p m r))) = TNack) -> g_type (p_reply s1) = TNack)).
    { clear s s1 OK H. intros i s s1 H. unfold body in H. apply seq_ret in H as (h & s0 & HH & H). unfold lift in HH. destruct (has_param m i) as [h0| |] eqn:HP; try discriminate. injection HH as <- ->. destruct h; cbn [when] in H.
      2:{ injection H as <-. split; [reflexivity|]. split; [reflexivity|]. intros _ [T|(p & y & _ & S & N & L & _)]; [exact T|]. apply leads_at in L. rewrite (has_none m x i E HP S N) in L. discriminate. }
      apply seq_ret in H as (y & s0 & HH & H). unfold lift in HH. destruct (get_ref m i) as [y0| |] eqn:GR; try discriminate. injection HH as <- ->. unfold call in H. destruct (sm_get (p_objs s) i) as [p|] eqn:G.
      2:{ injection H as <-. split; [reflexivity|]. split; [reflexivity|]. intros _ [T|(p & z & X & _)]; [exact T|discriminate]. }
      destruct (v_configure v p (msg_of_value y (g_type m) (g_val m) true (v_now v)) (p_reply s)) as ((p1, r), rr) eqn:VC. injection H as <- HR. destruct rr as [[]| |]; try discriminate. cbn [p_reply w_reply p_objs w_objs].
      assert (HM : holds (msg_of_value y (g_type m) (g_val m) true (v_now v)) [] y) by (apply (holds_part _ y); reflexivity). split; [|split].
      - intros j N. rewrite sm_get_put. apply String.eqb_neq in N. rewrite N. reflexivity.
      - intros p' E' S N K. injection E' as <-. specialize (K y _ (p_reply s) (proj2 (leads_at _ _ _) (part_at m x i y E S N GR)) HM TY VA). rewrite VC in K. apply K. reflexivity.
      - intros PO [T|(p' & z & E' & S & N & L & K)].
        + destruct (PO p (p_reply s)) as (K & _). specialize (K (msg_of_value y (g_type m) (g_val m) true (v_now v))). rewrite VC in K. destruct K as (_ & _ & [K|K]); [cbn in K; rewrite K; exact T|exact K].
        + injection E' as <-. apply leads_at in L. rewrite (part_at m x i y E S N GR) in L. injection L as <-. specialize (K _ (p_reply s) HM TY VA). rewrite VC in K. apply K. reflexivity. }
    assert (X : forall l (s s1 : st), NoDup l -> each l body s = (s1, Ret tt) ->
      ((forall i, In i l -> exists p, sm_get (p_objs s) i = Some p /\ no_slash i /\ no_nul i /\ forall y m r, leads [i] x y -> holds m [] y -> g_type m = TCmd -> g_val m = VConfigure -> snd (v_configure v p m r) = Ret tt -> g_type (snd (fst (v_configure v p m r))) = g_type r) -> g_type (p_reply s1) = g_type (p_reply s)) /\
      (polite v -> g_type (p_reply s) = TNack \/ (exists i p y, In i l /\ sm_get (p_objs s) i = Some p /\ no_slash i /\ no_nul i /\ leads [i] x y /\ forall m r, holds m [] y -> g_type m = TCmd -> g_val m = VConfigure -> snd (v_configure v p m r) = Ret tt -> g_type (snd (fst (v_configure v p m r))) = TNack) -> g_type (p_reply s1) = TNack)).
    { clear s s1 OK H. induction l as [|k l IH]; intros s s1 ND H; [injection H as <-; split; [reflexivity|]; intros _ [T|(i & _ & _ & [] & _)]; exact T|]. inversion ND as [|? ? NI ND']; subst. cbn [each] in H. apply seq_ret in H as ([] & s2 & T & H).
      destruct (STEP k s s2 T) as (OT & K1 & K2). destruct (IH s2 s1 ND' H) as (I1 & I2). split.
      - intros A. rewrite I1.
        + destruct (A k (or_introl eq_refl)) as (p & G & S & N & Q). apply (K1 p G S N Q).
        + intros i I. rewrite OT by (intros ->; contradiction). apply A. right. exact I.
      - intros PO A. apply (I2 PO). destruct A as [A|(i & p & y & [<-|I] & G & S & N & L & Q)]; [left; apply (K2 PO); left; exact A|left; apply (K2 PO); right; exists p, y; auto|].
        right. exists i, p, y. split; [exact I|]. split; [rewrite OT by (intros ->; contradiction); exact G|auto]. }
    destruct (X _ s s1 (sm_nodup _ OK) H) as (X1 & X2). split.
    - intros A. apply X1. intros i I. destruct (sm_get (p_objs s) i) as [p|] eqn:G; [exists p; split; [reflexivity|apply A, G]|]. apply in_map_iff in I as ((j, p) & <- & I). apply (sm_in_get _ _ _ OK) in I. cbn in G. congruence.
    - intros PO [A|(i & p & y & G & Q)]; apply (X2 PO); [left; exact A|right]. exists i, p, y. split; [eapply fst_in, G|auto].
  Qed.
  Lemma store_ret m x (s s1 : st) : params_of m = Some x -> store v m s = (s1, Ret tt) -> exists t, s1 = w_stored t s.
  Proof. intros E H. apply (store_cases v m x) in H as [->|(i & y & _ & _ & ->)]; [exists (p_stored s); destruct s; reflexivity|eexists; reflexivity|exact E]. Qed.
  Lemma run_none self m x (s s1 : st) : params_of m = Some x -> at_path ["execute"] x = None -> run_stored v self m s = (s1, Ret tt) -> s1 = s.
  Proof. intros E N H. unfold run_stored in H. apply (has_ret ["execute"] m x) in H as [(z & Z & _)|(_ & H)]; [congruence|injection H as <-; reflexivity|ok_path|exact E]. Qed.

  Lemma configured n m x (s s1 : st) : params_of m = Some x -> g_type m = TCmd -> g_val m = VConfigure -> at_path ["execute"] x = None -> sm_ok (p_objs s) -> configure v (S n) m s = (s1, Ret tt) ->
    text_set x ["hdf"; "master"] (p_master s) (p_master s1) /\ number_set x ["frames"] (limit_of (p_limit s)) (p_limit s) (p_limit s1) /\ number_set x ["debug_level"] (fun z => z) (p_debug s) (p_debug s1) /\
    text_set x ["ctrl_endpoint"] (p_ctrl s) (p_ctrl s1) /\ text_set x ["meta_endpoint"] (p_meta s) (p_meta s1) /\ p_total s1 = p_total s /\
    exists a l, asks_load x a /\ orders x l /\ all_done l (p_graph s) (p_graph s1) /\
      exists o1 o2, (((exists y, leads ["clear_errors"] x y) /\ forall i, sm_get o1 i = option_map (v_clear v) (sm_get (p_objs s) i)) \/ ((forall y, ~ leads ["clear_errors"] x y) /\ o1 = p_objs s)) /\
        objs_after a (w_objs o1 s) o2 /\ (forall i, no_slash i -> no_nul i -> match sm_get o2 i with None => sm_get (p_objs s1) i = None | Some p => exists p1, sm_get (p_objs s1) i = Some p1 /\ section_given v x i p p1 end) /\
        ((forall i p, sm_get o2 i = Some p -> no_slash i /\ no_nul i /\ forall y m r, leads [i] x y -> holds m [] y -> g_type m = TCmd -> g_val m = VConfigure -> snd (v_configure v p m r) = Ret tt -> g_type (snd (fst (v_configure v p m r))) = g_type r) -> g_type (p_reply s1) = g_type (p_reply s)) /\
        (polite v -> (exists i p y, sm_get o2 i = Some p /\ no_slash i /\ no_nul i /\ leads [i] x y /\ forall m r, holds m [] y -> g_type m = TCmd -> g_val m = VConfigure -> snd (v_configure v p m r) = Ret tt -> g_type (snd (fst (v_configure v p m r))) = TNack) -> g_type (p_reply s1) = TNack).
  Proof.
    intros E TY VA NX OK H. cbn [configure] in H. unfold configure_once in H.
    apply seq_ret in H as ([] & sa & H1 & H). apply (set_master_ret m x) in H1 as (t1 & -> & T1); [|exact E].
    apply seq_ret in H as ([] & sb & H1 & H). apply (clear_ret m x) in H1 as (o1 & -> & OK1 & T2); [|exact OK|exact E].
    apply seq_ret in H as ([] & sc & H1 & H). apply (set_frames_ret m x) in H1 as (t3 & -> & T3); [|exact E].
    apply seq_ret in H as ([] & sd & H1 & H). apply (inject_ret m x) in H1 as (l4 & ->); [|exact E].
    apply seq_ret in H as ([] & se & H1 & H). apply (set_debug_ret m x) in H1 as (t5 & -> & T5); [|exact E].
    apply seq_ret in H as ([] & sf & H1 & H). apply (set_ctrl_ret m x) in H1 as (t6 & b6 & l6 & -> & T6); [|exact E].
    apply seq_ret in H as ([] & sg & H1 & H). apply (set_meta_ret m x) in H1 as (t7 & b7 & l7 & -> & T7); [|exact E].
    apply seq_ret in H as ([] & sh & H1 & H). apply (set_plugin_ret m x) in H1 as (a & b & c & g & o2 & cl & ou & A & B & C & D & OB & ->); [|exact E].
    apply seq_ret in H as ([] & si & H1 & H). apply (set_receiver_ret m x) in H1 as (d & g2 & RD & D2 & ->); [|exact E].
    apply seq_ret in H as ([] & sj & H1 & H). apply (store_ret m x) in H1 as (t10 & ->); [|exact E].
    apply seq_ret in H as ([] & sk & H1 & H). apply (run_none _ m x) in H1 as ->; [|exact E|exact NX].
    assert (OK2 : sm_ok o2). { destruct OB as [(_ & ->)|(i & n0 & _ & [(_ & ->)|(_ & p & _ & ->)])]; [exact OK1..|apply sm_put_ok, OK1]. }
    match type of H with pass_on _ _ ?q = _ => destruct (pass_type m x q s1 OK2 E TY VA H) as (PT1 & PT2) end.
    apply (pass_ret m x) in H as (o3 & r & -> & OK3 & HL); [|exact OK2|exact E|exact TY|exact VA].
    cbn in *. do 6 (split; [assumption || reflexivity|]). exists a, (a ++ b ++ c ++ d). split; [exact A|]. split; [exists a, b, c, d; auto|]. split; [|exists o1, o2; split; [exact T2|]; split; [exact OB|]; split; [exact HL|]; split; [exact PT1|intros PO X; apply (PT2 PO); right; exact X]]. replace (a ++ b ++ c ++ d) with ((a ++ b ++ c) ++ d) by (rewrite <- !app_assoc; reflexivity). eapply done_app; eassumption.
  Qed.
End Settings.
