(** Loading a plugin that is loaded. *)
From Coq Require Import String Ascii.
From Verif Require Import Base StrOrder PluginModel CtrlModel JsonModel JsonSpec JsonProofs JsonProps JsonDoubleModel CfgModel CfgProofs CfgReply PrcModel PrcSpec PrcMoves PrcExec PrcReply PrcAsk PrcLive PrcSetSpec PrcSet HostSpec HostAccept.
Local Open Scope string_scope.
Local Open Scope list_scope.
Lemma only_plugin q y : q <> "plugin" -> at_path [q] (JObj [("plugin", y)]) = None.
Proof. intros D. cbn [at_path]. unfold find_member. cbn [find fst]. destruct (String.eqb_spec "plugin" q); [congruence|]. destruct (String.eqb_spec q "plugin"); [congruence|]. reflexivity. Qed.
Lemma pass_none {P} (v : env P) m l (s : prc P) : params_of m = Some (JObj l) -> all_plugins s (fun j _ => name_ok j /\ at_path [j] (JObj l) = None) -> pass_on v m s = (s, Ret tt).
Proof.
  intros PX A. unfold pass_on, each_plugin, seq at 1, get. assert (B : forall j, In j (map fst (p_objs s)) -> name_ok j /\ at_path [j] (JObj l) = None).
  { intros j I. destruct (sm_get (p_objs s) j) as [p|] eqn:G; [exact (A j p G)|]. exfalso. revert I G. clear. unfold sm_get. induction (p_objs s) as [|(k & p) r IH]; cbn; [intros []|]. intros [->|I]; [rewrite String.eqb_refl; discriminate|]. destruct (String.eqb j k); [discriminate|auto]. }
  revert B. generalize (map fst (p_objs s)). intros k B. induction k as [|j k IH]; [reflexivity|]. cbn [each]. destruct (B j (or_introl eq_refl)) as (N & X). unfold seq at 1. unfold seq at 1, lift. rewrite (has_go j m l N PX), X. cbn [when]. apply IH. intros y Y. apply B. right. exact Y.
Qed.
Lemma loaded_again {P} (v : env P) n c te i k b s : polite v -> carries v te (load_again i k b) -> named s [] -> matched s -> sm_get (p_objs s) (cstr i) <> None ->
  all_plugins s (fun j _ => j <> "plugin") ->
  exists s1 d, handle_ctrl v (S n) c te s = (s1, Ret tt) /\ replies c d s s1 /\ says d "msg_type" (JStr "ack") /\ p_objs s1 = p_objs s /\ p_graph s1 = p_graph s.
Proof.
  intros PO C (OK & NA) MT0 G NP. destruct (carried v te _ C) as (m & MT & T & V & PX). destruct (strict_id v te m MT) as (id & ID).
  assert (CF : configure v (S n) m (started v m s) = (started v m s, Ret tt)).
  { cbn [configure]. unfold configure_once. set (s0 := started v m s). assert (SK : forall {B} (a : M P unit) (f : unit -> M P B), a s0 = (s0, Ret tt) -> seq a f s0 = f tt s0) by (intros B a f E; unfold seq; rewrite E; reflexivity).
    assert (HK : forall q g, name_ok q -> q <> "plugin" -> (h <- lift (has_param m q) ;; when h g) s0 = (s0, Ret tt)). { intros q g N D. rewrite (skip_has q m _ _ s0 N PX); [reflexivity|]. apply only_plugin, D. }
    assert (NK : forall q, In q reserved -> name_ok q). { intros q I. unfold reserved in I. cbn [In] in I. repeat destruct I as [<-|I]; try (split; intros X; vm_compute in X; repeat (destruct X as [X|X]; [discriminate|]); exact X). destruct I. }
    rewrite SK. 2: { unfold set_master, seq at 1, lift, has_param. rewrite PX. reflexivity. }
    do 6 (rewrite SK by (unfold clear_errors, set_frames, inject, set_debug, set_ctrl, set_meta, set_plugin, set_receiver, store, run_stored; apply HK; [apply NK; unfold reserved; cbn [In]; tauto|discriminate])).
    rewrite SK.
    2: { unfold set_plugin, seq at 1, lift at 1. replace (has_param m "plugin") with (Ret (E := ipcexc) true) by (unfold has_param; rewrite PX; reflexivity). cbn [when].
      unfold section at 1, seq at 1, seq at 1, lift at 1. replace (get_ref m "plugin") with (Ret (E := ipcexc) (JObj [("load", JObj [("name", JStr k); ("index", JStr i); ("library", JStr b)])])) by (unfold get_ref, get_raw; rewrite PX; reflexivity).
      unfold ret at 1. set (cm := msg_of_value _ _ _ _ _). assert (PC : params_of cm = Some (JObj [("load", JObj [("name", JStr k); ("index", JStr i); ("library", JStr b)])])) by reflexivity. clearbody cm.
      unfold configure_plugin. unfold seq at 1, plugin_load, seq at 1, lift at 1. replace (has_param cm "load") with (Ret (E := ipcexc) true) by (unfold has_param; rewrite PC; reflexivity). cbn [when].
      unfold section at 1, seq at 1, seq at 1, lift at 1. replace (get_ref cm "load") with (Ret (E := ipcexc) (JObj [("name", JStr k); ("index", JStr i); ("library", JStr b)])) by (unfold get_ref, get_raw; rewrite PC; reflexivity).
      unfold ret at 1. set (cl := msg_of_value _ _ _ _ _). assert (PL : params_of cl = Some (JObj [("name", JStr k); ("index", JStr i); ("library", JStr b)])) by reflexivity. clearbody cl.
      replace (has_all cl ["name"; "index"; "library"]) with (ret (P := P) true). 2: { cbn [has_all]. unfold seq, lift, has_param. rewrite PL. reflexivity. }
      assert (ST : forall q t, find_member q [("name", JStr k); ("index", JStr i); ("library", JStr b)] = Some (JStr t) -> name_ok q -> str_param (P := P) cl q = ret (cstr t)).
      { intros q t F (N1 & N2). unfold str_param, get_param, get_raw. rewrite PL, (pieces_no_slash _ N1). cbn [get_node]. rewrite (cstr_id _ N2), F. reflexivity. }
      assert (NI : forall q, In q ["index"; "name"; "library"] -> name_ok q) by (intros q I; repeat destruct I as [<-|I]; try (split; intros X; vm_compute in X; repeat (destruct X as [X|X]; [discriminate|]); exact X); destruct I).
      rewrite (ST "index" i), (ST "name" k), (ST "library" b) by (try reflexivity; apply NI; cbn; auto). unfold seq at 1 2 3 4 5, ret at 1 2 3 4. cbn [when]. unfold load_plugin, seq at 1, get.
      destruct (sm_get (k_plugins (p_graph s0)) (cstr i)) as [q|] eqn:Q; [|exfalso; apply G; apply (proj2 (proj2 MT0 (cstr i))); exact Q]. unfold ret at 1.
      unfold plugin_connect, plugin_disconnect. assert (NC : forall q, In q ["connect"; "disconnect"] -> has_param cm q = Ret false) by (intros r I; unfold has_param; rewrite PC; repeat destruct I as [<-|I]; [reflexivity..|destruct I]).
      unfold lift. rewrite !NC by (cbn; auto). reflexivity. }
    do 3 (rewrite SK by (unfold clear_errors, set_frames, inject, set_debug, set_ctrl, set_meta, set_plugin, set_receiver, store, run_stored; apply HK; [apply NK; unfold reserved; cbn [In]; tauto|discriminate])).
    apply (pass_none v m _ s0 PX). intros j p J. destruct (NA j (fst_in _ _ _ J)) as ((SL & NU & _) & _). split; [split; assumption|]. apply only_plugin, (NP j p J). }
  pose proof (does_configure v (S n) m (started v m s)) as MV. rewrite CF in MV. cbn [fst] in MV. 
  destruct (handle_configure v PO (S n) c te m s _ _ MT T V CF) as [(_ & s3 & d & HC & EN & E3 & _)|(N & _)]; [|congruence]. exists s3, d. split; [exact HC|].
  assert (HI : g_id (p_reply (started v m s)) = Some id) by exact ID. destruct (encode_says _ _ _ _ HI EN) as (_ & _ & SY & _). subst s3. split; [exists []; split; [reflexivity|intros e []]|]. split; [exact SY|]. split; reflexivity.
Qed.
