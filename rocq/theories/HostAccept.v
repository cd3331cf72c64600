(** Messages with sections for plugins that are accepted. *)
From Coq Require Import String Ascii.
From Verif Require Import Base StrOrder PluginModel CtrlModel JsonModel JsonSpec JsonProofs JsonProps JsonDoubleModel CfgModel CfgProofs CfgReply PrcModel PrcSpec PrcMoves PrcExec PrcReply PrcAsk PrcLive PrcSetSpec PrcSet HostSpec.
Local Open Scope string_scope.
Local Open Scope list_scope.

Section Accept.
  Context {P : Type}.
  Variable v : env P.
  Notation st := (prc P).
  Definition like (r r1 : msg) : Prop := roomy r1 /\ g_type r1 = g_type r /\ g_val r1 = g_val r /\ g_id r1 = g_id r.
  Lemma pass_live m l (s : st) : params_of m = Some (JObj l) -> sm_ok (p_objs s) -> roomy (p_reply s) -> (forall i p, sm_get (p_objs s) i = Some p -> name_ok i /\ forall y, leads [i] (JObj l) y -> takes v p y) ->
    exists s1, pass_on v m s = (s1, Ret tt) /\ like (p_reply s) (p_reply s1).
  Proof.
    intros PX OK RO A. unfold pass_on, each_plugin, seq at 1, get.
    destruct (each_inv (fun _ s' => like (p_reply s) (p_reply s')) (fun i p => name_ok i /\ forall y, leads [i] (JObj l) y -> takes v p y) (fun i => h <- lift (has_param m i) ;; when h (x <- lift (get_ref m i) ;; call i (fun o r => v_configure v o (msg_of_value x (g_type m) (g_val m) true (v_now v)) r))) (map fst (p_objs s))) with (s := s) as (s1 & E & R).
    - intros i r p s0 _ _ R G (NO & T). unfold seq at 1, lift at 1. rewrite (has_go i m l NO PX). destruct (at_path [i] (JObj l)) as [y|] eqn:Y; cbn [when].
      + assert (GR : get_ref m i = Ret y). { destruct NO as (SL & NU). unfold get_ref, get_raw. rewrite PX, (pieces_no_slash _ SL). cbn. rewrite (cstr_id _ NU). cbn in Y. destruct (find_member i l); [injection Y as ->; reflexivity|discriminate]. }
        unfold seq, lift. rewrite GR. destruct (T y (proj2 (leads_at _ _ _) Y) (msg_of_value y (g_type m) (g_val m) true (v_now v)) (p_reply s0)) as (o1 & r1 & C & L1 & L2 & L3 & L4); [apply (holds_part _ y); reflexivity|exact (proj1 R)|].
        rewrite (call_ret i _ p s0 G) by (rewrite C; reflexivity). rewrite C. cbn [fst snd]. eexists. split; [reflexivity|]. split; [destruct R as (_ & R2 & R3 & R4); split; [exact L1|]; cbn; repeat split; congruence|]. intros j N. cbn. rewrite sm_get_put. apply String.eqb_neq in N. rewrite N. reflexivity.
      + exists s0. split; [reflexivity|]. split; [exact R|reflexivity].
    - apply sm_nodup, OK.
    - split; [exact RO|]. auto.
    - intros i I. destruct (sm_get (p_objs s) i) as [p|] eqn:G; [exists p; split; [reflexivity|apply A, G]|]. apply in_map_iff in I as ((j, p) & <- & I). apply (sm_in_get _ _ _ OK) in I. cbn in G. congruence.
    - exists s1. split; [exact E|exact R].
  Qed.
  Lemma skip_has {A} k m l (f : bool -> M P A) (s : st) : name_ok k -> params_of m = Some (JObj l) -> at_path [k] (JObj l) = None -> seq (lift (has_param m k)) f s = f false s.
  Proof. intros N E X. unfold seq, lift. rewrite (has_go k m l N E), X. reflexivity. Qed.
  Lemma configure_live n m x (s : st) : params_of m = Some x -> for_plugins x -> master_read x -> sm_ok (p_objs s) -> roomy (p_reply s) -> (forall i p, sm_get (p_objs s) i = Some p -> name_ok i /\ forall y, leads [i] x y -> takes v p y) ->
    exists s1, configure v (S n) m s = (s1, Ret tt) /\ like (p_reply s) (p_reply s1).
  Proof.
    intros PX ((l & ->) & RE) MR OK RO A.
    assert (RN : forall k, In k reserved -> at_path [k] (JObj l) = None). { intros k I. destruct (at_path [k] (JObj l)) as [y|] eqn:E; [|reflexivity]. destruct (RE k I y). apply leads_at, E. }
    assert (MA : exists t, set_master m s = (w_master t s, Ret tt)).
    { unfold set_master, seq at 1, lift, has_param. rewrite PX. change (pieces "hdf/master") with ["hdf"; "master"]. cbn [has_node]. change (cstr "hdf") with "hdf". change (cstr "master") with "master". destruct (find_member "hdf" l) as [h|] eqn:H; cbn [when].
      - destruct (MR h) as ((hl & ->) & MS); [apply leads_at; cbn; rewrite H; reflexivity|]. destruct (find_member "master" hl) as [z|] eqn:Z; cbn [when].
        + destruct (MS z) as (t & ->); [apply leads_at; cbn; rewrite Z; reflexivity|]. unfold seq, str_param, lift, get_param, get_raw. rewrite PX. change (pieces "hdf/master") with ["hdf"; "master"]. cbn [get_node]. change (cstr "hdf") with "hdf". change (cstr "master") with "master". rewrite H, Z. eexists. reflexivity.
        + exists (p_master s). destruct s; reflexivity.
      - exists (p_master s). destruct s; reflexivity. }
    destruct MA as (t & MA). cbn [configure]. unfold configure_once. unfold seq at 1. rewrite MA. set (s0 := w_master t s).
    assert (SK : forall {B} (a : M P unit) (f : unit -> M P B), a s0 = (s0, Ret tt) -> seq a f s0 = f tt s0) by (intros B a f E; unfold seq; rewrite E; reflexivity).
    assert (HK : forall k g, In k reserved -> name_ok k -> (h <- lift (has_param m k) ;; when h g) s0 = (s0, Ret tt)) by (intros k g I N; rewrite (skip_has k m l _ s0 N PX (RN k I)); reflexivity).
    assert (NK : forall k, In k reserved -> name_ok k). { intros k I. unfold reserved in I. cbn [In] in I. repeat destruct I as [<-|I]; try (split; intros X; vm_compute in X; repeat (destruct X as [X|X]; [discriminate|]); exact X). destruct I. }
    do 10 (rewrite SK by (unfold clear_errors, set_frames, inject, set_debug, set_ctrl, set_meta, set_plugin, set_receiver, store, run_stored; apply HK; [|apply NK]; unfold reserved; cbn [In]; tauto)).
    apply (pass_live m l s0); assumption.
  Qed.
End Accept.

