(** The plugins of the distribution as the controller of the frame processor calls them. *)
From Coq Require Import String Ascii.
From Verif Require Import Base StrOrder PluginModel CtrlModel JsonModel JsonSpec JsonProofs PrcModel PrcSpec PrcExec PrcReply PrcSetSpec PrcSet PrcKeep CfgModel CfgSpec CfgProofs CfgReply FrameModel AdjModel LiveModel GapModel BloscModel KafkaModel PlaceModel AcqModel FwModel FwSpec FwcModel FwcSpec FwcProofs HostSpec HostAccept HostProofs PcfModel PcfSpec PcfProofs PcfFit PcfAsk PcfRestore PcfProps ShipSpec.
Local Open Scope string_scope.
Local Open Scope list_scope.

(** ** Type, value and id of the reply *)
Lemma heads_update lib : heads (blosc_update lib).
Proof. intros (g, p) r. unfold blosc_update. destruct (update_settings lib g p) as [[g1 p1] o]. apply head_refl. Qed.
Lemma heads_command lib f : heads (blosc_command lib f).
Proof. unfold blosc_command. apply heads_seq; [apply heads_set|intros _]. apply heads_seq; [apply heads_get|]. intros (g, p). destruct (String.eqb (bp_acq p) ""); [apply heads_update|apply heads_ret]. Qed.
Lemma heads_warn w : heads (warn w). Proof. destruct w as [(n, v)|]; [apply heads_put|apply heads_ret]. Qed.
Lemma heads_blosc lib m : heads (bloscx_configure lib m).
Proof. unfold bloscx_configure. repeat (apply heads_seq; [|intros _]); apply heads_setting; intros a; (apply heads_seq; [apply heads_warn|intros _; apply heads_command]). Qed.
Lemma heads_plugin w m : heads (plugin_configure w m).
Proof.
  intros s r. destruct s; cbn [plugin_configure]; try (match goal with |- context [let '(_, _) := ?t in _] => destruct t end; apply head_refl); [|apply head_refl].
  pose proof (heads_blosc (wo_blosc w) m (g, p) r) as K. destruct (bloscx_configure (wo_blosc w) m (g, p) r) as [[[g1 p1] r1] o]. exact K.
Qed.
Lemma heads_asked i : heads (plugin_request i). Proof. unfold plugin_request. apply heads_seq; [apply heads_get|intros s; apply heads_puts]. Qed.
Lemma heads_polled w i : heads (plugin_status w i). Proof. unfold plugin_status. apply heads_seq; [apply heads_set|intros _]. apply heads_seq; [apply heads_get|intros s; apply heads_puts]. Qed.

(** ** Names in the reply *)
Lemma shown_under i s : Forall (under_name i) (plugin_shown i s).
Proof.
  rewrite shown_items. apply Forall_map, Forall_forall. intros e I. apply item_under_name. destruct e as [c x|]; [|exact Logic.I]. intros ->. destruct s; cbn [items] in I; repeat (apply in_app_or in I as [I|I]); try (apply in_map_iff in I as (z & Z & _); discriminate Z); cbn in I; repeat destruct I as [I|I]; try discriminate I; contradiction.
Qed.
Lemma status_shown_under i s : Forall (under_name i) (status_shown i s).
Proof. destruct s; cbn [status_shown]; repeat (apply Forall_cons; [eexists; reflexivity|]); apply Forall_nil. Qed.
Lemma cputs_state {S} l : forall (s : S) r, fst (fst (cputs l s r)) = s.
Proof. induction l as [|(n, x) l IH]; intros s r; [reflexivity|]. cbn [cputs]. unfold cseq, cput. destruct (set_param r n x) as (m & [u|e|]); [apply IH|reflexivity..]. Qed.
Lemma tells_part i l r r1 : (forall q x, ~ holds r (i :: q) x) -> tells i l r r1 -> forall q x, holds r1 (i :: q) x <-> l <> [] /\ leads q (JObj l) x.
Proof.
  intros E T q x. destruct l as [|e l]; cbn [tells] in T.
  - subst r1. split; [intros H; destruct (E q x H)|intros (N & _); congruence].
  - destruct T as (T & _). apply holds_param in T. rewrite holds_param. unfold at_param in *. change ("params" :: i :: q) with (["params"; i] ++ q). rewrite (PrcSet.at_app _ _ _ _ T). rewrite <- leads_at. split; [intros L; split; [discriminate|exact L]|intros (_ & L); exact L].
Qed.
(** Something shall be reported, and the plugin returned: there was room. *)
Lemma shown_room i s r : nice i -> snd (plugin_request i s r) = Ret tt -> (forall q x, ~ holds r (i :: q) x) -> plugin_shown i s = [] \/ ready i r.
Proof.
  intros N R E. unfold plugin_request, cseq, cget in R. destruct (plugin_shown i s) as [|(n, x) l]; [left; reflexivity|right]. destruct (cputs ((n, x) :: l) s r) as [[s1 r1] o] eqn:C. cbn in R. subst o. split; [exact (cputs_roomy _ _ _ _ _ _ _ C)|intros y; apply E].
Qed.
Lemma no_items_members s : fit s -> items s = [] -> members s = [].
Proof. intros F I. pose proof (items_grow s F) as G. rewrite I in G. cbn in G. congruence. Qed.
Lemma unit_asked i s r : nice i -> fit s -> nameable s -> (forall q x, ~ holds r (i :: q) x) -> snd (plugin_request i s r) = Ret tt -> exists r1, plugin_request i s r = (s, r1, Ret tt) /\ forall q x, holds r1 (i :: q) x <-> members s <> [] /\ leads q (JObj (members s)) x.
Proof.
  intros N F NA E R. destruct (shown_room i s r N R E) as [S|RD].
  - exists r. split; [unfold plugin_request, cseq, cget; rewrite S; reflexivity|]. rewrite shown_items in S. destruct (items s) as [|e l] eqn:IT; [|discriminate]. pose proof (no_items_members s F IT) as M. rewrite M. intros q x. split; [intros H; destruct (E q x H)|intros (X & _); congruence].
  - destruct (reported i s r N F NA RD) as (r1 & Q & T). exists r1. split; [exact Q|]. apply (tells_part _ _ _ _ E T).
Qed.
Lemma unit_polled w i s r : nice i -> (forall q x, ~ holds r (i :: q) x) -> snd (plugin_status w i s r) = Ret tt -> exists r1, plugin_status w i s r = (polled w s, r1, Ret tt) /\ forall q x, holds r1 (i :: q) x <-> status_members (polled w s) <> [] /\ leads q (JObj (status_members (polled w s))) x.
Proof.
  intros N E R. assert (X : status_shown i (polled w s) = [] \/ ready i r).
  { unfold plugin_status, cseq, cset, cget in R. destruct (status_shown i (polled w s)) as [|(n, x) l]; [left; reflexivity|right]. destruct (cputs ((n, x) :: l) (polled w s) r) as [[s1 r1] o] eqn:C. cbn in R. subst o. split; [exact (cputs_roomy _ _ _ _ _ _ _ C)|intros y; apply E]. }
  destruct X as [S|RD].
  - exists r. split; [unfold plugin_status, cseq, cset, cget; rewrite S; reflexivity|]. intros q x. split; [intros H; destruct (E q x H)|]. intros (X & _). destruct (polled w s); discriminate S || (cbn in X; congruence).
  - destruct (status_told w i s r N RD) as (r1 & Q & T). exists r1. split; [exact Q|]. apply (tells_part _ _ _ _ E T).
Qed.
Lemma roomy_told i l r r1 : roomy r -> tells i l r r1 -> roomy r1.
Proof. destruct l; cbn [tells]; [intros R ->; exact R|]. intros _ (H & _) o. apply (holds_object _ _ _ H). discriminate. Qed.
Lemma ready_none i r : ready i r -> forall q x, ~ holds r (i :: q) x.
Proof. intros (_ & R) q x H. apply (PrcSet.no_lead_more ["params"; i] q (JObj (g_doc r))) with (y := x); [|exact H]. destruct (at_path ["params"; i] (JObj (g_doc r))) as [y|] eqn:E; [|reflexivity]. destruct (R y). apply leads_at, E. Qed.

Section Ship.
  Context {P : Type}.
  Variables (v : env P) (w : fwx -> P) (u : string -> plugin -> P) (W : string -> world) (look : string -> place) (i : io) (act : bool) (dk : disk).
  Hypothesis HO : hosts v w look i act dk.
  Hypothesis SH : ships v w u W.
  Lemma ship_courteous : courteous v w.
  Proof.
    intros o. destruct (sp_all _ _ _ _ SH o) as [X|(j & q & ->)]; [left; exact X|right]. intros r. split; [|split; [|split]].
    - intros m. rewrite (sp_configure _ _ _ _ SH). pose proof (heads_plugin (W j) m q r) as K. destruct (plugin_configure (W j) m q r) as [[s1 r1] o]. exact K.
    - rewrite (sp_request _ _ _ _ SH). pose proof (heads_asked j q r) as K. destruct (plugin_request j q r) as [[s1 r1] o]. exact K.
    - intros n. rewrite (sp_execute _ _ _ _ SH). destruct (c67_commands n q r) as (o & -> & _). apply head_refl.
    - rewrite (sp_status _ _ _ _ SH). pose proof (heads_polled (W j) j q r) as K. destruct (plugin_status (W j) j q r) as [[s1 r1] o]. exact K.
  Qed.
  Lemma ship_polite : polite v. Proof. exact (host_polite _ _ _ _ _ _ HO ship_courteous). Qed.
  Lemma ship_request_stays j q : nice j -> stays_in j (v_request v) (u j q).
  Proof.
    intros N r p x NE H. rewrite (sp_request _ _ _ _ SH). unfold plugin_request, cseq, cget. pose proof (cputs_stay j _ N (shown_under j q) q r p NE H) as K. destruct (cputs _ q r) as [[s1 r1] o]. cbn [fst snd] in *. rewrite !holds_param, K. reflexivity.
  Qed.
  Lemma ship_status_stays j q : nice j -> stays_in j (v_status v) (u j q).
  Proof.
    intros N r p x NE H. rewrite (sp_status _ _ _ _ SH). unfold plugin_status, cseq, cset, cget. pose proof (cputs_stay j _ N (status_shown_under j (polled (W j) q)) (polled (W j) q) r p NE H) as K. destruct (cputs _ (polled (W j) q) r) as [[s1 r1] o]. cbn [fst snd] in *. rewrite !holds_param, K. reflexivity.
  Qed.
  Lemma ship_willing j q : nice j -> fit q -> nameable q -> willing j (v_request v) (u j q).
  Proof.
    intros N F NA r RD. destruct (reported j q r N F NA RD) as (r1 & Q & T). split; [|split].
    - rewrite (sp_request _ _ _ _ SH), Q. reflexivity.
    - intros p x NE H. apply (ship_request_stays j q N r p x NE H).
    - rewrite (sp_request _ _ _ _ SH), Q. cbn [fst snd]. exact (roomy_told _ _ _ _ (proj1 RD) T).
  Qed.
  Lemma ship_obliging j q : nice j -> obliging j (v_status v) (u j q).
  Proof.
    intros N. split.
    - intros r RD. destruct (status_told (W j) j q r N RD) as (r1 & Q & T). split; [|split].
      + rewrite (sp_status _ _ _ _ SH), Q. reflexivity.
      + intros p x NE H. apply (ship_status_stays j q N r p x NE H).
      + rewrite (sp_status _ _ _ _ SH), Q. cbn [fst snd]. exact (roomy_told _ _ _ _ (proj1 RD) T).
    - intros r k RD. destruct (status_told (W j) j q r N RD) as (r1 & Q & T). rewrite (sp_status _ _ _ _ SH), Q. cbn [fst snd]. pose proof (roomy_told _ _ _ _ (proj1 RD) T) as RO.
      apply way_clear. intros p t y EQ NE AP. destruct p as [|a [|b [|c [|d p]]]]; cbn [app] in EQ.
      + cbn in AP. injection AP as <-. eexists. reflexivity.
      + injection EQ as <- _. apply RO. unfold params_of. cbn in AP. destruct (find_member "params" (g_doc r1)); congruence.
      + injection EQ as <- <- _. assert (H : holds r1 [j] y) by (apply leads_at, AP). apply (tells_part _ _ _ _ (ready_none _ _ RD) T) in H as (_ & H). apply leads_at in H. injection H as <-. eexists. reflexivity.
      + injection EQ as <- <- <- _. assert (H : holds r1 [j; "timing"] y) by (apply leads_at, AP). apply (tells_part _ _ _ _ (ready_none _ _ RD) T) in H as (_ & H). apply leads_at in H. destruct (polled (W j) q); discriminate H.
      + injection EQ as <- <- <- _ EQ. destruct p; destruct t; try discriminate. congruence.
  Qed.
  (** Sections that are accepted *)
  Lemma holds_params m y : holds m [] y -> params_of m = Some y.
  Proof. intros H. apply holds_param in H. unfold at_param in H. cbn in H. unfold params_of. destruct (find_member "params" (g_doc m)); exact H. Qed.
  Lemma ship_takes j q l : lived q -> well_typed (W j) q l -> takes v (u j q) (JObj l).
  Proof.
    intros L T m r H RO. pose proof (holds_params m _ H) as PM. rewrite (sp_configure _ _ _ _ SH). destruct (c67_accepted (W j) m l q r L PM T RO) as (q1 & r1 & E & R1). rewrite E. exists (u j q1), r1. split; [reflexivity|]. split; [exact R1|].
    assert (B : (forall g p, q <> PBlosc g p) \/ exists g p, q = PBlosc g p) by (destruct q; try (left; discriminate); right; eauto). destruct B as [B|(g & p & ->)].
    - pose proof (c67_silent (W j) m q r B) as S. rewrite E in S. cbn in S. subst r1. auto.
    - destruct (c67_warned (W j) m _ g p r q1 r1 PM RO E) as (_ & _ & _ & _ & _ & K). exact K.
  Qed.
  Lemma ship_restored_takes j q q' : fit q -> fit q' -> PcfSpec.restorable (W j) q q' -> takes v (u j q') (JObj (members q)).
  Proof. intros F F' R m r H RO. rewrite (sp_configure _ _ _ _ SH). destruct (restored (W j) m q q' r F F' R (holds_params m _ H)) as (q1 & -> & _). exists (u j q1), r. auto 6. Qed.
  (** Plugins of the distribution stay what they are. *)
  Lemma built_made k q : built k q -> made q. Proof. intros []; constructor. Qed.
  Lemma ship_separate : separate v w (frames_of u) (fun j p => exists q, p = u j q /\ lived q).
  Proof.
    split.
    - intros j f (q & E & _). exact (sp_apart _ _ _ _ SH _ _ _ E).
    - intros k j o E. destruct (sp_make _ _ _ _ SH k j o E) as [->|(q & -> & B)]; [left; reflexivity|right]. exists q. split; [reflexivity|]. apply li_made, (built_made k), B.
    - intros j o r (q & -> & L). split; [|split; [|split]].
      + intros m. rewrite (sp_configure _ _ _ _ SH). destruct (plugin_configure (W j) m q r) as [[q1 r1] e] eqn:E. exists q1. split; [reflexivity|]. eapply li_configure; eassumption.
      + rewrite (sp_request _ _ _ _ SH). unfold plugin_request, cseq, cget. pose proof (cputs_state (plugin_shown j q) q r) as K. destruct (cputs _ q r) as [[q1 r1] e]. cbn [fst] in *. subst q1. eauto.
      + intros n. rewrite (sp_execute _ _ _ _ SH). destruct (c67_commands n q r) as (e & -> & _). exists q. auto.
      + rewrite (sp_status _ _ _ _ SH). destruct (plugin_status (W j) j q r) as [[q1 r1] e] eqn:E. exists q1. split; [reflexivity|]. eapply li_status; eassumption.
    - intros j o (q & -> & L). rewrite (sp_reset _ _ _ _ SH), (sp_perf _ _ _ _ SH), (sp_clear _ _ _ _ SH). destruct (plugin_reset q) as (q1 & b) eqn:E. cbn [fst]. split; [exists q1; split; [reflexivity|eapply li_reset; eassumption]|]. split; exists q; auto.
    - intros j o o1 (q & -> & L) (q0 & q1 & E & -> & WK). apply (sp_one _ _ _ _ SH) in E as (_ & ->). exists q1. split; [reflexivity|]. eapply li_work; eassumption.
  Qed.
  (** A plugin and its section *)
  Lemma ship_given x j q p1 : section_given v x j (u j q) p1 -> exists q1, p1 = u j q1 /\ given_by W x j q q1.
  Proof.
    intros [(y & m & r & L & HM & _ & _ & C)|(N & ->)]; [|exists q; split; [reflexivity|right; auto]]. rewrite (sp_configure _ _ _ _ SH) in C. destruct (plugin_configure (W j) m q r) as [[q1 r1] o] eqn:E. cbn [fst snd] in C. injection C as <- ->.
    exists q1. split; [reflexivity|]. left. exists y, m, r, r1. split; [exact L|]. split; [exact HM|]. split; [exact E|]. exact (c67_applied (W j) m y q r q1 r1 (holds_params m y HM) E).
  Qed.
End Ship.
