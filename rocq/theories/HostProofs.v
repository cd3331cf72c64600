(** File writers in a frame processor. *)
From Coq Require Import String Ascii.
From Verif Require Import Base StrOrder PluginModel CtrlModel JsonModel JsonSpec JsonProofs JsonProps JsonDoubleModel PrcModel PrcSpec PrcMoves PrcExec PrcReply PrcAsk PrcLive PrcKeep PrcSetSpec PrcSet PrcSetProps CfgModel CfgProofs CfgReply PlaceModel NameModel AcqModel FwModel FwSpec FwcModel FwcSpec FwcProofs FwcSet FwcLive FwcAsk FwcRefine FwcSane FwcRestore FwcProps HostSpec HostKeep.
Local Open Scope string_scope.
Local Open Scope list_scope.

(** ** The file writer keeps to its part of the reply *)
Lemma set_param_stays m n x i c q : lines n = i :: c -> plain i -> no_nul i -> q <> [] -> hd "" q <> i -> at_param (fst (set_param m n x)) q = at_param m q.
Proof.
  intros L PL NU N H. unfold set_param. rewrite L, (ends_plain _ PL), (cstr_id _ NU). destruct (match params_of m with Some p => p | None => JObj [] end) as [| | | | | |l] eqn:E; try reflexivity.
  destruct (set_rest (last c "") c false (set_value x) (match find_member i l with Some x => x | None => JObj [] end)) as (y & o). cbn [fst]. unfold at_param. cbn [g_doc with_doc at_path]. rewrite find_put, String.eqb_refl. destruct q as [|k q]; [congruence|]. cbn in H. cbn [at_path]. rewrite find_put. apply String.eqb_neq in H. rewrite String.eqb_sym, H.
  unfold params_of in E. destruct (find_member "params" (g_doc m)) as [p|]; [subst p; reflexivity|]. injection E as <-. reflexivity.
Qed.
Lemma pieces_under i t : no_slash i -> pieces (append i (append "/" t)) = i :: pieces t.
Proof.
  unfold no_slash. induction i as [|c i IH]; cbn; intros N; [reflexivity|]. destruct (Ascii.eqb_spec c "/") as [->|D]; [destruct N; left; reflexivity|]. cbn in IH. rewrite IH by (intros X; apply N; right; exact X). reflexivity.
Qed.
Lemma lines_under i t : no_slash i -> lines (append i (append "/" t)) = i :: lines t.
Proof. intros N. unfold lines. rewrite (pieces_under i t N). cbn. pose proof (pieces_nonempty t). destruct (pieces t); [congruence|reflexivity]. Qed.
Definition under_name (i : string) (p : string * value) : Prop := exists t, fst p = append i (append "/" t).
Lemma item_under_name i e : match e with IPut c _ => c <> [] | _ => True end -> under_name i (item_name i e).
Proof.
  intros N. assert (S : forall c, c <> [] -> exists t, slashed (i :: c) = append i (append "/" t)) by (intros [|k c] H; [congruence|]; exists (slashed (k :: c)); reflexivity).
  destruct e as [c v|c n v]; unfold under_name; cbn [item_name fst]; [apply S, N|]. cbn [app]. apply S. destruct c; discriminate.
Qed.
Section Stay.
  Context {S : Type}.
  Lemma cputs_stay i l : nice i -> Forall (under_name i) l -> forall (s : S) r q, q <> [] -> hd "" q <> i -> at_param (snd (fst (cputs l s r))) q = at_param r q.
  Proof.
    intros (SL & NU & PL) F. induction F as [|(n, x) l (t & E) F IH]; intros s r q N H; [reflexivity|]. cbn [fst] in E. subst n. cbn [cputs]. unfold cseq, cput. pose proof (set_param_stays r _ x i _ q (lines_under i t SL) PL NU N H) as K.
    destruct (set_param r (append i (append "/" t)) x) as (m & [u|e|]); cbn [fst] in K; [|exact K..]. rewrite IH by assumption. exact K.
  Qed.
  (** Something was put: the parameters are an object. *)
  Lemma cputs_roomy n x l (s s1 : S) r r1 : cputs ((n, x) :: l) s r = (s1, r1, Ret tt) -> roomy r.
  Proof.
    cbn [cputs]. intros H. apply cseq_ret in H as (u & s0 & r0 & H & _). unfold cput, set_param in H. intros p E. destruct (lines n) as [|i c]; [discriminate|]. destruct (ends_array i) as [b|e|]; [|discriminate..]. rewrite E in H. destruct p; try discriminate. eexists. reflexivity.
  Qed.
End Stay.
Lemma config_under s : Forall (under_name (x_name s)) (map (item_name (x_name s)) (config_items s)).
Proof.
  apply Forall_map, Forall_forall. intros e I. apply item_under_name. unfold config_items in I. apply in_app_or in I as [I|I].
  - unfold settings_items in I. cbn in I. repeat destruct I as [<-|I]; try discriminate. contradiction.
  - apply in_flat_map in I as (d & _ & I). apply in_map_iff in I as (e' & <- & _). destruct e'; cbn; [discriminate|exact Logic.I].
Qed.
Lemma status_under s : Forall (under_name (x_name s)) (map (item_name (x_name s)) (status_items s)).
Proof. apply Forall_map, Forall_forall. intros e I. apply item_under_name. unfold status_items in I. cbn in I. repeat destruct I as [<-|I]; try discriminate. contradiction. Qed.

(** ** Type, value and id of the reply *)
Section Heads.
  Context {S : Type}.
  Definition heads {A} (a : C S A) : Prop := forall s r, keeps_head r (snd (fst (a s r))).
  Lemma heads_seq {A B} (a : C S A) (f : A -> C S B) : heads a -> (forall x, heads (f x)) -> heads (cseq a f).
  Proof. intros H F s r. unfold cseq. specialize (H s r). destruct (a s r) as [[s1 r1] [x|e|]]; cbn [fst snd] in H; [|exact H..]. eapply head_trans; [exact H|apply F]. Qed.
  Lemma heads_same {A} (f : S -> S) (o : S -> outcome fault A) : heads (fun s r => (f s, r, o s)). Proof. intros s r. apply head_refl. Qed.
  Lemma heads_ret {A} (a : A) : heads (cret a). Proof. apply (heads_same (fun s => s)). Qed.
  Lemma heads_throw {A} f : heads (@cthrow S A f). Proof. apply (heads_same (fun s => s)). Qed.
  Lemma heads_get : heads (@cget S). Proof. apply (heads_same (fun s => s)). Qed.
  Lemma heads_set (f : S -> S) : heads (cset f). Proof. intros s r. apply head_refl. Qed.
  Lemma heads_lift {A} (o : outcome ipcexc A) : heads (@clift S A o). Proof. intros s r. apply head_refl. Qed.
  Lemma heads_put n x : heads (@cput S n x).
  Proof. intros s r. unfold cput. pose proof (set_param_keeps r n x) as K. destruct (set_param r n x) as (m & o). exact K. Qed.
  Lemma heads_puts l : heads (@cputs S l).
  Proof. induction l as [|(n, x) l IH]; [apply heads_ret|]. cbn. apply heads_seq; [apply heads_put|intros _; exact IH]. Qed.
  Lemma heads_nack w : heads (@cnack S w).
  Proof.
    intros s r. unfold cnack, set_nack. pose proof (set_param_keeps (Msg (g_strict r) (g_doc r) TNack (g_val r) (g_id r) (g_time r)) "error" (XStr w)) as (K1 & K2 & K3). destruct (set_param _ "error" (XStr w)) as (m & o). cbn [fst snd g_id g_val g_type] in *. split; [exact K1|]. split; [exact K2|]. right. destruct K3; assumption.
  Qed.
  Lemma heads_setting {A} m n (get : msg -> string -> outcome ipcexc A) (k : A -> C S unit) : (forall a, heads (k a)) -> heads (setting m n get k).
  Proof. intros K. apply heads_seq; [apply heads_lift|]. intros []; [|apply heads_ret]. apply heads_seq; [apply heads_lift|exact K]. Qed.
  Lemma heads_local {A} m n (get : msg -> string -> outcome ipcexc A) : heads (@local S A m n get).
  Proof. apply heads_seq; [apply heads_lift|]. intros []; [|apply heads_ret]. apply heads_seq; [apply heads_lift|intros a; apply heads_ret]. Qed.
End Heads.
Lemma heads_base w a : heads (base w a). Proof. intros s r. unfold base. destruct (a (x_fw s)). apply head_refl. Qed.
Ltac heads := repeat first [ apply heads_setting; intros | apply heads_base | apply heads_set | apply heads_local | apply heads_lift | apply heads_ret | apply heads_throw | apply heads_nack | apply heads_get | apply heads_seq; [|intros] ].
Lemma heads_dataset n m : heads (dataset_section n m). Proof. unfold dataset_section. heads. Qed.
Lemma heads_datasets now m l : heads (dataset_sections now m l).
Proof. induction l as [|n l IH]; cbn; [apply heads_ret|]. unfold new_dataset. heads; try exact IH. Qed.
Lemma heads_configure look now m : heads (fwx_configure look now m).
Proof.
  assert (B : heads (configure_body look now m)).
  { unfold configure_body, process_section, file_section. heads.
    - destruct (look a0); heads.
    - destruct x1; [|heads]. destruct (text m "dataset") as [n|e|]; [unfold new_dataset; heads| |intros s r; apply head_refl]. destruct e; heads; try apply heads_datasets.
    - destruct x2; [unfold delete_datasets|]; heads.
    - destruct (a && w_writing (x_fw x7))%bool; [unfold start_timeout|]; heads. }
  intros s r. unfold fwx_configure. specialize (B s r). destruct (configure_body look now m s r) as [[s1 r1] [u|[]|]]; exact B.
Qed.
Lemma heads_request : heads fwx_request. Proof. unfold fwx_request. apply heads_seq; [apply heads_get|]. intros s. apply heads_seq; [apply heads_puts|intros _; apply heads_puts]. Qed.
Lemma heads_status : heads fwx_status. Proof. unfold fwx_status. apply heads_seq; [apply heads_get|]. intros s. apply heads_seq; [apply heads_puts|intros _; apply heads_puts]. Qed.
Lemma heads_execute i c : heads (fwx_execute i c). Proof. unfold fwx_execute. destruct (String.eqb c "start_writing"); [heads|]. destruct (String.eqb c "stop_writing"); heads. Qed.

(** ** File writers among the plugins *)
Lemma holds_object r q y : holds r q y -> q <> [] -> forall p, params_of r = Some p -> object p.
Proof. intros H N p E. apply holds_param in H. unfold at_param in H. cbn [at_path] in H. unfold params_of in E. rewrite E in H. destruct q as [|k q]; [congruence|]. destruct p; try discriminate. eexists. reflexivity. Qed.
Lemma nothing_there r j : (forall q x, ~ holds r (j :: q) x) -> at_param r [j] = None.
Proof. intros H. destruct (at_param r [j]) as [x|] eqn:E; [|reflexivity]. destruct (H [] x). apply holds_param, E. Qed.
Section Host.
  Context {P : Type}.
  Variables (v : env P) (w : fwx -> P) (look : string -> place) (i : io) (act : bool) (dk : disk).
  Hypothesis HO : hosts v w look i act dk.
  Notation M := (M P).
  Notation st := (prc P).
  Lemma host_polite : courteous v w -> polite v.
  Proof.
    intros CO o r. destruct (CO o) as [(f & ->)|H]; [|apply H]. split; [|split; [|split]].
    - intros m. rewrite (ho_configure _ _ _ _ _ _ HO). pose proof (heads_configure look (v_now v) m f r) as K. destruct (fwx_configure look (v_now v) m f r) as [[s1 r1] o]. exact K.
    - rewrite (ho_request _ _ _ _ _ _ HO). pose proof (heads_request f r) as K. destruct (fwx_request f r) as [[s1 r1] o]. exact K.
    - intros n. rewrite (ho_execute _ _ _ _ _ _ HO). pose proof (heads_execute i n f r) as K. destruct (fwx_execute i n f r) as [[s1 r1] o]. exact K.
    - rewrite (ho_status _ _ _ _ _ _ HO). pose proof (heads_status f r) as K. destruct (fwx_status f r) as [[s1 r1] o]. exact K.
  Qed.
  Lemma request_stays j f : nice j -> x_name f = j -> stays_in j (v_request v) (w f).
  Proof.
    intros N <- r q x NE H. rewrite (ho_request _ _ _ _ _ _ HO), request_items. pose proof (cputs_stay (x_name f) _ N (config_under f) f r q NE H) as K. destruct (cputs _ f r) as [[s1 r1] o]. cbn [fst snd] in *. rewrite !holds_param, K. reflexivity.
  Qed.
  Lemma status_stays j f : nice j -> x_name f = j -> stays_in j (v_status v) (w f).
  Proof.
    intros N <- r q x NE H. rewrite (ho_status _ _ _ _ _ _ HO), status_named. pose proof (cputs_stay (x_name f) _ N (status_under f) f r q NE H) as K. destruct (cputs _ f r) as [[s1 r1] o]. cbn [fst snd] in *. rewrite !holds_param, K. reflexivity.
  Qed.
  Lemma request_written f r : nice (x_name f) -> presentable f -> (forall q x, ~ holds r (x_name f :: q) x) -> snd (v_request v (w f) r) = Ret tt ->
    exists r1, v_request v (w f) r = (w f, r1, Ret tt) /\ forall q x, holds r1 (x_name f :: q) x <-> leads q (config_json f) x.
  Proof.
    intros N (SA & US) E R. rewrite (ho_request _ _ _ _ _ _ HO) in *. assert (RO : roomy r).
    { rewrite request_items in R. destruct (config_items f) as [|e l] eqn:C; [discriminate|]. cbn [map] in R. destruct (item_name (x_name f) e) as (a, b). destruct (cputs ((a, b) :: map (item_name (x_name f)) l) f r) as [[s1 r1] o] eqn:EQ. cbn in R. subst o. exact (cputs_roomy _ _ _ _ _ _ _ EQ). }
    destruct (request_ret f r N US (sn_one f SA) RO (nothing_there _ _ E)) as (r1 & -> & G). exists r1. split; [reflexivity|]. intros q x. rewrite holds_param, (grown_at _ _ _ _ _ G). symmetry. apply leads_at.
  Qed.
  Lemma status_written f r : nice (x_name f) -> (forall q x, ~ holds r (x_name f :: q) x) -> snd (v_status v (w f) r) = Ret tt ->
    exists r1, v_status v (w f) r = (w f, r1, Ret tt) /\ forall q x, holds r1 (x_name f :: q) x <-> leads q (status_json f) x.
  Proof.
    intros N E R. rewrite (ho_status _ _ _ _ _ _ HO) in *. assert (RO : roomy r).
    { rewrite status_named in R. destruct (status_items f) as [|e l] eqn:C; [discriminate|]. cbn [map] in R. destruct (item_name (x_name f) e) as (a, b). destruct (cputs ((a, b) :: map (item_name (x_name f)) l) f r) as [[s1 r1] o] eqn:EQ. cbn in R. subst o. exact (cputs_roomy _ _ _ _ _ _ _ EQ). }
    destruct (status_ret f r N RO (nothing_there _ _ E)) as (r1 & -> & G). exists r1. split; [reflexivity|]. intros q x. rewrite holds_param, (grown_at _ _ _ _ _ G). symmetry. apply leads_at.
  Qed.
  Lemma request_willing j f : nice j -> x_name f = j -> presentable f -> willing j (v_request v) (w f).
  Proof.
    intros N E (SA & US) r RD. split; [|split].
    - subst j. destruct (c60_reported f r N US SA RD) as (r1 & Q & _). rewrite (ho_request _ _ _ _ _ _ HO), Q. reflexivity.
    - intros q x NE H. apply (request_stays j f N E r q x NE H).
    - subst j. destruct (c60_reported f r N US SA RD) as (r1 & Q & (A & _)). rewrite (ho_request _ _ _ _ _ _ HO), Q. cbn [fst snd]. apply (holds_object _ _ _ A). discriminate.
  Qed.
  Lemma status_obliging j f : nice j -> x_name f = j -> obliging j (v_status v) (w f).
  Proof.
    intros N E. split.
    - intros r RD. split; [|split].
      + subst j. destruct (c61_status f r N RD) as (r1 & Q & _). rewrite (ho_status _ _ _ _ _ _ HO), Q. reflexivity.
      + intros q x NE H. apply (status_stays j f N E r q x NE H).
      + subst j. destruct (c61_status f r N RD) as (r1 & Q & (A & _)). rewrite (ho_status _ _ _ _ _ _ HO), Q. cbn [fst snd]. apply (holds_object _ _ _ A). discriminate.
    - intros r k RD. subst j. destruct (c61_status f r N RD) as (r1 & Q & (A & _)). rewrite (ho_status _ _ _ _ _ _ HO), Q. cbn [fst snd]. apply way_clear. intros q t y EQ NE AP. apply holds_param in A. unfold at_param in A.
      destruct q as [|a [|b [|c [|d q]]]]; cbn [app] in EQ.
      + cbn in AP. injection AP as <-. eexists. reflexivity.
      + injection EQ as <- _. apply (holds_object r1 [x_name f] (status_json f)); [apply holds_param, A|discriminate|]. unfold params_of. cbn in AP. destruct (find_member "params" (g_doc r1)); congruence.
      + injection EQ as <- <- _. rewrite AP in A. injection A as ->. eexists. reflexivity.
      + injection EQ as <- <- <- _. change ["params"; x_name f; "timing"] with (["params"; x_name f] ++ ["timing"]) in AP. rewrite (at_app _ _ _ _ A) in AP. cbn in AP. injection AP as <-. eexists. reflexivity.
      + injection EQ as <- <- <- _ EQ. destruct q; destruct t; try discriminate. congruence.
  Qed.
  Lemma writer_takes f y : suits look f y -> takes v (w f) y.
  Proof.
    intros (WF & PA) m r H RO. rewrite (ho_configure _ _ _ _ _ _ HO). apply holds_param in H. assert (PM : params_of m = Some y). { unfold at_param in H. cbn in H. unfold params_of. destruct (find_member "params" (g_doc m)); exact H. }
    destruct (c60_accepted look (v_now v) m y f r PM WF RO) as (s1 & r1 & -> & _ & _ & [(t & u & L & RE & _)|(_ & ->)]); [|exists (w s1), r; auto 6]. specialize (PA t L). unfold FwcSpec.refusal in RE. rewrite PA in RE. discriminate.
  Qed.
End Host.

(** ** File writers live *)
Section Lives.
  Context {P : Type}.
  Variables (v : env P) (w : fwx -> P) (look : string -> place) (i : io) (act : bool) (dk : disk) (Q : io * frame -> Prop) (work : string -> P -> P -> Prop) (O : string -> P -> Prop).
  Hypothesis HO : hosts v w look i act dk.
  Hypothesis SE : separate v w work O.
  Definition fine (j : string) (p : P) : Prop := (exists f, p = w f /\ lived (eq i) Q j act dk f) \/ O j p.
  Lemma fine_kept : kept v fine.
  Proof.
    constructor.
    - intros k j o E. destruct (se_make _ _ _ _ SE k j o E) as [->|X]; [|right; exact X]. rewrite (ho_make _ _ _ _ _ _ HO) in E. injection E as <-. left. eexists. split; [reflexivity|constructor].
    - intros j o m r o1 r1 e [(f & -> & L)|X] E N.
      + rewrite (ho_configure _ _ _ _ _ _ HO) in E. destruct (fwx_configure look (v_now v) m f r) as [[f1 r2] e2] eqn:C. injection E as <- <- <-. left. eexists. split; [reflexivity|]. eapply lv_configure; eassumption.
      + right. destruct (se_call _ _ _ _ SE j o r X) as (K & _). specialize (K m). rewrite E in K. exact K.
    - intros j o r o1 r1 e [(f & -> & L)|X] E N.
      + rewrite (ho_request _ _ _ _ _ _ HO) in E. pose proof (proj1 (c60_asking f r)) as A. destruct (fwx_request f r) as [[f1 r2] e2]. injection E as <- <- <-. cbn in A. subst f1. left. eauto.
      + right. destruct (se_call _ _ _ _ SE j o r X) as (_ & K & _). rewrite E in K. exact K.
    - intros j o c r o1 r1 e [(f & -> & L)|X] E N.
      + rewrite (ho_execute _ _ _ _ _ _ HO) in E. destruct (fwx_execute i c f r) as [[f1 r2] e2] eqn:C. injection E as <- <- <-. left. eexists. split; [reflexivity|]. eapply lv_execute; [eassumption|reflexivity|eassumption..].
      + right. destruct (se_call _ _ _ _ SE j o r X) as (_ & _ & K & _). specialize (K c). rewrite E in K. exact K.
    - intros j o r o1 r1 e [(f & -> & L)|X] E N.
      + rewrite (ho_status _ _ _ _ _ _ HO) in E. pose proof (proj2 (c60_asking f r)) as A. destruct (fwx_status f r) as [[f1 r2] e2]. injection E as <- <- <-. cbn in A. subst f1. left. eauto.
      + right. destruct (se_call _ _ _ _ SE j o r X) as (_ & _ & _ & K). rewrite E in K. exact K.
    - intros j o [(f & -> & L)|X]; [|right; apply (se_touch _ _ _ _ SE j o X)]. rewrite (ho_reset _ _ _ _ _ _ HO). destruct (fwx_reset f) as (f1 & b) eqn:E. left. exists f1. split; [reflexivity|]. pose proof (lv_reset _ _ _ _ _ _ L) as K. rewrite E in K. exact K.
    - intros j o [(f & -> & L)|X]; [|right; apply (se_touch _ _ _ _ SE j o X)]. rewrite (ho_perf _ _ _ _ _ _ HO). left. eauto.
    - intros j o [(f & -> & L)|X]; [|right; apply (se_touch _ _ _ _ SE j o X)]. rewrite (ho_clear _ _ _ _ _ _ HO). left. eauto.
  Qed.
  Lemma matched_put (s : prc P) j p q : matched s -> sm_get (p_objs s) j = Some p -> matched (w_objs (sm_put (p_objs s) j q) s).
  Proof. intros (OK & MA) G. split; [apply sm_put_ok, OK|]. intros k. cbn. rewrite sm_get_put. destruct (String.eqb_spec k j) as [->|_]; [|apply MA]. rewrite <- MA, G. split; discriminate. Qed.
  Lemma running_fine depth limit debug s : running v w work depth i Q limit debug s -> matched s /\ forall j p, sm_get (p_objs s) j = Some p -> fine j p.
  Proof.
    induction 1 as [|s c t s1 _ (M & F) H|s j f c fw o file timing woken _ (M & F) G NC OP C NU|s j p p1 _ (M & F) G NW W|s d s1 _ (M & F) C|s x s1 _ (M & F) C].
    - split; [split; [exact Logic.I|intros k; split; reflexivity]|discriminate].
    - split; [pose proof (sf_handle v depth c t s M) as K; rewrite H in K; exact K|]. pose proof (gd_handle v fine fine_kept depth c t s F) as K. rewrite H in K. apply K. discriminate.
    - split; [apply (matched_put s j (w f)); assumption|]. intros k p. cbn. rewrite sm_get_put. destruct (String.eqb_spec k j) as [->|_]; [|apply F]. intros E. injection E as <-. destruct (F j _ G) as [(f' & E & L)|X]; [|destruct (se_none _ _ _ _ SE j f X)]. apply (ho_one _ _ _ _ _ _ HO) in E. subst f'.
      left. eexists. split; [reflexivity|]. destruct (c60_lived _ _ _ _ _ _ L) as (_ & _ & NM). rewrite NM. eapply lv_other; eassumption.
    - split; [apply (matched_put s j p); assumption|]. intros k q. cbn. rewrite sm_get_put. destruct (String.eqb_spec k j) as [->|_]; [|apply F]. intros E. injection E as <-. destruct (F j _ G) as [(f & E & _)|X]; [congruence|]. right. eapply (se_work _ _ _ _ SE); eassumption.
    - rewrite callback_eq in C. injection C as <-. cbv zeta. destruct (_ || _)%bool; destruct (_ =? _)%Z; split; assumption.
    - unfold handle_meta, tell, change in C. injection C as <-. split; assumption.
  Qed.
End Lives.
