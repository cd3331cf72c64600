(** What plugins report; sending it back. *)
From Coq Require Import String Ascii.
From Verif Require Import Base StrOrder JsonModel JsonSpec JsonProofs JsonProps PrcModel PrcSpec PrcReply PrcLive PrcSet PrcExec CfgModel CfgSpec CfgProofs CfgReply FwcAsk FrameModel AdjModel AdjSpec AdjProps LiveModel LiveSpec LiveProps GapModel BloscModel BloscProps KafkaModel KafkaProps PcfModel PcfSpec PcfProofs PcfFit.
Local Open Scope string_scope.
Local Open Scope list_scope.
Local Open Scope Z_scope.

(** ** The items of a report *)
Definition items (s : plugin) : list item :=
  match s with
  | POffset v => [IPut ["offset_adjustment"] (XInt64 v)]
  | PAdjust a => map (fun e => under ["parameter"] (IPut [fst e; "adjustment"] (XInt64 (snd e)))) (ad_adjustments a) ++ map (fun e => under ["parameter"] (IPut [fst e; "input"] (XStr (snd e)))) (ad_inputs a)
  | PLive p => [IPut ["frame_frequency"] (XInt (lv_freq p)); IPut ["live_view_socket_addr"] (XStr (lv_addr p)); IPut ["per_second"] (XInt (lv_per_second p))]
  | PGap g => map (IPush [] "grid_size") (map XInt (gp_grid g)) ++ map (IPush [] "chip_size") (map XInt (gp_chip g)) ++ map (IPush [] "x_gaps") (map XInt (gp_x g)) ++ map (IPush [] "y_gaps") (map XInt (gp_y g))
  | PBlosc _ p => [IPut ["compressor"] (XUint (bs_compressor (bp_cmd p))); IPut ["threads"] (XUint (bs_threads (bp_cmd p))); IPut ["shuffle"] (XUint (bs_shuffle (bp_cmd p))); IPut ["level"] (XInt (bs_level (bp_cmd p)))]
  | PKafka p => [IPut ["servers"] (XStr (kp_servers p)); IPut ["topic"] (XStr (kp_topic_name p)); IPut ["partition"] (XInt (kp_partition p)); IPut ["dataset"] (XStr (kp_dataset p)); IPut ["include_parameters"] (XBool (kp_parameters p))]
  | PDummy d => [IPut ["width"] (XInt (dm_width d)); IPut ["height"] (XInt (dm_height d)); IPut ["copy_frame"] (XBool (dm_copy d))]
  | PSum => []
  end.
Lemma shown_items i s : plugin_shown i s = map (item_name i) (items s).
Proof. destruct s; try reflexivity; cbn [plugin_shown items]; rewrite !map_app, !map_map; reflexivity. Qed.
Definition rows (f : string -> option string) (l : list (string * Z)) : list (string * json) := map (fun e => (fst e, row_json (snd e) (f (fst e)))) l.
Lemma rows_names f l : map fst (rows f l) = map fst l. Proof. unfold rows. rewrite map_map. reflexivity. Qed.
Lemma none_member k (l : list (string * json)) : ~ In k (map fst l) -> find_member k l = None.
Proof. induction l as [|(n, x) l IH]; [reflexivity|]. cbn. intros N. destruct (String.eqb_spec n k); [tauto|]. apply IH. tauto. Qed.
Lemma rows_grow l : forall acc, NoDup (map fst l) -> (forall k, In k (map fst l) -> ~ In k (map fst acc)) -> grow (map (fun e => IPut [fst e; "adjustment"] (XInt64 (snd e))) l) (JObj acc) = Some (JObj (acc ++ rows (fun _ => None) l)).
Proof.
  induction l as [|(k, v) l IH]; intros acc N D; [cbn; rewrite app_nil_r; reflexivity|]. inversion N as [|? ? N1 N2]; subst. pose proof (none_member k acc (D k (or_introl eq_refl))) as F. cbn [map fst snd grow item_at set_at]. rewrite F. cbn [find_member put_member set_at set_value]. rewrite (put_end _ _ _ F). rewrite IH; [|exact N2|].
  - rewrite <- app_assoc. reflexivity.
  - intros k' I. rewrite map_app, in_app_iff. cbn. intros [A|[->|[]]]; [|contradiction]. exact (D k' (or_intror I) A).
Qed.
Lemma rows_put f l k v t : NoDup (map fst l) -> In (k, v) l -> find_member k (rows f l) = Some (row_json v (f k)) /\ put_member k (row_json v (Some t)) (rows f l) = rows (fun n => if String.eqb n k then Some t else f n) l.
Proof.
  induction l as [|(n, x) l IH]; intros N I; [destruct I|]. inversion N as [|? ? N1 N2]; subst. cbn [rows map find_member put_member fst snd]. destruct (String.eqb_spec n k) as [->|NE].
  - assert (v = x) as -> by (destruct I as [I|I]; [congruence|apply (in_map fst) in I; contradiction]). split; [reflexivity|]. f_equal. apply map_ext_in. intros (n, y) J. cbn [fst snd]. destruct (String.eqb_spec n k) as [->|]; [apply (in_map fst) in J; contradiction|reflexivity].
  - destruct I as [I|I]; [congruence|]. destruct (IH N2 I) as (A & B). split; [exact A|]. f_equal. exact B.
Qed.
Lemma inputs_grow (m : smap string) l : forall f, NoDup (map fst l) -> NoDup (map fst m) -> Forall (fun e => no_nul (snd e) /\ In (fst e) (map fst l)) m -> (forall e, In e m -> f (fst e) = None) ->
  grow (map (fun e => IPut [fst e; "input"] (XStr (snd e))) m) (JObj (rows f l)) = Some (JObj (rows (fun n => match sm_get m n with Some t => Some t | None => f n end) l)).
Proof.
  induction m as [|(k, t) m IH]; intros f N NM OK F; [reflexivity|]. inversion OK as [|? ? (Z & I) OK2]; subst. inversion NM as [|? ? NI NM2]; subst. cbn [fst snd] in *. apply in_map_iff in I as ((k', v) & E & I). cbn in E. subst k'. destruct (rows_put f l k v t N I) as (A & B). specialize (F (k, t) (or_introl eq_refl)) as FK. cbn in FK. rewrite FK in A.
  cbn [map fst snd grow item_at set_at]. rewrite A. cbn [row_json find_member String.eqb Ascii.eqb Bool.eqb put_member set_at set_value]. rewrite (cstr_id _ Z). change (JObj [("adjustment", JInt v); ("input", JStr t)]) with (row_json v (Some t)). rewrite B. rewrite IH; [|exact N|exact NM2|exact OK2|].
  - f_equal. f_equal. apply map_ext. intros (n, x). cbn [fst snd sm_get]. destruct (String.eqb_spec n k) as [->|].
    + destruct (sm_get m k) as [t'|] eqn:G; [apply sm_get_in in G; apply (in_map fst) in G; contradiction|reflexivity].
    + reflexivity.
  - intros (n, x) J. cbn. destruct (String.eqb_spec n k) as [->|]; [apply (in_map fst) in J; contradiction|]. exact (F (n, x) (or_intror J)).
Qed.
Lemma ints_grow k l ms : find_member k ms = None -> grow (map (IPush [] k) (map XInt l)) (JObj ms) = Some (JObj (ms ++ ints_json k l)).
Proof.
  intros F. destruct l as [|n l]; [cbn; rewrite app_nil_r; reflexivity|]. rewrite grow_push by discriminate. rewrite F, (put_end _ _ _ F). cbn [elems app]. unfold ints_json. rewrite map_map. reflexivity.
Qed.
Lemma items_grow s : fit s -> grow (items s) (JObj []) = Some (JObj (members s)).
Proof.
  destruct s; intros F; try reflexivity.
  - destruct F as (A & B & C & D). cbn [items members]. destruct (ad_adjustments a) as [|e l] eqn:E.
    { destruct (ad_inputs a) as [|x m]; [reflexivity|]. inversion D as [|? ? (_ & X) _]. destruct X. }
    rewrite <- E in *. assert (N : items (PAdjust a) <> []) by (cbn [items]; rewrite E; discriminate).
    set (it := map (fun e => IPut [fst e; "adjustment"] (XInt64 (snd e))) (ad_adjustments a) ++ map (fun e => IPut [fst e; "input"] (XStr (snd e))) (ad_inputs a)).
    replace (map _ (ad_adjustments a) ++ map _ (ad_inputs a)) with (map (under ["parameter"]) it) by (unfold it; rewrite map_app, !map_map; reflexivity).
    apply (grow_under ["parameter"] it (JObj []) (JObj (rows (fun n => match sm_get (ad_inputs a) n with Some t => Some t | None => None end) (ad_adjustments a)))).
    + unfold it. rewrite E. discriminate.
    + unfold it. erewrite grow_app; [|apply (rows_grow _ []); [apply sm_nodup, A|intros k _ []]]. cbn [app]. apply inputs_grow; [apply sm_nodup, A|apply sm_nodup, B|exact D|reflexivity].
    + cbn. unfold rows. do 5 f_equal. apply map_ext. intros (n, v). cbn. destruct (sm_get (ad_inputs a) n); reflexivity.
  - destruct F as (_ & _ & Z & _). cbn -[cstr]. rewrite (cstr_id _ Z). reflexivity.
  - cbn [items members]. erewrite grow_app; [|apply ints_grow; reflexivity]. erewrite grow_app; [|apply ints_grow; destruct (gp_grid g); reflexivity]. erewrite grow_app; [|apply ints_grow; destruct (gp_grid g), (gp_chip g); reflexivity]. rewrite ints_grow by (destruct (gp_grid g), (gp_chip g), (gp_x g); reflexivity). cbn [app]. rewrite <- !app_assoc. reflexivity.
  - destruct F as (A & B & C & _). cbn -[cstr]. rewrite (cstr_id _ A), (cstr_id _ B), (cstr_id _ C). reflexivity.
Qed.
Lemma nice_row i n k : nice i -> no_slash n -> no_nul n -> path_check [k] = true -> good_path [i; "parameter"; n; k].
Proof.
  intros (X & Y & Z) U1 U2 K. apply path_check_ok in K as (_ & A & B & _ & C). inversion A; inversion B; subst. split; [discriminate|]. split; [repeat constructor; try assumption; intros Q; cbn in Q; intuition discriminate|]. split; [repeat constructor; try assumption; intros Q; cbn in Q; intuition discriminate|]. split; assumption.
Qed.
Lemma push_ok i k v : nice i -> path_check [k] = true -> item_ok i (IPush [] k v).
Proof. intros N K. split; [apply (nice_item i k [] N), path_check_ok, K|]. intros [E|[]]. destruct N as (_ & _ & _ & N). apply N. exists k. exact E. Qed.
Lemma items_ok i s : nice i -> fit s -> nameable s -> Forall (item_ok i) (items s).
Proof.
  intros N F NA. destruct s; cbn [items]; try (repeat (apply Forall_cons; [apply (nice_put _ _ N); good|]); apply Forall_nil).
  - destruct F as (A & B & C & D). cbn in NA. apply Forall_app. split; apply Forall_map, Forall_forall; intros (n, v) I; (split; [discriminate|]); apply nice_row; try exact N; try reflexivity.
    + exact (proj1 (Forall_forall _ _) NA _ I).
    + exact (proj1 (proj1 (Forall_forall _ _) C _ I)).
    + destruct (proj1 (Forall_forall _ _) D _ I) as (_ & J). apply in_map_iff in J as (e & E & J). cbn in E. rewrite <- E. exact (proj1 (Forall_forall _ _) NA _ J).
    + destruct (proj1 (Forall_forall _ _) D _ I) as (_ & J). apply in_map_iff in J as (e & E & J). cbn in E. rewrite <- E. exact (proj1 (proj1 (Forall_forall _ _) C _ J)).
  - rewrite !Forall_app. repeat split; apply Forall_map, Forall_forall; intros v _; apply push_ok; try exact N; reflexivity.
Qed.
Lemma grown_tells i l r r1 : l <> [] -> grown i (JObj l) r r1 -> tells i l r r1.
Proof.
  intros N G. destruct l as [|e l]; [congruence|]. cbn [tells]. split; [exact (grown_holds _ _ _ _ G)|]. split; [|exact (grown_keeps _ _ _ _ G)]. intros q x Q H. rewrite !holds_at. pose proof (grown_apart _ _ _ _ q G Q H) as E. unfold at_param in E. rewrite E. reflexivity.
Qed.
Lemma all_items s : fit s -> members s = [] -> items s = [].
Proof.
  intros F. destruct s; try discriminate; try reflexivity; cbn [items members].
  - destruct F as (_ & _ & _ & D). destruct (ad_adjustments a); [|discriminate]. destruct (ad_inputs a) as [|x m]; [reflexivity|]. inversion D as [|? ? (_ & X) _]. destruct X.
  - destruct (gp_grid g); [|discriminate]. destruct (gp_chip g); [|discriminate]. destruct (gp_x g); [|discriminate]. destruct (gp_y g); [|discriminate]. reflexivity.
Qed.
Lemma put_items {S} i l y (s : S) r : Forall (item_ok i) l -> ready i r -> grow l (JObj []) = Some (JObj y) -> (y = [] -> l = []) -> exists r1, cputs (map (item_name i) l) s r = (s, r1, Ret tt) /\ tells i y r r1.
Proof.
  intros OK (R & A) G E. destruct l as [|e l].
  - injection G as <-. exists r. split; reflexivity.
  - assert (AT : at_param r [i] = None) by (destruct (at_param r [i]) as [x|] eqn:AT; [destruct (A x); apply leads_at; exact AT|reflexivity]).
    destruct (cputs_grow i (e :: l) r (JObj y) s ltac:(discriminate) OK R) as (r1 & C & GR). { unfold own, sub. unfold at_param in AT. cbn [app] in AT. rewrite AT. exact G. }
    exists r1. split; [exact C|]. apply grown_tells; [|exact GR]. intros Y. discriminate (E Y).
Qed.
Lemma reported i s r : nice i -> fit s -> nameable s -> ready i r -> exists r1, plugin_request i s r = (s, r1, Ret tt) /\ tells i (members s) r r1.
Proof.
  intros N F NA R. unfold plugin_request, cseq, cget. rewrite shown_items. apply put_items; [apply items_ok; assumption|exact R|apply items_grow, F|apply all_items, F].
Qed.
Definition status_list (s : plugin) : list item :=
  match s with
  | PBlosc _ p => [IPut ["compressor"] (XUint (bs_compressor (bp_cur p))); IPut ["threads"] (XUint (bs_threads (bp_cur p))); IPut ["shuffle"] (XUint (bs_shuffle (bp_cur p))); IPut ["level"] (XInt (bs_level (bp_cur p)))]
  | PKafka p => [IPut ["sent"] (XUint (kp_sent p)); IPut ["lost"] (XUint (kp_lost p)); IPut ["ack"] (XUint (kp_ack p))]
  | PDummy d => [IPut ["packets_lost"] (XInt (dm_lost d))]
  | _ => []
  end.
Lemma status_told w i s r : nice i -> ready i r -> exists r1, plugin_status w i s r = (polled w s, r1, Ret tt) /\ tells i (status_members (polled w s)) r r1.
Proof.
  intros N R. unfold plugin_status, cseq, cset, cget. generalize (polled w s) as t. intros t. replace (status_shown i t) with (map (item_name i) (status_list t)) by (destruct t; reflexivity).
  apply put_items; [destruct t; cbn [status_list]; repeat (apply Forall_cons; [apply (nice_put _ _ N); good|]); apply Forall_nil|exact R|destruct t; reflexivity|destruct t; try discriminate; reflexivity].
Qed.
