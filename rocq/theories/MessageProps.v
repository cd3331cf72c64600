(** C35: type and value names, strict messages, encoding. *)
From Coq Require Import String Ascii.
From Verif Require Import Base JsonModel JsonSpec JsonProofs MessageSpec.
Local Open Scope string_scope.
Local Open Scope list_scope.

Lemma by_name_cons {A} (d : A) k a l n : by_name d ((k, a) :: l) n = if String.eqb k n then a else by_name d l n.
Proof. unfold by_name. cbn. destruct (String.eqb k n); reflexivity. Qed.

(** A name decodes to what it stands for, all other strings to the illegal value; encoding gives the name. *)
Theorem c35_types n t : (t <> TIllegal -> (type_of_name n = t <-> type_name n t)) /\ (type_of_name n = TIllegal <-> forall t', ~ type_name n t') /\
  (t <> TIllegal -> type_name (name_of_type t) t) /\ type_of_name (name_of_type t) = t.
Proof.
  unfold type_of_name, type_names. rewrite !by_name_cons. change (by_name TIllegal [] n) with TIllegal.
  destruct (String.eqb_spec "cmd" n) as [<-|N1]; [split; [|split; [|split]]; try (destruct t; vm_compute; auto; fail); [intros _; split; [intros <-; constructor|intros H; inversion H; reflexivity]|split; [discriminate|intros H; destruct (H _ tn_cmd)]|destruct t; intros H; try constructor; destruct H; reflexivity]|].
  destruct (String.eqb_spec "ack" n) as [<-|N2]; [split; [|split; [|split]]; try (destruct t; vm_compute; auto; fail); [intros _; split; [intros <-; constructor|intros H; inversion H; reflexivity]|split; [discriminate|intros H; destruct (H _ tn_ack)]|destruct t; intros H; try constructor; destruct H; reflexivity]|].
  destruct (String.eqb_spec "nack" n) as [<-|N3]; [split; [|split; [|split]]; try (destruct t; vm_compute; auto; fail); [intros _; split; [intros <-; constructor|intros H; inversion H; reflexivity]|split; [discriminate|intros H; destruct (H _ tn_nack)]|destruct t; intros H; try constructor; destruct H; reflexivity]|].
  destruct (String.eqb_spec "notify" n) as [<-|N4]; [split; [|split; [|split]]; try (destruct t; vm_compute; auto; fail); [intros _; split; [intros <-; constructor|intros H; inversion H; reflexivity]|split; [discriminate|intros H; destruct (H _ tn_notify)]|destruct t; intros H; try constructor; destruct H; reflexivity]|].
  split; [intros T; split; [congruence|intros H; inversion H; congruence]|]. split; [split; [intros _ t' H; inversion H; congruence|reflexivity]|]. split; [destruct t; intros H; try constructor; destruct H; reflexivity|destruct t; vm_compute; reflexivity].
Qed.

Lemma val_of_name_in n v : v <> VIllegal -> (val_of_name n = v <-> val_name n v).
Proof.
  intros V. unfold val_of_name, val_names. rewrite !by_name_cons. change (by_name VIllegal [] n) with VIllegal.
  repeat match goal with |- context [String.eqb ?k n] => destruct (String.eqb_spec k n) as [<-|?]; [split; [intros <-; constructor|intros H; inversion H; reflexivity]|] end.
  split; [congruence|intros H; inversion H; congruence].
Qed.
Theorem c35_values n v : (v <> VIllegal -> (val_of_name n = v <-> val_name n v)) /\ (val_of_name n = VIllegal <-> forall v', ~ val_name n v') /\
  (v <> VIllegal -> val_name (name_of_val v) v) /\ val_of_name (name_of_val v) = v.
Proof.
  split; [apply val_of_name_in|]. split; [|split; [destruct v; intros H; try constructor; destruct H; reflexivity|destruct v; vm_compute; reflexivity]]. split.
  - intros E v' H. assert (N : v' <> VIllegal) by (intros ->; inversion H). apply (proj2 (val_of_name_in n v' N)) in H. congruence.
  - intros H. destruct (val_of_name n) eqn:E; try reflexivity; exfalso; eapply H, val_of_name_in; try exact E; discriminate.
Qed.

Lemma leads1 k x y : leads [k] x y <-> exists l, x = JObj l /\ find_member k l = Some y.
Proof.
  rewrite leads_at. cbn. split; [|intros (l & -> & F); rewrite F; reflexivity]. destruct x; try discriminate. destruct (find_member k l) eqn:F; [|discriminate]. intros H. injection H as ->. eauto.
Qed.
Lemma type_eqb_illegal t : msg_type_eqb t TIllegal = true <-> t = TIllegal. Proof. destruct t; cbn; split; congruence. Qed.
Lemma val_index_0 v : Nat.eqb (val_index v) 0 = true <-> v = VIllegal. Proof. destruct v; cbn; split; congruence. Qed.
Lemma str_attr doc k n : (forall s, find_member k doc = Some (JStr s) -> no_nul s) -> get_attr str_value doc k "none" = Ret n ->
  find_member k doc = Some (JStr n) \/ find_member k doc = None /\ n = "none".
Proof.
  intros C. unfold get_attr. destruct (find_member k doc) as [x|]; [|intros H; injection H as <-; auto]. destruct x; try discriminate. cbn. rewrite (cstr_id s) by (apply C; reflexivity). intros H. injection H as ->. auto.
Qed.

(** A strict message is made from exactly the well formed documents, and has what they say.  ("none" is not the text of a time.) *)
Theorem c35_strict c x m : clean x -> time_parse c "none" = None ->
  (msg_of_doc c x true = Ret m <-> exists t v id time p, well_formed (time_parse c) x t v id time p /\ exists doc, x = JObj doc /\ m = Msg true doc t v (Some id) (Some time)).
Proof.
  intros CL TN. destruct x as [| | | | | |doc]; try (split; [discriminate|intros (t & v & id & time & p & _ & doc & E & _); discriminate]).
  assert (CS : forall k s, find_member k doc = Some (JStr s) -> no_nul s) by (intros k s F; apply (CL k s), leads1; eauto).
  assert (TI : type_of_name "none" = TIllegal) by reflexivity. assert (VI : val_of_name "none" = VIllegal) by reflexivity.
  split.
  - cbn [msg_of_doc]. destruct (get_attr str_value doc "msg_type" "none") as [tn| |] eqn:E1; try discriminate. cbn [bind andb]. destruct (msg_type_eqb (type_of_name tn) TIllegal) eqn:E2; [discriminate|].
    destruct (get_attr str_value doc "msg_val" "none") as [vn| |] eqn:E3; try discriminate. cbn [bind]. destruct (Nat.eqb (val_index (val_of_name vn)) 0) eqn:E4; [discriminate|].
    destruct (get_attr str_value doc "timestamp" "none") as [tx| |] eqn:E5; try discriminate. cbn [bind]. destruct (time_parse c tx) as [time|] eqn:E6; [|discriminate].
    destruct (get_attr uint_value doc "id" 0%Z) as [id| |] eqn:E7; try discriminate. destruct (negb (has_params doc)) eqn:E8; [discriminate|]. intros H. injection H as <-. unfold has_params in E8. destruct (find_member "params" doc) as [[]|] eqn:E9; try discriminate.
    exists (type_of_name tn), (val_of_name vn), id, time, l. split; [|exists doc; split; reflexivity].
    assert (T : type_of_name tn <> TIllegal) by (intros X; rewrite X in E2; discriminate). assert (V : val_of_name vn <> VIllegal) by (intros X; rewrite X in E4; discriminate). split.
    + destruct (str_attr doc _ _ (CS _) E1) as [F|(_ & ->)]; [|congruence]. exists tn. split; [apply leads1; eauto|]. apply (c35_types tn (type_of_name tn)); [exact T|reflexivity].
    + destruct (str_attr doc _ _ (CS _) E3) as [F|(_ & ->)]; [|congruence]. exists vn. split; [apply leads1; eauto|]. apply val_of_name_in; [exact V|reflexivity].
    + destruct (str_attr doc _ _ (CS _) E5) as [F|(_ & ->)]; [|congruence]. exists tx. split; [apply leads1; eauto|exact E6].
    + unfold get_attr in E7. destruct (find_member "id" doc) as [y|] eqn:F.
      * left. unfold uint_value in E7. destruct y; try discriminate. cbn in E7. unfold in_range in E7. destruct (Z.leb_spec 0 z); cbn in E7; [|discriminate]. destruct (Z.ltb_spec z 4294967296); cbn in E7; [|discriminate]. injection E7 as <-. split; [apply leads1; eauto|]. change (2 ^ 32)%Z with 4294967296%Z. lia.
      * right. injection E7 as <-. split; [reflexivity|]. intros y H. apply leads1 in H as (l0 & E & F'). injection E as <-. congruence.
    + apply leads1. eauto.
  - intros (t & v & id & time & p & W & doc' & E & ->). injection E as <-. destruct W as [(tn & L1 & T) (vn & L2 & V) (tx & L3 & TM) ID PA].
    apply leads1 in L1 as (l1 & E & F1). injection E as <-. apply leads1 in L2 as (l2 & E & F2). injection E as <-. apply leads1 in L3 as (l3 & E & F3). injection E as <-. apply leads1 in PA as (l4 & E & F4). injection E as <-.
    cbn [msg_of_doc]. unfold get_attr. rewrite F1. cbn [str_value bind]. rewrite (cstr_id tn) by (apply (CS _ _ F1)).
    assert (TT : t <> TIllegal) by (intros ->; inversion T). apply (proj1 (c35_types tn t) TT) in T. rewrite T. destruct (msg_type_eqb t TIllegal) eqn:E2; [apply type_eqb_illegal in E2; contradiction|]. cbn [andb].
    rewrite F2. cbn [str_value bind]. rewrite (cstr_id vn) by (apply (CS _ _ F2)). assert (VV : v <> VIllegal) by (intros ->; inversion V). apply (val_of_name_in vn v VV) in V. rewrite V. destruct (Nat.eqb (val_index v) 0) eqn:E4; [apply val_index_0 in E4; contradiction|].
    rewrite F3. cbn [str_value bind]. rewrite (cstr_id tx) by (apply (CS _ _ F3)). rewrite TM. unfold has_params. rewrite F4. cbn [negb].
    destruct ID as [(L & R)|(-> & NO)].
    + apply leads1 in L as (l5 & E & F5). injection E as <-. rewrite F5. unfold uint_value. cbn [get_value]. unfold in_range. destruct (Z.leb_spec 0 id); [|lia]. destruct (Z.ltb_spec id (2 ^ 32)); [|lia]. reflexivity.
    + destruct (find_member "id" doc) as [y|] eqn:F5; [|reflexivity]. destruct (NO y). apply leads1. eauto.
Qed.

Definition text_ok (c : clock) : Prop := forall t, no_nul (time_text c (Some t)) /\ time_parse c (time_text c (Some t)) = Some t.

Lemma names_clean t v : no_nul (name_of_type t) /\ no_nul (name_of_val v).
Proof. split; [destruct t|destruct v]; intros H; vm_compute in H; repeat (destruct H as [H|H]; [discriminate|]); exact H. Qed.

(** Encoding and decoding a valid message gives the same type, value, id, time and parameters, and encodes again to the same. *)
Theorem c35_round_trip_partial c m d :
  text_ok c -> is_valid m = true -> (forall id, g_id m = Some id -> (0 <= id < 2 ^ 32)%Z) -> encode c m = Ret d ->
  exists m', msg_of_doc c (JObj d) true = Ret m' /\ g_type m' = g_type m /\ g_val m' = g_val m /\ g_id m' = g_id m /\ g_time m' = g_time m /\ (forall q x, holds m' q x <-> holds m q x) /\ encode c m' = Ret d.
Proof.
  intros TO V ID E. unfold is_valid in V. rewrite !andb_true_iff, !negb_true_iff in V. destruct V as (((V1 & V2) & V3) & V4). destruct (g_time m) as [tm|] eqn:GT; [|discriminate]. unfold encode in E. destruct (g_id m) as [id|] eqn:GI; [|discriminate]. injection E as <-. specialize (ID id eq_refl).
  destruct (TO tm) as (T1 & T2). rewrite GT, (cstr_id _ T1). set (d := put_member "timestamp" _ _). destruct (names_clean (g_type m) (g_val m)) as (C1 & C2).
  assert (F1 : find_member "msg_type" d = Some (JStr (name_of_type (g_type m)))) by (unfold d; rewrite !find_put; reflexivity).
  assert (F2 : find_member "msg_val" d = Some (JStr (name_of_val (g_val m)))) by (unfold d; rewrite !find_put; reflexivity).
  assert (F3 : find_member "id" d = Some (JInt id)) by (unfold d; rewrite !find_put; reflexivity).
  assert (F4 : find_member "timestamp" d = Some (JStr (time_text c (Some tm)))) by (unfold d; rewrite !find_put; reflexivity).
  assert (F5 : find_member "params" d = find_member "params" (g_doc m)) by (unfold d; rewrite !find_put; reflexivity).
  exists (Msg true d (g_type m) (g_val m) (Some id) (Some tm)). cbn [g_type g_val g_id g_time g_doc msg_of_doc]. split.
  - unfold get_attr. rewrite F1. cbn [str_value bind]. rewrite (cstr_id _ C1). rewrite (proj2 (proj2 (proj2 (c35_types "" (g_type m))))). rewrite V1. cbn [andb]. rewrite F2. cbn [str_value bind]. rewrite (cstr_id _ C2), (proj2 (proj2 (proj2 (c35_values "" (g_val m))))), V2.
    rewrite F4. cbn [str_value bind]. rewrite (cstr_id _ T1), T2, F3. unfold uint_value. cbn [get_value]. unfold in_range. destruct (Z.leb_spec 0 id); [|lia]. destruct (Z.ltb_spec id (2 ^ 32)); [|lia]. cbn [andb]. unfold has_params in *. rewrite F5, V4. reflexivity.
  - split; [reflexivity|]. split; [reflexivity|]. split; [reflexivity|]. split; [reflexivity|]. split.
    + intros q x. rewrite !holds_at. cbn [g_doc at_path]. rewrite F5. tauto.
    + unfold encode. cbn [g_type g_val g_id g_time g_doc]. rewrite (cstr_id _ T1). rewrite (put_same _ _ _ F1), (put_same _ _ _ F2), (put_same _ _ _ F3), (put_same _ _ _ F4). reflexivity.
Qed.

(** set_nack: a refusal with its reason; the value and the id stay those of the request. *)
Theorem c35_nack_partial m reason m' : no_nul reason -> set_nack m reason = (m', Ret tt) ->
  g_type m' = TNack /\ g_val m' = g_val m /\ g_id m' = g_id m /\ get_param GStr m' "error" = Ret (RStr reason).
Proof.
  intros NN H. unfold set_nack in H. set (m1 := Msg (g_strict m) (g_doc m) TNack (g_val m) (g_id m) (g_time m)) in *. assert (G : good_path ["error"]).
  { split; [discriminate|]. split; [repeat constructor; intros X; cbn in X; intuition discriminate|]. split; [repeat constructor; intros X; cbn in X; intuition discriminate|]. assert (P : plain "error"); [|split; exact P]. split; [cbn; lia|]. intros (p & E). do 4 (destruct p as [|? p]; [discriminate|injection E as _ E]). destruct p as [|? p]; [discriminate|]. injection E as _ E. destruct p; discriminate. }
  pose proof (set_param_eq m1 ["error"] (XStr reason) G) as E. change (slashed ["error"]) with "error" in E. rewrite E in H. destruct (set_at ["params"; "error"] (set_value (XStr reason)) (JObj (g_doc m1))) as [y|] eqn:S; [|discriminate]. destruct y; try discriminate. injection H as <-. repeat split.
  unfold get_param. assert (R : get_raw (with_doc l m1) (slashed ["error"]) = Ret (set_value (XStr reason))) by (apply get_raw_holds; [apply good_any, G|]; apply holds_at; rewrite <- (app_nil_r ["params"; "error"]); exact (set_at_below _ _ _ _ [] S)).
  cbn [slashed] in R. rewrite R. cbn. rewrite (cstr_id _ NN), (cstr_id _ NN). reflexivity.
Qed.

Definition a_clock := Clock (fun t => match t with Some 5%Z => "2017-06-07T12:00:05" | Some _ => "2017-06-07T12:00:00" | None => "not-a-date-time" end) (fun s => if String.eqb s "2017-06-07T12:00:05" then Some 5%Z else None).
Definition a_doc := JObj [("msg_type", JStr "cmd"); ("msg_val", JStr "execute"); ("id", JInt 3); ("timestamp", JStr "2017-06-07T12:00:05"); ("params", JObj [("hdf", JObj [])])].
Example c35_case : (exists m, msg_of_doc a_clock a_doc true = Ret m /\ is_valid m = true /\ encode a_clock m = Ret (match a_doc with JObj d => d | _ => [] end)) /\ clean a_doc /\ time_parse a_clock "none" = None /\
  msg_of_doc a_clock (JObj [("msg_type", JStr "cmmd"); ("msg_val", JStr "execute"); ("timestamp", JStr "2017-06-07T12:00:05"); ("params", JObj [])]) true = Throw EIllegal.
Proof.
  split; [eexists; split; [reflexivity|]; split; reflexivity|]. split; [|split; reflexivity]. intros k n H. apply leads1 in H as (l & E & F). injection E as <-. cbn in F.
  repeat match type of F with (if ?b then _ else _) = _ => destruct b; [try discriminate F; injection F as <-; intros X; cbn in X; repeat (destruct X as [X|X]; [discriminate|]); exact X|] end. discriminate F.
Qed.

(** Not strict: without an id that is an unsigned int the id of the message is indeterminate. *)
Theorem c35_lenient_id_refuted c : exists x m, msg_of_doc c x false = Ret m /\ g_id m = None /\ encode c m = Undef.
Proof. exists (JObj [("id", JStr "x")]). eexists. split; [reflexivity|]. split; reflexivity. Qed.

Print Assumptions c35_types.
Print Assumptions c35_values.
Print Assumptions c35_strict.
Print Assumptions c35_round_trip_partial.
Print Assumptions c35_nack_partial.
Print Assumptions c35_lenient_id_refuted.
