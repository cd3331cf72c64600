(** Which files stopping can change (C16). *)
From Verif Require Import Base StrOrder PlaceModel PlaceSpec NameModel NameProofs AcqModel AcqSpec FwModel FwSpec FwProofs FwThms.
Local Open Scope N_scope.

(** ** Only the first file of the new acquisition changes *)

(** With the current file named [q], only that file changes. *)
Definition only_at {A} (q : string) (m : M A) : Prop := forall s,
  (exists h, a_cur (s_acq s) = Some h /\ hf_name h = q) ->
  (exists h, a_cur (s_acq (fst (m s))) = Some h /\ hf_name h = q) /\
  forall p, p <> q -> s_disk (fst (m s)) p = s_disk s p.

Lemma only_bind {A B} q (m : M A) (k : A -> M B) : only_at q m -> (forall a, only_at q (k a)) -> only_at q (bind m k).
Proof.
  intros Hm Hk s Hs. destruct (Hm s Hs) as (H1 & H2). unfold bind. destruct (m s) as [s1 [a|e|]]; cbn in *; auto.
  destruct (Hk a s1 H1) as (K1 & K2). split; [exact K1|]. intros p Hp. rewrite K2, H2; auto.
Qed.
Lemma only_get {B} q (k : st -> M B) : (forall s, only_at q (k s)) -> only_at q (bind get k).
Proof. intros H s Hs. exact (H s s Hs). Qed.
Lemma only_lift {A} q (o : outcome Empty_set A) : only_at q (lift o).
Proof. destruct o as [a|[]|]; intros s Hs; split; auto. Qed.
Lemma only_same {A} q (o : outcome exn A) : only_at q (fun s => (s, o)).
Proof. intros s Hs. split; auto. Qed.
Lemma only_create_dataset q ok d rows low high : only_at q (create_dataset ok d rows low high).
Proof.
  intros s (h & Hc & Hq). unfold create_dataset, bind, get. rewrite Hc.
  destruct (negb (Nat.eqb _ _)); [cbn; eauto|]. destruct (_ && _); [cbn; eauto|]. destruct (negb ok); [cbn; eauto|].
  destruct (s_disk s (hf_name h)); cbn; [|eauto]. split; [eauto|]. intros p Hp. unfold upd.
  destruct (String.eqb_spec p (hf_name h)); congruence.
Qed.
Lemma only_create_datasets q i n ds : only_at q (create_datasets i n ds).
Proof.
  induction ds as [|d t IH]; [apply only_same|]. cbn [create_datasets]. apply only_get. intros s.
  apply only_bind; [apply only_lift|]. intros rows. apply only_bind; [|intros _; apply only_bind; [apply only_create_dataset|auto]].
  unfold validate_definition. destruct (existsb _ _); [apply only_same|]. destruct (existsb _ _); apply only_same.
Qed.

Lemma create_only i n s p : p <> full_path (s_acq s) n -> s_disk (fst (create_file i n s)) p = s_disk s p.
Proof.
  intros Hp. unfold create_file, bind at 1, get at 1.
  assert (C : exists l, close_file (a_prev (s_acq s)) s = (St (s_acq s) (s_disk s) l, Ret (option_map h5_close (a_prev (s_acq s))))).
  { destruct s as [a d l]. cbn. destruct (a_prev a); eexists; reflexivity. }
  destruct C as (l & C). unfold bind at 1. rewrite C. unfold bind at 1. cbn [put_prev]. unfold bind at 1, get at 1. cbn [s_acq s_disk s_log].
  unfold bind at 1. cbn [put_prev s_acq s_disk s_log].
  assert (F : full_path (with_prev (s_acq s) (option_map h5_close (a_prev (s_acq s)))) n = full_path (s_acq s) n) by (destruct (s_acq s); reflexivity).
  rewrite F. destruct (io_create i n); [|reflexivity]. cbn [negb].
  unfold bind at 1. cbn [set_disk s_acq s_disk s_log]. unfold bind at 1. cbn [put_cur s_acq s_disk s_log]. unfold bind at 1. cbn [emit s_acq s_disk s_log].
  match goal with |- s_disk (fst (bind ?m ?k ?s1)) p = _ => assert (O : only_at (full_path (s_acq s) n) (bind m k)) end.
  { apply only_bind; [apply only_create_datasets|]. intros _. destruct (io_dset i n ""); apply only_same. }
  match goal with |- s_disk (fst (_ ?s1)) p = _ => destruct (O s1) as (_ & H); [cbn; eexists; split; reflexivity|] end.
  rewrite (H p Hp). cbn. unfold upd.
  destruct (String.eqb_spec p (full_path (s_acq s) n)); congruence.
Qed.

Lemma start_only i s p : p <> full_path (s_acq s) (g_rank (a_geom (s_acq s))) -> s_disk (fst (start_acquisition i s)) p = s_disk s p.
Proof.
  intros Hp. unfold start_acquisition, bind at 1, get at 1. destruct (String.eqb _ _); [reflexivity|].
  unfold bind at 1. cbn [emit].
  match goal with |- s_disk (fst (bind (create_file i ?n) ?k ?s1)) p = _ => pose proof (create_only i n s1 p Hp) as H; unfold bind; destruct (create_file i n s1) as [s2 [[]|e|]] end;
    exact H.
Qed.

Lemma start_writing_only i w p : w_writing w = false -> p <> path_of (p_path (w_next w)) (next_naming w) (g_rank (w_geom w)) ->
  w_disk (fst (start_writing i w)) p = w_disk w p.
Proof.
  intros W Hp. destruct (start_writing_run i w W) as [(U & E2)|(n & Hn & [(NP & E2)|(_ & a & dk & l2 & r3 & Es & F2 & C2 & Rf & E2)])];
    rewrite E2; try reflexivity. cbn. pose proof (start_only i (St (next_acq w n) (w_disk w) []) p Hp) as H. rewrite Es in H. exact H.
Qed.

Lemma stop_only i w p : (restarts w -> p <> path_of (p_path (w_next w)) (next_naming w) (g_rank (w_geom w))) ->
  w_disk (fst (stop_acq i w)) p = w_disk w p.
Proof.
  intros Hp. destruct (stop_writing_full w) as (w1 & o & E1 & A1 & W1 & D1 & N1 & G1 & Df1 & Ac & Se & Nn & _).
  destruct (stop_acq_run i w w1 E1) as [(R & E2)|(_ & q & _ & E2)]; rewrite E2.
  - pose proof (start_writing_only i w1 p W1) as H. rewrite N1, Nn, G1, D1 in H. specialize (H (Hp R)).
    destruct (start_writing i w1) as [w2 [[]|e|]]; exact H.
  - cbn. rewrite D1. reflexivity.
Qed.

(** ** File names of two acquisitions *)
Definition no_slash (s : string) : Prop := ~ In "/"%char (list_ascii_of_string s).

Lemma la_app a b : list_ascii_of_string (a ++ b) = list_ascii_of_string a ++ list_ascii_of_string b.
Proof. induction a as [|c a IH]; cbn; [reflexivity|]. f_equal. exact IH. Qed.

Lemma slash_split a b c d : no_slash b -> no_slash d -> (a ++ "/" ++ b = c ++ "/" ++ d)%string -> a = c /\ b = d.
Proof.
  intros Hb Hd. revert c. induction a as [|x a IH]; intros [|y c]; cbn [append].
  - intros [= H]. auto.
  - intros [= H1 H2]. destruct Hb. change (In "/"%char (list_ascii_of_string b)). rewrite H2, la_app. apply in_or_app. right. left. reflexivity.
  - intros [= H1 H2]. destruct Hd. rewrite <- H2, la_app. apply in_or_app. right. left. reflexivity.
  - intros [= H1 H2]. destruct (IH c H2) as (-> & ->). subst. auto.
Qed.

Lemma str_app_length a b : String.length (a ++ b) = (String.length a + String.length b)%nat.
Proof. induction a as [|c a IH]; cbn; congruence. Qed.

Lemma no_slash_app a b : no_slash a -> no_slash b -> no_slash (a ++ b).
Proof. unfold no_slash. rewrite la_app, in_app_iff. tauto. Qed.

Lemma no_slash_number n : no_slash (number_string n).
Proof.
  unfold no_slash, number_string. rewrite list_ascii_of_string_of_list_ascii, pad6_dec.
  intros H. assert (H' : In "/"%char (map digit_char (rev (digits_le 20 n ++ repeat 0 (6 - List.length (digits_le 20 n)))))).
  { rewrite <- (firstn_skipn 6). apply in_or_app. left. exact H. }
  apply in_map_iff in H' as (d & Hd & Hi). apply in_rev, in_app_or in Hi.
  assert (d < 10). { destruct Hi as [Hi|Hi]; [exact (proj1 (Forall_forall _ _) (digits_small 20 n) d Hi)|apply repeat_spec in Hi; lia]. }
  assert (d = 0 \/ d = 1 \/ d = 2 \/ d = 3 \/ d = 4 \/ d = 5 \/ d = 6 \/ d = 7 \/ d = 8 \/ d = 9) as D by lia.
  repeat destruct D as [->|D]; try discriminate. subst. discriminate.
Qed.

Definition plain (nm : naming) : Prop := no_slash (n_filename nm) /\ no_slash (n_acqid nm) /\ no_slash (n_postfix nm) /\ no_slash (n_ext nm).

Definition stem_of (nm : naming) : string := if String.eqb (n_filename nm) "" then n_acqid nm else n_filename nm.

Lemma filename_shape nm k : n_use_numbers nm = true -> stem_of nm <> ""%string ->
  generate_filename nm k = (stem_of nm ++ (n_postfix nm ++ ("_" ++ (number_string (k + n_start nm) ++ n_ext nm))))%string.
Proof.
  unfold generate_filename, stem_of. intros -> H.
  assert (Hs : forall a b, a <> ""%string -> String.eqb (a ++ b) "" = false) by (intros [|] ?; cbn; congruence).
  assert (Ap : forall a b c, ((a ++ b) ++ c = a ++ (b ++ c))%string) by (induction a as [|x a IH]; cbn; intros; [auto|f_equal; apply IH]).
  destruct (String.eqb_spec (n_filename nm) "") as [E|E]; cbn [negb].
  - rewrite (proj2 (String.eqb_neq _ _) H). cbn [negb]. rewrite Hs by exact H. apply Ap.
  - rewrite Hs by exact E. apply Ap.
Qed.
Lemma filename_empty nm k : stem_of nm = ""%string -> generate_filename nm k = ""%string.
Proof.
  intros H. unfold stem_of in H. destruct (String.eqb_spec (n_filename nm) "") as [E|E]; [|congruence].
  apply filename_nonempty. auto.
Qed.

Lemma plain_name nm k : plain nm -> no_slash (generate_filename nm k).
Proof.
  intros (H1 & H2 & H3 & H4). unfold generate_filename.
  set (st := if negb (String.eqb (n_filename nm) "") then _ else _).
  assert (Hs : no_slash st).
  { unfold st. destruct (negb _); [apply no_slash_app; auto|]. destruct (negb _); [apply no_slash_app; auto|]. intros []. }
  destruct (String.eqb st ""); [intros []|]. destruct (n_use_numbers nm).
  - apply no_slash_app; [exact Hs|]. apply no_slash_app; [intros [|[]]; discriminate|]. apply no_slash_app; [apply no_slash_number|auto].
  - apply no_slash_app; auto.
Qed.

Lemma same_path d1 d2 n1 n2 k1 k2 : plain n1 -> plain n2 -> n_postfix n1 = n_postfix n2 -> n_ext n1 = n_ext n2 ->
  n_use_numbers n1 = true -> n_use_numbers n2 = true -> stem_of n2 <> ""%string ->
  k1 + n_start n1 < 10 ^ 6 -> k2 + n_start n2 < 10 ^ 6 ->
  path_of d1 n1 k1 = path_of d2 n2 k2 -> d1 = d2 /\ stem_of n1 = stem_of n2.
Proof.
  intros P1 P2 Hp He U1 U2 S2 K1 K2 H. unfold path_of in H.
  apply slash_split in H; [|apply plain_name; auto..]. destruct H as (-> & H). split; [reflexivity|].
  rewrite (filename_shape n2) in H by assumption.
  destruct (String.eqb_spec (stem_of n1) "") as [E|E].
  - rewrite (filename_empty n1 k1 E) in H. destruct (stem_of n2); [congruence|discriminate].
  - rewrite (filename_shape n1) in H by assumption. apply app_inj_len in H; [exact H|].
    apply (f_equal String.length) in H. rewrite Hp, He, !str_app_length, !number_string_length in H by assumption. lia.
Qed.

Lemma files_kept i w w' r k : w_writing w = true -> stop_acq i w = (w', r) ->
  p_path (w_next w) <> ""%string -> plain (a_naming (w_cur w)) -> plain (next_naming w) ->
  n_postfix (a_naming (w_cur w)) = w_postfix w -> n_ext (a_naming (w_cur w)) = sanitise_ext (w_ext w) ->
  n_use_numbers (a_naming (w_cur w)) = true -> w_numbers w = true ->
  (n_filename (a_naming (w_cur w)) = ""%string <-> p_file (w_next w) = ""%string) ->
  k + n_start (a_naming (w_cur w)) < 10 ^ 6 -> g_rank (w_geom w) + w_start w < 10 ^ 6 ->
  w_disk w' (path_of (a_path (w_cur w)) (a_naming (w_cur w)) k) = w_disk w (path_of (a_path (w_cur w)) (a_naming (w_cur w)) k).
Proof.
  intros W E Hp P1 P2 H1 H2 H3 H4 H5 H6 H7.
  pose proof (stop_only i w (path_of (a_path (w_cur w)) (a_naming (w_cur w)) k)) as H. rewrite E in H. apply H. clear H.
  intros (R1 & R2 & R3) Heq. apply R3. split; [exact W|].
  assert (S2 : stem_of (next_naming w) <> ""%string).
  { unfold stem_of, next_naming. cbn. destruct (String.eqb_spec (p_file (w_next w)) ""); [destruct R1; congruence|auto]. }
  apply same_path in Heq; auto. destruct Heq as (Hd & Hs).
  split; [exact Hp|]. split; [symmetry; exact Hd|]. unfold stem_of, next_naming in Hs, S2. cbn in Hs, S2.
  destruct (String.eqb_spec (p_file (w_next w)) "") as [F|F].
  - right. rewrite (proj2 H5 F) in Hs. cbn in Hs. auto.
  - left. split; [exact F|]. destruct (String.eqb_spec (n_filename (a_naming (w_cur w))) ""); [tauto|congruence].
Qed.

(** ** Settings of a running acquisition *)
Lemma run_settings s0 t s rs : run s0 t = (s, rs) -> settings (s_acq s) = settings (s_acq s0).
Proof.
  revert s0 rs. induction t as [|[i f] t IH]; cbn; intros s0 rs; [intros [= <- <-]; reflexivity|].
  destruct (process_frame i f s0) as [s1 r1] eqn:E. destruct (run s1 t) as [s2 r2] eqn:E2. intros [= <- <-].
  rewrite (IH _ _ E2). pose proof (stable_process i f s0) as (H & _). rewrite E in H. exact H.
Qed.
Lemma running_geom w i0 dk t : running w i0 dk t -> a_geom (w_cur w) = w_geom w.
Proof.
  intros (s0 & rs & Hs & Hr & _). apply run_settings in Hr. cbn in Hr.
  pose proof (stable_start i0 (St (configured (w_geom w) (a_naming (w_cur w)) (a_path (w_cur w)) (a_master (w_cur w))
                                (a_total (w_cur w)) (a_towrite (w_cur w)) (a_defs (w_cur w))) dk [])) as (H & _).
  rewrite Hs in H. cbn [fst] in H. rewrite H in Hr. unfold settings in Hr. cbn in Hr. congruence.
Qed.

(** ** What each call pushes *)
Lemma call_out o w w' r : fw_call o w = (w', r) -> exists o', w_out w' = w_out w ++ o' /\
  (match o with
   | OFrame _ _ _ f => (r = Ret tt /\ (for_current w f \/ for_next w f) /\ pushes o' = [f]) \/
                       (~ (r = Ret tt /\ (for_current w f \/ for_next w f)) /\ pushes o' = [])
   | _ => pushes o' = []
   end) /\
  eoas o' = match o with OEoa _ => if is_ret r then 1%nat else 0%nat | _ => 0%nat end.
Proof.
  intros E. destruct o as [ok c|i0 i i1 f|i|i c| |i]; cbn [fw_call] in E.
  - pose proof (cfgs_configure ok c w) as H. rewrite E in H. cbn in H. destruct H as (_ & _ & _ & _ & _ & _ & _ & _ & o & O & F).
    exists o. destruct (quiet_errors o F) as (Q1 & _ & Q3). auto.
  - apply frame_out in E as (o & O & _ & _ & Q & P). exists o. auto.
  - unfold fw_eoa in E. rewrite fbind_get in E. destruct (w_writing w).
    + unfold fbind in E. destruct (calm_stop_acq i w) as (o1 & O1 & Q1 & _ & Q3). destruct (stop_acq i w) as [w2 r2]. cbn in O1.
      destruct r2 as [[]|e|]; injection E as <- <-.
      * exists (o1 ++ [PushEoa]). cbn. rewrite O1, pushes_app, eoas_app, Q1, Q3, <- app_assoc. auto.
      * exists o1. auto.
      * exists o1. auto.
    + injection E as <- <-. exists [PushEoa]. auto.
  - unfold fw_execute in E. rewrite fbind_get in E. destruct c.
    + destruct (_ && _).
      * rewrite fbind_put in E. destruct (w_writing w); injection E as <- <-; exists []; rewrite app_nil_r; auto.
      * destruct (calm_start_writing i w) as (o1 & O1 & Q1 & _ & Q3). rewrite E in O1. exists o1. auto.
    + destruct (calm_stop_writing w) as (o1 & O1 & Q1 & _ & Q3). rewrite E in O1. exists o1. auto.
    + injection E as <- <-. exists []. rewrite app_nil_r. auto.
  - injection E as <- <-. exists []. rewrite app_nil_r. auto.
  - unfold fw_timeout in E. rewrite fbind_get in E. destruct (w_writing w && w_active w).
    + unfold fbind in E. cbn [fput] in E. destruct (calm_stop_acq i (say [Err ErrTimeout] w)) as (o1 & O1 & Q1 & _ & Q3).
      destruct (stop_acq i (say [Err ErrTimeout] w)) as [w2 r2]. cbn in O1.
      exists ([Err ErrTimeout] ++ o1). rewrite pushes_app, eoas_app, Q1, Q3, app_assoc.
      destruct r2 as [[]|e|]; injection E as <- <-; auto.
    + injection E as <- <-. exists []. rewrite app_nil_r. auto.
Qed.

(** Frames of the calls selected by a list of booleans. *)
Definition chosen (l : list op) (bs : list bool) : list frame :=
  flat_map (fun c => match fst c with OFrame _ _ _ f => if snd c : bool then [f] else [] | _ => [] end) (combine l bs).

Lemma run_pushes l : forall w w' rs, fw_run w l = (w', rs) -> exists bs, List.length bs = List.length rs /\
  pushes (w_out w') = pushes (w_out w) ++ chosen l bs /\
  eoas (w_out w') = (eoas (w_out w) +
    List.length (filter (fun c => match fst c with OEoa _ => is_ret (snd c) | _ => false end) (combine l rs)))%nat.
Proof.
  induction l as [|o t IH]; intros w w' rs; cbn [fw_run].
  - intros [= <- <-]. exists []. cbn. rewrite app_nil_r. auto.
  - destruct (fw_call o w) as [w1 r] eqn:E. destruct (call_out o w w1 r E) as (o' & O & P & Q).
    assert (B : exists b : bool, pushes o' = match o with OFrame _ _ _ f => if b then [f] else [] | _ => [] end).
    { destruct o; try (exists true; exact P). destruct P as [(_ & _ & P)|(_ & P)]; [exists true|exists false]; exact P. }
    destruct B as (b & B).
    assert (R : (exists w2 rs2, fw_run w1 t = (w2, rs2) /\ (match r with Undef => (w1, [Undef]) | _ => let '(w2, rs) := fw_run w1 t in (w2, r :: rs) end) = (w2, r :: rs2) /\ r <> Undef) \/ r = Undef).
    { destruct (fw_run w1 t) as [w2 rs2]. destruct r; [left|left|right; reflexivity]; exists w2, rs2; repeat split; discriminate. }
    destruct R as [(w2 & rs2 & E2 & R & _)| ->].
    + intros H. assert (H' : (w', rs) = (w2, r :: rs2)) by (rewrite <- R, <- H; destruct r; reflexivity). injection H' as -> ->.
      destruct (IH _ _ _ E2) as (bs & L & P2 & Q2). exists (b :: bs). split; [cbn; congruence|].
      split; [unfold chosen; cbn [combine flat_map fst snd]; rewrite P2, O, pushes_app, B, <- app_assoc; reflexivity|].
      rewrite Q2, O, eoas_app, Q. cbn [combine filter fst snd]. destruct o; cbn [List.length]; try lia. destruct (is_ret r); cbn [List.length]; lia.
    + intros [= <- <-]. exists [b]. split; [reflexivity|]. unfold chosen. cbn [combine flat_map fst snd]. destruct t; cbn [combine flat_map];
      (rewrite O, pushes_app, eoas_app, B, Q, app_nil_r; split; [reflexivity|]; cbn; destruct o; cbn; lia).
Qed.
