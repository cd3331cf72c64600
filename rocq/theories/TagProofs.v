(** The index attributes through a whole acquisition. *)
From Verif Require Import Base PlaceModel PlaceSpec NameModel AcqModel AcqSpec AcqProofs FwModel FwSpec FwProofs TagSpec.
Local Open Scope N_scope.

(** What the code writes for a dataset of file [n]. *)
Definition tag_of (a : acq) (d : dsdef) (n : N) : option (Z * Z) := if d_lowhigh d then Some (low_high a d n) else None.

Section Keep.
  Variable a0 : acq.

  Definition tagged (dk : disk) (p : string) : Prop := forall df x dd, dk p = Some df -> df x = Some dd ->
    exists n d, p = full_path a0 n /\ In d (a_defs a0) /\ d_name d = x /\ dd_lowhigh dd = tag_of a0 d n.
  Definition K (s : st) : Prop := settings (s_acq s) = settings a0 /\ forall p, In p (created (s_log s)) -> tagged (s_disk s) p.
  Definition keep {A} (m : M A) : Prop := forall s, K s -> K (fst (m s)).

  Lemma keep_same {A} (m : M A) : (forall s, settings (s_acq (fst (m s))) = settings (s_acq s) /\ s_disk (fst (m s)) = s_disk s /\ created (s_log (fst (m s))) = created (s_log s)) -> keep m.
  Proof. intros H s (H1 & H2). destruct (H s) as (E1 & E2 & E3). unfold K. rewrite E1, E2, E3. auto. Qed.
  Lemma keep_bind {A B} (m : M A) (k : A -> M B) : keep m -> (forall a, keep (k a)) -> keep (bind m k).
  Proof. intros Hm Hk s Hs. unfold bind. specialize (Hm s Hs). destruct (m s) as [s1 [a|e|]]; cbn [fst] in *; auto. apply Hk. exact Hm. Qed.
  Lemma keep_bind_get {B} (k : st -> M B) : (forall s, keep (k s)) -> keep (bind get k).
  Proof. intros H. apply keep_bind; [apply keep_same; auto|exact H]. Qed.
  Lemma keep_emit e : (forall p, e <> EvCreate p) -> keep (emit e).
  Proof. intros H. apply keep_same. intros s. cbn. repeat split. unfold created. rewrite flat_map_app. cbn. destruct e; try (exfalso; eapply H; reflexivity); apply app_nil_r. Qed.

  Ltac kp_base := apply keep_same; intros; repeat split; reflexivity.
  Lemma keep_lift {A} (o : outcome Empty_set A) : keep (lift o). Proof. destruct o as [a|[]|]; kp_base. Qed.
  Lemma keep_olift {A} (o : outcome exn A) : keep (olift o). Proof. destruct o; kp_base. Qed.
  Lemma keep_put_file w f : keep (put_file w f). Proof. destruct w; kp_base. Qed.
  Ltac kp := repeat (match goal with
    | |- keep (bind get _) => apply keep_bind_get; intro
    | |- keep (bind _ _) => apply keep_bind; [|intro]
    | |- keep (ret _) => kp_base
    | |- keep (throw _) => kp_base
    | |- keep undef => kp_base
    | |- keep (emit _) => apply keep_emit; discriminate
    | |- keep (put_cur _) => kp_base
    | |- keep (put_prev _) => kp_base
    | |- keep (put_counts _ _) => kp_base
    | |- keep (put_file _ _) => apply keep_put_file
    | |- keep (lift _) => apply keep_lift
    | |- keep (olift _) => apply keep_olift
    | |- keep (if ?b then _ else _) => destruct b
    | |- keep (match ?x with _ => _ end) => destruct x
    | |- keep (let _ := _ in _) => cbv zeta
    end).
  Lemma keep_close f : keep (close_file f). Proof. unfold close_file. destruct f; kp. Qed.

  Lemma cfg_low_high a d n : settings a = settings a0 -> low_high a d n = low_high a0 d n.
  Proof. unfold settings. intros [= G _ _ _ T _ _]. unfold low_high. rewrite G, T. reflexivity. Qed.
  Lemma cfg_path a n : settings a = settings a0 -> full_path a n = full_path a0 n.
  Proof. unfold settings. intros [= _ N P _ _ _ _]. unfold full_path. rewrite N, P. reflexivity. Qed.
  Lemma cfg_defs a : settings a = settings a0 -> a_defs a = a_defs a0.
  Proof. unfold settings. intros [= _ _ _ _ _ _ D]. exact D. Qed.

  (** The current file is file [n]. *)
  Definition Kn (n : N) (s : st) : Prop := K s /\ exists c, a_cur (s_acq s) = Some c /\ hf_name c = full_path a0 n.

  Lemma kn_dataset ok d rows n s : In d (a_defs a0) -> Kn n s -> let a := s_acq s in
    Kn n (fst (create_dataset ok d rows (fst (low_high a d n)) (snd (low_high a d n)) s)).
  Proof.
    intros Hin (HK & c & Hc & Hp) a. pose proof HK as (Hset & Htag). unfold create_dataset. rewrite bind_get, Hc.
    assert (Same : Kn n s) by (split; [exact HK|eauto]).
    destruct (negb (Nat.eqb _ _)); [exact Same|]. cbv zeta. destruct (negb (hf_unlim c) && _); [exact Same|].
    destruct (negb ok); [exact Same|]. destruct (s_disk s (hf_name c)) as [df|] eqn:Ed; [|exact Same].
    cbn. split; [split|].
    - exact Hset.
    - cbn. intros p Hcr df' x dd Hd Hx. unfold upd in Hd. destruct (String.eqb_spec p (hf_name c)) as [E|E].
      + injection Hd as <-. unfold upd in Hx. destruct (String.eqb_spec x (d_name d)) as [E2|E2].
        * injection Hx as <-. exists n, d. cbn. subst x p. repeat split; auto. unfold tag_of. subst a. rewrite (cfg_low_high _ d n Hset).
          destruct (low_high a0 d n); reflexivity.
        * subst p. eapply Htag; eauto.
      + eapply Htag; eauto.
    - eexists. split; [reflexivity|]. exact Hp.
  Qed.

  Lemma kn_datasets i n : forall ds s, (forall d, In d ds -> In d (a_defs a0)) -> Kn n s -> Kn n (fst (create_datasets i n ds s)).
  Proof.
    induction ds as [|d t IH]; intros s Hin Hs; [exact Hs|]. cbn [create_datasets]. rewrite bind_get.
    destruct (dataset_rows (s_acq s) d n) as [rows|[]|]; [|exact Hs]. cbn [lift]. rewrite bind_ret.
    unfold bind at 1. unfold validate_definition. destruct (existsb _ (d_dims d)); [exact Hs|]. destruct (existsb _ (d_chunks d)); [exact Hs|].
    cbn [ret]. unfold bind at 1. pose proof (kn_dataset (io_dset i n (d_name d)) d rows n s (Hin d (or_introl eq_refl)) Hs) as H. cbv zeta in H.
    destruct (create_dataset _ d rows _ _ s) as [s1 [[]|e|]]; cbn [fst] in *; auto. apply IH; [|exact H]. intros. apply Hin. right. assumption.
  Qed.

  Lemma keep_create_file i n : keep (create_file i n).
  Proof.
    intros s Hs. unfold create_file. rewrite bind_get. unfold bind at 1. pose proof (keep_close (a_prev (s_acq s)) s Hs) as H1.
    destruct (close_file (a_prev (s_acq s)) s) as [s1 [p|e|]]; cbn [fst] in *; auto.
    assert (H2 : K (fst (put_prev p s1))) by (apply (keep_same (put_prev p)); [intros; repeat split|exact H1]).
    unfold bind at 1. destruct (put_prev p s1) as [s2 [u|e|]]; cbn [fst] in *; auto. rewrite bind_get.
    unfold bind at 1. assert (H3 : K (fst (put_prev (a_cur (s_acq s2)) s2))) by (apply (keep_same (put_prev _)); [intros; repeat split|exact H2]).
    assert (E3 : s_disk (fst (put_prev (a_cur (s_acq s2)) s2)) = s_disk s2) by reflexivity.
    destruct (put_prev (a_cur (s_acq s2)) s2) as [s3 [u3|e|]]; cbn [fst] in *; auto.
    destruct H2 as (Hset2 & _). rewrite (cfg_path _ _ Hset2), (cfg_defs _ Hset2).
    destruct (negb (io_create i n)). { revert H3. generalize s3. change (keep (put_cur (Some (HFile (full_path a0 n) 0 false false (fun _ => None))) ;;; @throw unit EHdf5)). kp. }
    cbn. pose proof H3 as (Hset3 & Htag3).
    match goal with |- K (fst (bind (create_datasets _ _ _) _ ?x)) => set (s4 := x) end.
    assert (H4 : Kn n s4).
    { subst s4. split; [split|]; cbn.
      - exact Hset3.
      - intros q Hq df x dd Hd Hx. unfold upd in Hd. destruct (String.eqb_spec q (full_path a0 n)) as [E|E]; [injection Hd as <-; discriminate|].
        rewrite <- E3 in Hd. unfold created in Hq. rewrite flat_map_app in Hq. apply in_app_or in Hq. destruct Hq as [Hq|[Hq|[]]]; [|congruence]. eapply Htag3; eauto.
      - eexists. split; reflexivity. }
    pose proof (kn_datasets i n (a_defs a0) s4 (fun d h => h) H4) as (H5 & _). unfold bind at 1.
    destruct (create_datasets i n (a_defs a0) s4) as [s5 [[]|e|]]; cbn [fst] in *; auto. destruct (io_dset i n ""); exact H5.
  Qed.
  Lemma keep_create_missing i fuel n : keep (create_missing i fuel n).
  Proof. induction fuel as [|k IH]; cbn [create_missing]; kp; [apply keep_create_file|exact IH]. Qed.
  Lemma keep_get_file i off : keep (get_file i off).
  Proof. unfold get_file. kp; [apply keep_create_missing|apply keep_create_file]. Qed.
  Lemma keep_write_rows ok w name rows start data : keep (write_rows ok w name rows start data).
  Proof.
    intros s Hs. unfold write_rows. rewrite bind_get. destruct (file_of w (s_acq s)) as [f|]; [|exact Hs].
    destruct (hf_dsets f name) as [hd|]; [|exact Hs]. cbv zeta. unfold bind at 1.
    match goal with |- context [put_file w ?f'] => pose proof (keep_put_file w f' s Hs) as H1; assert (E : s_disk (fst (put_file w f' s)) = s_disk s) by (destruct w; reflexivity) end.
    destruct (put_file w _ s) as [s1 [[]|e|]]; cbn [fst] in *; auto.
    destruct (s_disk s (hf_name f)) as [df|] eqn:Ed; [|exact H1]. destruct (df name) as [dd|] eqn:En; [|exact H1].
    unfold bind. cbn. match goal with |- K (fst (?b _)) => assert (G : K (St (s_acq s1) (upd (s_disk s) (hf_name f) (Some (upd df name (Some (fst (store (hf_unlim f) dd rows start data ok)))))) (s_log s1))) end.
    { destruct H1 as (Hset & Htag). split; [exact Hset|]. cbn. intros p Hp df' x dd' Hd Hx. unfold upd in Hd.
      destruct (String.eqb_spec p (hf_name f)) as [->|Hne]; [|rewrite <- E in Hd; eapply Htag; eauto].
      injection Hd as <-. unfold upd in Hx. rewrite <- E in Ed. destruct (String.eqb_spec x name) as [->|Hne]; [|eapply Htag; eauto].
      injection Hx as <-. destruct (Htag _ Hp _ _ _ Ed En) as (n & d & ? & ? & ? & T). exists n, d. repeat split; auto. rewrite <- T. unfold store. destruct (_ && _); reflexivity. }
    destruct (snd (store _ _ _ _ _ _)); exact G.
  Qed.
  Lemma keep_write_params i w ps off : keep (write_params i w ps off).
  Proof. induction ps as [|[n v] t IH]; cbn [write_params]; kp; try exact IH. apply keep_write_rows. Qed.
  Lemma keep_process_body i f : keep (process_body i f).
  Proof.
    unfold process_body. kp.
    all: try apply keep_get_file.
    all: try (unfold write_frame; kp; [apply keep_write_rows|]; unfold note_actual; kp; fail).
    all: try apply keep_write_params.
    all: unfold count_frame; kp.
  Qed.
  Lemma keep_start i : keep (start_acquisition i).
  Proof. unfold start_acquisition. kp. apply keep_create_file. Qed.
  Lemma keep_run : forall l s, K s -> K (fst (run s l)).
  Proof.
    induction l as [|[i f] t IH]; intros s Hs; [exact Hs|]. cbn [run]. unfold process_frame. pose proof (keep_process_body i f s Hs) as H.
    destruct (process_body i f s) as [s1 [r|e|]]; cbn [fst] in *; specialize (IH s1 H); destruct (run s1 t) as [s2 rs]; exact IH.
  Qed.
End Keep.

Lemma tags_run g nm dir master total towrite defs dk i0 s0 o t s rs p df x dd :
  start_acquisition i0 (St (configured g nm dir master total towrite defs) dk []) = (s0, o) -> run s0 t = (s, rs) ->
  In p (created (s_log s)) -> s_disk s p = Some df -> df x = Some dd ->
  exists n d, p = path_of dir nm n /\ In d defs /\ d_name d = x /\ dd_lowhigh dd = tag_of (configured g nm dir master total towrite defs) d n.
Proof.
  intros H0 Hr Hp Hd Hx. set (a0 := configured _ _ _ _ _ _ _) in *.
  assert (K0 : K a0 (St a0 dk [])) by (split; [reflexivity|intros q []]).
  apply (keep_start a0 i0) in K0. rewrite H0 in K0. apply (keep_run a0 t) in K0. cbn [fst] in K0. rewrite Hr in K0. destruct K0 as (_ & T).
  exact (T p Hp df x dd Hd Hx).
Qed.

Lemma in_file_one P F n off : 1 <= P -> 1 <= F -> in_file P F 1 n off <-> n * F <= off < n * F + F.
Proof.
  intros HP HF. assert (E : forall s, s < 1 * F -> frame_at P F 1 n s = n * F + s).
  { intros s Hs. unfold frame_at. rewrite (N.div_small s F), (N.mod_small s F) by lia. rewrite N.mul_1_r, N.add_0_r.
    pose proof (N.div_mod n P ltac:(lia)). nia. }
  split.
  - intros (s & Hs & <-). rewrite E by exact Hs. lia.
  - intros H. exists (off - n * F). split; [lia|]. rewrite E by lia. lia.
Qed.
