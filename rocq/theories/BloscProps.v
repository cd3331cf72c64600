(** C40: compression settings. *)
From Coq Require Import String.
From Verif Require Import Base StrOrder FrameModel JsonModel JsonSpec JsonProofs GapSpec GapProofs LiveModel LiveSpec LiveProofs ListText LiveProps BloscModel BloscSpec.
Local Open Scope string_scope.
Local Open Scope list_scope.
Local Open Scope Z_scope.

(** The state after a history *)
Definition step lib (st : bglobal * bst) (e : bevent) : bglobal * bst := match e with BFrame f => fst (blosc_process lib (fst st) (snd st) f) | BConfig c => fst (blosc_configure lib (fst st) (snd st) c) end.
Definition after lib st h := fold_left (step lib) h st.
Lemma run_nth lib h : forall g p f t, nth_error (blosc_run lib g p (h ++ BFrame f :: t)) (List.length h) = Some (DFrame (snd (blosc_process lib (fst (after lib (g, p) h)) (snd (after lib (g, p) h)) f))).
Proof.
  unfold after. induction h as [|e h IH]; intros g p f t.
  - cbn. destruct (blosc_process lib g p f) as [[g1 p1] o]. reflexivity.
  - cbn [app blosc_run List.length nth_error fold_left]. destruct e as [f'|c]; cbn [step fst snd].
    + destruct (blosc_process lib g p f') as [[g1 p1] o] eqn:E. cbn [nth_error fst]. apply IH.
    + destruct (blosc_configure lib g p c) as [[g1 p1] o] eqn:E. cbn [nth_error fst]. apply IH.
Qed.
Lemma after_app lib st a b : after lib st (a ++ b) = after lib (after lib st a) b. Proof. unfold after. apply fold_left_app. Qed.

Definition legal (s : settings) : Prop := 1 <= bs_level s <= 9 /\ 0 <= bs_shuffle s <= 2 /\ 0 <= bs_threads s <= 256 /\ 0 <= bs_compressor s <= 5.
Definition matches (g : bglobal) (s : settings) : Prop := g = Bglobal (bs_compressor s) (bs_threads s).
Section Lib.
  Variable lib : blib.
  Hypothesis ALL : forall k, 0 <= k <= 5 -> bl_supports lib k = true.
  Lemma update_ok g p : legal (bp_cmd p) -> update_settings lib g p = (Bglobal (bs_compressor (bp_cmd p)) (bs_threads (bp_cmd p)), Bst (bp_acq p) (bp_cmd p) (bp_cmd p), Ret tt).
  Proof. intros (_ & _ & _ & C). unfold update_settings. rewrite ALL by exact C. reflexivity. Qed.
  Lemma process_state g p f : legal (bp_cmd p) -> fst (blosc_process lib g p f) = if String.eqb (acquisition f) (bp_acq p) then (g, p) else (Bglobal (bs_compressor (bp_cmd p)) (bs_threads (bp_cmd p)), Bst (acquisition f) (bp_cmd p) (bp_cmd p)).
  Proof. intros L. unfold blosc_process. fold (acquisition f). destruct (String.eqb (acquisition f) (bp_acq p)); [reflexivity|]. rewrite update_ok by exact L. reflexivity. Qed.

  (** One parameter *)
  Definition cfg_ok (st st' : bglobal * bst) (cmd' : settings) : Prop :=
    bp_cmd (snd st') = cmd' /\ bp_acq (snd st') = bp_acq (snd st) /\ (bp_acq (snd st) <> "" -> bp_cur (snd st') = bp_cur (snd st) /\ fst st' = fst st) /\ (matches (fst st) (bp_cur (snd st)) -> matches (fst st') (bp_cur (snd st'))) /\ (legal (bp_cur (snd st)) -> legal (bp_cur (snd st'))).
  Lemma param_ok c name t set (rng : Z -> Prop) (rel : Z -> Z -> Prop) (fld : settings -> Z) g p : no_slash name -> no_nul name ->
    (forall v, rng v -> get_value t (JInt v) = Ret (RInt v)) -> (forall v s, rng v -> rel v (fld (set v s))) -> (forall v x y, rel v x -> rel v y -> x = y) ->
    (forall v, rng v -> legal (set v (bp_cmd p))) ->
    forall a, taken c name rng rel (fld (bp_cmd p)) a -> exists g' p' cmd', blosc_param lib c name t set (g, p, Ret tt) = (g', p', Ret tt) /\ cfg_ok (g, p) (g', p') cmd' /\ fld cmd' = a /\ (cmd' = bp_cmd p \/ exists v, rng v /\ cmd' = set v (bp_cmd p)).
  Proof.
    intros NS NN GV SET DET LEG a [(v & G & R & REL)|(G & ->)]; unfold blosc_param; destruct (has_given c name _ NS NN G) as (-> & GP).
    - rewrite (GP _ eq_refl), (GV v R). cbn [bp_acq]. assert (FA : fld (set v (bp_cmd p)) = a) by (eapply DET; [apply SET, R|exact REL]). destruct (String.eqb_spec (bp_acq p) "") as [E|N].
      + rewrite update_ok by (apply LEG, R). cbn [bp_cmd bp_acq]. do 2 eexists. exists (set v (bp_cmd p)). split; [reflexivity|]. split; [|split; [exact FA|right; exists v; auto]]. split; [reflexivity|]. split; [reflexivity|]. cbn [fst snd]. split; [congruence|]. split; [intros _; reflexivity|]. intros _. apply LEG, R.
      + do 2 eexists. exists (set v (bp_cmd p)). split; [reflexivity|]. split; [|split; [exact FA|right; exists v; auto]]. split; [reflexivity|]. split; [reflexivity|]. cbn [fst snd bp_cur]. auto.
    - exists g, p, (bp_cmd p). split; [reflexivity|]. split; [|split; [reflexivity|left; reflexivity]]. unfold cfg_ok. cbn [fst snd]. split; [reflexivity|]. split; [reflexivity|]. split; [intros _; split; reflexivity|]. split; intros X; exact X.
  Qed.
  Lemma level_det v x y : level_for v x -> level_for v y -> x = y. Proof. intros A B. inversion A; inversion B; subst; try lia. Qed.
  Lemma within_det m o v x y : within m o v x -> within m o v y -> x = y. Proof. intros A B. inversion A; inversion B; subst; try lia. Qed.
  Lemma level_set v s : level_for v (bs_level (set_level v s)).
  Proof. cbn. destruct (Z.ltb_spec v 1); [apply lf_low; lia|]. destruct (Z.ltb_spec 9 v); [apply lf_high; lia|apply lf_in; lia]. Qed.
  Lemma level_legal v x : level_for v x -> 1 <= x <= 9. Proof. intros A. inversion A; lia. Qed.
  Lemma range_int v : - 2 ^ 31 <= v < 2 ^ 31 -> get_value GInt (JInt v) = Ret (RInt v).
  Proof. intros R. cbn [get_value]. unfold in_range. destruct (Z.leb_spec (- 2 ^ 31) v); [|lia]. destruct (Z.ltb_spec v (2 ^ 31)); [|lia]. reflexivity. Qed.
  Lemma range_uint v : 0 <= v < 2 ^ 32 -> get_value GUint (JInt v) = Ret (RInt v).
  Proof. intros R. cbn [get_value]. unfold in_range. destruct (Z.leb_spec 0 v); [|lia]. destruct (Z.ltb_spec v (2 ^ 32)); [|lia]. reflexivity. Qed.
  Lemma within_if m o v : 0 <= v -> within m o v (if m <? v then o else v).
  Proof. intros. destruct (Z.ltb_spec m v); [apply wi_out|apply wi_in]; lia. Qed.
  Lemma settings_eq s s' : bs_level s = bs_level s' -> bs_shuffle s = bs_shuffle s' -> bs_threads s = bs_threads s' -> bs_compressor s = bs_compressor s' -> s = s'. Proof. destruct s, s'. cbn. congruence. Qed.
  Lemma cfg_trans st1 st2 st3 c2 c3 : cfg_ok st1 st2 c2 -> cfg_ok st2 st3 c3 -> cfg_ok st1 st3 c3.
  Proof.
    intros (A1 & A2 & A3 & A4 & A5) (B1 & B2 & B3 & B4 & B5). split; [exact B1|]. split; [congruence|]. split; [|split; auto]. intros N. destruct (A3 N) as (X & Y). rewrite <- A2 in N. destruct (B3 N) as (X' & Y'). split; congruence.
  Qed.
  Lemma configure_ok g p c s' : legal (bp_cmd p) -> configures c (bp_cmd p) s' -> exists g' p', blosc_configure lib g p c = (g', p', Ret tt) /\ cfg_ok (g, p) (g', p') s' /\ legal s'.
  Proof.
    intros L [C1 C2 C3 C4]. unfold blosc_configure.
    destruct (param_ok c "level" GInt set_level (fun v => - 2 ^ 31 <= v < 2 ^ 31) level_for bs_level g p) with (a := bs_level s') as (g1 & p1 & m1 & -> & K1 & F1 & D1); [plain_name|plain_name|exact range_int|intros; apply level_set|exact level_det|destruct L as (_ & L); intros v _; split; [|exact L]; exact (level_legal _ _ (level_set v (bp_cmd p)))|exact C1|].
    assert (S1 : legal m1 /\ bs_shuffle m1 = bs_shuffle (bp_cmd p) /\ bs_threads m1 = bs_threads (bp_cmd p) /\ bs_compressor m1 = bs_compressor (bp_cmd p)).
    { destruct D1 as [->|(v & _ & ->)]; [auto|]. split; [|auto]. destruct L as (_ & L). split; [|exact L]. exact (level_legal _ _ (level_set v (bp_cmd p))). }
    destruct S1 as (L1 & S12 & S13 & S14). pose proof (proj1 K1) as M1. cbn [snd] in M1.
    destruct (param_ok c "shuffle" GUint set_shuffle (fun v => 0 <= v < 2 ^ 32) (within 2 0) bs_shuffle g1 p1) with (a := bs_shuffle s') as (g2 & p2 & m2 & -> & K2 & F2 & D2);
      [plain_name|plain_name|exact range_uint|intros v s R; apply within_if; lia|apply within_det|rewrite M1; destruct L1 as (LA & LB & LC); intros v R; split; [exact LA|]; split; [cbn; destruct (Z.ltb_spec 2 v); lia|exact LC]|rewrite M1, S12; exact C2|].
    assert (S2 : legal m2 /\ bs_level m2 = bs_level m1 /\ bs_threads m2 = bs_threads m1 /\ bs_compressor m2 = bs_compressor m1).
    { rewrite M1 in D2. destruct D2 as [->|(v & R & ->)]; [auto|]. split; [|auto]. destruct L1 as (LA & LB & LC). split; [exact LA|]. split; [cbn; destruct (Z.ltb_spec 2 v); lia|exact LC]. }
    destruct S2 as (L2 & S21 & S23 & S24). pose proof (proj1 K2) as M2. cbn [snd] in M2.
    destruct (param_ok c "threads" GUint set_threads (fun v => 0 <= v < 2 ^ 32) (within 256 8) bs_threads g2 p2) with (a := bs_threads s') as (g3 & p3 & m3 & -> & K3 & F3 & D3);
      [plain_name|plain_name|exact range_uint|intros v s R; apply within_if; lia|apply within_det|rewrite M2; destruct L2 as (LA & LB & LC & LD); intros v R; split; [exact LA|]; split; [exact LB|]; split; [cbn; destruct (Z.ltb_spec 256 v); lia|exact LD]|rewrite M2, S23, S13; exact C3|].
    assert (S3 : legal m3 /\ bs_level m3 = bs_level m2 /\ bs_shuffle m3 = bs_shuffle m2 /\ bs_compressor m3 = bs_compressor m2).
    { rewrite M2 in D3. destruct D3 as [->|(v & R & ->)]; [auto|]. split; [|auto]. destruct L2 as (LA & LB & LC & LD). split; [exact LA|]. split; [exact LB|]. split; [cbn; destruct (Z.ltb_spec 256 v); lia|exact LD]. }
    destruct S3 as (L3 & S31 & S32 & S34). pose proof (proj1 K3) as M3. cbn [snd] in M3.
    destruct (param_ok c "compressor" GUint set_compressor (fun v => 0 <= v < 2 ^ 32) (within 5 1) bs_compressor g3 p3) with (a := bs_compressor s') as (g4 & p4 & m4 & -> & K4 & F4 & D4);
      [plain_name|plain_name|exact range_uint|intros v s R; apply within_if; lia|apply within_det|rewrite M3; destruct L3 as (LA & LB & LC & LD); intros v R; split; [exact LA|]; split; [exact LB|]; split; [exact LC|cbn; destruct (Z.ltb_spec 5 v); lia]|rewrite M3, S34, S24, S14; exact C4|].
    assert (S4 : legal m4 /\ bs_level m4 = bs_level m3 /\ bs_shuffle m4 = bs_shuffle m3 /\ bs_threads m4 = bs_threads m3).
    { rewrite M3 in D4. destruct D4 as [->|(v & R & ->)]; [auto|]. split; [|auto]. destruct L3 as (LA & LB & LC & LD). split; [exact LA|]. split; [exact LB|]. split; [exact LC|cbn; destruct (Z.ltb_spec 5 v); lia]. }
    destruct S4 as (L4 & S41 & S42 & S43). assert (E : m4 = s') by (apply settings_eq; congruence). subst m4.
    exists g4, p4. split; [reflexivity|]. split; [|exact L4]. eapply cfg_trans; [eapply cfg_trans; [eapply cfg_trans; [exact K1|exact K2]|exact K3]|exact K4].
  Qed.

  (** The state and the history *)
  Record inv (h : list bevent) (st : bglobal * bst) (s : settings) : Prop := Inv {
    iv_cmd : bp_cmd (snd st) = s;
    iv_legal : legal s;
    iv_cur : legal (bp_cur (snd st));
    iv_g : matches (fst st) (bp_cur (snd st));
    iv_acq : bp_acq (snd st) = "" \/ exists h1 f h2, h = h1 ++ BFrame f :: h2 /\ (forall g, ~ In (BFrame g) h2) /\ acquisition f = bp_acq (snd st) }.
  Lemma inv_after h s g0 : commanded h s -> inv h (after lib (new_blosc lib g0) h) s.
  Proof.
    induction 1 as [|h f s C IH|h c s s' C IH CF].
    - constructor; cbn; auto; try (repeat split; cbn; lia). unfold matches. cbn. rewrite (ALL 1) by lia. reflexivity.
    - rewrite after_app. set (st := after lib (new_blosc lib g0) h) in *. destruct st as [g p]. destruct IH as [I1 I2 I3 I4 I5]. cbn [fst snd] in *. cbn [after fold_left step fst snd]. rewrite process_state by (rewrite I1; exact I2).
      destruct (String.eqb_spec (acquisition f) (bp_acq p)) as [E|N]; constructor; cbn [fst snd bp_cmd bp_cur bp_acq]; auto; try (rewrite I1; assumption).
      + destruct I5 as [E5|I5]; [left; exact E5|right]. exists h, f, []. split; [reflexivity|]. split; [intros ? []|exact E].
      + reflexivity.
      + right. exists h, f, []. split; [reflexivity|]. split; [intros ? []|reflexivity].
    - rewrite after_app. set (st := after lib (new_blosc lib g0) h) in *. destruct st as [g p]. destruct IH as [I1 I2 I3 I4 I5]. cbn [fst snd] in *. cbn [after fold_left step fst snd].
      destruct (configure_ok g p c s') as (g' & p' & E & (K1 & K2 & K3 & K4 & K5) & L'); [rewrite I1; exact I2|rewrite I1; exact CF|]. rewrite E. cbn [fst snd] in *. constructor; cbn [fst snd]; auto.
      + destruct I5 as [E5|(h1 & f & h2 & -> & N & A)]; [left; congruence|right]. exists h1, f, (h2 ++ [BConfig c]). split; [rewrite <- app_assoc; reflexivity|]. split; [|congruence]. intros g1 I. apply in_app_iff in I as [I|[I|[]]]; [exact (N g1 I)|discriminate].
  Qed.
End Lib.

Section Lib2.
  Variable lib : blib.
  Hypothesis ALL : forall k, 0 <= k <= 5 -> bl_supports lib k = true.
  Lemma commanded_prefix h2 : forall h1 s, commanded (h1 ++ h2) s -> exists s1, commanded h1 s1.
  Proof.
    induction h2 as [|e h2 IH] using rev_ind; intros h1 s H; [rewrite app_nil_r in H; eauto|]. rewrite app_assoc in H. inversion H as [E|h f s1 C E|h c s1 s2 C CF E].
    - destruct (h1 ++ h2); discriminate.
    - apply app_inj_tail in E as (-> & _). eapply IH, C.
    - apply app_inj_tail in E as (-> & _). eapply IH, C.
  Qed.
  Lemma taken_det c n ok (rel : Z -> Z -> Prop) b x y : (forall v x y, rel v x -> rel v y -> x = y) -> taken c n ok rel b x -> taken c n ok rel b y -> x = y.
  Proof.
    intros DET [(v & G & _ & R)|(G & ->)] [(v' & G' & _ & R')|(G' & ->)]; try reflexivity.
    - cbn in G, G'. apply holds_at in G, G'. rewrite G in G'. injection G' as <-. eapply DET; eassumption.
    - destruct G' as (_ & N). destruct (N _ G).
    - destruct G as (_ & N). destruct (N _ G').
  Qed.
  Lemma commanded_det h s : commanded h s -> forall s0, commanded h s0 -> s0 = s.
  Proof.
    induction 1 as [|h f s C IH|h c s s' C IH CF]; intros s0 C0; inversion C0 as [E|h1 f1 s1 C1 E|h1 c1 s1 s1' C1 CF1 E]; subst; try reflexivity; try (destruct h; discriminate); try (destruct h1; discriminate).
    - apply app_inj_tail in E as (-> & _). apply IH, C1.
    - apply app_inj_tail in E as (_ & E). discriminate.
    - apply app_inj_tail in E as (_ & E). discriminate.
    - apply app_inj_tail in E as (-> & E). injection E as ->. rewrite (IH _ C1) in CF1. destruct CF as [A1 A2 A3 A4], CF1 as [B1 B2 B3 B4].
      apply settings_eq; [eapply taken_det; [|exact B1|exact A1]; exact (level_det lib ALL)|eapply taken_det; [|exact B2|exact A2]; apply (within_det lib ALL)|eapply taken_det; [|exact B3|exact A3]; apply (within_det lib ALL)|eapply taken_det; [|exact B4|exact A4]; apply (within_det lib ALL)].
  Qed.
  (** During a run of one acquisition only the commanded settings change. *)
  Lemma run_keeps a g p : a <> "" -> bp_acq p = a -> forall h2 h s, commanded h s -> inv h (g, p) s -> (forall f, In (BFrame f) h2 -> acquisition f = a) -> (exists s2, commanded (h ++ h2) s2) ->
    exists p2, after lib (g, p) h2 = (g, p2) /\ bp_acq p2 = a /\ bp_cur p2 = bp_cur p.
  Proof.
    intros NE. revert p. assert (G : forall h2 p h s, bp_acq p = a -> commanded h s -> inv h (g, p) s -> (forall f, In (BFrame f) h2 -> acquisition f = a) -> (exists s2, commanded (h ++ h2) s2) -> exists p2, after lib (g, p) h2 = (g, p2) /\ bp_acq p2 = a /\ bp_cur p2 = bp_cur p); [|intros p A h2 h s; apply G; exact A].
    induction h2 as [|e h2 IH]; intros p h s A C I F T; [exists p; auto|]. destruct T as (s2 & T). replace (h ++ e :: h2) with ((h ++ [e]) ++ h2) in T by (rewrite <- app_assoc; reflexivity). destruct (commanded_prefix _ _ _ T) as (s1 & C1).
    destruct e as [f|c].
    - assert (X : step lib (g, p) (BFrame f) = (g, p)). { cbn [step fst snd]. rewrite process_state; [|exact ALL|pose proof (iv_cmd _ _ _ I) as IC; cbn [snd] in IC; rewrite IC; exact (iv_legal _ _ _ I)]. rewrite (F f (or_introl eq_refl)), A, String.eqb_refl. reflexivity. }
      cbn [after fold_left]. rewrite X. change (fold_left (step lib) h2 (g, p)) with (after lib (g, p) h2). eapply (IH p (h ++ [BFrame f]) s).
      + exact A.
      + apply cm_frame, C.
      + destruct I as [I1 I2 I3 I4 I5]. constructor; cbn [fst snd] in *; auto. right. exists h, f, []. split; [reflexivity|]. split; [intros ? []|]. rewrite A. apply F. left. reflexivity.
      + intros f' I'. apply F. right. exact I'.
      + eauto.
    - inversion C1 as [E|h0 f0 s0 C0 E|h0 c0 s0 s0' C0 CF E]; [destruct h; discriminate|apply app_inj_tail in E as (_ & E); discriminate|]. apply app_inj_tail in E as (-> & E). injection E as ->.
      assert (UN : s0 = s) by (eapply commanded_det; eassumption).
      subst s0. pose proof (iv_cmd _ _ _ I) as IC. cbn [snd] in IC.
      destruct (configure_ok lib ALL g p c s1) as (g' & p' & E & K & L); [rewrite IC; exact (iv_legal _ _ _ I)|rewrite IC; exact CF|]. destruct K as (K1 & K2 & K3 & K4 & K5). cbn [fst snd] in *. destruct (K3 ltac:(congruence)) as (CU & ->).
      cbn [after fold_left step fst snd]. rewrite E. cbn [fst]. change (fold_left (step lib) h2 (g, p')) with (after lib (g, p') h2). destruct (IH p' (h ++ [BConfig c]) s1) as (p2 & E2 & A2 & U2).
      + congruence.
      + exact C1.
      + destruct I as [I1 I2 I3 I4 I5]. constructor; cbn [fst snd] in *; auto. right. destruct I5 as [E5|(h1 & f & h3 & -> & N & AF)]; [congruence|]. exists h1, f, (h3 ++ [BConfig c]). split; [rewrite <- app_assoc; reflexivity|]. split; [|congruence]. intros g1 J. apply in_app_iff in J as [J|[J|[]]]; [exact (N g1 J)|discriminate].
      + intros f' I'. apply F. right. exact I'.
      + eauto.
      + exists p2. split; [exact E2|]. split; [exact A2|congruence].
  Qed.
End Lib2.

(** Every frame of an acquisition is compressed with the settings that were commanded when the first frame of the acquisition came, which
    are legal; the frame made carries the result of the library, or an exception if it failed. *)
Theorem c40_settings_partial lib g0 h1 h f t s sh es : (forall k, 0 <= k <= 5 -> bl_supports lib k = true) ->
  acquisition f <> "" -> began h1 h (acquisition f) -> commanded h1 s -> commanded h sh -> bytes_of (md_type (fr_meta f)) es -> in_memory f ->
  let '(g, p) := new_blosc lib g0 in
  (1 <= bs_level s <= 9 /\ 0 <= bs_shuffle s <= 2 /\ 0 <= bs_threads s <= 256 /\ 0 <= bs_compressor s <= 5) /\
  exists o, nth_error (blosc_run lib g p (h ++ BFrame f :: t)) (List.length h) = Some (DFrame o) /\
    match bl_compress lib (Bglobal (bs_compressor s) (bs_threads s)) (bs_level s) (bs_shuffle s) es (firstn (Z.to_nat (fr_image_size f)) (image f)) (fr_image_size f + 16) with
    | Some out => exists f', o = Ret (s, [f']) /\ compressed_as f f' out
    | None => o = Throw BRuntime
    end.
Proof.
  intros ALL NE BEG C1 CH BY M. destruct (new_blosc lib g0) as [g p] eqn:NB. pose proof (inv_after lib ALL h1 s g0 C1) as I1. pose proof (iv_legal _ _ _ I1) as LEG. split; [exact LEG|]. rewrite run_nth. eexists. split; [reflexivity|].
  assert (ST : exists g' p', fst (blosc_process lib (fst (after lib (g, p) h)) (snd (after lib (g, p) h)) f) = (g', p') /\ matches g' s /\ bp_cur p' = s /\ snd (blosc_process lib (fst (after lib (g, p) h)) (snd (after lib (g, p) h)) f) = match compress_frame lib g' p' f with Ret c => match push c with Ret out => Ret (in_force g' p', out) | Throw _ => Throw BRuntime | Undef => Undef end | Throw e => Throw e | Undef => Undef end).
  { rewrite <- NB. destruct BEG as [(-> & ST)|(f1 & h2 & -> & ST & AF & FR)].
    - set (st := after lib (new_blosc lib g0) h) in *. destruct st as [gs ps]. cbn [fst snd]. destruct I1 as [A1 A2 A3 A4 A5]. cbn [fst snd] in *.
      assert (N : String.eqb (acquisition f) (bp_acq ps) = false). { apply String.eqb_neq. intros E. destruct A5 as [A5|(x & f0 & y & EQ & NO & AC)]; [congruence|]. apply (ST x f0 y EQ NO). congruence. }
      unfold blosc_process. fold (acquisition f). rewrite N, update_ok; [|exact ALL|cbn; rewrite A1; exact A2]. cbn [bp_cmd bp_acq]. rewrite A1. do 2 eexists. split; [reflexivity|]. split; [reflexivity|]. split; reflexivity.
    - replace (h1 ++ BFrame f1 :: h2) with ((h1 ++ [BFrame f1]) ++ h2) in * by (rewrite <- app_assoc; reflexivity). rewrite after_app.
      pose proof (inv_after lib ALL _ s g0 (cm_frame _ f1 _ C1)) as I2. assert (AF1 : exists gs ps, after lib (new_blosc lib g0) (h1 ++ [BFrame f1]) = (gs, ps) /\ bp_acq ps = acquisition f /\ bp_cur ps = s /\ matches gs s).
      { rewrite after_app. set (st := after lib (new_blosc lib g0) h1) in *. destruct st as [gs ps]. destruct I1 as [A1 A2 A3 A4 A5]. cbn [fst snd] in *. cbn [after fold_left step fst snd]. rewrite process_state; [|exact ALL|rewrite A1; exact A2].
        assert (N : String.eqb (acquisition f1) (bp_acq ps) = false). { apply String.eqb_neq. intros E. destruct A5 as [A5|(x & f0 & y & EQ & NO & AC)]; [congruence|]. apply (ST x f0 y EQ NO). congruence. }
        rewrite N, A1. do 2 eexists. split; [reflexivity|]. split; [cbn; exact AF|]. split; reflexivity. }
      destruct AF1 as (gs & ps & EA & A1 & A2 & A3). rewrite EA in *. destruct (run_keeps lib ALL (acquisition f) gs ps NE A1 h2 (h1 ++ [BFrame f1]) s) as (p2 & E2 & B1 & B2); [apply cm_frame, C1|exact I2|exact FR|eauto|].
      rewrite E2. cbn [fst snd]. unfold blosc_process. fold (acquisition f). rewrite B1, String.eqb_refl. do 2 eexists. split; [reflexivity|]. split; [exact A3|]. split; [congruence|reflexivity]. }
  destruct ST as (g' & p' & _ & MG & MC & ->). unfold matches in MG. subst g'.
  assert (PUSH : forall c, fr_meta c = set_compr blosc (fr_meta f) -> push c = Ret [c]). { intros c E. unfold push, FrameModel.is_valid. rewrite E. cbn [set_compr md_type md_compr]. inversion BY; reflexivity. }
  assert (FORCE : in_force (Bglobal (bs_compressor s) (bs_threads s)) p' = s) by (unfold in_force; rewrite MC; destruct s; reflexivity). rewrite FORCE.
  destruct M as (O & (S0 & S) & FIT). unfold compress_frame. assert (SZ : get_size_from_enum (md_type (fr_meta f)) = Ret es) by (inversion BY; reflexivity). rewrite SZ, MC. rewrite (Z.mod_small (fr_image_size f)) by lia. rewrite (Z.mod_small (fr_image_size f + 16)) by lia. unfold read_image. rewrite Z.add_0_r.
  destruct (Z.leb_spec 0 (fr_image_size f)); [|lia]. destruct (Z.leb_spec 0 (fr_image_offset f)); [|lia]. destruct (Z.leb_spec (fr_image_offset f + fr_image_size f) (Z.of_nat (List.length (fr_mem f)))); [|lia]. cbn [andb]. fold (image f).
  destruct (bl_compress lib _ _ _ _ _ _) as [out|]; [|reflexivity]. rewrite PUSH by reflexivity. eexists. split; [reflexivity|]. constructor; cbn; auto; try lia. rewrite firstn_app, firstn_all, Nat.sub_diag. cbn. apply app_nil_r.
Qed.
(** If the library decompresses what it made, the image comes back from the frame that was made. *)
Theorem c40_lossless lib decompress g0 h f t g p s f' es : (forall g l sh es b d out, bl_compress lib g l sh es b d = Some out -> decompress out = b) ->
  bytes_of (md_type (fr_meta f)) es -> in_memory f -> new_blosc lib g0 = (g, p) ->
  nth_error (blosc_run lib g p (h ++ BFrame f :: t)) (List.length h) = Some (DFrame (Ret (s, [f']))) ->
  decompress (firstn (Z.to_nat (fr_image_size f')) (image f')) = firstn (Z.to_nat (fr_image_size f)) (image f) /\ md_compr (fr_meta f') = blosc.
Proof.
  intros RT BY (O & (S0 & S) & FIT) NB. rewrite run_nth. intros H. injection H as H. set (st := after lib (g, p) h) in *. destruct st as [gs ps]. cbn [fst snd] in H. unfold blosc_process in H.
  destruct (if String.eqb _ _ then _ else _) as [[g1 p1] [u|e|]]; cbn [snd] in H; try discriminate.
  destruct (compress_frame lib g1 p1 f) as [c| |] eqn:CF; try discriminate. unfold push in H. destruct (FrameModel.is_valid c); try discriminate. injection H as _ <-.
  unfold compress_frame in CF. destruct (get_size_from_enum (md_type (fr_meta f))) as [es'| |]; try discriminate. unfold read_image in CF. rewrite Z.add_0_r in CF. rewrite !(Z.mod_small (fr_image_size f)) in CF by lia. rewrite (Z.mod_small (fr_image_size f + 16)) in CF by lia.
  destruct (Z.leb_spec 0 (fr_image_size f)); [|lia]. destruct (Z.leb_spec 0 (fr_image_offset f)); [|lia]. destruct (Z.leb_spec (fr_image_offset f + fr_image_size f) (Z.of_nat (List.length (fr_mem f)))); [|lia]. cbn [andb] in CF. fold (image f) in CF.
  destruct (bl_compress lib _ _ _ _ _ _) as [out|] eqn:BC; [|discriminate]. injection CF as <-. cbn. split; [|reflexivity]. rewrite Nat2Z.id. unfold image. cbn. rewrite firstn_app, firstn_all, Nat.sub_diag. cbn. rewrite app_nil_r. eapply RT, BC.
Qed.

(** ** Cases *)
Definition a_lib := Blib (fun k => true) (fun g l sh es b d => Some (bg_compressor g :: bg_threads g :: l :: sh :: b)) (fun n => repeat 0 (Z.to_nat n)).
Definition fra (a : string) : frame := Frame (Meta 1 "data" raw_8bit a [1; 2] no_compression [] 0) [5; 7] 2 0 2 1.
Definition conf (l : list (string * json)) : msg := msg_of_value (JObj l) TCmd VConfigure false 0.
Definition used (e : bentry) : option settings := match e with DFrame (Ret (s, _)) => Some s | _ => None end.
Definition new_run evs := map used (blosc_run a_lib (Bglobal 1 1) (Bst "" first_settings first_settings) evs).
Example c40_case : new_run [BFrame (fra "A"); BConfig (conf [("level", JInt 20); ("compressor", JInt 5)]); BFrame (fra "A"); BFrame (fra "B")] = [Some first_settings; None; Some first_settings; Some (Settings 9 2 1 5)].
Proof. vm_compute. reflexivity. Qed.
Example c40_case_hypotheses : acquisition (fra "A") <> "" /\ began [] [BFrame (fra "A"); BConfig (conf [("level", JInt 20)])] "A" /\ commanded [BFrame (fra "A"); BConfig (conf [("level", JInt 20)])] (Settings 9 2 1 1) /\ bytes_of (md_type (fr_meta (fra "A"))) 1 /\ in_memory (fra "A").
Proof.
  split; [discriminate|]. split; [right; exists (fra "A"), [BConfig (conf [("level", JInt 20)])]; split; [reflexivity|]; split; [intros [|] ? ? E; discriminate|]; split; [reflexivity|]; intros g [E|[]]; discriminate|]. split; [|split; [constructor|unfold in_memory; cbn; lia]].
  assert (N : forall n, In n ["shuffle"; "threads"; "compressor"] -> given (conf [("level", JInt 20)]) n None). { intros n IN. split; [eexists; apply holds_at; reflexivity|]. intros v H. apply holds_at in H. destruct IN as [<-|[<-|[<-|[]]]]; discriminate H. }
  apply (cm_config [BFrame (fra "A")] _ (Settings 1 2 1 1)); [apply (cm_frame [] _ _ cm_start)|]. constructor; [left; exists 20; split; [apply holds_at; reflexivity|]; split; [lia|cbn; apply lf_high; lia]|right; split; [apply N; cbn; tauto|reflexivity]|right; split; [apply N; cbn; tauto|reflexivity]|right; split; [apply N; cbn; tauto|reflexivity]].
Qed.
(** Without acquisition ID a configuration changes the settings between two frames. *)
Theorem c40_no_id_refuted : exists f c s1 s2, acquisition f = "" /\ new_run [BFrame f; BConfig c; BFrame f] = [Some s1; None; Some s2] /\ bs_level s1 <> bs_level s2.
Proof. exists (fra ""), (conf [("level", JInt 9)]), first_settings, (Settings 9 2 1 1). split; [reflexivity|]. split; [vm_compute; reflexivity|discriminate]. Qed.
(** Frames of two acquisitions in turn: the settings of the first change in the middle. *)
Theorem c40_interleaved_refuted : exists f g c s1 s2, acquisition f <> "" /\ new_run [BFrame f; BConfig c; BFrame g; BFrame f] = [Some s1; None; Some s2; Some s2] /\ s1 <> s2.
Proof. exists (fra "A"), (fra "B"), (conf [("level", JInt 9)]), first_settings, (Settings 9 2 1 1). split; [discriminate|]. split; [vm_compute; reflexivity|discriminate]. Qed.
(** Zero threads are accepted. *)
Theorem c40_zero_threads_refuted : exists c f s, new_run [BConfig c; BFrame f] = [None; Some s] /\ bs_threads s = 0.
Proof. exists (conf [("threads", JInt 0)]), (fra "A"), (Settings 1 2 0 1). split; [vm_compute; reflexivity|reflexivity]. Qed.
(** The compressor belongs to the process: a second plugin that starts an acquisition with another compressor changes the one of the first,
    in the middle of an acquisition. *)
Theorem c40_two_plugins_refuted : exists f other g p q u1 u2 g1 p1 g2 q2 o2 g3 p3 f1 f3,
  blosc_process a_lib g p f = (g1, p1, Ret (u1, [f1])) /\ bs_compressor (bp_cmd q) = 5 /\ blosc_process a_lib g1 q other = (g2, q2, o2) /\ blosc_process a_lib g2 p1 f = (g3, p3, Ret (u2, [f3])) /\ bs_compressor u1 = 1 /\ bs_compressor u2 = 5.
Proof.
  exists (fra "A"), (fra "B"), (Bglobal 1 1), (Bst "" first_settings first_settings), (Bst "" first_settings (Settings 1 2 1 5)). do 11 eexists.
  split; [vm_compute; reflexivity|]. split; [reflexivity|]. split; [vm_compute; reflexivity|]. split; [vm_compute; reflexivity|]. split; reflexivity.
Qed.
(** A compressor that is not built in: the first frame of the acquisition fails with an exception, the next ones are compressed with compressor -1. *)
Theorem c40_unsupported_refuted : exists lib c f s, bl_supports lib 1 = true /\ map used (blosc_run lib (Bglobal 1 1) (Bst "X" first_settings first_settings) [BConfig c; BFrame f; BFrame f]) = [None; None; Some s] /\ bs_compressor s = -1.
Proof. exists (Blib (fun k => k =? 1) (bl_compress a_lib) (bl_rest a_lib)), (conf [("compressor", JInt 3)]), (fra "A"), (Settings 1 2 1 (-1)). split; [reflexivity|]. split; [vm_compute; reflexivity|reflexivity]. Qed.

Print Assumptions c40_settings_partial.
Print Assumptions c40_lossless.
Print Assumptions c40_no_id_refuted.
Print Assumptions c40_interleaved_refuted.
Print Assumptions c40_zero_threads_refuted.
Print Assumptions c40_two_plugins_refuted.
Print Assumptions c40_unsupported_refuted.
