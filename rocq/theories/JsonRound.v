(** What the writer writes, the reader reads. *)
From Coq Require Import String Ascii DecimalString Decimal DecimalFacts DecimalPos DecimalN DecimalZ.
From Verif Require Import Base JsonModel JsonTextModel JsonTextSpec JsonTextProofs JsonReadModel JsonReadSpec JsonReadProofs JsonReadStr JsonReadValue JsonDoubleModel JsonAccept JsonDoubleProofs JsonRoundSpec.
Local Open Scope list_scope.
Local Open Scope char_scope.

(** ** Strings *)
Lemma char_piece c t : char_text c t -> piece [c] t.
Proof.
  intros H. inversion H; subst; try (constructor; auto; reflexivity).
  apply (pc_unit _ [nat_of_ascii c] _ (nat_of_ascii c)); [|lia|constructor; assumption|reflexivity]. exists "0", "0", h, l, 0, 0, a, b. split; [reflexivity|]. split; [exists 48; split; [reflexivity|lia]|]. split; [exists 48; split; [reflexivity|lia]|]. split; [assumption|]. split; [assumption|lia].
Qed.
Lemma string_piece s t : string_text s t -> str_text s t.
Proof.
  intros (r & C & ->). exists r. split; [|reflexivity]. induction C as [|c s' t u C _ IH]; [constructor|]. change (c :: s') with ([c] ++ s'). constructor; [apply char_piece, C|exact IH].
Qed.

(** ** Integers *)
Notation chars d := (list_ascii_of_string (NilEmpty.string_of_uint d)).
Lemma chars_digits d : digits (chars d).
Proof. induction d; cbn [NilEmpty.string_of_uint list_ascii_of_string]; [apply Forall_nil|..]; (apply Forall_cons; [cbn; lia|exact IHd]). Qed.
Lemma chars_value d : forall acc, decimal_from (Z.pos acc) (chars d) = Z.pos (Pos.of_uint_acc d acc).
Proof.
  induction d; intros acc; [reflexivity|..]; cbn [NilEmpty.string_of_uint list_ascii_of_string Pos.of_uint_acc]; rewrite <- IHd; unfold decimal_from; cbn [fold_left]; apply (f_equal (fold_left _ _)); match goal with |- context [nat_of_ascii ?c] => let v := eval vm_compute in (nat_of_ascii c) in change (nat_of_ascii c) with v end; lia.
Qed.
Lemma chars_of_uint d : decimal (chars d) = Z.of_N (Pos.of_uint d).
Proof.
  unfold decimal. induction d; [reflexivity|exact IHd|..]; cbn [NilEmpty.string_of_uint list_ascii_of_string Pos.of_uint fold_left]; etransitivity; try exact (chars_value d _); reflexivity.
Qed.
Lemma natural_pos p : natural (chars (Pos.to_uint p)) /\ decimal (chars (Pos.to_uint p)) = Z.pos p.
Proof.
  split; [|rewrite chars_of_uint, DecimalPos.Unsigned.of_to; reflexivity].
  assert (U : Pos.to_uint p = nzhead (Pos.to_uint p)). { pose proof (DecimalN.Unsigned.to_of (Pos.to_uint p)) as T. unfold N.of_uint in T. rewrite DecimalPos.Unsigned.of_to in T. cbn [N.to_uint] in T. unfold unorm in T. destruct (nzhead (Pos.to_uint p)) eqn:E; try exact T. pose proof (DecimalPos.Unsigned.of_to p) as O. rewrite T in O. discriminate. }
  destruct (Pos.to_uint p) as [|d|d|d|d|d|d|d|d|d|d] eqn:E; [pose proof (DecimalPos.Unsigned.to_uint_nonnil p) as NN; contradiction|symmetry in U; apply nzhead_nonzero in U; contradiction|..]; right; do 2 eexists; (split; [reflexivity|split; [cbn; lia|apply chars_digits]]).
Qed.
Lemma write_int_whole z : whole_text z (write_int z).
Proof.
  unfold write_int. destruct z as [|p|p]; cbn [Z.to_int].
  - exists false, ["0"]. split; [reflexivity|]. split; [left; reflexivity|reflexivity].
  - destruct (natural_pos p) as (N & V). exists false, (chars (Pos.to_uint p)). split; [|split; [exact N|symmetry; exact V]]. cbn [NilZero.string_of_int NilZero.string_of_uint minus_text app]. destruct (Pos.to_uint p) eqn:E; try reflexivity. pose proof (DecimalPos.Unsigned.to_uint_nonnil p). contradiction.
  - destruct (natural_pos p) as (N & V). exists true, (chars (Pos.to_uint p)). split; [|split; [exact N|rewrite V; reflexivity]]. cbn [NilZero.string_of_int NilZero.string_of_uint minus_text app list_ascii_of_string]. destruct (Pos.to_uint p) eqn:E; try reflexivity. pose proof (DecimalPos.Unsigned.to_uint_nonnil p). contradiction.
Qed.

(** ** The writer *)
Fixpoint emit_items (first : bool) (l : list json) : list ascii * bool :=
  match l with [] => (["]"], true) | y :: r => let '(t, ok) := emit y in let t := (if first then [] else [","]) ++ t in if ok : bool then let '(u, ok) := emit_items false r in (t ++ u, ok) else (t, false) end.
Fixpoint emit_members (first : bool) (l : list (string * json)) : list ascii * bool :=
  match l with [] => (["}"], true) | (n, y) :: r => let '(t, ok) := emit y in let t := (if first then [] else [","]) ++ write_string n ++ ":" :: t in if ok : bool then let '(u, ok) := emit_members false r in (t ++ u, ok) else (t, false) end.
Lemma emit_arr l : emit (JArr l) = let '(t, ok) := emit_items true l in ("[" :: t, ok). Proof. reflexivity. Qed.
Lemma emit_obj l : emit (JObj l) = let '(t, ok) := emit_members true l in ("{" :: t, ok). Proof. reflexivity. Qed.

Definition reread (b b' : Z) : Prop := to_double (dtoa b) = Some b'.
Lemma blank_nil : blank []. Proof. apply Forall_nil. Qed.
Definition proper (x : json) : Prop := forall y, occurs y x -> (forall b, y = JDouble b -> (0 <= b < 2 ^ 64)%Z /\ finite b = true) /\ (forall z, y = JInt z -> fits z).
Lemma emit_proper x : proper x -> exists t y, emit x = (t, true) /\ rtext to_double y t /\ like reread x y.
Proof.
  induction x as [x NA NO|l IH|l IH] using json_all; intros P.
  - destruct (P x (oc_here x)) as (PD & PI). destruct x as [|b|z|b|s|l|l]; try (destruct (NA l eq_refl)); try (destruct (NO l eq_refl)); cbn [emit write].
    + do 2 eexists. split; [reflexivity|]. split; constructor.
    + destruct b; do 2 eexists; (split; [reflexivity|]); split; constructor.
    + do 2 eexists. split; [reflexivity|]. split; [apply rt_int; [apply write_int_whole|apply PI; reflexivity]|constructor].
    + destruct (PD b eq_refl) as (B & F). rewrite F. destruct (dtoa_real b B F) as (R & b' & RB). exists (dtoa b), (JDouble b'). split; [reflexivity|]. split; [apply rt_real; assumption|constructor; exact RB].
    + do 2 eexists. split; [reflexivity|]. split; [apply rt_str, string_piece, write_string_text|constructor].
  - assert (H : forall y, In y l -> exists t z, emit y = (t, true) /\ rtext to_double z t /\ like reread y z) by (intros y I; apply IH; [exact I|intros w O; apply P; eapply oc_arr; eassumption]). clear IH P. rewrite emit_arr.
    assert (M : forall l, (forall y, In y l -> exists t z, emit y = (t, true) /\ rtext to_double z t /\ like reread y z) -> exists u l', emit_items false l = (u, true) /\ all_like reread l l' /\ (l = [] /\ u = ["]"] \/ exists v, u = "," :: v /\ elements to_double l' v)).
    { clear. induction l as [|y l IHl]; intros H; [exists ["]"], []; split; [reflexivity|split; [constructor|left; auto]]|]. destruct (H y (or_introl eq_refl)) as (t & z & E & R & LK). destruct IHl as (u & l' & EU & AL & C); [intros w I; apply H; right; exact I|].
      cbn [emit_items]. rewrite E, EU. exists (("," :: t) ++ u), (z :: l'). split; [reflexivity|]. split; [constructor; assumption|]. right. cbn [app]. destruct C as [(-> & ->)|(v & -> & EL)].
      - exists (t ++ ["]"]). split; [reflexivity|]. inversion AL; subst. exact (el_last to_double z t [] R blank_nil).
      - exists (t ++ "," :: v). split; [reflexivity|]. exact (el_next to_double z l' t [] [] v R blank_nil blank_nil EL). }
    destruct l as [|y l]; [do 2 eexists; split; [reflexivity|]; split; [exact (rt_empty_arr to_double [] blank_nil)|repeat constructor]|]. destruct (H y (or_introl eq_refl)) as (t & z & E & R & LK). destruct (M l) as (u & l' & EU & AL & C); [intros w I; apply H; right; exact I|].
    cbn [emit_items]. rewrite E, EU. cbn [app]. exists ("[" :: t ++ u), (JArr (z :: l')). split; [reflexivity|]. split; [|constructor; constructor; assumption]. destruct C as [(-> & ->)|(v & -> & EL)].
    + inversion AL; subst. exact (rt_arr to_double [z] [] _ blank_nil (el_last to_double z t [] R blank_nil)).
    + exact (rt_arr to_double (z :: l') [] _ blank_nil (el_next to_double z l' t [] [] v R blank_nil blank_nil EL)).
  - assert (H : forall n y, In (n, y) l -> exists t z, emit y = (t, true) /\ rtext to_double z t /\ like reread y z) by (intros n y I; apply (IH n); [exact I|intros w O; apply P; eapply oc_obj; eassumption]). clear IH P. rewrite emit_obj.
    assert (ST : forall n, str_text n (write_string n)) by (intros n; apply string_piece, write_string_text).
    assert (M : forall l, (forall n y, In (n, y) l -> exists t z, emit y = (t, true) /\ rtext to_double z t /\ like reread y z) -> exists u l', emit_members false l = (u, true) /\ members_like reread l l' /\ (l = [] /\ u = ["}"] \/ exists v, u = "," :: v /\ JsonReadSpec.fields to_double l' v)).
    { clear - ST. induction l as [|[n y] l IHl]; intros H; [exists ["}"], []; split; [reflexivity|split; [constructor|left; auto]]|]. destruct (H n y (or_introl eq_refl)) as (t & z & E & R & LK). destruct IHl as (u & l' & EU & AL & C); [intros m w I; apply (H m); right; exact I|].
      cbn [emit_members]. rewrite E, EU. exists (("," :: write_string n ++ ":" :: t) ++ u), ((n, z) :: l'). split; [reflexivity|]. split; [constructor; assumption|]. right. cbn [app]. destruct C as [(-> & ->)|(v & -> & EL)].
      - eexists. split; [reflexivity|]. inversion AL; subst. rewrite <- app_assoc. exact (JsonReadSpec.fi_last to_double n z _ [] [] t [] (ST n) blank_nil blank_nil R blank_nil).
      - eexists. split; [reflexivity|]. rewrite <- app_assoc. exact (JsonReadSpec.fi_next to_double n z l' _ [] [] t [] [] v (ST n) blank_nil blank_nil R blank_nil blank_nil EL). }
    destruct l as [|[n y] l]; [do 2 eexists; split; [reflexivity|]; split; [exact (rt_empty_obj to_double [] blank_nil)|repeat constructor]|]. destruct (H n y (or_introl eq_refl)) as (t & z & E & R & LK). destruct (M l) as (u & l' & EU & AL & C); [intros m w I; apply (H m); right; exact I|].
    cbn [emit_members]. rewrite E, EU. cbn [app]. eexists _, (JObj ((n, z) :: l')). split; [reflexivity|]. split; [|constructor; constructor; assumption]. rewrite <- app_assoc. destruct C as [(-> & ->)|(v & -> & EL)].
    + inversion AL; subst. exact (rt_obj to_double [(n, z)] [] _ blank_nil (JsonReadSpec.fi_last to_double n z _ [] [] t [] (ST n) blank_nil blank_nil R blank_nil)).
    + exact (rt_obj to_double ((n, z) :: l') [] _ blank_nil (JsonReadSpec.fi_next to_double n z l' _ [] [] t [] [] v (ST n) blank_nil blank_nil R blank_nil blank_nil EL)).
Qed.

(** ** No zero in the text *)
Definition nz (t : list ascii) : Prop := Forall (fun c => c <> Ascii.zero) t.
Lemma nz_not_in t : nz t -> ~ In Ascii.zero t. Proof. intros H I. apply (proj1 (Forall_forall _ _) H) in I. congruence. Qed.
Lemma nz_app a b : nz a -> nz b -> nz (a ++ b). Proof. intros A B. apply Forall_app. auto. Qed.
Lemma nz_digits t : digits t -> nz t. Proof. intros H. eapply Forall_impl; [|exact H]. intros c C ->. cbn in C. lia. Qed.
Lemma nz_number t : number_text t -> nz t.
Proof.
  intros (minus & n & f & e & -> & N & F & E). apply nz_app; [destruct minus; [apply Forall_cons; [discriminate|apply Forall_nil]|apply Forall_nil]|]. apply nz_app; [apply nz_digits, natural_digits, N|]. apply nz_app.
  - destruct F as [->|(r & -> & _ & D)]; [apply Forall_nil|]. apply Forall_cons; [discriminate|apply nz_digits, D].
  - destruct E as [->|(c & s & r & -> & CE & S & _ & D)]; [apply Forall_nil|]. apply Forall_cons; [destruct CE as [->| ->]; discriminate|]. apply nz_app; [|apply nz_digits, D]. destruct S as [->|[->| ->]]; [apply Forall_nil|apply Forall_cons; [discriminate|apply Forall_nil]|apply Forall_cons; [discriminate|apply Forall_nil]].
Qed.
Lemma nz_char c t : char_text c t -> nz t.
Proof.
  intros H. inversion H; subst; repeat (apply Forall_cons; [try discriminate|]); try apply Forall_nil.
  - intros ->. cbn in *. lia.
  - intros ->. match goal with X : hex Ascii.zero _ |- _ => destruct X as (k & K & X) end. cbn in K. lia.
  - intros ->. match goal with X : hex Ascii.zero _ |- _ => destruct X as (k & K & X) end. cbn in K. lia.
Qed.
Lemma nz_string n : nz (write_string n).
Proof. destruct (write_string_text n) as (r & C & ->). apply Forall_cons; [discriminate|]. apply nz_app; [|apply Forall_cons; [discriminate|apply Forall_nil]]. induction C as [|c s t u C _ IH]; [apply Forall_nil|]. apply nz_app; [apply (nz_char c), C|exact IH]. Qed.
Lemma nz_emit x : (forall b, occurs (JDouble b) x -> (0 <= b < 2 ^ 64)%Z) -> nz (fst (emit x)).
Proof.
  induction x as [x NA NO|l IH|l IH] using json_all; intros P.
  - destruct x as [|b|z|b|s|l|l]; try (destruct (NA l eq_refl)); try (destruct (NO l eq_refl)); cbn [emit write fst].
    + repeat (apply Forall_cons; [discriminate|]). apply Forall_nil.
    + destruct b; repeat (apply Forall_cons; [discriminate|]); apply Forall_nil.
    + apply nz_number. eapply whole_number, write_int_whole.
    + destruct (finite b) eqn:F; cbn [fst]; [|apply Forall_nil]. apply nz_number. destruct (dtoa_real b (P b (oc_here _)) F) as ((R & _) & _). exact R.
    + apply nz_string.
  - assert (H : forall y, In y l -> nz (fst (emit y))) by (intros y I; apply IH; [exact I|intros b O; apply P; eapply oc_arr; eassumption]). clear IH P. rewrite emit_arr.
    assert (M : forall first, nz (fst (emit_items first l))).
    { induction l as [|y l IHl]; intros first; [repeat (apply Forall_cons; [discriminate|]); apply Forall_nil|]. cbn [emit_items]. pose proof (H y (or_introl eq_refl)) as Y. destruct (emit y) as [t [|]]; cbn [fst] in Y |- *.
      - specialize (IHl (fun w I => H w (or_intror I)) false). destruct (emit_items false l) as [u ok]. cbn [fst] in IHl |- *. apply nz_app; [apply nz_app; [|exact Y]|exact IHl]. destruct first; [apply Forall_nil|apply Forall_cons; [discriminate|apply Forall_nil]].
      - apply nz_app; [|exact Y]. destruct first; [apply Forall_nil|apply Forall_cons; [discriminate|apply Forall_nil]]. }
    specialize (M true). destruct (emit_items true l) as [u ok]. cbn [fst] in M |- *. apply Forall_cons; [discriminate|exact M].
  - assert (H : forall n y, In (n, y) l -> nz (fst (emit y))) by (intros n y I; apply (IH n); [exact I|intros b O; apply P; eapply oc_obj; eassumption]). clear IH P. rewrite emit_obj.
    assert (M : forall first, nz (fst (emit_members first l))).
    { induction l as [|[n y] l IHl]; intros first; [repeat (apply Forall_cons; [discriminate|]); apply Forall_nil|]. cbn [emit_members]. pose proof (H n y (or_introl eq_refl)) as Y. assert (FS : nz (if first then [] else [","])) by (destruct first; [apply Forall_nil|apply Forall_cons; [discriminate|apply Forall_nil]]). destruct (emit y) as [t [|]]; cbn [fst] in Y |- *.
      - specialize (IHl (fun m w I => H m w (or_intror I)) false). destruct (emit_members false l) as [u ok]. cbn [fst] in IHl |- *. apply nz_app; [apply nz_app; [exact FS|apply nz_app; [apply nz_string|apply Forall_cons; [discriminate|exact Y]]]|exact IHl].
      - apply nz_app; [exact FS|apply nz_app; [apply nz_string|apply Forall_cons; [discriminate|exact Y]]]. }
    specialize (M true). destruct (emit_members true l) as [u ok]. cbn [fst] in M |- *. apply Forall_cons; [discriminate|exact M].
Qed.

(** ** A double without a text: what was written so far is not a document. *)
Definition bad (x : json) : Prop := exists b, occurs (JDouble b) x /\ finite b = false.
Lemma proper_dec x : machine x -> proper x \/ bad x.
Proof.
  induction x as [x NA NO|l IH|l IH] using json_all; intros M.
  - assert (C : forall y, occurs y x -> y = x) by (intros y O; inversion O; subst; [reflexivity|destruct (NA l eq_refl)|destruct (NO l eq_refl)]). destruct (M x (oc_here x)) as (MD & MI). destruct x as [|b|z|b|s|l|l]; try (left; intros y O; rewrite (C y O); split; intros ? E; discriminate E || (injection E as <-; apply MI; reflexivity)).
    destruct (finite b) eqn:F; [left; intros y O; rewrite (C y O); split; intros ? E; [injection E as <-; split; [apply MD; reflexivity|exact F]|discriminate]|right; exists b; split; [constructor|exact F]].
  - assert (D : (forall y, In y l -> proper y) \/ exists y, In y l /\ bad y).
    { assert (MM : forall y, In y l -> proper y \/ bad y) by (intros y I; apply IH; [exact I|intros w O; apply M; eapply oc_arr; eassumption]). clear IH M. induction l as [|y l IHl]; [left; intros ? []|]. destruct (MM y (or_introl eq_refl)) as [P|B]; [|right; exists y; split; [left; reflexivity|exact B]]. destruct IHl as [Q|(w & I & B)]; [intros w I; apply MM; right; exact I|left; intros w [<-|I]; auto|right; exists w; split; [right; exact I|exact B]]. }
    destruct D as [P|(y & I & b & O & F)]; [left|right; exists b; split; [eapply oc_arr; eassumption|exact F]]. intros w O. inversion O; subst; [split; intros ? E; discriminate|eapply P; eassumption].
  - assert (D : (forall n y, In (n, y) l -> proper y) \/ exists n y, In (n, y) l /\ bad y).
    { assert (MM : forall n y, In (n, y) l -> proper y \/ bad y) by (intros n y I; apply (IH n); [exact I|intros w O; apply M; eapply oc_obj; eassumption]). clear IH M. induction l as [|[n y] l IHl]; [left; intros ? ? []|]. destruct (MM n y (or_introl eq_refl)) as [P|B]; [|right; exists n, y; split; [left; reflexivity|exact B]]. destruct IHl as [Q|(m & w & I & B)]; [intros m w I; apply (MM m); right; exact I|left; intros m w [E|I]; [injection E as _ <-; exact P|eauto]|right; exists m, w; split; [right; exact I|exact B]]. }
    destruct D as [P|(n & y & I & b & O & F)]; [left|right; exists b; split; [eapply oc_obj; eassumption|exact F]]. intros w O. inversion O; subst; [split; intros ? E; discriminate|eapply P; eassumption].
Qed.
Definition starts (v : list ascii) : Prop := v = [] \/ exists c r, v = c :: r /\ white c = false /\ c <> "]".
Lemma starts_skip v : starts v -> skip v = v. Proof. intros [->|(c & r & -> & W & _)]; [reflexivity|apply skip_solid, W]. Qed.
Lemma starts_consume v : starts v -> consume "]" v = None. Proof. intros [->|(c & r & -> & _ & N)]; [reflexivity|apply consume_ne; congruence]. Qed.
Lemma emit_bad x : machine x -> bad x -> exists t, emit x = (t, false) /\ starts t /\ forall n, 2 * List.length t + 1 <= n -> parse_value n t = None.
Proof.
  induction x as [x NA NO|l IH|l IH] using json_all; intros M B.
  - destruct B as (b & O & F). inversion O; subst; [|destruct (NA l eq_refl)|destruct (NO l eq_refl)]. cbn [emit]. rewrite F. exists []. split; [reflexivity|]. split; [left; reflexivity|]. intros [|n] L; reflexivity.
  - assert (H : forall y, In y l -> proper y \/ exists t, emit y = (t, false) /\ starts t /\ forall n, 2 * List.length t + 1 <= n -> parse_value n t = None).
    { intros y I. assert (MY : machine y) by (intros w O; apply M; eapply oc_arr; eassumption). destruct (proper_dec y MY) as [P|BY]; [left; exact P|right; apply IH; assumption]. }
    assert (B' : exists y, In y l /\ ~ proper y). { destruct B as (b & O & F). inversion O; subst. match goal with I : In ?y l, O' : occurs _ ?y |- _ => exists y; split; [exact I|]; intros P; destruct (P _ O') as (PD & _); destruct (PD b eq_refl) as (_ & X); congruence end. }
    clear IH M B. rewrite emit_arr.
    assert (G : forall l, (forall y, In y l -> proper y \/ exists t, emit y = (t, false) /\ starts t /\ forall n, 2 * List.length t + 1 <= n -> parse_value n t = None) -> (exists y, In y l /\ ~ proper y) ->
      forall first, exists v, emit_items first l = ((if first then [] else [","]) ++ v, false) /\ starts v /\ forall n, 2 * List.length v + 2 <= n -> items n v = None).
    { clear. induction l as [|y l IHl]; intros H (w & I & NP) first; [destruct I|]. cbn [emit_items]. destruct (H y (or_introl eq_refl)) as [P|(t & E & ST & F)].
      - destruct (emit_proper y P) as (t & z & E & R & _). rewrite E. destruct I as [->|I]; [contradiction|]. destruct (IHl (fun a A => H a (or_intror A)) (ex_intro _ w (conj I NP)) false) as (v & EV & SV & FV). rewrite EV. exists (t ++ "," :: v). split; [cbn [app]; rewrite <- app_assoc; reflexivity|].
        split; [right; apply rtext_head in R as (c & r & -> & W & N & _); exists c, (r ++ "," :: v); auto|]. intros n L. rewrite app_length in L. cbn [List.length] in L. destruct n as [|n]; [reflexivity|]. cbn [items]. rewrite (proj1 complete z t R n ("," :: v)) by (first [lia|reflexivity]). rewrite skip_solid by reflexivity. rewrite consume_hd, (starts_skip v SV), FV by lia. reflexivity.
      - rewrite E. exists t. split; [reflexivity|]. split; [exact ST|]. intros n L. destruct n as [|n]; [reflexivity|]. cbn [items]. rewrite F; [reflexivity|lia]. }
    destruct (G l H B' true) as (v & EV & SV & FV). rewrite EV. cbn [app]. exists ("[" :: v). split; [reflexivity|]. split; [right; do 2 eexists; split; [reflexivity|split; [reflexivity|discriminate]]|]. intros n L. cbn [List.length] in L. destruct n as [|n]; [reflexivity|]. cbn [parse_value Ascii.eqb Bool.eqb andb]. rewrite (starts_skip v SV), (starts_consume v SV), FV by lia. reflexivity.
  - assert (H : forall k y, In (k, y) l -> proper y \/ exists t, emit y = (t, false) /\ starts t /\ forall n, 2 * List.length t + 1 <= n -> parse_value n t = None).
    { intros k y I. assert (MY : machine y) by (intros w O; apply M; eapply oc_obj; eassumption). destruct (proper_dec y MY) as [P|BY]; [left; exact P|right; apply (IH k); assumption]. }
    assert (B' : exists k y, In (k, y) l /\ ~ proper y). { destruct B as (b & O & F). inversion O; subst. match goal with I : In (?k, ?y) l, O' : occurs _ ?y |- _ => exists k, y; split; [exact I|]; intros P; destruct (P _ O') as (PD & _); destruct (PD b eq_refl) as (_ & X); congruence end. }
    clear IH M B. rewrite emit_obj. assert (ST : forall n, str_text n (write_string n)) by (intros n; apply string_piece, write_string_text).
    assert (G : forall l, (forall k y, In (k, y) l -> proper y \/ exists t, emit y = (t, false) /\ starts t /\ forall n, 2 * List.length t + 1 <= n -> parse_value n t = None) -> (exists k y, In (k, y) l /\ ~ proper y) ->
      forall first, exists v, emit_members first l = ((if first then [] else [","]) ++ """" :: v, false) /\ forall n, 2 * List.length ("""" :: v) <= n -> members n ("""" :: v) = None).
    { clear - ST. induction l as [|[k y] l IHl]; intros H (k' & w & I & NP) first; [destruct I|]. cbn [emit_members]. assert (W : exists u, write_string k = """" :: u) by (eexists; reflexivity). destruct W as (ks & EK). destruct (H k y (or_introl eq_refl)) as [P|(t & E & SV & F)].
      - destruct (emit_proper y P) as (t & z & E & R & _). rewrite E. destruct I as [I|I]; [injection I as _ ->; contradiction|]. destruct (IHl (fun a b A => H a b (or_intror A)) (ex_intro _ k' (ex_intro _ w (conj I NP))) false) as (v & EV & FV). rewrite EV. exists (ks ++ ":" :: t ++ "," :: """" :: v). split; [rewrite EK; cbn [app]; rewrite <- !app_assoc; cbn [app]; rewrite <- !app_assoc; reflexivity|].
        intros n L. cbn [List.length] in L. rewrite app_length in L. cbn [List.length] in L. rewrite app_length in L. cbn [List.length] in L. destruct n as [|n]; [reflexivity|]. cbn [members]. change ("""" :: ks ++ ":" :: t ++ "," :: """" :: v) with (("""" :: ks) ++ ":" :: t ++ "," :: """" :: v). rewrite <- EK, (string_complete _ _ _ (ST k)). rewrite skip_solid by reflexivity. rewrite consume_hd.
        pose proof R as R'. apply rtext_head in R' as (c & r & EQ & W & _). rewrite skip_solid_app by eauto. rewrite (proj1 complete z t R n ("," :: """" :: v)) by (first [lia|reflexivity]). rewrite skip_solid by reflexivity. rewrite consume_hd. rewrite skip_solid by reflexivity. rewrite FV by (cbn [List.length]; lia). reflexivity.
      - rewrite E. exists (ks ++ ":" :: t). split; [rewrite EK; reflexivity|]. intros n L. cbn [List.length] in L. rewrite app_length in L. cbn [List.length] in L. destruct n as [|n]; [reflexivity|]. cbn [members]. change ("""" :: ks ++ ":" :: t) with (("""" :: ks) ++ ":" :: t). rewrite <- EK, (string_complete _ _ _ (ST k)). rewrite skip_solid by reflexivity. rewrite consume_hd, (starts_skip t SV), F by lia. reflexivity. }
    destruct (G l H B' true) as (v & EV & FV). rewrite EV. cbn [app]. exists ("{" :: """" :: v). split; [reflexivity|]. split; [right; do 2 eexists; split; [reflexivity|split; [reflexivity|discriminate]]|]. intros n L. cbn [List.length] in L. destruct n as [|n]; [reflexivity|]. cbn [parse_value Ascii.eqb Bool.eqb andb]. rewrite skip_solid by reflexivity. rewrite consume_ne by discriminate. rewrite FV by (cbn [List.length]; lia). reflexivity.
Qed.
Lemma finite_spec b : (0 <= b < 2 ^ 64)%Z -> finite b = false <-> no_number b.
Proof.
  intros B. unfold finite, exponent. rewrite negb_false_iff, Z.eqb_eq. split.
  - intros E. pose proof (Z.div_mod b (2 ^ 52) ltac:(lia)) as D1. pose proof (Z.mod_pos_bound b (2 ^ 52) ltac:(lia)) as M1. pose proof (Z.div_mod (b / 2 ^ 52) (2 ^ 11) ltac:(lia)) as D2. exists (b / 2 ^ 52 / 2 ^ 11)%Z, (b mod 2 ^ 52)%Z. split; [lia|]. split; [|exact M1].
    assert (0 <= b / 2 ^ 52 / 2 ^ 11 < 2)%Z; [|lia]. split; [apply Z.div_pos; [apply Z.div_pos; lia|lia]|]. apply Z.div_lt_upper_bound; [lia|]. apply Z.div_lt_upper_bound; lia.
  - intros (s & f & -> & S & F). replace (s * 2 ^ 63 + 2047 * 2 ^ 52 + f)%Z with ((s * 2 ^ 11 + 2047) * 2 ^ 52 + f)%Z by lia. rewrite Z.div_add_l by lia. rewrite (Z.div_small f) by lia. rewrite Z.add_0_r, Z.add_comm, Z.mod_add by lia. reflexivity.
Qed.
