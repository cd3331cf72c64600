(** The reader follows the grammar. *)
From Coq Require Import String Ascii SpecFloat.
From Verif Require Import Base JsonModel JsonTextModel JsonTextSpec JsonTextProofs JsonReadModel JsonReadSpec.
Local Open Scope list_scope.
Local Open Scope char_scope.

(** ** Small things *)
Lemma consume_some c s r : consume c s = Some r <-> s = c :: r.
Proof. destruct s as [|d s]; cbn; [split; discriminate|]. destruct (Ascii.eqb_spec c d) as [->|N]; [split; intros E; injection E as <-; reflexivity|split; [discriminate|intros E; injection E as <- _; contradiction]]. Qed.
Lemma consume_hd c s : consume c (c :: s) = Some s. Proof. apply consume_some. reflexivity. Qed.
Lemma consume_ne c d s : c <> d -> consume c (d :: s) = None. Proof. intros N. cbn. destruct (Ascii.eqb_spec c d); [contradiction|reflexivity]. Qed.
Lemma consume_app c s q : ends q -> num_char c = true -> consume c (s ++ q) = match consume c s with Some r => Some (r ++ q) | None => None end.
Proof.
  intros E N. destruct s as [|d s]; cbn; [|destruct (Ascii.eqb c d); reflexivity]. destruct q as [|d q]; [reflexivity|]. cbn in E |- *. destruct (Ascii.eqb_spec c d) as [->|_]; [congruence|reflexivity].
Qed.
Lemma digit_some c d : digit c = Some d -> 48 <= nat_of_ascii c <= 57 /\ d = (num c - 48)%Z.
Proof. unfold digit, code. destruct (Z.leb_spec 48 (num c)), (Z.leb_spec (num c) 57); cbn; try discriminate. intros E. injection E as <-. lia. Qed.
Lemma digit_is c : 48 <= nat_of_ascii c <= 57 -> digit c = Some (num c - 48)%Z.
Proof. intros H. unfold digit, code. destruct (Z.leb_spec 48 (num c)), (Z.leb_spec (num c) 57); cbn; try lia. reflexivity. Qed.
Lemma digit_none c : digit c = None -> ~ 48 <= nat_of_ascii c <= 57. Proof. intros E H. rewrite (digit_is c H) in E. discriminate. Qed.
Lemma digit_num c : digit c = None \/ num_char c = true.
Proof. destruct (digit c) eqn:E; [right|left; reflexivity]. apply digit_some in E as (E & _). unfold num_char. destruct (Nat.leb_spec 48 (nat_of_ascii c)), (Nat.leb_spec (nat_of_ascii c) 57); solve [lia|reflexivity]. Qed.
Definition no_digit (s : list ascii) : Prop := match s with c :: _ => digit c = None | [] => True end.
Lemma ends_no_digit q : ends q -> no_digit q. Proof. destruct q as [|c q]; [auto|]. cbn. intros E. destruct (digit_num c); [assumption|congruence]. Qed.
Lemma digits_span a : forall b r r', digits a -> digits b -> no_digit r -> no_digit r' -> a ++ r = b ++ r' -> a = b /\ r = r'.
Proof.
  induction a as [|c a IH]; intros [|d b] r r' A B N N' E; cbn in E; [auto| | |].
  - subst r. inversion B; subst. cbn in N. apply digit_none in N. contradiction.
  - subst r'. inversion A; subst. cbn in N'. apply digit_none in N'. contradiction.
  - injection E as -> E. inversion A; subst. inversion B; subst. destruct (IH b r r') as (-> & ->); auto.
Qed.
Definition decimal_from (i : Z) (t : list ascii) : Z := fold_left (fun v c => v * 10 + (num c - 48))%Z t i.
Lemma decimal_from_app i a b : decimal_from i (a ++ b) = decimal_from (decimal_from i a) b. Proof. apply fold_left_app. Qed.
Lemma decimal_from_ge t : forall i, digits t -> (0 <= i)%Z -> (i <= decimal_from i t)%Z.
Proof. induction t as [|c t IH]; intros i D P; cbn; [lia|]. inversion D; subst. specialize (IH (i * 10 + (num c - 48))%Z). unfold decimal_from in IH. etransitivity; [|apply IH; [assumption|lia]]. lia. Qed.

(** ** Integers *)
Lemma stage_spec lim last s : forall i n i' n' r over, stage lim last s i n = (i', n', r, over) -> (0 <= i <= 10 * lim + last)%Z -> (0 <= lim)%Z -> (0 <= last <= 9)%Z ->
  exists ds, s = ds ++ r /\ digits ds /\ i' = decimal_from i ds /\ (0 <= i' <= 10 * lim + last)%Z /\
    (if over then exists c q, r = c :: q /\ 48 <= nat_of_ascii c <= 57 /\ (10 * lim + last < i' * 10 + (num c - 48))%Z else no_digit r).
Proof.
  induction s as [|c s IH]; intros i n i' n' r over H I L La; cbn in H.
  - injection H as <- <- <- <-. exists []. split; [reflexivity|]. split; [apply Forall_nil|]. split; [reflexivity|]. split; [lia|exact Logic.I].
  - destruct (digit c) as [d|] eqn:D.
    + pose proof (digit_some _ _ D) as (R & ->). destruct ((lim <=? i)%Z && (negb (i =? lim)%Z || (last <? num c - 48)%Z)) eqn:O.
      * injection H as <- <- <- <-. exists []. split; [reflexivity|]. split; [constructor|]. split; [reflexivity|]. split; [lia|]. exists c, s. split; [reflexivity|]. split; [assumption|].
        apply andb_true_iff in O as (O1 & O2). apply Z.leb_le in O1. apply orb_true_iff in O2 as [O2|O2]; [apply negb_true_iff, Z.eqb_neq in O2; lia|apply Z.ltb_lt in O2; lia].
      * assert (B : (0 <= i * 10 + (num c - 48) <= 10 * lim + last)%Z). { apply andb_false_iff in O as [O|O]; [apply Z.leb_gt in O; lia|]. apply orb_false_iff in O as (O1 & O2). apply negb_false_iff, Z.eqb_eq in O1. apply Z.ltb_ge in O2. lia. }
        destruct (IH _ _ _ _ _ _ H B L La) as (ds & -> & DS & -> & B' & X). exists (c :: ds). split; [reflexivity|]. split; [constructor; assumption|]. split; [reflexivity|]. auto.
    + injection H as <- <- <- <-. exists []. split; [reflexivity|]. split; [apply Forall_nil|]. split; [reflexivity|]. split; [lia|exact D].
Qed.
Definition limit (minus : bool) : Z := if minus then 2 ^ 63 else 2 ^ 64 - 1.
Lemma big_shape s : forall d d' r, big d s = Some (d', r) -> exists ds, s = ds ++ r /\ digits ds /\ no_digit r.
Proof.
  induction s as [|c s IH]; intros d d' r H; cbn [big] in H; [injection H as <- <-; exists []; split; [reflexivity|split; [apply Forall_nil|exact Logic.I]]|]. destruct (digit c) as [k|] eqn:D.
  - destruct (SFleb _ _); [discriminate|]. destruct (IH _ _ _ H) as (ds & -> & DS & N). exists (c :: ds). split; [reflexivity|]. split; [constructor; [apply (digit_some _ _ D)|exact DS]|exact N].
  - injection H as <- <-. exists []. split; [reflexivity|]. split; [apply Forall_nil|]. exact D.
Qed.
Lemma int_part_shape minus s v r : int_part minus s = Some (v, r) ->
  exists t, s = t ++ r /\ natural t /\ (no_digit r \/ t = ["0"]) /\
    match v with Whole i _ => i = decimal t /\ (0 <= i <= limit minus)%Z | Real _ _ => (limit minus < decimal t)%Z end.
Proof.
  destruct s as [|c s]; cbn [int_part]; [discriminate|]. destruct (digit c) as [k|] eqn:D; [|discriminate]. destruct (digit_some _ _ D) as (R & EK).
  assert (Z0 : k = 0%Z -> c = "0"). { intros ->. rewrite <- (ascii_nat_embedding c). replace (nat_of_ascii c) with 48 by lia. reflexivity. }
  destruct k as [|k|k]; [|clear Z0|lia].
  { intros H. injection H as <- <-. rewrite (Z0 eq_refl). exists ["0"]. split; [reflexivity|]. split; [left; reflexivity|]. split; [right; reflexivity|]. cbn. unfold limit. destruct minus; lia. }
  assert (ST : forall l1 a1 l2 a2, (9 <= 10 * l1 + a1)%Z -> (10 * l1 + a1 <= 10 * l2 + a2)%Z -> (0 <= a1 <= 9)%Z -> (0 <= a2 <= 9)%Z -> (0 <= l1)%Z -> (0 <= l2)%Z -> limit minus = (10 * l2 + a2)%Z ->
    (let '(i, n, r1, over) := stage l1 a1 s (Z.pos k) 0 in
      if over then let '(i, n, r2, over) := stage l2 a2 r1 i n in
        if over then match big (dbl i) r2 with Some (d, r3) => Some (Real d n, r3) | None => None end else Some (Whole i n, r2)
      else Some (Whole i n, r1)) = Some (v, r) ->
    exists t, c :: s = t ++ r /\ natural t /\ (no_digit r \/ t = ["0"]) /\ match v with Whole i _ => i = decimal t /\ (0 <= i <= limit minus)%Z | Real _ _ => (limit minus < decimal t)%Z end).
  { intros l1 a1 l2 a2 B1 B2 B3 B4 B5 B6 LM H. destruct (stage l1 a1 s (Z.pos k) 0) as [[[i n] r1] over] eqn:S1. apply stage_spec in S1 as (ds & -> & DS & EI & BI & X); try lia.
    assert (NT : forall t, digits t -> natural (c :: t)) by (intros t DT; right; exists c, t; repeat split; try assumption; lia).
    assert (DC : forall t, decimal (c :: t) = decimal_from (Z.pos k) t) by (intros t; unfold decimal, decimal_from; cbn [fold_left]; rewrite EK; reflexivity).
    destruct over.
    - destruct (stage l2 a2 r1 i n) as [[[i2 n2] r2] over] eqn:S2. apply stage_spec in S2 as (ds2 & -> & DS2 & EI2 & BI2 & X2); try lia. destruct over.
      + destruct (big (dbl i2) r2) as [[d r3]|] eqn:BG; [|discriminate]. injection H as <- <-. destruct (big_shape _ _ _ _ BG) as (ds3 & -> & DS3 & N3). exists (c :: ds ++ ds2 ++ ds3). cbn [app]. rewrite <- !app_assoc. split; [reflexivity|].
        assert (DA : digits (ds ++ ds2 ++ ds3)) by (unfold digits; rewrite !Forall_app; auto). split; [apply NT, DA|]. split; [left; exact N3|]. rewrite DC, !decimal_from_app, <- EI, <- EI2.
        destruct X2 as (c2 & q2 & E2 & R2 & O2). destruct ds3 as [|c3 ds3].
        * cbn in E2. subst r3. cbn in N3. rewrite (digit_is _ R2) in N3. discriminate.
        * cbn in E2. injection E2 as -> _. change (decimal_from i2 (c2 :: ds3)) with (decimal_from (i2 * 10 + (num c2 - 48)) ds3). inversion DS3; subst. pose proof (decimal_from_ge ds3 (decimal_from (decimal_from (Z.pos k) ds) ds2 * 10 + (num c2 - 48))%Z ltac:(assumption) ltac:(lia)). lia.
      + injection H as <- <-. exists (c :: ds ++ ds2). cbn [app]. rewrite <- app_assoc. split; [reflexivity|]. split; [apply NT; unfold digits; rewrite Forall_app; auto|]. split; [left; exact X2|]. rewrite DC, decimal_from_app, <- EI, <- EI2. split; [reflexivity|lia].
    - injection H as <- <-. exists (c :: ds). split; [reflexivity|]. split; [apply NT, DS|]. split; [left; exact X|]. rewrite DC, <- EI. split; [reflexivity|lia]. }
  destruct minus; apply ST; try lia; unfold limit; lia.
Qed.
Lemma natural_first t : natural t -> exists c r, t = c :: r /\ 48 <= nat_of_ascii c <= 57 /\ digits r.
Proof. intros [->|(c & r & -> & H & D)]; [exists "0", []; repeat split; [cbn; lia|cbn; lia|constructor]|exists c, r; repeat split; [lia|lia|exact D]]. Qed.
Lemma natural_digits t : natural t -> digits t. Proof. intros (c & r & -> & A & B)%natural_first. constructor; assumption. Qed.
(** One text of a natural number at the beginning *)
Lemma natural_span a b r r' : natural a -> natural b -> no_digit r -> no_digit r' \/ b = ["0"] -> a ++ r = b ++ r' -> a = b /\ r = r'.
Proof.
  intros A B N [N'| ->] E; [apply digits_span; auto using natural_digits|]. destruct A as [->|(c & t & -> & H & D)]; [cbn in E; injection E as ->; auto|]. cbn in E. injection E as -> _. cbn in H. lia.
Qed.
Lemma int_part_whole minus t r : natural t -> (decimal t <= limit minus)%Z -> no_digit r -> exists n, int_part minus (t ++ r) = Some (Whole (decimal t) n, r).
Proof.
  intros NT LE ND. destruct (int_part minus (t ++ r)) as [[v r']|] eqn:H.
  - destruct (int_part_shape _ _ _ _ H) as (t' & E & NT' & N' & X). destruct (natural_span t t' r r' NT NT' ND N' E) as (<- & <-). destruct v as [i n|d n]; [|lia]. destruct X as (-> & _). eauto.
  - exfalso. destruct (natural_first t NT) as (c & q & -> & R & DQ). cbn [app int_part] in H. rewrite (digit_is c R) in H. destruct (num c - 48)%Z as [|k|k] eqn:EK; [discriminate| |lia].
    assert (DC : decimal (c :: q) = decimal_from (Z.pos k) q) by (unfold decimal, decimal_from; cbn [fold_left]; rewrite EK; reflexivity).
    assert (ST : forall l1 a1 l2 a2, (9 <= 10 * l1 + a1)%Z -> (10 * l1 + a1 <= 10 * l2 + a2)%Z -> (0 <= a1 <= 9)%Z -> (0 <= a2 <= 9)%Z -> (0 <= l1)%Z -> (0 <= l2)%Z -> limit minus = (10 * l2 + a2)%Z ->
      (let '(i, n, r1, over) := stage l1 a1 (q ++ r) (Z.pos k) 0 in
        if over then let '(i, n, r2, over) := stage l2 a2 r1 i n in
          if over then match big (dbl i) r2 with Some (d, r3) => Some (Real d n, r3) | None => None end else Some (Whole i n, r2)
        else Some (Whole i n, r1)) <> None).
    { intros l1 a1 l2 a2 B1 B2 B3 B4 B5 B6 LM. destruct (stage l1 a1 (q ++ r) (Z.pos k) 0) as [[[i n] r1] over] eqn:S1. apply stage_spec in S1 as (ds & E1 & DS & EI & BI & X); try lia. destruct over; [|discriminate].
      destruct (stage l2 a2 r1 i n) as [[[i2 n2] r2] over] eqn:S2. apply stage_spec in S2 as (ds2 & E2 & DS2 & EI2 & BI2 & X2); try lia. destruct over; [|discriminate]. exfalso.
      destruct X2 as (c2 & q2 & -> & R2 & O2). subst r1. rewrite app_assoc in E1.
      (* the digits of q go beyond ds ++ ds2 *)
      assert (Q : exists q3, q = (ds ++ ds2) ++ c2 :: q3).
      { assert (DD : digits (ds ++ ds2)) by (unfold digits; rewrite Forall_app; auto). revert E1 DD DQ. generalize (ds ++ ds2) as a. clear - ND R2. intros a. revert q. induction a as [|x a IH]; intros q E DD DQ; cbn in *.
        - destruct q as [|y q]; cbn in E; [subst r; cbn in ND; rewrite (digit_is _ R2) in ND; discriminate|]. injection E as -> _. eauto.
        - destruct q as [|y q]; cbn in E; [subst r; cbn in ND; inversion DD; subst; rewrite (digit_is x) in ND by assumption; discriminate|]. injection E as -> E. inversion DD; subst. inversion DQ; subst. destruct (IH q E) as (q3 & ->); auto. eauto. }
      destruct Q as (q3 & ->). rewrite DC, decimal_from_app, decimal_from_app, <- EI, <- EI2 in LE. change (decimal_from i2 (c2 :: q3)) with (decimal_from (i2 * 10 + (num c2 - 48)) q3) in LE.
      assert (D3 : digits q3) by (unfold digits in DQ; rewrite Forall_app in DQ; destruct DQ as (_ & DQ); inversion DQ; assumption). pose proof (decimal_from_ge q3 (i2 * 10 + (num c2 - 48))%Z D3 ltac:(lia)). lia. }
    destruct minus; eapply ST; [| | | | | | |exact H| | | | | | | |exact H]; try lia; unfold limit; lia.
Qed.

(** ** What the other parts of a number take *)
Lemma frac_int_shape s : forall i ef n i' ef' n' r, frac_int i ef n s = (i', ef', n', r) -> exists ds, s = ds ++ r /\ digits ds.
Proof.
  induction s as [|c s IH]; intros i ef n i' ef' n' r H; cbn [frac_int] in H; [injection H as _ _ _ <-; exists []; split; [reflexivity|apply Forall_nil]|]. destruct (digit c) as [k|] eqn:D.
  - destruct (_ <? i)%Z; [injection H as _ _ _ <-; exists []; split; [reflexivity|apply Forall_nil]|]. destruct (IH _ _ _ _ _ _ _ H) as (ds & -> & DS). exists (c :: ds). split; [reflexivity|constructor; [apply (digit_some _ _ D)|exact DS]].
  - injection H as _ _ _ <-. exists []. split; [reflexivity|apply Forall_nil].
Qed.
Lemma frac_dbl_shape s : forall d ef n d' ef' r, frac_dbl d ef n s = (d', ef', r) -> exists ds, s = ds ++ r /\ digits ds /\ no_digit r.
Proof.
  induction s as [|c s IH]; intros d ef n d' ef' r H; cbn [frac_dbl] in H; [injection H as _ _ <-; exists []; split; [reflexivity|split; [apply Forall_nil|exact Logic.I]]|]. destruct (digit c) as [k|] eqn:D.
  - assert (X : exists a b e, frac_dbl a b e s = (d', ef', r)) by (destruct (n <? 17)%Z; eauto). destruct X as (a & b & e & X). destruct (IH _ _ _ _ _ _ X) as (ds & -> & DS & N). exists (c :: ds). split; [reflexivity|]. split; [constructor; [apply (digit_some _ _ D)|exact DS]|exact N].
  - injection H as _ _ <-. exists []. split; [reflexivity|]. split; [apply Forall_nil|exact D].
Qed.
Lemma skip_digits_shape s : exists ds, s = ds ++ skip_digits s /\ digits ds /\ no_digit (skip_digits s).
Proof.
  induction s as [|c s (ds & E & DS & N)]; cbn [skip_digits]; [exists []; split; [reflexivity|split; [apply Forall_nil|exact Logic.I]]|]. destruct (digit c) as [k|] eqn:D.
  - exists (c :: ds). split; [cbn; congruence|]. split; [constructor; [apply (digit_some _ _ D)|exact DS]|exact N].
  - exists []. split; [reflexivity|]. split; [apply Forall_nil|exact D].
Qed.
Lemma exp_neg_shape s : forall e e' r, exp_neg e s = (e', r) -> exists ds, s = ds ++ r /\ digits ds /\ no_digit r.
Proof.
  induction s as [|c s IH]; intros e e' r H; cbn [exp_neg] in H; [injection H as _ <-; exists []; split; [reflexivity|split; [apply Forall_nil|exact Logic.I]]|]. destruct (digit c) as [k|] eqn:D.
  - assert (X : exists ds, s = ds ++ r /\ digits ds /\ no_digit r) by (destruct (_ <=? _)%Z; [injection H as _ <-; apply skip_digits_shape|exact (IH _ _ _ H)]). destruct X as (ds & -> & DS & N). exists (c :: ds). split; [reflexivity|]. split; [constructor; [apply (digit_some _ _ D)|exact DS]|exact N].
  - injection H as _ <-. exists []. split; [reflexivity|]. split; [apply Forall_nil|exact D].
Qed.
Lemma exp_pos_shape lim s : forall e e' r, exp_pos lim e s = Some (e', r) -> exists ds, s = ds ++ r /\ digits ds /\ no_digit r.
Proof.
  induction s as [|c s IH]; intros e e' r H; cbn [exp_pos] in H; [injection H as _ <-; exists []; split; [reflexivity|split; [apply Forall_nil|exact Logic.I]]|]. destruct (digit c) as [k|] eqn:D.
  - destruct (_ <? _)%Z; [discriminate|]. destruct (IH _ _ _ H) as (ds & -> & DS & N). exists (c :: ds). split; [reflexivity|]. split; [constructor; [apply (digit_some _ _ D)|exact DS]|exact N].
  - injection H as _ <-. exists []. split; [reflexivity|]. split; [apply Forall_nil|exact D].
Qed.
Lemma frac_part_shape v s v' ef r : frac_part v s = Some (v', ef, r) -> exists t, s = t ++ r /\ fraction t /\ (t = [] -> v' = v /\ ef = 0%Z) /\ (t <> [] -> (exists d n, v' = Real d n) /\ no_digit r).
Proof.
  unfold frac_part. destruct (consume "." s) as [q|] eqn:C; [apply consume_some in C; subst s|intros H; injection H as <- <- <-; exists []; split; [reflexivity|]; split; [left; reflexivity|]; split; [auto|congruence]].
  destruct q as [|c q]; [discriminate|]. destruct (digit c) as [k|] eqn:D; [|discriminate]. remember (c :: q) as s eqn:ES. destruct (match v with Whole i n => _ | Real d n => _ end) as [[[d0 ef0] n0] r1] eqn:M. destruct (frac_dbl d0 ef0 n0 r1) as [[d1 ef1] r2] eqn:F. intros H. injection H as <- <- <-.
  destruct (frac_dbl_shape _ _ _ _ _ _ _ F) as (ds2 & -> & DS2 & N2). assert (X : exists ds1, s = ds1 ++ ds2 ++ r2 /\ digits ds1).
  { destruct v as [i n|d n]; [|injection M as _ _ _ ->; exists []; split; [reflexivity|apply Forall_nil]]. destruct (frac_int i 0 n s) as [[[i' ef'] n'] r'] eqn:FI. injection M as _ _ _ ->. exact (frac_int_shape _ _ _ _ _ _ _ _ FI). }
  destruct X as (ds1 & -> & DS1). exists ("." :: ds1 ++ ds2). cbn [app]. rewrite <- app_assoc. split; [reflexivity|]. split; [|split; [discriminate|split; [eauto|exact N2]]].
  right. exists (ds1 ++ ds2). split; [reflexivity|]. split; [|unfold digits; rewrite Forall_app; auto]. intros E. rewrite app_assoc, E in ES. cbn in ES. subst r2. cbn in N2. congruence.
Qed.
Lemma exp_part_shape v ef s v' e r : exp_part v ef s = Some (v', e, r) -> exists t, s = t ++ r /\ exponent_text t /\ (t = [] -> v' = v /\ e = 0%Z) /\ (t <> [] -> (exists d n, v' = Real d n) /\ no_digit r).
Proof.
  unfold exp_part. destruct s as [|c s]; [intros H; injection H as <- <- <-; exists []; split; [reflexivity|]; split; [left; reflexivity|]; split; [auto|congruence]|].
  destruct (Ascii.eqb c "e" || Ascii.eqb c "E")%bool eqn:CE; [|intros H; injection H as <- <- <-; exists []; split; [reflexivity|]; split; [left; reflexivity|]; split; [auto|congruence]].
  destruct (match consume "+" s with Some r1 => _ | None => _ end) as [minus r1] eqn:SG. destruct r1 as [|d r2]; [discriminate|]. destruct (digit d) as [k|] eqn:D; [|discriminate]. intros H.
  assert (SS : exists sg, s = sg ++ d :: r2 /\ (sg = [] \/ sg = ["+"] \/ sg = ["-"])).
  { destruct (consume "+" s) as [q|] eqn:C1; [apply consume_some in C1; injection SG as _ ->; exists ["+"]; auto|]. destruct (consume "-" s) as [q|] eqn:C2; [apply consume_some in C2; injection SG as _ ->; exists ["-"]; auto|]. injection SG as _ ->. exists []. auto. }
  destruct SS as (sg & -> & SG'). assert (X : exists ds, r2 = ds ++ r /\ digits ds /\ no_digit r /\ v' = match v with Whole i n => Real (dbl i) n | _ => v end).
  { destruct minus.
    - destruct (exp_neg k r2) as [e1 r3] eqn:EN. injection H as <- _ <-. destruct (exp_neg_shape _ _ _ _ EN) as (ds & E & DS & N). eauto.
    - destruct (exp_pos (308 - ef) k r2) as [[e1 r3]|] eqn:EP; [|discriminate]. injection H as <- _ <-. destruct (exp_pos_shape _ _ _ _ _ EP) as (ds & E & DS & N). eauto. }
  destruct X as (ds & -> & DS & N & ->). exists (c :: sg ++ d :: ds). split; [cbn; rewrite <- app_assoc; reflexivity|]. split; [|split; [discriminate|split; [destruct v; eauto|exact N]]].
  right. exists c, sg, (d :: ds). split; [reflexivity|]. split; [apply orb_true_iff in CE as [CE|CE]; apply Ascii.eqb_eq in CE; auto|]. split; [exact SG'|]. split; [discriminate|]. constructor; [apply (digit_some _ _ D)|exact DS].
Qed.

(** ** A number is read the same before anything that cannot belong to it. *)
Lemma stage_app lim last q s : ends q -> forall i n, stage lim last (s ++ q) i n = let '(i, n, r, o) := stage lim last s i n in (i, n, r ++ q, o).
Proof.
  intros E. induction s as [|c s IH]; intros i n; cbn [app stage].
  - destruct q as [|c q]; [reflexivity|]. cbn [stage]. pose proof (ends_no_digit _ E) as N. cbn in N. rewrite N. reflexivity.
  - destruct (digit c); [|reflexivity]. destruct (_ && _); [reflexivity|apply IH].
Qed.
Lemma big_app q s : ends q -> forall d, big d (s ++ q) = match big d s with Some (d, r) => Some (d, r ++ q) | None => None end.
Proof.
  intros E. induction s as [|c s IH]; intros d; cbn [app big].
  - destruct q as [|c q]; [reflexivity|]. cbn [big]. pose proof (ends_no_digit _ E) as N. cbn in N. rewrite N. reflexivity.
  - destruct (digit c); [|reflexivity]. destruct (SFleb _ _); [reflexivity|apply IH].
Qed.
Lemma frac_int_app q s : ends q -> forall i ef n, frac_int i ef n (s ++ q) = let '(i, ef, n, r) := frac_int i ef n s in (i, ef, n, r ++ q).
Proof.
  intros E. induction s as [|c s IH]; intros i ef n; cbn [app frac_int].
  - destruct q as [|c q]; [reflexivity|]. cbn [frac_int]. pose proof (ends_no_digit _ E) as N. cbn in N. rewrite N. reflexivity.
  - destruct (digit c); [|reflexivity]. destruct (_ <? i)%Z; [reflexivity|apply IH].
Qed.
Lemma frac_dbl_app q s : ends q -> forall d ef n, frac_dbl d ef n (s ++ q) = let '(d, ef, r) := frac_dbl d ef n s in (d, ef, r ++ q).
Proof.
  intros E. induction s as [|c s IH]; intros d ef n; cbn [app frac_dbl].
  - destruct q as [|c q]; [reflexivity|]. cbn [frac_dbl]. pose proof (ends_no_digit _ E) as N. cbn in N. rewrite N. reflexivity.
  - destruct (digit c); [|reflexivity]. destruct (n <? 17)%Z; apply IH.
Qed.
Lemma skip_digits_app q s : ends q -> skip_digits (s ++ q) = skip_digits s ++ q.
Proof.
  intros E. induction s as [|c s IH]; cbn [app skip_digits].
  - destruct q as [|c q]; [reflexivity|]. cbn [skip_digits]. pose proof (ends_no_digit _ E) as N. cbn in N. rewrite N. reflexivity.
  - destruct (digit c); [apply IH|reflexivity].
Qed.
Lemma exp_neg_app q s : ends q -> forall e, exp_neg e (s ++ q) = let '(e, r) := exp_neg e s in (e, r ++ q).
Proof.
  intros E. induction s as [|c s IH]; intros e; cbn [app exp_neg].
  - destruct q as [|c q]; [reflexivity|]. cbn [exp_neg]. pose proof (ends_no_digit _ E) as N. cbn in N. rewrite N. reflexivity.
  - destruct (digit c); [|reflexivity]. destruct (_ <=? _)%Z; [rewrite skip_digits_app by exact E; reflexivity|apply IH].
Qed.
Lemma exp_pos_app lim q s : ends q -> forall e, exp_pos lim e (s ++ q) = match exp_pos lim e s with Some (e, r) => Some (e, r ++ q) | None => None end.
Proof.
  intros E. induction s as [|c s IH]; intros e; cbn [app exp_pos].
  - destruct q as [|c q]; [reflexivity|]. cbn [exp_pos]. pose proof (ends_no_digit _ E) as N. cbn in N. rewrite N. reflexivity.
  - destruct (digit c); [|reflexivity]. destruct (_ <? _)%Z; [reflexivity|apply IH].
Qed.
Lemma int_part_app minus q s : ends q -> int_part minus (s ++ q) = match int_part minus s with Some (v, r) => Some (v, r ++ q) | None => None end.
Proof.
  intros E. destruct s as [|c s].
  - cbn [app]. destruct q as [|c q]; [reflexivity|]. cbn [int_part]. pose proof (ends_no_digit _ E) as N. cbn in N. rewrite N. reflexivity.
  - cbn [app int_part]. destruct (digit c) as [[|k|k]|]; try reflexivity.
    + destruct minus; rewrite (stage_app _ _ q s E).
      * destruct (stage 214748364 8 s (Z.pos k) 0) as [[[i n] r] []]; [|reflexivity]. rewrite (stage_app _ _ q r E). destruct (stage _ _ r i n) as [[[i2 n2] r2] []]; [|reflexivity]. rewrite (big_app q r2 E). destruct (big (dbl i2) r2) as [[d r3]|]; reflexivity.
      * destruct (stage 429496729 5 s (Z.pos k) 0) as [[[i n] r] []]; [|reflexivity]. rewrite (stage_app _ _ q r E). destruct (stage _ _ r i n) as [[[i2 n2] r2] []]; [|reflexivity]. rewrite (big_app q r2 E). destruct (big (dbl i2) r2) as [[d r3]|]; reflexivity.
    + destruct minus; rewrite (stage_app _ _ q s E).
      * destruct (stage 214748364 8 s (Z.neg k) 0) as [[[i n] r] []]; [|reflexivity]. rewrite (stage_app _ _ q r E). destruct (stage _ _ r i n) as [[[i2 n2] r2] []]; [|reflexivity]. rewrite (big_app q r2 E). destruct (big (dbl i2) r2) as [[d r3]|]; reflexivity.
      * destruct (stage 429496729 5 s (Z.neg k) 0) as [[[i n] r] []]; [|reflexivity]. rewrite (stage_app _ _ q r E). destruct (stage _ _ r i n) as [[[i2 n2] r2] []]; [|reflexivity]. rewrite (big_app q r2 E). destruct (big (dbl i2) r2) as [[d r3]|]; reflexivity.
Qed.
Lemma frac_part_app v q s : ends q -> frac_part v (s ++ q) = match frac_part v s with Some (v, ef, r) => Some (v, ef, r ++ q) | None => None end.
Proof.
  intros E. unfold frac_part. rewrite (consume_app "." s q E eq_refl). destruct (consume "." s) as [r|]; [|reflexivity]. destruct r as [|c r].
  - cbn [app]. destruct q as [|c q]; [reflexivity|]. pose proof (ends_no_digit _ E) as N. cbn in N. rewrite N. reflexivity.
  - cbn [app]. destruct (digit c); [|reflexivity]. change (c :: r ++ q) with ((c :: r) ++ q). destruct v as [i n|d n].
    + rewrite (frac_int_app q (c :: r) E). destruct (frac_int i 0 n (c :: r)) as [[[i1 ef1] n1] r1]. rewrite (frac_dbl_app q r1 E). destruct (frac_dbl (dbl i1) ef1 n1 r1) as [[d2 ef2] r2]. reflexivity.
    + rewrite (frac_dbl_app q (c :: r) E). destruct (frac_dbl d 0 n (c :: r)) as [[d2 ef2] r2]. reflexivity.
Qed.
Lemma exp_part_app v ef q s : ends q -> exp_part v ef (s ++ q) = match exp_part v ef s with Some (v, e, r) => Some (v, e, r ++ q) | None => None end.
Proof.
  intros E. unfold exp_part. destruct s as [|c s].
  - cbn [app]. destruct q as [|c q]; [reflexivity|]. destruct (Ascii.eqb_spec c "e") as [->|N1]; [discriminate E|]. destruct (Ascii.eqb_spec c "E") as [->|N2]; [discriminate E|]. reflexivity.
  - cbn [app]. destruct (_ || _); [|reflexivity]. rewrite (consume_app "+" s q E eq_refl), (consume_app "-" s q E eq_refl).
    assert (X : forall (minus : bool) r1, (match r1 ++ q with [] => None | c :: r2 => match digit c with None => None | Some k => if minus then let '(e, r3) := exp_neg k r2 in Some (match v with Whole i n => Real (dbl i) n | _ => v end, (- e)%Z, r3) else match exp_pos (308 - ef) k r2 with Some (e, r3) => Some (match v with Whole i n => Real (dbl i) n | _ => v end, e, r3) | None => None end end end) =
      match (match r1 with [] => None | c :: r2 => match digit c with None => None | Some k => if minus then let '(e, r3) := exp_neg k r2 in Some (match v with Whole i n => Real (dbl i) n | _ => v end, (- e)%Z, r3) else match exp_pos (308 - ef) k r2 with Some (e, r3) => Some (match v with Whole i n => Real (dbl i) n | _ => v end, e, r3) | None => None end end end) with Some (v, e, r) => Some (v, e, r ++ q) | None => None end).
    { intros minus r1. destruct r1 as [|d r2]; cbn [app].
      - destruct q as [|d q]; [reflexivity|]. pose proof (ends_no_digit _ E) as N. cbn in N. rewrite N. reflexivity.
      - destruct (digit d) as [k|]; [|reflexivity]. destruct minus; [rewrite (exp_neg_app q r2 E); destruct (exp_neg k r2); reflexivity|]. rewrite (exp_pos_app _ q r2 E). destruct (exp_pos _ k r2) as [[e r3]|]; reflexivity. }
    destruct (consume "+" s) as [r1|]; [apply (X false)|]. destruct (consume "-" s) as [r1|]; [apply (X true)|apply (X false)].
Qed.
Lemma parse_number_app q s : ends q -> parse_number (s ++ q) = match parse_number s with Some (x, r) => Some (x, r ++ q) | None => None end.
Proof.
  intros E. unfold parse_number. rewrite (consume_app "-" s q E eq_refl).
  assert (X : forall (minus : bool) s1, (match int_part minus (s1 ++ q) with None => None | Some (v, s2) => match frac_part v s2 with None => None | Some (v, ef, s3) => match exp_part v ef s3 with None => None | Some (Whole i _, _, s4) => Some (JInt (if minus then - i else i)%Z, s4) | Some (Real d _, e, s4) => let d := strtod d (e + ef) in Some (JDouble (bits_of (if minus then SFopp d else d)), s4) end end end) =
    match (match int_part minus s1 with None => None | Some (v, s2) => match frac_part v s2 with None => None | Some (v, ef, s3) => match exp_part v ef s3 with None => None | Some (Whole i _, _, s4) => Some (JInt (if minus then - i else i)%Z, s4) | Some (Real d _, e, s4) => let d := strtod d (e + ef) in Some (JDouble (bits_of (if minus then SFopp d else d)), s4) end end end) with Some (x, r) => Some (x, r ++ q) | None => None end).
  { intros minus s1. rewrite (int_part_app minus q s1 E). destruct (int_part minus s1) as [[v s2]|]; [|reflexivity]. rewrite (frac_part_app v q s2 E). destruct (frac_part v s2) as [[[v2 ef] s3]|]; [|reflexivity]. rewrite (exp_part_app v2 ef q s3 E). destruct (exp_part v2 ef s3) as [[[[i n|d n] e] s4]|]; reflexivity. }
  destruct (consume "-" s); apply X.
Qed.

(** ** Numbers *)
Lemma minus_split (s : list ascii) : exists minus s1, s = minus_text minus ++ s1 /\ (match consume "-" s with Some r => (true, r) | None => (false, s) end) = (minus, s1).
Proof. destruct (consume "-" s) as [r|] eqn:C; [apply consume_some in C; subst; exists true, r; auto|exists false, s; auto]. Qed.
Lemma number_sound s x q : parse_number s = Some (x, q) -> exists t, s = t ++ q /\ number_text t /\ ((exists z, x = JInt z /\ whole_text z t /\ fits z) \/ exists b, x = JDouble b).
Proof.
  unfold parse_number. destruct (minus_split s) as (minus & s1 & -> & ->). destruct (int_part minus s1) as [[v s2]|] eqn:IP; [|discriminate]. destruct (frac_part v s2) as [[[v2 ef] s3]|] eqn:FP; [|discriminate]. destruct (exp_part v2 ef s3) as [[[v3 e] s4]|] eqn:EP; [|discriminate]. intros H.
  destruct (int_part_shape _ _ _ _ IP) as (n & -> & NT & NN & VN). destruct (frac_part_shape _ _ _ _ _ FP) as (f & -> & FT & F0 & F1). destruct (exp_part_shape _ _ _ _ _ _ EP) as (g & -> & ET & E0 & E1).
  assert (Q : q = s4) by (destruct v3; injection H as _ <-; reflexivity). subst q. exists (minus_text minus ++ n ++ f ++ g). split; [rewrite <- !app_assoc; reflexivity|]. split; [exists minus, n, f, g; auto|]. destruct v3 as [i k|d k]; [left|right; injection H as <-; eauto].
  injection H as <-. destruct g as [|g0 g]; [|destruct E1 as ((? & ? & ?) & _); [discriminate|discriminate]]. destruct (E0 eq_refl) as (<- & ->). destruct f as [|f0 f]; [|destruct F1 as ((? & ? & ?) & _); [discriminate|discriminate]]. destruct (F0 eq_refl) as (<- & ->). destruct VN as (-> & B). eexists. split; [reflexivity|]. rewrite !app_nil_r. split.
  - exists minus, n. auto.
  - unfold fits, limit in *. destruct minus; lia.
Qed.
Lemma int_complete z t q : whole_text z t -> fits z -> ends q -> parse_number (t ++ q) = Some (JInt z, q).
Proof.
  intros (minus & n & -> & NT & ->) F E. unfold parse_number.
  assert (C : (match consume "-" ((minus_text minus ++ n) ++ q) with Some r => (true, r) | None => (false, (minus_text minus ++ n) ++ q) end) = (minus, n ++ q)).
  { destruct minus; [reflexivity|]. destruct (natural_first n NT) as (c & r & -> & R & _). cbn [minus_text app]. rewrite consume_ne; [reflexivity|]. intros <-. cbn in R. lia. }
  rewrite C. assert (P : (0 <= decimal n)%Z) by (apply (decimal_from_ge n 0); [apply natural_digits, NT|lia]).
  destruct (int_part_whole minus n q NT) as (k & I); [unfold fits, limit in *; destruct minus; lia|apply ends_no_digit, E|]. rewrite I. unfold frac_part, exp_part.
  destruct q as [|c q]; [reflexivity|]. assert (NC : num_char c = false) by exact E. rewrite consume_ne by (intros <-; discriminate NC). destruct (Ascii.eqb_spec c "e") as [->|N1]; [discriminate NC|]. destruct (Ascii.eqb_spec c "E") as [->|N2]; [discriminate NC|]. reflexivity.
Qed.
