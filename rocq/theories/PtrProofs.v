(** JSON pointers: lemmas *)
From Coq Require Import String Ascii.
From Verif Require Import Base StrOrder JsonModel JsonSpec JsonProofs JsonUpdate JsonReadSpec ParModel ParSpec ParProofs PtrSpec.
Local Open Scope string_scope.
Local Open Scope list_scope.
Local Open Scope Z_scope.

(** ** Texts *)
Lemma unescape_tilde0 r : unescape (String "~" (String "0" r)) = option_map (String "~") (unescape r). Proof. reflexivity. Qed.
Lemma unescape_char c r : c <> "~"%char -> unescape (String c r) = option_map (String c) (unescape r).
Proof. intros C. cbn [unescape]. destruct c as [[] [] [] [] [] [] [] []]; try reflexivity. destruct (C eq_refl). Qed.
Lemma unescape_escaped n e : escaped n e -> unescape e = Some n.
Proof. induction 1 as [|n e E IH|n e E IH|c n e A B C E IH]; [reflexivity| | |]; [cbn; rewrite IH; reflexivity|cbn; rewrite IH; reflexivity|rewrite unescape_char, IH by exact A; reflexivity]. Qed.
Lemma escaped_slash n e : escaped n e -> no_slash e.
Proof. unfold no_slash. induction 1 as [|n e E IH|n e E IH|c n e A B C E IH]; cbn; intros H; repeat (destruct H as [H|H]; try discriminate H; try congruence); auto. Qed.
Lemma escaped_nul n e : escaped n e -> no_nul e.
Proof. unfold no_nul. induction 1 as [|n e E IH|n e E IH|c n e A B C E IH]; cbn; intros H; repeat (destruct H as [H|H]; try discriminate H; try congruence); auto. Qed.
Lemma escaped_all c es : Forall2 escaped c es -> all_some (map unescape es) = Some c /\ Forall no_slash es /\ Forall no_nul es.
Proof.
  induction 1 as [|n e c es E F (IH & S & N)]; [repeat split; constructor|]. cbn. rewrite (unescape_escaped n e E), IH. cbn. repeat split; constructor; eauto using escaped_slash, escaped_nul.
Qed.
Lemma escaped_ne c es : c <> [] -> Forall2 escaped c es -> es <> []. Proof. intros N F. destruct F; congruence. Qed.
Lemma pointer_escaped c es : c <> [] -> Forall2 escaped c es -> pointer (cstr (append "/" (slashed es))) = Some c.
Proof.
  intros N F. destruct (escaped_all c es F) as (A & S & Z). rewrite cstr_id by (apply nul_append; [exact nul_slash|apply nul_slashed, Z]). cbn [append]. unfold pointer. rewrite pieces_slashed by eauto using escaped_ne. exact A.
Qed.
Lemma slashed_front es : Forall no_slash es -> hd "" es <> "" -> exists ch r, slashed es = String ch r /\ ch <> "/"%char.
Proof.
  intros F H. destruct es as [|n es]; [destruct (H eq_refl)|]. cbn [hd] in H. destruct n as [|ch n]; [congruence|]. inversion F as [|? ? W _]; subst. assert (C : ch <> "/"%char) by (intros ->; apply W; left; reflexivity). destruct es; eexists; eexists; (split; [reflexivity|exact C]).
Qed.
Lemma bare_points_path p c : bare_points p c -> pointer_path p = append "/" p.
Proof.
  intros (N & es & F & -> & H). destruct (escaped_all c es F) as (_ & S & _). destruct (slashed_front es S H) as (ch & r & E & C). rewrite E, pointer_path_slash. destruct (Ascii.eqb_spec ch "/"); [congruence|reflexivity].
Qed.
Lemma bare_points_pointer p c : bare_points p c -> pointer (cstr (append "/" p)) = Some c.
Proof. intros (N & es & F & -> & H). apply pointer_escaped; assumption. Qed.
Lemma points_pointer p c : points p c -> pointer (cstr (pointer_path p)) = Some c.
Proof.
  intros [B|(N & es & F & ->)]; [rewrite (bare_points_path p c B); exact (bare_points_pointer p c B)|]. rewrite pointer_path_slash. change (append "/" (slashed es)) with (String "/" (slashed es)). cbn [Ascii.eqb Bool.eqb]. exact (pointer_escaped c es N F).
Qed.
Lemma points_one p c c' : points p c -> points p c' -> c = c'. Proof. intros A B. apply points_pointer in A, B. congruence. Qed.
Lemma bare_points_one p c c' : bare_points p c -> bare_points p c' -> c = c'. Proof. intros A B. apply bare_points_pointer in A, B. congruence. Qed.

(** ** Numbers *)
Definition grow (v : Z) (c : ascii) : Z := v * 10 + (Z.of_nat (nat_of_ascii c) - 48).
Lemma digit_iff c : digit c = if (48 <=? nat_of_ascii c)%nat && (nat_of_ascii c <=? 57)%nat then Some (Z.of_nat (nat_of_ascii c) - 48) else None.
Proof. unfold digit. destruct (Z.leb_spec 48 (Z.of_nat (nat_of_ascii c))), (Z.leb_spec (Z.of_nat (nat_of_ascii c)) 57), (Nat.leb_spec 48 (nat_of_ascii c)), (Nat.leb_spec (nat_of_ascii c) 57); cbn; try reflexivity; lia. Qed.
Lemma number_value s : forall acc v, number_from acc s = Some v <-> digits (chars s) /\ v = fold_left grow (chars s) acc.
Proof.
  induction s as [|c s IH]; intros acc v; cbn [number_from chars list_ascii_of_string fold_left]. { split; [intros H; injection H as <-; split; [apply Forall_nil|reflexivity]|intros (_ & ->); reflexivity]. }
  rewrite digit_iff. destruct (Nat.leb_spec 48 (nat_of_ascii c)), (Nat.leb_spec (nat_of_ascii c) 57); cbn [andb]; try (split; [discriminate|intros (D & _); inversion D; lia]).
  fold (chars s). rewrite IH. split; [intros (D & ->); split; [apply Forall_cons; [lia|exact D]|reflexivity]|intros (D & ->); inversion D; split; [assumption|reflexivity]].
Qed.
Lemma index_numeral n i : index n = Some i <-> numeral n i.
Proof.
  unfold numeral. change (decimal (chars n)) with (fold_left grow (chars n) 0). assert (POS : forall l a, digits l -> 0 <= a -> a <= fold_left grow l a).
  { induction l as [|c l IH]; intros a D A; cbn; [lia|]. inversion D; subst. unfold grow at 2. specialize (IH (grow a c)). unfold grow in *. etransitivity; [|apply IH; [assumption|lia]]. lia. }
  assert (G : forall v, number_from 0 n = Some v -> 0 <= v) by (intros v H; apply number_value in H; destruct H as (D & ->); apply POS; [exact D|lia]).
  assert (TAIL : natural (chars n) -> (match number_from 0 n with Some v => if v <? 2 ^ 32 - 1 then Some (Z.to_nat v) else None | None => None end = Some i <-> fold_left grow (chars n) 0 = Z.of_nat i /\ Z.of_nat i < 2 ^ 32 - 1)).
  { intros N. assert (D : digits (chars n)) by (destruct N as [->|(c & r & -> & C & R)]; [repeat constructor|apply Forall_cons; [lia|exact R]]). assert (E : number_from 0 n = Some (fold_left grow (chars n) 0)) by (apply number_value; auto). rewrite E. pose proof (G _ E). destruct (Z.ltb_spec (fold_left grow (chars n) 0) (2 ^ 32 - 1)).
    - split; [intros I; injection I as <-; rewrite Z2Nat.id by assumption; auto|]. intros (-> & _). rewrite Nat2Z.id. reflexivity.
    - split; [discriminate|]. intros (A & B). lia. }
  destruct n as [|c n]. { split; [discriminate|]. intros ([N|(c & r & N & _)] & _); discriminate. }
  assert (C0 : c = "0"%char \/ c <> "0"%char) by (destruct (ascii_dec c "0"); auto). destruct C0 as [-> | NZ].
  - destruct n as [|d n]; [|split; [discriminate|]; intros ([N|(c & r & N & C & _)] & _); [discriminate|]; cbn in N; injection N as <- _; cbn in C; lia].
    change (index "0") with (match number_from 0 "0" with Some v => if v <? 2 ^ 32 - 1 then Some (Z.to_nat v) else None | None => None end). rewrite TAIL by (left; reflexivity). split; [intros H; split; [left; reflexivity|exact H]|intros (_ & H); exact H].
  - assert (IX : index (String c n) = match number_from 0 (String c n) with Some v => if v <? 2 ^ 32 - 1 then Some (Z.to_nat v) else None | None => None end) by (unfold index; destruct c as [[] [] [] [] [] [] [] []]; try reflexivity; destruct (NZ eq_refl)).
    rewrite IX. split; [|intros (N & H); apply TAIL; assumption]. intros H. assert (D : digits (chars (String c n))) by (destruct (number_from 0 (String c n)) as [v|] eqn:E; [apply number_value in E; apply E|discriminate]).
    assert (N : natural (chars (String c n))). { right. cbn [chars list_ascii_of_string] in *. fold (chars n) in *. exists c, (chars n). inversion D; subst. split; [reflexivity|]. split; [|assumption]. assert (nat_of_ascii c <> 48%nat). { intros E. apply NZ. rewrite <- (ascii_nat_embedding c), E. reflexivity. } lia. }
    split; [exact N|]. apply TAIL; assumption.
Qed.
Lemma lead_value l : forall k, digits k -> digits l -> (forall c r, k = c :: r -> nat_of_ascii c <> 48%nat) -> (forall c r, l = c :: r -> nat_of_ascii c <> 48%nat) -> decimal k = decimal l -> k = l.
Proof.
  assert (NN : forall t a, digits t -> 0 <= a -> a <= fold_left grow t a).
  { induction t as [|c t IH]; intros a D A; cbn; [lia|]. inversion D; subst. specialize (IH (grow a c)). unfold grow in *. etransitivity; [|apply IH; [assumption|lia]]. lia. }
  assert (POS : forall t, digits t -> (forall c r, t = c :: r -> nat_of_ascii c <> 48%nat) -> t <> [] -> 0 < decimal t).
  { intros t D H N. destruct t as [|c t]; [congruence|]. inversion D; subst. specialize (H c t eq_refl). change (decimal (c :: t)) with (fold_left grow t (grow 0 c)). pose proof (NN t (grow 0 c)) as X. unfold grow in *. assert (0 <= 0 * 10 + (Z.of_nat (nat_of_ascii c) - 48)) by lia. specialize (X H3 H0). lia. }
  assert (SN : forall t c, decimal (t ++ [c]) = decimal t * 10 + (Z.of_nat (nat_of_ascii c) - 48)) by (intros t c; unfold decimal; rewrite fold_left_app; reflexivity).
  induction l as [|d l IH] using rev_ind; intros k K L HK HL E.
  - destruct k as [|c k]; [reflexivity|]. pose proof (POS (c :: k) K HK ltac:(discriminate)) as P. change (decimal []) with 0 in E. lia.
  - destruct k as [|c k] using rev_ind; [pose proof (POS (l ++ [d]) L HL ltac:(destruct l; discriminate)) as P; change (decimal []) with 0 in E; lia|]. clear IHk. rewrite !SN in E. apply Forall_app in K, L. destruct K as (K & C), L as (L & D). inversion C; subst. inversion D; subst.
    assert (decimal k = decimal l /\ nat_of_ascii c = nat_of_ascii d) as (E1 & E2) by lia. f_equal; [apply IH; auto|].
    + intros c' r ->. apply (HK c' (r ++ [c])). reflexivity.
    + intros c' r ->. apply (HL c' (r ++ [d])). reflexivity.
    + f_equal. rewrite <- (ascii_nat_embedding c), E2, ascii_nat_embedding. reflexivity.
Qed.
Lemma numeral_one n n' i : numeral n i -> numeral n' i -> n = n'.
Proof.
  intros (N & D & _) (N' & D' & _). assert (E : chars n = chars n').
  { assert (Z0 : forall t, natural t -> decimal t = 0 -> t = ["0"%char]).
    { intros t [->|(c & r & -> & C & R)] Z0; [reflexivity|]. exfalso. change (decimal (c :: r)) with (fold_left grow r (grow 0 c)) in Z0. assert (NN : forall t a, digits t -> 0 <= a -> a <= fold_left grow t a).
      { induction t as [|x t IH]; intros a DD A; cbn; [lia|]. inversion DD; subst. specialize (IH (grow a x)). unfold grow in *. etransitivity; [|apply IH; [assumption|lia]]. lia. }
      pose proof (NN r (grow 0 c) R). unfold grow in *. lia. }
    destruct N as [E|(c & r & E & C & R)]; [rewrite E in D |- *; change (decimal ["0"%char]) with 0 in D; symmetry; apply Z0; [exact N'|congruence]|].
    destruct N' as [E'|(c' & r' & E' & C' & R')]; [rewrite E' in D' |- *; change (decimal ["0"%char]) with 0 in D'; apply Z0; [right; eauto|congruence]|].
    rewrite E, E' in *. apply lead_value; [apply Forall_cons; [lia|exact R]|apply Forall_cons; [lia|exact R']| | |congruence]; intros ? ? X; injection X as <- _; lia. }
  rewrite <- (string_of_list_ascii_of_string n), <- (string_of_list_ascii_of_string n'). f_equal. exact E.
Qed.

(** ** Looking up and setting *)
Lemma pget_resolves c : forall x y, pget c x = Some y <-> resolves c x y.
Proof.
  induction c as [|n c IH]; intros x y; [split; [intros H; injection H as <-; constructor|intros H; inversion H; reflexivity]|]. split.
  - cbn. destruct x as [| | | | |l|l]; try discriminate.
    + destruct (index n) as [i|] eqn:I; [|discriminate]. destruct (nth_error l i) as [z|] eqn:N; [|discriminate]. intros H. apply nth_error_split in N. destruct N as (l1 & l2 & -> & LE). constructor; [rewrite LE; apply index_numeral, I|apply IH, H].
    + destruct (find_member n l) as [z|] eqn:F; [|discriminate]. intros H. assert (A : at_path [n] (JObj l) = Some z) by (cbn; rewrite F; reflexivity). apply leads_at in A. inversion A as [|? ? l1 l2 w ? NI L]; subst. inversion L; subst. constructor; [exact NI|apply IH, H].
  - intros H. inversion H as [|? ? l1 l2 z ? NI R|? ? l1 l2 z ? NU R]; subst; cbn.
    + assert (F : find_member n (l1 ++ (n, z) :: l2) = Some z). { assert (A : leads [n] (JObj (l1 ++ (n, z) :: l2)) z) by (constructor; [exact NI|constructor]). apply leads_at in A. cbn in A. destruct (find_member n (l1 ++ (n, z) :: l2)); [exact A|discriminate]. } rewrite F. apply IH, R.
    + apply index_numeral in NU. rewrite NU, nth_error_app2, Nat.sub_diag by lia. cbn. apply IH, R.
Qed.
Lemma set_nth_get i y l j : (i < List.length l)%nat -> nth_error (set_nth i y l) j = if Nat.eqb j i then Some y else nth_error l j.
Proof.
  intros L. unfold set_nth. rewrite firstn_app. replace (i - List.length l)%nat with 0%nat by lia. cbn [firstn]. rewrite app_nil_r.
  assert (FL : List.length (firstn i l) = i) by (apply firstn_length_le; lia). destruct (Nat.eqb_spec j i) as [->|N].
  - rewrite nth_error_app2, FL, Nat.sub_diag by lia. reflexivity.
  - destruct (Nat.lt_ge_cases j i) as [LT|GE]; [rewrite nth_error_app1 by lia|].
    + rewrite <- (firstn_skipn i l) at 2. rewrite nth_error_app1 by lia. reflexivity.
    + rewrite nth_error_app2, FL by lia. replace (j - i)%nat with (S (j - S i)) by lia. cbn [nth_error]. rewrite <- (firstn_skipn (S i) l) at 2. assert (FS : List.length (firstn (S i) l) = S i) by (apply firstn_length_le; lia). rewrite nth_error_app2, FS by lia. reflexivity.
Qed.
Lemma pset_there c v : forall x y, resolves c x y -> (forall r, pget (c ++ r) (pset c x v) = pget r v) /\ forall q, apart c q -> pget q (pset c x v) = pget q x.
Proof.
  induction c as [|n c IH]; intros x y R. { split; [reflexivity|]. intros q (A & _). destruct A. exists q. reflexivity. }
  assert (Q0 : forall q, apart (n :: c) q -> exists k q', q = k :: q') by (intros [|k q'] (_ & A); [destruct A; exists (n :: c); reflexivity|eauto]).
  inversion R as [|? ? l1 l2 z ? NI R'|? ? l1 l2 z ? NU R']; subst; destruct (IH _ _ R') as (I1 & I2).
  - assert (F : find_member n (l1 ++ (n, z) :: l2) = Some z). { assert (A : leads [n] (JObj (l1 ++ (n, z) :: l2)) z) by (constructor; [exact NI|constructor]). apply leads_at in A. cbn in A. destruct (find_member n (l1 ++ (n, z) :: l2)); [exact A|discriminate]. }
    cbn [pset]. rewrite F. split.
    + intros r. cbn [app pget]. rewrite find_put, String.eqb_refl. apply I1.
    + intros q A. destruct (Q0 q A) as (k & q' & ->). cbn [pget]. rewrite find_put. destruct (String.eqb_spec n k) as [<-|N]; [|reflexivity]. rewrite F. apply I2, (apart_cons n), A.
  - assert (ND : String.eqb n "-" = false). { apply String.eqb_neq. intros ->. destruct NU as ([H|(c0 & r & H & C & _)] & _); [discriminate|]. cbn in H. injection H as <- _. cbn in C. lia. }
    pose proof NU as NX. apply index_numeral in NX. cbn [pset]. rewrite ND, NX. assert (LT : (List.length l1 < List.length (l1 ++ z :: l2))%nat) by (rewrite app_length; cbn; lia). assert (NT : nth (List.length l1) (l1 ++ z :: l2) JNull = z) by (rewrite app_nth2, Nat.sub_diag by lia; reflexivity). rewrite NT. split.
    + intros r. cbn [app pget]. rewrite NX, set_nth_get by exact LT. rewrite Nat.eqb_refl. apply I1.
    + intros q A. destruct (Q0 q A) as (k & q' & ->). cbn [pget]. destruct (index k) as [j|] eqn:J; [|reflexivity]. rewrite set_nth_get by exact LT. destruct (Nat.eqb_spec j (List.length l1)) as [->|N]; [|reflexivity]. rewrite nth_error_app2, Nat.sub_diag by lia. cbn [nth_error].
      assert (n = k) as <- by (apply (numeral_one n k (List.length l1) NU), index_numeral, J). apply I2, (apart_cons n), A.
Qed.

(** ** Update *)
Definition pointed (b : list call) : Prop := forall p k a, In (p, (k, a)) b -> exists c, points p c.
Lemma pointed_cons e b : pointed (e :: b) -> pointed b. Proof. intros H p k a I. apply (H p k a). right. exact I. Qed.
Definition outcome_point (near : Z -> Z) (d : json) (m m' : memory) (p : string) (k : kind) (a : nat) : Prop :=
  forall c, points p c -> match pget c d with Some x => param_set near k x (m a) = (m' a, true) | None => m' a = m a end.
Lemma point_step near p k a b d m c : points p c -> update_doc near ((p, (k, a)) :: b) d m =
  match pget c d with None => update_doc near b d m | Some x => let '(v, ok) := param_set near k x (m a) in if ok then update_doc near b d (store a v m) else (store a v m, Throw PAssert) end.
Proof. intros P. cbn [update_doc]. rewrite (points_pointer p c P). reflexivity. Qed.
Lemma point_done near b d : pointed b -> NoDup (map addr b) -> forall m m', update_doc near b d m = (m', Ret tt) -> forall p k a, In (p, (k, a)) b -> outcome_point near d m m' p k a.
Proof.
  induction b as [|[p0 [k0 a0]] b IH]; intros PB ND m m' H p k a I; [destruct I|]. cbn [map] in ND. inversion ND as [|? ? NI ND']; subst. destruct (PB p0 k0 a0 (or_introl eq_refl)) as (c0 & P0). rewrite (point_step near p0 k0 a0 b d m c0 P0) in H. unfold addr in NI; cbn in NI.
  assert (R : forall m1, update_doc near b d m1 = (m', Ret tt) -> (forall x, x <> a0 -> m1 x = m x) -> In (p, (k, a)) b -> outcome_point near d m m' p k a).
  { intros m1 U O J c P. pose proof (IH (pointed_cons _ _ PB) ND' m1 m' U p k a J c P) as G. assert (NA : a <> a0). { intros ->. apply NI. apply in_map_iff. exists (p, (k, a0)). auto. } rewrite (O a NA) in G. exact G. }
  assert (S : forall v x, x <> a0 -> store a0 v m x = m x) by (intros v x N; unfold store; destruct (Nat.eqb_spec x a0); [congruence|reflexivity]).
  destruct (pget c0 d) as [x|] eqn:AT.
  - destruct (param_set near k0 x (m a0)) as [v ok] eqn:PS. destruct ok; [|discriminate]. destruct I as [I|I].
    + injection I as <- <- <-. intros c P. rewrite <- (points_one _ _ _ P0 P), AT, PS. f_equal. rewrite (update_other near b d _ _ _ H a0 NI). unfold store. rewrite Nat.eqb_refl. reflexivity.
    + apply (R (store a0 v m)); auto.
  - destruct I as [I|I].
    + injection I as <- <- <-. intros c P. rewrite <- (points_one _ _ _ P0 P), AT. exact (update_other near b d _ _ _ H a0 NI).
    + apply (R m); auto.
Qed.
Lemma point_ends near b d : pointed b -> forall m, exists m' o, update_doc near b d m = (m', o) /\
  (o = Ret tt \/ exists p k a m1 c x v, In (p, (k, a)) b /\ points p c /\ pget c d = Some x /\ param_set near k x (m1 a) = (v, false)).
Proof.
  induction b as [|[p [k a]] b IH]; intros PB m. { exists m, (Ret tt). cbn. auto. }
  destruct (PB p k a (or_introl eq_refl)) as (c & P). rewrite (point_step near p k a b d m c P). specialize (IH (pointed_cons _ _ PB)).
  assert (R : forall m1, exists m' o, update_doc near b d m1 = (m', o) /\ (o = Ret tt \/ exists p' k' a' m2 c' x v, In (p', (k', a')) ((p, (k, a)) :: b) /\ points p' c' /\ pget c' d = Some x /\ param_set near k' x (m2 a') = (v, false))).
  { intros m1. destruct (IH m1) as (m' & o & E & [->|(p' & k' & a' & m2 & c' & x & v & I & T)]); exists m'; eexists; (split; [exact E|]); [left; reflexivity|]. right. exists p', k', a', m2, c', x, v. split; [right; exact I|exact T]. }
  destruct (pget c d) as [x|] eqn:AT; [|apply R]. destruct (param_set near k x (m a)) as [v ok] eqn:PS. destruct ok; [apply R|].
  exists (store a v m), (Throw PAssert). split; [reflexivity|]. right. exists p, k, a, m, c, x, v. split; [left; reflexivity|auto].
Qed.

(** ** Invalid pointers *)
Lemma lone_unescape s : lone_tilde s -> unescape s = None.
Proof.
  remember (String.length s) as n eqn:L. revert s L. induction n as [n IH] using lt_wf_ind. intros s L (u & w & -> & W). destruct u as [|c u]; cbn [append] in *.
  - destruct w as [|c w]; [reflexivity|]. assert (c <> "0"%char) by (intros ->; apply (proj1 (W w)); reflexivity). assert (c <> "1"%char) by (intros ->; apply (proj2 (W w)); reflexivity). cbn [unescape]. destruct c as [[] [] [] [] [] [] [] []]; try reflexivity; congruence.
  - destruct (ascii_dec c "~") as [->|N].
    + destruct u as [|c u]; cbn [append] in *.
      * reflexivity.
      * cbn [unescape]. assert (T : unescape (append u (String "~" w)) = None) by (apply (IH (String.length (append u (String "~" w)))); [subst n; cbn; lia|reflexivity|exists u, w; auto]). destruct c as [[] [] [] [] [] [] [] []]; try reflexivity; rewrite T; reflexivity.
    + rewrite unescape_char by exact N. rewrite (IH (String.length (append u (String "~" w)))); [reflexivity|subst n; cbn; lia|reflexivity|exists u, w; auto].
Qed.
Lemma pieces_front s : exists q t, pieces s = q :: t /\ forall c r, q = String c r -> exists r', s = String c r'.
Proof.
  induction s as [|c s (q & t & E & H)]; [exists "", []; split; [reflexivity|discriminate]|]. cbn. destruct (Ascii.eqb_spec c "/"); [exists "", (pieces s); split; [reflexivity|discriminate]|]. rewrite E. exists (String c q), t. split; [reflexivity|]. intros c' r X. injection X as <- <-. eauto.
Qed.
Lemma lone_piece p : lone_tilde p -> exists q, In q (pieces p) /\ lone_tilde q.
Proof.
  intros (u & w & -> & W). induction u as [|c u IH]; cbn [append].
  - cbn. destruct (pieces_front w) as (q & t & E & H). rewrite E. exists (String "~" q). split; [left; reflexivity|]. exists "", q. split; [reflexivity|]. intros r. split; intros ->; destruct (H _ r eq_refl) as (r' & ->); destruct (W r'); congruence.
  - destruct IH as (q & I & T). cbn. destruct (Ascii.eqb_spec c "/"); [exists q; split; [right; exact I|exact T]|]. destruct (pieces (append u (String "~" w))) as [|h t]; [destruct I|]. destruct I as [<-|I]; [|exists q; split; [right; exact I|exact T]]. exists (String c h). split; [left; reflexivity|]. destruct T as (u' & w' & -> & W'). exists (String c u'), w'. auto.
Qed.
Lemma all_none {A} (l : list (option A)) : In None l -> all_some l = None.
Proof. induction l as [|[a|] l IH]; intros H; [destruct H| |reflexivity]. destruct H as [H|H]; [discriminate|]. cbn. rewrite IH by exact H. reflexivity. Qed.
Lemma lone_pointer p : no_nul p -> lone_tilde p -> pointer (cstr (pointer_path p)) = None.
Proof.
  intros N T. assert (K : forall s, lone_tilde s -> pointer (String "/" s) = None). { intros s TS. destruct (lone_piece s TS) as (q & I & L). cbn. apply all_none. apply in_map_iff. exists q. split; [apply lone_unescape, L|exact I]. }
  rewrite pointer_path_slash. destruct p as [|c p]; [destruct T as ([|? ?] & ? & E & _); discriminate|]. destruct (Ascii.eqb_spec c "/") as [->|NS].
  - rewrite cstr_id by exact N. apply K. destruct T as ([|c u] & w & E & W); [discriminate|]. injection E as <- E. exists u, w. auto.
  - change (append "/" (String c p)) with (String "/" (String c p)). rewrite cstr_id; [apply K, T|]. intros [H|H]; [discriminate|exact (N H)].
Qed.
Lemma lone_update near b d p k a : In (p, (k, a)) b -> no_nul p -> lone_tilde p -> forall m, exists m', update_doc near b d m = (m', Throw PAssert).
Proof.
  intros I N T. induction b as [|[p0 [k0 a0]] b IH]; intros m; [destruct I|]. cbn [update_doc]. destruct I as [I|I].
  - injection I as -> -> ->. rewrite (lone_pointer p N T). eauto.
  - destruct (pointer (cstr (pointer_path p0))) as [ts|]; [|eauto]. destruct (pget ts d) as [x|]; [|apply IH, I]. destruct (param_set near k0 x (m a0)) as [v ok]. destruct ok; [apply IH, I|eauto].
Qed.

(** ** Encode *)
Definition bare_pointed (b : list call) : Prop := forall p k a, In (p, (k, a)) b -> exists c, bare_points p c.
Definition parted_points (b : list call) : Prop := forall p k a p' k' a' c c', In (p, (k, a)) b -> In (p', (k', a')) b -> p <> p' -> bare_points p c -> bare_points p' c' -> apart c c'.
Lemma point_encode_step p k a b m x c : bare_points p c -> encode_each "/" ((p, (k, a)) :: b) m x = encode_each "/" b m (pset c x (param_get (m a))).
Proof. intros B. cbn [encode_each]. rewrite (bare_points_pointer p c B). reflexivity. Qed.
Lemma point_encode b : bare_pointed b -> NoDup (map fst b) -> parted_points b -> forall m x, (forall p k a c, In (p, (k, a)) b -> bare_points p c -> exists y, resolves c x y) ->
  exists x', encode_each "/" b m x = (x', Ret tt) /\ (forall p k a c, In (p, (k, a)) b -> bare_points p c -> resolves c x' (param_get (m a))) /\
    forall q, (forall p k a c, In (p, (k, a)) b -> bare_points p c -> apart c q) -> pget q x' = pget q x.
Proof.
  induction b as [|[p [k a]] b IH]; intros PB ND SP m x H; [exists x; split; [reflexivity|split; [intros ? ? ? ? []|reflexivity]]|]. cbn [map] in ND. inversion ND as [|? ? NI ND']; subst. cbn in NI. destruct (PB p k a (or_introl eq_refl)) as (c & B). rewrite (point_encode_step p k a b m x c B).
  destruct (H p k a c (or_introl eq_refl) B) as (y & R). destruct (pset_there c (param_get (m a)) x y R) as (P1 & P2).
  assert (AP : forall p' k' a' c', In (p', (k', a')) b -> bare_points p' c' -> apart c' c). { intros p' k' a' c' I B'. apply (SP p' k' a' p k a c' c (or_intror I) (or_introl eq_refl)); try assumption. intros ->. apply NI. apply in_map_iff. exists (p, (k', a')). auto. }
  assert (SY : forall u v, apart u v -> apart v u) by (intros u v (A1 & A2); split; assumption).
  destruct (IH) with (m := m) (x := pset c x (param_get (m a))) as (x' & E & G & O); [intros p1 k1 a1 I; apply (PB p1 k1 a1); right; exact I|exact ND'|intros p1 k1 a1 p2 k2 a2 c1 c2 I1 I2; apply (SP p1 k1 a1 p2 k2 a2); right; assumption| |].
  - intros p' k' a' c' I B'. destruct (H p' k' a' c' (or_intror I) B') as (y' & R'). exists y'. apply pget_resolves. rewrite P2 by (apply SY, (AP p' k' a' c' I B')). apply pget_resolves, R'.
  - exists x'. split; [exact E|]. split.
    + intros p' k' a' c' [I|I] B'; [|exact (G p' k' a' c' I B')]. injection I as <- <- <-. rewrite <- (bare_points_one _ _ _ B B'). apply pget_resolves. rewrite O by exact AP. specialize (P1 []). rewrite app_nil_r in P1. exact P1.
    + intros q A. rewrite O by (intros p' k' a' c' I; apply (A p' k' a' c'); right; exact I). apply P2. apply (A p k a c); [left; reflexivity|exact B].
Qed.
