(** C50: port lists. *)
From Coq Require Import String Ascii DecimalString DecimalN DecimalPos DecimalFacts.
From Verif Require Import Base StrOrder FrameModel JsonModel JsonSpec JsonProofs GapSpec LiveModel LiveSpec ListText PortModel PortSpec.
Local Open Scope string_scope.
Local Open Scope list_scope.
Local Open Scope Z_scope.

Definition value_of (c : ascii) : Z := Z.of_nat (nat_of_ascii c) - 48.
Definition row (acc : Z) (l : list ascii) : Z := fold_left (fun a c => a * 10 + value_of c) l acc.
Definition all_digits (l : list ascii) : Prop := Forall (fun c => exists d, is_digit c d) l.
Lemma number_row l v : number l v -> all_digits l /\ row 0 l = v /\ exists c r, l = c :: r /\ 1 <= value_of c <= 9.
Proof.
  unfold all_digits. induction 1 as [c d D L|l v c d N (A & R & c0 & r & -> & H) D].
  - split; [repeat constructor; eauto|]. unfold row, value_of. cbn [fold_left]. destruct D as (B & E). rewrite E. split; [lia|]. exists c, []. split; [reflexivity|]. rewrite E. lia.
  - split; [apply Forall_app; split; [exact A|repeat constructor; eauto]|]. split; [unfold row in *; rewrite fold_left_app, R; cbn [fold_left]; unfold value_of; destruct D as (B & ->); lia|]. exists c0, (r ++ [c]). split; [reflexivity|exact H].
Qed.
Lemma row_number l : all_digits l -> forall c r, l = c :: r -> 1 <= value_of c -> number l (row 0 l).
Proof.
  induction l as [|x l IH] using rev_ind; [discriminate|]. intros A c r E V. unfold all_digits in A. apply Forall_app in A as (A & AX). inversion AX as [|? ? (d & D) _]; subst. unfold row. rewrite fold_left_app. fold (row 0 l). cbn [fold_left].
  destruct l as [|y l].
  - cbn in E. injection E as E1 E2. subst x r. cbn [row fold_left app]. replace (0 * 10 + value_of c) with d by (destruct D as (B & E); unfold value_of; rewrite E; lia). apply nu_first; [exact D|]. destruct D as (B & E). unfold value_of in V. rewrite E in V. lia.
  - injection E as E1 E. subst y. replace (row 0 (c :: l) * 10 + value_of x) with (10 * row 0 (c :: l) + d) by (destruct D as (B & E'); unfold value_of; rewrite E'; lia). apply nu_more; [|exact D]. eapply IH; [exact A|reflexivity|exact V].
Qed.
Lemma digit_is c d : is_digit c d -> digit_of c = Some d /\ (d <? 10) = true /\ value_of c = d.
Proof. intros (B & E). unfold digit_of, value_of. rewrite E. destruct (Z.leb_spec 48 (48 + d)); [|lia]. destruct (Z.leb_spec (48 + d) 57); [|lia]. cbn [andb]. split; [f_equal; lia|]. split; [apply Z.ltb_lt|]; lia. Qed.
(** What follows is not a digit. *)
Definition ends (b : string) : Prop := forall c r, chars b = c :: r -> forall d, ~ is_digit c d.
Lemma digits_row t b : all_digits (chars t) -> ends b -> forall acc, digits 10 acc (append t b) = row acc (chars t).
Proof.
  induction t as [|c t IH]; intros A E acc; cbn [append chars row fold_left digits].
  - destruct b as [|c b]; [reflexivity|]. cbn [digits]. destruct (digit_of c) as [d|] eqn:D; [|reflexivity]. destruct (Z.ltb_spec d 10); [|reflexivity]. exfalso. apply (E c (chars b) eq_refl d).
    unfold digit_of in D. set (n := Z.of_nat (nat_of_ascii c)) in *. destruct ((48 <=? n) && (n <=? 57)) eqn:X; [injection D as <-; unfold is_digit; fold n; lia|]. destruct ((97 <=? n) && (n <=? 122)) eqn:Y; [injection D as <-; lia|]. destruct ((65 <=? n) && (n <=? 90)) eqn:W; [injection D as <-; lia|discriminate].
  - inversion A as [|? ? (d & D) A']; subst. destruct (digit_is c d D) as (-> & -> & V). rewrite IH by assumption. unfold row. rewrite V. reflexivity.
Qed.
Lemma unsigned_row t b c r : chars t = c :: r -> all_digits (chars t) -> 1 <= value_of c <= 9 -> ends b -> unsigned_text (append t b) = row 0 (chars t).
Proof.
  intros E A V EB. rewrite <- (digits_row t b A EB 0). destruct t as [|c0 t]; [discriminate|]. injection E as -> E. cbn [append].
  assert (N : c <> "0"%char) by (intros ->; unfold value_of in V; cbn in V; lia).
  destruct c as [[] [] [] [] [] [] [] []]; try reflexivity. exfalso. apply N. reflexivity.
Qed.
Lemma blank_no_digit c d : is_blank c -> ~ is_digit c d.
Proof. intros [->|B] (D & E); [change (Z.of_nat (nat_of_ascii " ")) with 32 in E|]; lia. Qed.
Lemma trim_left_blank a s : all_blank a -> trim_left (append a s) = trim_left s.
Proof. induction a as [|c a IH]; intros A; [reflexivity|]. inversion A; subst. cbn [append trim_left]. rewrite (proj2 (blank_spec c)) by assumption. apply IH. assumption. Qed.
Lemma strtol_port a t b v : all_blank a -> number (chars t) v -> ends b -> v < 2 ^ 63 -> strtol0 (append a (append t b)) = v.
Proof.
  intros A N B R. destruct (number_row _ _ N) as (AD & RV & c & r & E & V). unfold strtol0. rewrite (trim_left_blank a _ A).
  destruct t as [|c0 t]; [discriminate|]. assert (c0 = c) as -> by (cbn in E; congruence). cbn [append trim_left].
  inversion AD as [|? ? (d & D) _]; subst. assert (NB : blank c = false) by (apply not_blank; intros B'; exact (blank_no_digit c d B' D)). rewrite NB.
  assert (N1 : Ascii.eqb c "-" = false) by (apply Ascii.eqb_neq; intros ->; unfold value_of in V; cbn in V; lia). assert (N2 : Ascii.eqb c "+" = false) by (apply Ascii.eqb_neq; intros ->; unfold value_of in V; cbn in V; lia). rewrite N1, N2.
  change (String c (append t b)) with (append (String c t) b). rewrite (unsigned_row (String c t) b c r E AD V B). unfold clamp. rewrite Z.min_r, Z.max_r; [reflexivity| |lia].
  assert (P : forall l acc, Forall (fun c => exists d, is_digit c d) l -> 0 <= acc -> 0 <= row acc l). { clear. induction l as [|c l IH]; intros acc F H; [exact H|]. inversion F as [|? ? (d & D) F']; subst. cbn. apply IH; [exact F'|]. destruct (digit_is c d D) as (_ & _ & ->). destruct D. lia. }
  pose proof (P _ 0 AD ltac:(lia)). lia.
Qed.
Lemma strtol_none a b : all_blank a -> (forall c r, chars b = c :: r -> ~ is_blank c /\ (forall d, ~ is_digit c d) /\ c <> "-"%char /\ c <> "+"%char) -> strtol0 (append a b) = 0.
Proof.
  intros A H. unfold strtol0. rewrite (trim_left_blank a _ A). destruct b as [|c b]; [reflexivity|]. destruct (H c (chars b) eq_refl) as (NB & ND & N1 & N2). cbn [trim_left]. rewrite (proj2 (not_blank c) NB). apply Ascii.eqb_neq in N1, N2. rewrite N1, N2.
  assert (N0 : c <> "0"%char) by (intros ->; apply (ND 0); split; [lia|reflexivity]).
  assert (E : unsigned_text (String c b) = digits 10 0 (append "" (String c b))). { destruct c as [[] [] [] [] [] [] [] []]; try reflexivity. exfalso. apply N0. reflexivity. }
  rewrite E, digits_row; [reflexivity|constructor|]. intros c' r' X. injection X as <- _. exact ND.
Qed.

(** The list that is read: exactly the port numbers, in order.  (What a user may write: decimal numbers from 1 to 65535 between blanks, or something that is no number.)
    The hypothesis says that the text of the destroyed string is still there. *)
Theorem c50_parse_partial stale parts entries ports : (forall s, stale s = s) -> parts <> [] -> Forall no_comma parts -> Forall2 entry_text parts entries -> ports_of entries ports ->
  tokenize_port_list stale (joined "," parts) = ports.
Proof.
  intros ST NE NC F PO. unfold tokenize_port_list. rewrite (split_unique parts NE NC). clear NE NC. revert ports PO. induction F as [|p e parts entries ET F IH]; intros ports PO; inversion PO as [|v r l PO'|r l PO']; subst; cbn [map filter]; [reflexivity| |].
  - rewrite ST. inversion ET as [a t b v' A N B R|]; subst. rewrite (strtol_port a t b v A N), Z.mod_small; [|lia| |lia]. 2:{ intros c r E d. apply blank_no_digit. unfold all_blank in B. rewrite E in B. inversion B; assumption. }
    destruct (Z.eqb_spec v 0); [lia|]. cbn [negb]. f_equal. apply IH, PO'.
  - rewrite ST. inversion ET as [|a b A H]; subst. rewrite (strtol_none a b A H). cbn. apply IH, PO'.
Qed.

(** ** Printing *)
Fixpoint uint_row (acc : Z) (u : Decimal.uint) : Z :=
  match u with Decimal.Nil => acc | Decimal.D0 u => uint_row (10 * acc) u | Decimal.D1 u => uint_row (10 * acc + 1) u | Decimal.D2 u => uint_row (10 * acc + 2) u | Decimal.D3 u => uint_row (10 * acc + 3) u | Decimal.D4 u => uint_row (10 * acc + 4) u
  | Decimal.D5 u => uint_row (10 * acc + 5) u | Decimal.D6 u => uint_row (10 * acc + 6) u | Decimal.D7 u => uint_row (10 * acc + 7) u | Decimal.D8 u => uint_row (10 * acc + 8) u | Decimal.D9 u => uint_row (10 * acc + 9) u end.
Ltac code := repeat match goal with |- context [Z.of_nat (nat_of_ascii ?c)] => let v := eval vm_compute in (Z.of_nat (nat_of_ascii c)) in change (Z.of_nat (nat_of_ascii c)) with v end.
Lemma row_string u : forall acc, row acc (chars (NilEmpty.string_of_uint u)) = uint_row acc u /\ all_digits (chars (NilEmpty.string_of_uint u)).
Proof.
  unfold row, all_digits. induction u; intros acc; cbn [NilEmpty.string_of_uint chars fold_left uint_row]; [split; [reflexivity|constructor]|..].
  all: (destruct (IHu acc) as (_ & A); split; [rewrite (proj1 (IHu _)); f_equal; unfold value_of; code; lia|constructor; [|exact A]]).
  all: match goal with |- exists d, is_digit ?c d => exists (value_of c); unfold is_digit, value_of; code; lia end.
Qed.
Lemma acc_row u : forall acc, Zpos (Pos.of_uint_acc u acc) = uint_row (Zpos acc) u.
Proof. induction u; intros acc; cbn [Pos.of_uint_acc uint_row]; [reflexivity|..]; rewrite IHu; f_equal; lia. Qed.
Lemma of_row u : Z.of_N (Pos.of_uint u) = uint_row 0 u.
Proof. induction u; cbn [Pos.of_uint uint_row]; try exact IHu; try reflexivity; cbn [Z.of_N]; apply acc_row. Qed.
Lemma decimal_number p : 1 <= p -> number (chars (decimal p)) p.
Proof.
  intros P. unfold decimal. set (u := N.to_uint (Z.to_N p)). assert (OF : Z.of_N (N.of_uint u) = p) by (unfold u; rewrite DecimalN.Unsigned.of_to; lia).
  assert (NZ : forall d, u <> Decimal.D0 d). { intros d E. assert (UN : u = Decimal.unorm u) by (unfold u; rewrite <- DecimalN.Unsigned.to_of, DecimalN.Unsigned.of_to; reflexivity). rewrite E in UN at 2. unfold Decimal.unorm in UN. destruct (Decimal.nzhead (Decimal.D0 d)) eqn:H; [rewrite UN in OF; cbn in OF; lia|exfalso; exact (nzhead_nonzero _ _ H)|..]; congruence. }
  assert (S : NilZero.string_of_uint u = NilEmpty.string_of_uint u). { destruct u; try reflexivity. cbn in OF. lia. }
  rewrite S. destruct (row_string u 0) as (R & A). unfold N.of_uint in OF. rewrite of_row in OF. rewrite OF in R. rewrite <- R. clear R.
  destruct u as [|u|u|u|u|u|u|u|u|u|u]; [cbn in OF; lia|exfalso; exact (NZ u eq_refl)|..]; (eapply row_number; [exact A|reflexivity|unfold value_of; code; lia]).
Qed.
Lemma port_list_text ports : ports <> [] -> rx_port_list ports = Some (joined "," (map decimal ports)).
Proof.
  intros NE. unfold rx_port_list. set (s := fold_right _ _ _). assert (E : s = append (joined "," (map decimal ports)) ",").
  { unfold s. clear s. induction ports as [|p [|q r] IH]; [congruence| |]; cbn [fold_right map joined]; [rewrite append_nil_r; reflexivity|]. cbn [fold_right map joined] in IH. rewrite IH by discriminate. rewrite !append_assoc. reflexivity. }
  clearbody s. subst s. assert (L : forall t, append t "," <> "" /\ substring 0 (String.length (append t ",") - 1) (append t ",") = t).
  { clear. induction t as [|c t (N & IH)]; [split; [discriminate|reflexivity]|]. split; [discriminate|]. cbn [append String.length]. replace (S (String.length (append t ",")) - 1)%nat with (S (String.length (append t ",") - 1)). 2:{ destruct (append t ","); [congruence|cbn; lia]. } cbn [substring]. rewrite IH. reflexivity. }
  destruct (L (joined "," (map decimal ports))) as (N & S). destruct (append (joined "," (map decimal ports)) ","); [congruence|]. f_equal. exact S.
Qed.
(** What is printed are the port numbers, between commas. *)
Theorem c50_print ports : ports <> [] -> Forall (fun p => 1 <= p) ports -> exists s, rx_port_list ports = Some s /\ printed ports s.
Proof.
  intros NE F. eexists. split; [apply port_list_text, NE|]. exists (map decimal ports). split; [reflexivity|]. clear NE. induction F; cbn [map]; constructor; [apply decimal_number; assumption|assumption].
Qed.
(** Printed and read, a list comes back. *)
Theorem c50_round_trip_partial stale ports : (forall s, stale s = s) -> ports <> [] -> Forall (fun p => 1 <= p <= 65535) ports -> exists s, rx_port_list ports = Some s /\ tokenize_port_list stale s = ports.
Proof.
  intros ST NE F. eexists. split; [apply port_list_text, NE|]. apply (c50_parse_partial stale (map decimal ports) (map Some ports)); [exact ST|destruct ports; [congruence|discriminate]| | |].
  - clear NE. induction F as [|p l P F IH]; cbn [map]; constructor; [|exact IH]. destruct (number_row _ _ (decimal_number p ltac:(lia))) as (A & _). unfold no_comma. intros I. unfold all_digits in A. rewrite Forall_forall in A. destruct (A _ I) as (d & D & E). change (Z.of_nat (nat_of_ascii ",")) with 44 in E. lia.
  - clear NE. induction F as [|p l P F IH]; cbn [map]; constructor; [|exact IH]. rewrite <- (append_nil_r (decimal p)). change (append (decimal p) "") with (append "" (append (decimal p) "")). apply et_port; [constructor|apply decimal_number; lia|constructor|exact P].
  - clear. induction ports; constructor; assumption.
Qed.
(** Ports read are numbers from 1 to 65535, whatever the text. *)
Theorem c50_range stale s p : In p (tokenize_port_list stale s) -> 1 <= p <= 65535.
Proof. unfold tokenize_port_list. intros I. apply filter_In in I as (I & N). apply in_map_iff in I as (t & <- & _). pose proof (Z.mod_pos_bound (strtol0 (stale t)) (2 ^ 16)). lia. Qed.

(** ** Where it fails *)
(** Numbers out of range, negative numbers, numbers with a leading zero, numbers with letters behind: ports that were not listed. *)
Theorem c50_not_ports_refuted : tokenize_port_list (fun s => s) "65537,-1,010,80x" = [1; 65535; 8; 80].
Proof. vm_compute. reflexivity. Qed.
(** The empty list is not printed: std::out_of_range.  It is the result of reading, for example, "" or "0". *)
Theorem c50_empty_refuted : tokenize_port_list (fun s => s) "" = [] /\ tokenize_port_list (fun s => s) "0" = [] /\ rx_port_list [] = None.
Proof. vm_compute. auto. Qed.
(** The characters are read after the string was destroyed. *)
Theorem c50_dangling_refuted : exists stale s, printed [5; 6] s /\ tokenize_port_list stale s <> [5; 6].
Proof. exists (fun _ => "7"), "5,6". split; [|discriminate]. exists ["5"; "6"]. split; [reflexivity|]. repeat constructor; try (cbn; lia); lia. Qed.

(** The names of the receiver types *)
Theorem c50_types t : t <> RxIllegal -> rx_type_of_name (rx_name_of_type t) = t.
Proof. destruct t; [congruence|reflexivity..]. Qed.

(** ** Cases *)
Example c50_case : tokenize_port_list (fun s => s) "8989, 8990,,none ,61649" = [8989; 8990; 61649] /\ rx_port_list [8989; 8990] = Some "8989,8990".
Proof. vm_compute. auto. Qed.
Example c50_case_entries : Forall2 entry_text ["12 "; " 7"; "x"] [Some 12; Some 7; None] /\ ports_of [Some 12; Some 7; None] [12; 7].
Proof.
  assert (D : forall c d, 0 <= d <= 9 -> Z.of_nat (nat_of_ascii c) = 48 + d -> is_digit c d) by (intros; split; assumption).
  split; [|repeat constructor]. constructor; [|constructor; [|constructor; [|constructor]]].
  - apply (et_port "" "12" " " 12); [constructor| |repeat constructor; left; reflexivity|lia]. change (chars "12") with (["1"%char] ++ ["2"%char]). change 12 with (10 * 1 + 2). apply nu_more; [apply nu_first; [apply D; [lia|reflexivity]|lia]|apply D; [lia|reflexivity]].
  - apply (et_port " " "7" "" 7); [repeat constructor; left; reflexivity| |constructor|lia]. apply nu_first; [apply D; [lia|reflexivity]|lia].
  - apply (et_none "" "x"); [constructor|]. intros c r E. injection E as <- <-. split; [intros [X|X]; [discriminate|cbn in X; lia]|]. split; [intros d (X & Y); change (Z.of_nat (nat_of_ascii "x")) with 120 in Y; lia|]. split; discriminate.
Qed.

Print Assumptions c50_parse_partial.
Print Assumptions c50_print.
Print Assumptions c50_round_trip_partial.
Print Assumptions c50_range.
Print Assumptions c50_not_ports_refuted.
Print Assumptions c50_empty_refuted.
Print Assumptions c50_dangling_refuted.
Print Assumptions c50_types.
