(** The writer writes texts of the grammar, and no text stands for two documents. *)
From Coq Require Import String Ascii DecimalString DecimalZ Decimal.
From Verif Require Import Base JsonModel JsonTextModel JsonTextSpec.
Local Open Scope list_scope.
Local Open Scope char_scope.

(** ** The writer *)
Lemma escape_text c : char_text c (escape c).
Proof.
  unfold escape, quote, backslash. destruct (Ascii.eqb_spec c """") as [->|NQ]; [constructor|]. destruct (Ascii.eqb_spec c "\") as [->|NB]; [constructor|].
  assert (R : c = ascii_of_nat (nat_of_ascii c)) by (rewrite ascii_nat_embedding; reflexivity). assert (B : nat_of_ascii c < 256) by apply nat_ascii_bounded.
  set (n := nat_of_ascii c) in *. destruct (Nat.ltb_spec n 32) as [L|L].
  - assert (U : forall a b, a < 2 -> b < 16 -> nat_of_ascii c = 16 * a + b -> char_text c ["\"; "u"; "0"; "0"; hex_digit a; hex_digit b]).
    { intros a b LA LB E. apply (ct_u c _ _ a b); [lia| | |exact E].
      - destruct a as [|[|a]]; [| |lia]; eexists; (split; [reflexivity|]); cbn; lia.
      - do 16 (destruct b as [|b]; [eexists; (split; [reflexivity|]); cbn; lia|]). lia. }
    clearbody n. do 32 (destruct n as [|n]; [first [rewrite R; exact ct_b|rewrite R; exact ct_t|rewrite R; exact ct_n|rewrite R; exact ct_f|rewrite R; exact ct_r|apply U; [cbn; lia|cbn; lia|rewrite R; reflexivity]]|]). lia.
  - assert (P : char_text c [c]) by (constructor; auto). do 32 (destruct n as [|n]; [lia|]). exact P.
Qed.
Lemma write_string_text s : string_text s (write_string s).
Proof.
  exists (flat_map escape (list_ascii_of_string s)). split; [|reflexivity]. induction (list_ascii_of_string s) as [|c l IH]; cbn; [constructor|]. constructor; [apply escape_text|exact IH].
Qed.
Lemma write_int_text z : int_text z (write_int z).
Proof.
  unfold write_int. set (s := NilZero.string_of_int (Z.to_int z)). assert (E : exists d, NilZero.int_of_string s = Some d /\ Z.of_int d = z).
  { subst s. destruct (Z.to_int z) as [u|u] eqn:T; pose proof (DecimalZ.of_to z) as O; rewrite T in O; destruct u; try (eexists; split; [apply NilZero.isi; discriminate|exact O]).
    - eexists. split; [apply NilZero.isi_posnil|exact O]. - eexists. split; [apply NilZero.isi_negnil|exact O]. }
  destruct E as (d & E & V). split.
  - destruct s; [discriminate|]. discriminate.
  - exists d. rewrite string_of_list_ascii_of_string. auto.
Qed.
Lemma json_all (P : json -> Prop) : (forall x, (forall l, x <> JArr l) -> (forall l, x <> JObj l) -> P x) -> (forall l, (forall y, In y l -> P y) -> P (JArr l)) -> (forall l, (forall n y, In (n, y) l -> P y) -> P (JObj l)) -> forall x, P x.
Proof.
  intros HB HA HO. fix IH 1. intros x. destruct x as [|b|z|b|s|l|l]; try (apply HB; intros; discriminate).
  - apply HA. induction l as [|y l IHl]; [intros z []|]. intros z [E|I].
    + subst z. apply IH.
    + apply IHl, I.
  - apply HO. induction l as [|[n y] l IHl]; [intros m z []|]. intros m z [E|I].
    + injection E as _ <-. apply IH.
    + eapply IHl, I.
Qed.
Lemma write_text (double : Z -> list ascii -> Prop) dt : (forall b, double b (dt b)) -> forall x, text double x (write dt x).
Proof.
  intros D. induction x as [x NA NO|l IH|l IH] using json_all.
  - destruct x as [|b|z|b|s|l|l]; try (destruct (NA l eq_refl)); try (destruct (NO l eq_refl)); cbn; try constructor; [destruct b; constructor|apply write_int_text|apply D|apply write_string_text].
  - cbn [write]. set (items := fix items (first : bool) (l : list json) := match l with [] => ["]"] | y :: r => (if first then [] else [","]) ++ write dt y ++ items false r end).
    assert (M : forall l, (forall y, In y l -> text double y (write dt y)) -> more double l (items false l)).
    { clear. induction l as [|y l IHl]; intros H; [constructor|]. change (items false (y :: l)) with ("," :: write dt y ++ items false l). constructor; [apply H; left; reflexivity|apply IHl; intros z I; apply H; right; exact I]. }
    destruct l as [|y l]; [constructor|]. change (items true (y :: l)) with (write dt y ++ items false l). constructor; [apply IH; left; reflexivity|apply M; intros z I; apply IH; right; exact I].
  - cbn [write]. set (members := fix members (first : bool) (l : list (string * json)) := match l with [] => ["}"] | (n, y) :: r => (if first then [] else [","]) ++ write_string n ++ ":" :: write dt y ++ members false r end).
    assert (M : forall l, (forall n y, In (n, y) l -> text double y (write dt y)) -> fields double l (members false l)).
    { clear. induction l as [|[n y] l IHl]; intros H; [constructor|]. change (members false ((n, y) :: l)) with ("," :: write_string n ++ ":" :: write dt y ++ members false l). constructor; [apply write_string_text|apply (H n); left; reflexivity|apply IHl; intros m z I; apply (H m); right; exact I]. }
    destruct l as [|[n y] l]; [constructor|]. change (members true ((n, y) :: l)) with (write_string n ++ ":" :: write dt y ++ members false l). constructor; [apply write_string_text|apply (IH n); left; reflexivity|apply M; intros m z I; apply (IH m); right; exact I].
Qed.

(** ** A text has one document. *)
Lemma hex_det c a b : hex c a -> hex c b -> a = b. Proof. intros (k & K & A) (k' & K' & B). lia. Qed.
Lemma char_first c t : char_text c t -> exists d r, t = d :: r /\ d <> """". 
Proof. intros H. inversion H; subst; eexists; eexists; (split; [reflexivity|]); try assumption; discriminate. Qed.
Lemma char_det c c' t t' r r' : char_text c t -> char_text c' t' -> t ++ r = t' ++ r' -> c = c' /\ t = t' /\ r = r'.
Proof.
  intros A B E. inversion A as [? ? ? NB| | | | | | | | |? h l a b LT HA HB VC]; inversion B as [? ? ? NB'| | | | | | | | |? h' l' a' b' LT' HA' HB' VC']; subst; cbn in E; try (exfalso; congruence).
  all: try (split; [congruence|split; congruence]).
  injection E as -> -> ->. assert (a = a') by (eapply hex_det; eassumption). assert (b = b') by (eapply hex_det; eassumption). subst. split; [|auto]. rewrite <- (ascii_nat_embedding c), <- (ascii_nat_embedding c'). congruence.
Qed.
Lemma chars_det s t : chars_text s t -> forall s' t' r r', chars_text s' t' -> t ++ """" :: r = t' ++ """" :: r' -> s = s' /\ t = t' /\ r = r'.
Proof.
  induction 1 as [|c s t u C _ IH]; intros s' t' r r' H E; inversion H as [|c' s2 t2 u2 C' H']; subst.
  - cbn in E. injection E as ->. auto.
  - destruct (char_first _ _ C') as (d & x & -> & N). cbn in E. congruence.
  - destruct (char_first _ _ C) as (d & x & -> & N). cbn in E. congruence.
  - rewrite <- !app_assoc in E. destruct (char_det _ _ _ _ _ _ C C' E) as (-> & -> & E'). destruct (IH _ _ _ _ H' E') as (-> & -> & ->). auto.
Qed.
Lemma string_det s s' t t' r r' : string_text s t -> string_text s' t' -> t ++ r = t' ++ r' -> s = s' /\ t = t' /\ r = r'.
Proof.
  intros (u & C & ->) (u' & C' & ->) E. cbn in E. injection E as E. rewrite <- !app_assoc in E. cbn in E. destruct (chars_det _ _ C _ _ _ _ C' E) as (S & -> & ->). split; [|auto]. rewrite <- (string_of_list_ascii_of_string s), <- (string_of_list_ascii_of_string s'). congruence.
Qed.
Lemma string_first s t : string_text s t -> exists r, t = """" :: r. Proof. intros (u & _ & ->). eauto. Qed.

Definition ends (r : list ascii) : Prop := match r with [] => True | c :: _ => num_char c = false end.
Lemma span t : forall t' r r', Forall (fun c => num_char c = true) t -> Forall (fun c => num_char c = true) t' -> ends r -> ends r' -> t ++ r = t' ++ r' -> t = t' /\ r = r'.
Proof.
  induction t as [|c t IH]; intros [|c' t'] r r' A B ER ER' E; cbn in E.
  - auto.
  - subst r. cbn in ER. inversion B; subst. congruence.
  - subst r'. cbn in ER'. inversion A; subst. congruence.
  - injection E as -> E. inversion A; subst. inversion B; subst. destruct (IH t' r r') as (-> & ->); auto.
Qed.
Lemma uint_chars s : forall u, NilEmpty.uint_of_string s = Some u -> Forall (fun c => int_char c = true) (list_ascii_of_string s).
Proof.
  induction s as [|c s IH]; intros u H; cbn; [constructor|]. cbn in H. destruct (NilEmpty.uint_of_string s) as [v|]; [|destruct c as [[] [] [] [] [] [] [] []]; discriminate]. constructor; [|eapply IH; reflexivity]. destruct c as [[] [] [] [] [] [] [] []]; try discriminate; reflexivity.
Qed.
Lemma int_chars z t : int_text z t -> t <> [] /\ Forall (fun c => int_char c = true) t.
Proof.
  intros (N & d & E & _). split; [exact N|]. destruct t as [|c t]; [congruence|]. cbn in E. destruct (Ascii.eqb_spec c "-") as [->|NE].
  - constructor; [reflexivity|]. destruct t as [|c t]; [constructor|]. rewrite <- (list_ascii_of_string_of_list_ascii (c :: t)). cbn in E. destruct (NilEmpty.uint_of_string (String c (string_of_list_ascii t))) as [u|] eqn:U; [|cbn in U; rewrite U in E; discriminate]. eapply (uint_chars _ u). exact U.
  - rewrite <- (list_ascii_of_string_of_list_ascii (c :: t)). destruct (NilEmpty.uint_of_string (String c (string_of_list_ascii t))) as [u|] eqn:U; [|cbn in U; rewrite U in E; discriminate]. eapply (uint_chars _ u). exact U.
Qed.
Lemma int_num c : int_char c = true -> num_char c = true.
Proof. unfold int_char, num_char. intros H. apply orb_true_iff in H as [->| ->]; cbn; rewrite ?orb_true_r; reflexivity. Qed.
Lemma int_det z z' t : int_text z t -> int_text z' t -> z = z'. Proof. intros (_ & d & E & <-) (_ & d' & E' & <-). congruence. Qed.

Section Det.
  Variable double : Z -> list ascii -> Prop.
  Hypothesis OK : doubles_ok double.
  (** The kind of a text, by its first character *)
  Definition kind (x : json) (c : ascii) : Prop :=
    match x with JNull => c = "n" | JBool true => c = "t" | JBool false => c = "f" | JInt _ | JDouble _ => num_char c = true | JStr _ => c = """" | JArr _ => c = "[" | JObj _ => c = "{" end.
  Lemma text_first x t : text double x t -> exists c r, t = c :: r /\ kind x c.
  Proof.
    intros H. inversion H; subst; cbn [list_ascii_of_string kind]; try (eexists; eexists; split; [reflexivity|reflexivity]).
    - destruct (int_chars _ _ H0) as (N & F). destruct t as [|c t]; [congruence|]. exists c, t. split; [reflexivity|]. inversion F; subst. apply int_num. assumption.
    - destruct (proj2 OK _ _ H0) as (N & F & _). destruct t as [|c t]; [congruence|]. exists c, t. split; [reflexivity|]. inversion F; assumption.
    - destruct (string_first _ _ H0) as (r & ->). eauto.
  Qed.
  Scheme text_mut := Minimality for text Sort Prop with more_mut := Minimality for more Sort Prop with fields_mut := Minimality for fields Sort Prop.
  Lemma more_first l t : more double l t -> exists c r, t = c :: r /\ num_char c = false. Proof. intros H. inversion H; subst; eexists; eexists; split; reflexivity. Qed.
  Lemma fields_first l t : fields double l t -> exists c r, t = c :: r /\ num_char c = false. Proof. intros H. inversion H; subst; eexists; eexists; split; reflexivity. Qed.
  Lemma arr_inv y q : text double y ("[" :: q) -> (y = JArr [] /\ q = ["]"]) \/ exists x l t r, y = JArr (x :: l) /\ q = t ++ r /\ text double x t /\ more double l r.
  Proof. intros H. destruct (text_first _ _ H) as (c & u & E & K). injection E as <- <-. inversion H; subst; cbn in K; try discriminate; [left; auto|right]. do 4 eexists. repeat (split; [reflexivity|]). split; assumption. Qed.
  Lemma obj_inv y q : text double y ("{" :: q) -> (y = JObj [] /\ q = ["}"]) \/ exists n x l s t r, y = JObj ((n, x) :: l) /\ q = s ++ ":" :: t ++ r /\ string_text n s /\ text double x t /\ fields double l r.
  Proof. intros H. destruct (text_first _ _ H) as (c & u & E & K). injection E as <- <-. inversion H; subst; cbn in K; try discriminate; [left; auto|right]. do 6 eexists. repeat (split; [reflexivity|]). repeat split; assumption. Qed.
  Lemma more_inv l t : more double l t -> (l = [] /\ t = ["]"]) \/ exists x l' u r, l = x :: l' /\ t = "," :: u ++ r /\ text double x u /\ more double l' r.
  Proof. intros H. inversion H; subst; [left; auto|right]. do 4 eexists. repeat (split; [reflexivity|]). split; assumption. Qed.
  Lemma fields_inv l t : fields double l t -> (l = [] /\ t = ["}"]) \/ exists n x l' s u r, l = (n, x) :: l' /\ t = "," :: s ++ ":" :: u ++ r /\ string_text n s /\ text double x u /\ fields double l' r.
  Proof. intros H. inversion H; subst; [left; auto|right]. do 6 eexists. repeat (split; [reflexivity|]). repeat split; assumption. Qed.
  Lemma text_det x t : text double x t -> forall y t' r r', text double y t' -> ends r -> ends r' -> t ++ r = t' ++ r' -> x = y /\ t = t' /\ r = r'.
  Proof.
    apply (text_mut double
      (fun x t => forall y t' r r', text double y t' -> ends r -> ends r' -> t ++ r = t' ++ r' -> x = y /\ t = t' /\ r = r')
      (fun l t => forall l' t' r r', more double l' t' -> t ++ r = t' ++ r' -> l = l' /\ t = t' /\ r = r')
      (fun l t => forall l' t' r r', fields double l' t' -> t ++ r = t' ++ r' -> l = l' /\ t = t' /\ r = r')); clear x t.
    - intros y t' r r' H ER ER' E. destruct (text_first _ _ H) as (c & q & -> & K). cbn in E. injection E as <- E. inversion H; subst; cbn in K; try discriminate. injection E as ->. auto.
    - intros y t' r r' H ER ER' E. destruct (text_first _ _ H) as (c & q & -> & K). cbn in E. injection E as <- E. inversion H; subst; cbn in K; try discriminate. injection E as ->. auto.
    - intros y t' r r' H ER ER' E. destruct (text_first _ _ H) as (c & q & -> & K). cbn in E. injection E as <- E. inversion H; subst; cbn in K; try discriminate. injection E as ->. auto.
    - intros z t HI y t' r r' H ER ER' E. destruct (int_chars _ _ HI) as (N & F). destruct t as [|c0 t]; [congruence|]. assert (NC : num_char c0 = true) by (inversion F; subst; apply int_num; assumption).
      destruct (text_first _ _ H) as (c & q & -> & K). cbn in E. assert (c0 = c) by congruence. subst c0. inversion H; subst; cbn in K; try discriminate NC; try (subst c; discriminate NC).
      + match goal with X : int_text _ (c :: q) |- _ => rename X into HX end. destruct (int_chars _ _ HX) as (_ & F'). change ((c :: t) ++ r = (c :: q) ++ r') in E. apply span in E as (E1 & ->); [|eapply Forall_impl; [|exact F]; intros; apply int_num; assumption|eapply Forall_impl; [|exact F']; intros; apply int_num; assumption|assumption|assumption]. rewrite E1 in *. split; [f_equal; eapply int_det; eassumption|auto].
      + match goal with X : double _ (c :: q) |- _ => rename X into HX end. destruct (proj2 OK _ _ HX) as (_ & F' & X). change ((c :: t) ++ r = (c :: q) ++ r') in E. apply span in E as (E1 & _); [|eapply Forall_impl; [|exact F]; intros; apply int_num; assumption|assumption|assumption|assumption]. rewrite <- E1 in X. apply Exists_exists in X as (d & ID & ND). rewrite Forall_forall in F. rewrite (F d ID) in ND. discriminate.
    - intros b t HD y t' r r' H ER ER' E. destruct (proj2 OK _ _ HD) as (N & F & X). destruct t as [|c0 t]; [congruence|]. assert (NC : num_char c0 = true) by (inversion F; assumption).
      destruct (text_first _ _ H) as (c & q & -> & K). cbn in E. assert (c0 = c) by congruence. subst c0. inversion H; subst; cbn in K; try discriminate NC; try (subst c; discriminate NC).
      + match goal with X : int_text _ (c :: q) |- _ => rename X into HX end. destruct (int_chars _ _ HX) as (_ & F'). change ((c :: t) ++ r = (c :: q) ++ r') in E. apply span in E as (E1 & _); [|assumption|eapply Forall_impl; [|exact F']; intros; apply int_num; assumption|assumption|assumption]. rewrite E1 in X. apply Exists_exists in X as (d & ID & ND). rewrite Forall_forall in F'. rewrite (F' d ID) in ND. discriminate.
      + match goal with X : double _ (c :: q) |- _ => rename X into HX end. destruct (proj2 OK _ _ HX) as (_ & F' & _). change ((c :: t) ++ r = (c :: q) ++ r') in E. apply span in E as (E1 & ->); try assumption. rewrite E1 in *. split; [f_equal; eapply (proj1 OK); eassumption|auto].
    - intros s t HS y t' r r' H ER ER' E. destruct (string_first _ _ HS) as (u & ->). destruct (text_first _ _ H) as (c & q & -> & K). cbn in E. assert (c = """") by congruence. subst c. inversion H; subst; cbn in K; try discriminate.
      change (("""" :: u) ++ r = ("""" :: q) ++ r') in E. destruct (string_det _ _ _ _ _ _ HS H0 E) as (-> & EU & ->). rewrite EU. auto.
    - intros y t' r r' H ER ER' E. destruct (text_first _ _ H) as (c & q & -> & K). cbn in E. assert (c = "[") by congruence. subst c. assert (E1 : "]" :: r = q ++ r') by congruence. destruct (arr_inv _ _ H) as [(-> & ->)|(x & l & t & u & -> & -> & HT & _)].
      + cbn in E1. injection E1 as ->. auto.
      + exfalso. destruct (text_first _ _ HT) as (c & v & -> & K'). cbn in E1. injection E1 as <- _. destruct x as [|[]| | | | |]; discriminate.
    - intros x l t u HT IHT HM IHM y t' r r' H ER ER' E. destruct (text_first _ _ H) as (c & q & -> & K). cbn in E. assert (c = "[") by congruence. subst c. assert (E1 : (t ++ u) ++ r = q ++ r') by congruence. clear E. rename E1 into E. destruct (arr_inv _ _ H) as [(-> & ->)|(x0 & l0 & t0 & u0 & -> & -> & H1 & H3)].
      + exfalso. destruct (text_first _ _ HT) as (c & v & -> & K'). cbn in E. injection E as -> _. destruct x as [|[]| | | | |]; discriminate.
      + rewrite <- !app_assoc in E. destruct (more_first _ _ HM) as (c1 & v1 & -> & N1). destruct (more_first _ _ H3) as (c2 & v2 & -> & N2).
        destruct (IHT x0 t0 ((c1 :: v1) ++ r) ((c2 :: v2) ++ r') H1 N1 N2 E) as (-> & -> & E2). destruct (IHM l0 (c2 :: v2) r r' H3 E2) as (-> & -> & ->). auto.
    - intros y t' r r' H ER ER' E. destruct (text_first _ _ H) as (c & q & -> & K). cbn in E. assert (c = "{") by congruence. subst c. assert (E1 : "}" :: r = q ++ r') by congruence. destruct (obj_inv _ _ H) as [(-> & ->)|(n & x & l & s & t & u & -> & -> & HS & _)].
      + cbn in E1. injection E1 as ->. auto.
      + exfalso. destruct (string_first _ _ HS) as (v & ->). discriminate.
    - intros n x l s t u HS HT IHT HM IHM y t' r r' H ER ER' E. destruct (text_first _ _ H) as (c & q & -> & K). cbn in E. assert (c = "{") by congruence. subst c. assert (E1 : (s ++ ":" :: t ++ u) ++ r = q ++ r') by congruence. clear E. destruct (obj_inv _ _ H) as [(-> & ->)|(n0 & x0 & l0 & s0 & t0 & u0 & -> & -> & H1 & H3 & H4)].
      + exfalso. destruct (string_first _ _ HS) as (v & ->). discriminate.
      + rewrite <- !app_assoc in E1. destruct (string_det _ _ _ _ _ _ HS H1 E1) as (-> & -> & E2). cbn in E2. injection E2 as E2. rewrite <- !app_assoc in E2. destruct (fields_first _ _ HM) as (c1 & v1 & -> & N1). destruct (fields_first _ _ H4) as (c2 & v2 & -> & N2).
        destruct (IHT x0 t0 ((c1 :: v1) ++ r) ((c2 :: v2) ++ r') H3 N1 N2 E2) as (-> & -> & E3). destruct (IHM l0 (c2 :: v2) r r' H4 E3) as (-> & -> & ->). auto.
    - intros l' t' r r' H E. destruct (more_inv _ _ H) as [(-> & ->)|(x & l & t & u & -> & -> & _)]; cbn in E; [injection E as ->; auto|discriminate].
    - intros x l t u HT IHT HM IHM l' t' r r' H E. destruct (more_inv _ _ H) as [(-> & ->)|(x0 & l0 & t0 & u0 & -> & -> & H0 & H1)]; cbn in E; [discriminate|]. injection E as E. rewrite <- !app_assoc in E. destruct (more_first _ _ HM) as (c1 & v1 & -> & N1). destruct (more_first _ _ H1) as (c2 & v2 & -> & N2).
      destruct (IHT x0 t0 ((c1 :: v1) ++ r) ((c2 :: v2) ++ r') H0 N1 N2 E) as (-> & -> & E2). destruct (IHM l0 (c2 :: v2) r r' H1 E2) as (-> & -> & ->). auto.
    - intros l' t' r r' H E. destruct (fields_inv _ _ H) as [(-> & ->)|(n & x & l & s & t & u & -> & -> & _)]; cbn in E; [injection E as ->; auto|discriminate].
    - intros n x l s t u HS HT IHT HM IHM l' t' r r' H E. destruct (fields_inv _ _ H) as [(-> & ->)|(n0 & x0 & l0 & s0 & t0 & u0 & -> & -> & H0 & H1 & H2)]; cbn in E; [discriminate|]. injection E as E. rewrite <- !app_assoc in E. destruct (string_det _ _ _ _ _ _ HS H0 E) as (-> & -> & E1). cbn in E1. injection E1 as E1. rewrite <- !app_assoc in E1. destruct (fields_first _ _ HM) as (c1 & v1 & -> & N1). destruct (fields_first _ _ H2) as (c2 & v2 & -> & N2).
      destruct (IHT x0 t0 ((c1 :: v1) ++ r) ((c2 :: v2) ++ r') H1 N1 N2 E1) as (-> & -> & E2). destruct (IHM l0 (c2 :: v2) r r' H2 E2) as (-> & -> & ->). auto.
  Qed.
  Lemma text_unique x y t : text double x t -> text double y t -> x = y.
  Proof. intros A B. apply (text_det x t A y t [] [] B Logic.I Logic.I eq_refl). Qed.
End Det.
