(** Values and documents: the reader accepts the grammar and nothing else. *)
From Coq Require Import String Ascii.
From Verif Require Import Base JsonModel JsonTextModel JsonTextSpec JsonTextProofs JsonReadModel JsonReadSpec JsonReadProofs JsonReadStr.
Local Open Scope list_scope.
Local Open Scope char_scope.

(** ** White space *)
Lemma white_in c : white c = true <-> In (nat_of_ascii c) [32; 9; 10; 13].
Proof. unfold white, code. cbn [In]. rewrite !orb_true_iff, !Z.eqb_eq. lia. Qed.
Lemma skip_blank w s : blank w -> skip (w ++ s) = skip s.
Proof. induction 1 as [|c w H _ IH]; [reflexivity|]. cbn [app skip]. apply white_in in H. rewrite H. exact IH. Qed.
Lemma skip_split s : exists w, blank w /\ s = w ++ skip s.
Proof. induction s as [|c s (w & B & E)]; [exists []; split; [apply Forall_nil|reflexivity]|]. cbn [skip]. destruct (white c) eqn:W; [exists (c :: w); split; [apply Forall_cons; [apply white_in, W|exact B]|cbn [app]; f_equal; exact E]|exists []; split; [apply Forall_nil|reflexivity]]. Qed.
Lemma skip_solid c s : white c = false -> skip (c :: s) = c :: s. Proof. intros W. cbn [skip]. rewrite W. reflexivity. Qed.
Lemma skip_solid_app t s : (exists c r, t = c :: r /\ white c = false) -> skip (t ++ s) = t ++ s. Proof. intros (c & r & -> & W). apply (skip_solid c (r ++ s) W). Qed.
Lemma blank_ends w s : blank w -> ends s -> ends (w ++ s).
Proof. destruct 1 as [|c w H _]; [trivial|]. intros _. cbn [app ends]. unfold num_char. cbn [In] in H. destruct (Nat.leb_spec 48 (nat_of_ascii c)); [lia|]. cbn [andb orb]. repeat match goal with |- context [Ascii.eqb ?a ?b] => destruct (Ascii.eqb_spec a b) as [->|]; [cbn in H; lia|] end. reflexivity. Qed.
Lemma consume_solid a s q : num_char a = false -> consume a (skip s) = Some q -> exists w, blank w /\ s = w ++ a :: q /\ ends s.
Proof. intros N C. apply consume_some in C. destruct (skip_split s) as (w & B & E). rewrite C in E. exists w. split; [exact B|]. split; [exact E|]. rewrite E. apply blank_ends; [exact B|exact N]. Qed.

Definition to_double (t : list ascii) : option Z := match parse_number t with Some (JDouble b, []) => Some b | _ => None end.
Notation rtext' := (rtext to_double). Notation elements' := (elements to_double). Notation fields' := (fields to_double).
Scheme rtext_m := Minimality for rtext Sort Prop with elements_m := Minimality for elements Sort Prop with fields_m := Minimality for fields Sort Prop.
Combined Scheme grammar_m from rtext_m, elements_m, fields_m.

Lemma number_head t : number_text t -> exists c r, t = c :: r /\ (c = "-" \/ 48 <= nat_of_ascii c <= 57).
Proof. intros (minus & n & f & e & -> & N & _). destruct minus; [do 2 eexists; split; [reflexivity|left; reflexivity]|]. apply natural_first in N as (c & r & -> & R & _). do 2 eexists; split; [reflexivity|right; exact R]. Qed.
Lemma whole_number z t : whole_text z t -> number_text t.
Proof. intros (minus & n & -> & N & _). exists minus, n, [], []. rewrite !app_nil_r. split; [reflexivity|]. split; [exact N|]. split; left; reflexivity. Qed.
Lemma number_first n t q : (exists c r, t = c :: r /\ (c = "-" \/ 48 <= nat_of_ascii c <= 57)) -> parse_value (S n) (t ++ q) = parse_number (t ++ q).
Proof.
  intros (c & r & -> & H). cbn [app parse_value]. repeat match goal with |- context [if Ascii.eqb c ?b then _ else _] => destruct (Ascii.eqb_spec c b) as [->|]; [destruct H as [H|H]; [discriminate H|cbn in H; lia]|] end. reflexivity.
Qed.
Lemma number_solid c : c = "-" \/ 48 <= nat_of_ascii c <= 57 -> white c = false /\ c <> "]" /\ c <> "}".
Proof. intros H. split; [destruct (white c) eqn:W; [|reflexivity]; apply white_in in W; destruct H as [->|H]; cbn in W; lia|]. split; intros ->; destruct H as [H|H]; try discriminate H; cbn in H; lia. Qed.
Lemma rtext_head x t : rtext' x t -> exists c r, t = c :: r /\ white c = false /\ c <> "]" /\ c <> "}".
Proof.
  intros [ | | |z u W _|b u (N & _) _|s u (r & _ & ->)| | | | ]; try (do 2 eexists; split; [reflexivity|split; [reflexivity|split; discriminate]]).
  - apply whole_number, number_head in W as (c & r & -> & H). exists c, r. split; [reflexivity|]. apply number_solid, H.
  - apply number_head in N as (c & r & -> & H). exists c, r. split; [reflexivity|]. apply number_solid, H.
Qed.
Lemma elements_head l t : elements' l t -> exists c r, t = c :: r /\ white c = false /\ c <> "]".
Proof. intros [x u w H _|x l' u w w' r H _ _ _]; apply rtext_head in H as (c & v & -> & W & N & _); do 2 eexists; (split; [reflexivity|split; assumption]). Qed.
Lemma fields_head l t : fields' l t -> exists r, t = """" :: r.
Proof. intros [n x s w w' u w'' (r & _ & ->) _ _ _ _|n x l' s w w' u w'' v r (p & _ & ->) _ _ _ _ _ _]; cbn [app]; eexists; reflexivity. Qed.
Lemma expect_complete w x q : expect w x (w ++ q) = Some (x, q).
Proof. induction w as [|a w IH]; [reflexivity|]. cbn [app expect]. rewrite consume_hd. exact IH. Qed.
Lemma expect_sound w : forall x s y q, expect w x s = Some (y, q) -> s = w ++ q /\ y = x.
Proof. induction w as [|a w IH]; intros x s y q; cbn [expect]; [intros E; injection E as <- <-; auto|]. destruct (consume a s) as [r|] eqn:C; [|discriminate]. apply consume_some in C. subst s. intros E. apply IH in E as (-> & ->). auto. Qed.
Lemma real_complete b t q : to_double t = Some b -> ends q -> parse_number (t ++ q) = Some (JDouble b, q).
Proof. unfold to_double. intros H E. rewrite parse_number_app by exact E. destruct (parse_number t) as [[[| | |d| | |] [|]]|]; try discriminate. injection H as <-. reflexivity. Qed.

Lemma complete :
  (forall x t, rtext' x t -> forall n q, 2 * List.length t + 1 <= n -> ends q -> parse_value n (t ++ q) = Some (x, q)) /\
  (forall l t, elements' l t -> forall n q, 2 * List.length t <= n -> items n (t ++ q) = Some (l, q)) /\
  (forall l t, fields' l t -> forall n q, 2 * List.length t <= n -> members n (t ++ q) = Some (l, q)).
Proof.
  apply (grammar_m to_double
    (fun x t => forall n q, 2 * List.length t + 1 <= n -> ends q -> parse_value n (t ++ q) = Some (x, q))
    (fun l t => forall n q, 2 * List.length t <= n -> items n (t ++ q) = Some (l, q))
    (fun l t => forall n q, 2 * List.length t <= n -> members n (t ++ q) = Some (l, q))).
  1-10: intros; destruct n as [|n]; [lia|].
  - exact (expect_complete ["u"; "l"; "l"] JNull q).
  - exact (expect_complete ["r"; "u"; "e"] (JBool true) q).
  - exact (expect_complete ["a"; "l"; "s"; "e"] (JBool false) q).
  - rewrite number_first; [apply int_complete; assumption|]. eapply number_head, whole_number. eassumption.
  - rewrite number_first; [apply real_complete; assumption|]. apply number_head. match goal with H : real_text _ |- _ => exact (proj1 H) end.
  - match goal with H : str_text _ _ |- _ => pose proof (string_complete _ _ q H) as P; destruct H as (r & _ & ->) end. cbn [app parse_value Ascii.eqb Bool.eqb andb] in P |- *. rewrite P. reflexivity.
  - cbn [app parse_value Ascii.eqb Bool.eqb andb]. rewrite <- app_assoc, skip_blank by assumption. cbn [app]. rewrite skip_solid by reflexivity. rewrite consume_hd. reflexivity.
  - cbn [app parse_value Ascii.eqb Bool.eqb andb]. rewrite <- app_assoc, skip_blank by assumption. pose proof H0 as E. apply elements_head in E as (c & r & -> & W & N). rewrite skip_solid_app by eauto. replace (consume "]" ((c :: r) ++ q)) with (@None (list ascii)) by (symmetry; apply consume_ne; congruence).
    rewrite H1; [reflexivity|]. cbn [List.length] in H2. rewrite app_length in H2. lia.
  - cbn [app parse_value Ascii.eqb Bool.eqb andb]. rewrite <- app_assoc, skip_blank by assumption. cbn [app]. rewrite skip_solid by reflexivity. rewrite consume_hd. reflexivity.
  - cbn [app parse_value Ascii.eqb Bool.eqb andb]. rewrite <- app_assoc, skip_blank by assumption. pose proof H0 as E. apply fields_head in E as (r & ->). rewrite skip_solid_app by (do 2 eexists; split; reflexivity). replace (consume "}" (("""" :: r) ++ q)) with (@None (list ascii)) by reflexivity.
    rewrite H1; [reflexivity|]. cbn [List.length] in H2. rewrite app_length in H2. lia.
  - intros x t w R IH B n q L. rewrite !app_length in L. cbn [List.length] in L. destruct n as [|n]; [lia|]. cbn [items]. rewrite <- !app_assoc. cbn [app]. rewrite IH; [|lia|apply blank_ends; [exact B|reflexivity]].
    rewrite skip_blank by exact B. rewrite skip_solid by reflexivity. rewrite consume_ne by discriminate. rewrite consume_hd. reflexivity.
  - intros x l t w w' r R IH B B' E IHl n q L. rewrite !app_length in L. cbn [List.length] in L. rewrite app_length in L. destruct n as [|n]; [lia|]. cbn [items]. rewrite <- !app_assoc. cbn [app]. rewrite <- app_assoc. rewrite IH; [|lia|apply blank_ends; [exact B|reflexivity]].
    rewrite skip_blank by exact B. rewrite skip_solid by reflexivity. rewrite consume_hd. rewrite skip_blank by exact B'. apply elements_head in E as (c & v & -> & W & N). rewrite skip_solid_app by eauto. rewrite IHl by lia. reflexivity.
  - intros k x s w w' t w'' S B B' R IH B'' n q L. rewrite !app_length in L. cbn [List.length] in L. rewrite !app_length in L. cbn [List.length] in L. destruct n as [|n]; [lia|]. cbn [members]. rewrite <- !app_assoc. cbn [app]. rewrite <- !app_assoc. cbn [app]. rewrite (string_complete _ _ _ S).
    rewrite skip_blank by exact B. rewrite skip_solid by reflexivity. rewrite consume_hd. rewrite skip_blank by exact B'. pose proof R as R'. apply rtext_head in R' as (c & v & -> & W & N). rewrite skip_solid_app by eauto. rewrite IH; [|lia|apply blank_ends; [exact B''|reflexivity]].
    rewrite skip_blank by exact B''. rewrite skip_solid by reflexivity. rewrite consume_ne by discriminate. rewrite consume_hd. reflexivity.
  - intros k x l s w w' t w'' v r S B B' R IH B'' BV E IHl n q L. rewrite !app_length in L. cbn [List.length] in L. rewrite !app_length in L. cbn [List.length] in L. rewrite app_length in L. destruct n as [|n]; [lia|]. cbn [members]. rewrite <- !app_assoc. cbn [app]. rewrite <- !app_assoc. cbn [app]. rewrite <- app_assoc. rewrite (string_complete _ _ _ S).
    rewrite skip_blank by exact B. rewrite skip_solid by reflexivity. rewrite consume_hd. rewrite skip_blank by exact B'. pose proof R as R'. apply rtext_head in R' as (c & v' & -> & W & N). rewrite skip_solid_app by eauto. rewrite IH; [|lia|apply blank_ends; [exact B''|reflexivity]].
    rewrite skip_blank by exact B''. rewrite skip_solid by reflexivity. rewrite consume_hd. rewrite skip_blank by exact BV. pose proof E as E'. apply fields_head in E' as (p & ->). rewrite skip_solid_app by (do 2 eexists; split; reflexivity). rewrite IHl by lia. reflexivity.
Qed.

Lemma number_value s x q : parse_number s = Some (x, q) -> ends q -> exists t, s = t ++ q /\ rtext' x t.
Proof.
  intros P E. destruct (number_sound _ _ _ P) as (t & -> & NT & [(z & -> & W & F)|(b & ->)]); exists t; (split; [reflexivity|]).
  - apply rt_int; assumption.
  - apply rt_real; [split; [exact NT|]|].
    + intros (z & W & F). rewrite (int_complete z t q W F E) in P. discriminate.
    + unfold to_double. rewrite parse_number_app in P by exact E. destruct (parse_number t) as [[y r]|]; [|discriminate]. injection P as -> R. apply (f_equal (@List.length _)) in R. rewrite app_length in R. destruct r; [reflexivity|cbn in R; lia].
Qed.
Lemma sound n :
  (forall s x q, parse_value n s = Some (x, q) -> ends q -> exists t, s = t ++ q /\ rtext' x t) /\
  (forall s l q, items n s = Some (l, q) -> exists t, s = t ++ q /\ elements' l t) /\
  (forall s l q, members n s = Some (l, q) -> exists t, s = t ++ q /\ fields' l t).
Proof.
  induction n as [|n (IHv & IHi & IHm)]; [repeat split; intros; discriminate|]. split; [|split].
  - intros s x q P E. cbn [parse_value] in P. destruct s as [|c r]; [discriminate|].
    destruct (Ascii.eqb_spec c "n") as [->|_]; [apply expect_sound in P as (-> & ->); eexists (_ :: _); split; [reflexivity|apply rt_null]|].
    destruct (Ascii.eqb_spec c "t") as [->|_]; [apply expect_sound in P as (-> & ->); eexists (_ :: _); split; [reflexivity|apply rt_true]|].
    destruct (Ascii.eqb_spec c "f") as [->|_]; [apply expect_sound in P as (-> & ->); eexists (_ :: _); split; [reflexivity|apply rt_false]|].
    destruct (Ascii.eqb_spec c """") as [->|_].
    { destruct (parse_string ("""" :: r)) as [[t q']|] eqn:S; [|discriminate]. injection P as <- <-. apply string_sound in S as (u & -> & S). exists u. split; [reflexivity|]. apply rt_str, S. }
    destruct (Ascii.eqb_spec c "{") as [->|_].
    { destruct (consume "}" (skip r)) as [q'|] eqn:C.
      - injection P as <- <-. apply consume_solid in C as (w & B & -> & _); [|reflexivity]. exists ("{" :: w ++ ["}"]). split; [cbn; rewrite <- app_assoc; reflexivity|]. apply rt_empty_obj, B.
      - destruct (members n (skip r)) as [[l q']|] eqn:M; [|discriminate]. injection P as <- <-. apply IHm in M as (t & M & F). destruct (skip_split r) as (w & B & ->). rewrite M. exists ("{" :: w ++ t). split; [cbn; rewrite <- app_assoc; reflexivity|]. apply rt_obj; assumption. }
    destruct (Ascii.eqb_spec c "[") as [->|_].
    { destruct (consume "]" (skip r)) as [q'|] eqn:C.
      - injection P as <- <-. apply consume_solid in C as (w & B & -> & _); [|reflexivity]. exists ("[" :: w ++ ["]"]). split; [cbn; rewrite <- app_assoc; reflexivity|]. apply rt_empty_arr, B.
      - destruct (items n (skip r)) as [[l q']|] eqn:M; [|discriminate]. injection P as <- <-. apply IHi in M as (t & M & F). destruct (skip_split r) as (w & B & ->). rewrite M. exists ("[" :: w ++ t). split; [cbn; rewrite <- app_assoc; reflexivity|]. apply rt_arr; assumption. }
    apply number_value; assumption.
  - intros s l q P. cbn [items] in P. destruct (parse_value n s) as [[x q1]|] eqn:V; [|discriminate]. destruct (consume "," (skip q1)) as [q2|] eqn:C.
    + destruct (items n (skip q2)) as [[l' q3]|] eqn:M; [|discriminate]. injection P as <- <-. apply consume_solid in C as (w & B & EQ & E); [|reflexivity]. apply IHv in V as (t & -> & R); [|exact E]. apply IHi in M as (u & M & F). destruct (skip_split q2) as (w' & B' & EQ2). rewrite M in EQ2.
      exists (t ++ w ++ "," :: w' ++ u). split; [rewrite EQ, EQ2, <- !app_assoc; cbn; rewrite <- app_assoc; reflexivity|]. apply el_next; assumption.
    + destruct (consume "]" (skip q1)) as [q2|] eqn:C2; [|discriminate]. injection P as <- <-. apply consume_solid in C2 as (w & B & EQ & E); [|reflexivity]. apply IHv in V as (t & -> & R); [|exact E]. exists (t ++ w ++ ["]"]). split; [rewrite EQ, <- !app_assoc; reflexivity|]. apply el_last; assumption.
  - intros s l q P. cbn [members] in P. destruct (parse_string s) as [[k q1]|] eqn:S; [|discriminate]. apply string_sound in S as (ks & -> & S). destruct (consume ":" (skip q1)) as [q2|] eqn:C; [|discriminate]. apply consume_solid in C as (w & B & -> & _); [|reflexivity].
    destruct (parse_value n (skip q2)) as [[x q3]|] eqn:V; [|discriminate]. destruct (skip_split q2) as (w' & B' & EQ2). destruct (consume "," (skip q3)) as [q4|] eqn:C.
    + destruct (members n (skip q4)) as [[l' q5]|] eqn:M; [|discriminate]. injection P as <- <-. apply consume_solid in C as (w'' & B'' & EQ & E); [|reflexivity]. apply IHv in V as (t & V & R); [|exact E]. apply IHm in M as (u & M & F). destruct (skip_split q4) as (v & BV & EQ4). rewrite M in EQ4. rewrite V in EQ2.
      exists (ks ++ w ++ ":" :: w' ++ t ++ w'' ++ "," :: v ++ u). split; [rewrite EQ2, EQ, EQ4; rewrite <- !app_assoc; cbn [app]; rewrite <- !app_assoc; cbn [app]; rewrite <- !app_assoc; reflexivity|]. apply fi_next; assumption.
    + destruct (consume "}" (skip q3)) as [q4|] eqn:C2; [|discriminate]. injection P as <- <-. apply consume_solid in C2 as (w'' & B'' & EQ & E); [|reflexivity]. apply IHv in V as (t & V & R); [|exact E]. rewrite V in EQ2.
      exists (ks ++ w ++ ":" :: w' ++ t ++ w'' ++ ["}"]). split; [rewrite EQ2, EQ; rewrite <- !app_assoc; cbn [app]; rewrite <- !app_assoc; reflexivity|]. apply fi_last; assumption.
Qed.

(** ** Documents *)
Lemma cut_id t : ~ In zero t -> cut t = t.
Proof. induction t as [|c t IH]; intros N; [reflexivity|]. cbn [cut]. destruct (Ascii.eqb_spec c zero) as [->|_]; [destruct N; left; reflexivity|]. rewrite IH; [reflexivity|]. intros H. apply N. right. exact H. Qed.
Lemma cut_zero t q : cut (t ++ zero :: q) = cut t.
Proof. induction t as [|c t IH]; [reflexivity|]. cbn [app cut]. rewrite IH. reflexivity. Qed.
Lemma skip_nil s : skip s = [] <-> blank s.
Proof. split; [intros E; destruct (skip_split s) as (w & B & EQ); rewrite E, app_nil_r in EQ; rewrite EQ; exact B|intros B; rewrite <- (app_nil_r s), skip_blank by exact B; reflexivity]. Qed.
Lemma parse_document x t : ~ In zero t -> (parse t = Some x <-> document to_double x t).
Proof.
  intros Z. unfold parse. rewrite cut_id by exact Z. split.
  - intros P. destruct (parse_value _ (skip t)) as [[y q]|] eqn:V; [|discriminate]. destruct (skip q) eqn:Q; [|discriminate]. injection P as ->. apply skip_nil in Q. destruct (skip_split t) as (w & B & EQ). destruct (sound (S (2 * List.length (skip t)))) as (S & _ & _). apply S in V as (u & V & R); [|rewrite <- (app_nil_r q); apply blank_ends; [exact Q|exact Logic.I]].
    exists w, u, q. split; [rewrite <- V; exact EQ|]. auto.
  - intros (w & u & w' & -> & B & R & B'). rewrite skip_blank by exact B. pose proof R as R'. apply rtext_head in R' as (c & r & EU & W & _). rewrite skip_solid_app by eauto. rewrite (proj1 complete x u R); [|rewrite app_length; lia|rewrite <- (app_nil_r w'); apply blank_ends; [exact B'|exact Logic.I]]. apply skip_nil in B'. rewrite B'. reflexivity.
Qed.
