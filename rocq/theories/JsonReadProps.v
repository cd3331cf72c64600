(** C54: which texts are accepted as messages, and what they mean.  C55: what one side writes the other side reads. *)
From Coq Require Import String Ascii.
From Verif Require Import Base JsonModel JsonTextModel JsonTextSpec JsonTextProofs JsonSpec JsonProofs MessageSpec MessageProps JsonReadModel JsonReadSpec JsonReadProofs JsonReadStr JsonReadValue JsonDoubleModel JsonAccept JsonDoubleProofs JsonRoundSpec JsonRound.
Local Open Scope list_scope.
Local Open Scope char_scope.

(** The double that the text of a number stands for *)
Definition double_of (t : list ascii) : option Z := match parse t with Some (JDouble b) => Some b | _ => None end.

Lemma rtext_ext c1 c2 : (forall t b, real_text t -> c1 t = Some b -> c2 t = Some b) -> forall x t, rtext c1 x t -> rtext c2 x t.
Proof.
  intros H. apply (rtext_m c1 (rtext c2) (elements c2) (JsonReadSpec.fields c2)); intros; try (constructor; auto; fail).
Qed.
Lemma number_chars t : number_text t -> Forall (fun c => white c = false) t.
Proof.
  assert (D : forall r, digits r -> Forall (fun c => white c = false) r) by (intros r D; eapply Forall_impl; [|exact D]; intros c C; apply (number_solid c); right; exact C).
  intros (minus & n & f & e & -> & N & F & E). apply Forall_app. split; [destruct minus; [apply Forall_cons; [reflexivity|apply Forall_nil]|apply Forall_nil]|]. apply Forall_app. split; [apply D, natural_digits, N|]. apply Forall_app. split.
  - destruct F as [->|(r & -> & _ & R)]; [apply Forall_nil|]. apply Forall_cons; [reflexivity|apply D, R].
  - destruct E as [->|(c & s & r & -> & CE & S & _ & R)]; [apply Forall_nil|]. apply Forall_cons; [destruct CE as [->| ->]; reflexivity|]. apply Forall_app. split; [|apply D, R]. destruct S as [->|[->| ->]]; [apply Forall_nil|apply Forall_cons; [reflexivity|apply Forall_nil]|apply Forall_cons; [reflexivity|apply Forall_nil]].
Qed.
Lemma parse_real t : number_text t -> parse t = match parse_number t with Some (x, []) => Some x | _ => None end.
Proof.
  intros N. unfold parse. rewrite cut_id by (apply nz_not_in, nz_number, N). pose proof (number_chars t N) as W. destruct (number_head t N) as (c & r & EQ & C). assert (SK : skip t = t) by (rewrite EQ; apply skip_solid; rewrite EQ in W; inversion W; assumption). rewrite SK.
  rewrite <- (app_nil_r t) at 2. rewrite number_first by eauto. rewrite app_nil_r. destruct (parse_number t) as [[x q]|] eqn:P; [|reflexivity]. destruct q as [|d q]; [reflexivity|]. apply number_sound in P as (u & E & _). rewrite E in W. apply Forall_app in W as (_ & W). inversion W; subst. rewrite skip_solid by assumption. reflexivity.
Qed.
Lemma double_of_to t b : real_text t -> double_of t = Some b <-> to_double t = Some b.
Proof.
  intros (N & NW). unfold double_of, to_double. rewrite parse_real by exact N. destruct (parse_number t) as [[x [|d q]]|]; try tauto; destruct x; tauto.
Qed.
Lemma document_ext x t : document to_double x t <-> document double_of x t.
Proof.
  split; intros (w & u & w' & -> & B & R & B'); exists w, u, w'; (split; [reflexivity|]); (split; [exact B|]); (split; [|exact B']); revert R; apply rtext_ext; intros v b RT; apply double_of_to, RT.
Qed.

(** The reader accepts the texts of the grammar, with these values, and no other text. *)
Theorem c54_grammar x t : ~ In Ascii.zero t -> (parse t = Some x <-> document double_of x t).
Proof. intros Z. rewrite <- document_ext. apply parse_document, Z. Qed.
(** Nothing after a zero counts. *)
Theorem c54_zero t q : parse (t ++ Ascii.zero :: q) = parse t.
Proof. unfold parse. rewrite cut_zero. reflexivity. Qed.
Lemma hex_nz v k : hex_unit v k -> nz v.
Proof.
  assert (HX : forall h i, hex h i -> h <> Ascii.zero) by (intros h i H ->; inversion H; cbn in *; lia). intros H. unfold hex_unit in H. decompose [ex and] H. subst. repeat (apply Forall_cons; [discriminate || (eapply HX; eassumption)|]). apply Forall_nil.
Qed.
Lemma piece_nz s t : piece s t -> nz t.
Proof.
  intros P. inversion P; subst; try (apply nz_app; eapply hex_nz; eassumption); try (eapply hex_nz; eassumption); try (repeat (apply Forall_cons; [discriminate|]); apply Forall_nil). apply Forall_cons; [intros ->; cbn in *; lia|apply Forall_nil].
Qed.
Lemma str_nz n s : str_text n s -> nz s.
Proof.
  intros (r & P & ->). apply Forall_cons; [discriminate|]. apply nz_app; [|apply Forall_cons; [discriminate|apply Forall_nil]]. induction P; [apply Forall_nil|]. apply nz_app; [eapply piece_nz; eassumption|assumption].
Qed.
Lemma blank_nz v : blank v -> nz v. Proof. intros H. eapply Forall_impl; [|exact H]. intros c C ->. cbn in C. lia. Qed.
Lemma rtext_nz c : forall x t, rtext c x t -> nz t.
Proof.
  apply (rtext_m c (fun _ t => nz t) (fun _ t => nz t) (fun _ t => nz t)); intros; repeat first [apply nz_app|apply Forall_cons; [discriminate|]]; auto using blank_nz; try apply Forall_nil; try (eapply str_nz; eassumption).
  - eapply nz_number, whole_number. eassumption.
  - match goal with H : real_text _ |- _ => exact (nz_number _ (proj1 H)) end.
Qed.
(** A text has one meaning. *)
Theorem c54_one x y t : document double_of x t -> document double_of y t -> x = y.
Proof.
  intros X Y. assert (Z : ~ In Ascii.zero t). { destruct X as (w & u & w' & -> & B & R & B'). apply nz_not_in. apply nz_app; [apply blank_nz, B|]. apply nz_app; [eapply rtext_nz, R|apply blank_nz, B']. }
  apply c54_grammar in X; [|exact Z]. apply c54_grammar in Y; [|exact Z]. congruence.
Qed.
(** Numbers.  Every number of the grammar is read if it has at most 60 digits in front and an exponent of at most 308: integers as themselves, the others as doubles. *)
Definition small_exponent (t : list ascii) : Prop := forall e s r, t = e :: s ++ r -> (s = [] \/ s = ["+"]) -> digits r -> (decimal r <= 308)%Z.
Theorem c54_numbers_partial minus n f e : natural n -> fraction f -> exponent_text e -> List.length n <= 60 -> small_exponent e ->
  let t := minus_text minus ++ n ++ f ++ e in
  (exists z, whole_text z t /\ fits z /\ parse t = Some (JInt z)) \/ (~ (exists z, whole_text z t /\ fits z) /\ exists b, parse t = Some (JDouble b)).
Proof.
  intros N F E L SM t. assert (NT : number_text t) by (exists minus, n, f, e; auto). destruct (number_accepts minus n f e N F E L SM) as (x & P). fold t in P. pose proof (parse_real t NT) as PR. rewrite P in PR.
  destruct (number_sound _ _ _ P) as (u & EQ & _ & [(z & -> & W & FZ)|(b & ->)]); rewrite app_nil_r in EQ; subst u.
  - left. exists z. auto.
  - right. split; [|exists b; exact PR]. intros (z & W & FZ). pose proof (int_complete z t [] W FZ Logic.I) as IC. rewrite app_nil_r, P in IC. discriminate.
Qed.
(** Not every number of the grammar is read: 1e309 is refused, and a number above the doubles can become an infinity, which has no text. *)
Theorem c54_large_refuted : (exists t, number_text t /\ parse t = None) /\ exists t b, number_text t /\ parse t = Some (JDouble b) /\ no_number b.
Proof.
  split.
  - exists (list_ascii_of_string "1e309"). split; [|vm_compute; reflexivity]. exists false, ["1"], [], ["e"; "3"; "0"; "9"]. split; [reflexivity|]. split; [right; exists "1", []; split; [reflexivity|split; [cbn; lia|apply Forall_nil]]|]. split; [left; reflexivity|]. right. exists "e", [], ["3"; "0"; "9"]. split; [reflexivity|]. split; [auto|]. split; [auto|]. split; [discriminate|]. repeat (apply Forall_cons; [cbn; lia|]). apply Forall_nil.
  - exists (list_ascii_of_string "1.7976931348623159e308"), 9218868437227405312%Z. split; [|split; [vm_compute; reflexivity|exists 0%Z, 0%Z; lia]]. exists false, ["1"], (list_ascii_of_string ".7976931348623159"), ["e"; "3"; "0"; "8"]. split; [reflexivity|]. split; [right; exists "1", []; split; [reflexivity|split; [cbn; lia|apply Forall_nil]]|].
    split; [right; exists (list_ascii_of_string "7976931348623159"); split; [reflexivity|]; split; [discriminate|]; repeat (apply Forall_cons; [cbn; lia|]); apply Forall_nil|]. right. exists "e", [], ["3"; "0"; "8"]. split; [reflexivity|]. split; [auto|]. split; [auto|]. split; [discriminate|]. repeat (apply Forall_cons; [cbn; lia|]). apply Forall_nil.
Qed.
(** White space, escapes, a surrogate pair (U+1F600), nested values, two members of one name *)
Example c54_example : parse (list_ascii_of_string " {""a"" : [1, -2.5e1, ""\u0041\uD83D\uDE00\n""] , ""a"":{}} ") =
  Some (JObj [("a"%string, JArr [JInt 1; JDouble 13851102128954671104; JStr (string_of_list_ascii (["A"] ++ map ascii_of_nat [240; 159; 152; 128; 10]))]); ("a"%string, JObj [])]).
Proof. vm_compute. reflexivity. Qed.
Example c54_refused : map (fun s => parse (list_ascii_of_string s)) [""; "01"; "1."; ".5"; "+1"; "[1,]"; "{""a""}"; "nul"; "1 2"; """\x"""; """\ud83d"""; "{a:1}"; "tru e"]%string = repeat None 13.
Proof. vm_compute. reflexivity. Qed.

(** C55 *)
(** Everything is written and read again; only doubles may become other doubles. *)
Definition read_back (b b' : Z) : Prop := parse (dtoa b) = Some (JDouble b').
Lemma proper_machine x : machine x -> (forall b, occurs (JDouble b) x -> ~ no_number b) -> proper x.
Proof.
  intros M N y O. destruct (M y O) as (MD & MI). split; [|exact MI]. intros b ->. split; [apply MD; reflexivity|]. destruct (finite b) eqn:F; [reflexivity|]. destruct (N b O). apply finite_spec; [apply MD; reflexivity|exact F].
Qed.
Lemma like_ext (R R' : Z -> Z -> Prop) : forall x y, like R x y -> (forall b b', occurs (JDouble b) x -> R b b' -> R' b b') -> like R' x y.
Proof.
  induction x as [x NA NO|l IH|l IH] using json_all; intros y L H.
  - inversion L; subst; try constructor; [apply H; [constructor|assumption]|destruct (NA l eq_refl)|destruct (NO l eq_refl)].
  - inversion L as [| | | | |? l' AL|]; subst. constructor. clear L. revert l' AL. induction l as [|z l IHl]; intros l' AL; inversion AL; subst; constructor.
    + apply IH; [left; reflexivity|assumption|intros b b' O; apply H; eapply oc_arr; [left; reflexivity|exact O]].
    + apply IHl; [intros w I; apply IH; right; exact I|intros b b' O; apply H; inversion O; subst; eapply oc_arr; [right; eassumption|assumption]|assumption].
  - inversion L as [| | | | | |? l' AL]; subst. constructor. clear L. revert l' AL. induction l as [|[n z] l IHl]; intros l' AL; inversion AL; subst; constructor.
    + apply (IH n); [left; reflexivity|assumption|intros b b' O; apply H; eapply oc_obj; [left; reflexivity|exact O]].
    + apply IHl; [intros m w I; apply (IH m); right; exact I|intros b b' O; apply H; inversion O; subst; eapply oc_obj; [right; eassumption|assumption]|assumption].
Qed.
Theorem c55_written x : machine x -> (forall b, occurs (JDouble b) x -> ~ no_number b) -> exists y, snd (emit x) = true /\ parse (fst (emit x)) = Some y /\ like read_back x y.
Proof.
  intros M N. pose proof (proper_machine x M N) as P. destruct (emit_proper x P) as (t & y & E & R & LK). exists y. rewrite E. cbn [fst snd]. split; [reflexivity|].
  assert (Z : ~ In Ascii.zero t). { apply nz_not_in. replace t with (fst (emit x)) by (rewrite E; reflexivity). apply nz_emit. intros b O. destruct (M _ O) as (MD & _). apply MD. reflexivity. }
  split; [apply parse_document; [exact Z|]; exists [], t, []; rewrite app_nil_r; repeat split; [apply Forall_nil|exact R|apply Forall_nil]|].
  revert LK. intros LK. apply (like_ext reread); [exact LK|]. intros b b' O RB. destruct (P _ O) as (PD & _). destruct (PD b eq_refl) as (B & F). destruct (dtoa_real b B F) as (RT & _). unfold read_back. unfold reread in RB. apply double_of_to in RB; [|exact RT]. unfold double_of in RB. destruct (parse (dtoa b)) as [[| | |d| | |]|]; try discriminate. injection RB as ->. reflexivity.
Qed.
Lemma like_eq x : forall y, like eq x y -> y = x.
Proof.
  induction x as [x NA NO|l IH|l IH] using json_all; intros y L.
  - inversion L; subst; try reflexivity; [destruct (NA l eq_refl)|destruct (NO l eq_refl)].
  - inversion L as [| | | | |? l' AL|]; subst. f_equal. clear L. revert l' AL. induction l as [|z l IHl]; intros l' AL; inversion AL; subst; [reflexivity|]. f_equal; [apply IH; [left; reflexivity|assumption]|apply IHl; [intros w I; apply IH; right; exact I|assumption]].
  - inversion L as [| | | | | |? l' AL]; subst. f_equal. clear L. revert l' AL. induction l as [|[n z] l IHl]; intros l' AL; inversion AL; subst; [reflexivity|]. f_equal; [f_equal; apply (IH n); [left; reflexivity|assumption]|apply IHl; [intros m w I; apply (IH m); right; exact I|assumption]].
Qed.
(** With doubles that come back, in particular without doubles, the document comes back. *)
Theorem c55_same_partial x : machine x -> (forall b, occurs (JDouble b) x -> ~ no_number b /\ read_back b b) -> parse (fst (emit x)) = Some x.
Proof.
  intros M N. destruct (c55_written x M (fun b O => proj1 (N b O))) as (y & _ & P & LK). rewrite P. f_equal. apply like_eq. apply (like_ext read_back); [exact LK|]. intros b b' O RB. destruct (N b O) as (_ & RS). unfold read_back in *. congruence.
Qed.
Theorem c55_integers x : (forall b, ~ occurs (JDouble b) x) -> (forall z, occurs (JInt z) x -> fits z) -> parse (fst (emit x)) = Some x.
Proof.
  intros D I. apply c55_same_partial; [|intros b O; destruct (D b O)]. intros y O. split; [intros b ->; destruct (D b O)|intros z ->; exact (I z O)].
Qed.
(** Some doubles come back as their neighbours: 1/11, the elementary charge. *)
Theorem c55_doubles_refuted : exists b b', (0 <= b < 2 ^ 64)%Z /\ ~ no_number b /\ read_back b b' /\ b' <> b.
Proof.
  exists 4591215111030249286%Z, 4591215111030249287%Z. split; [lia|]. split; [intros (s & f & E & _ & F); lia|]. split; [vm_compute; reflexivity|lia].
Qed.
Example c55_charge : read_back 4325607224011134547 4325607224011134548. Proof. vm_compute. reflexivity. Qed.
(** An infinity or NaN anywhere: the writer stops there, and what it wrote is refused. *)
Theorem c55_no_number_refuted x b : machine x -> occurs (JDouble b) x -> no_number b -> snd (emit x) = false /\ parse (fst (emit x)) = None.
Proof.
  intros M O N. assert (B : (0 <= b < 2 ^ 64)%Z) by (destruct (M _ O) as (MD & _); apply MD; reflexivity). assert (BD : bad x) by (exists b; split; [exact O|apply finite_spec; assumption]). destruct (emit_bad x M BD) as (t & E & ST & F). rewrite E. cbn [fst snd]. split; [reflexivity|].
  unfold parse. rewrite cut_id. 2:{ apply nz_not_in. replace t with (fst (emit x)) by (rewrite E; reflexivity). apply nz_emit. intros d OD. destruct (M _ OD) as (MD & _). apply MD. reflexivity. }
  rewrite (starts_skip t ST), F; [reflexivity|lia].
Qed.
Example c55_nan : fst (emit (JObj [("a"%string, JInt 1); ("b"%string, JDouble 9221120237041090560); ("c"%string, JInt 2)])) = list_ascii_of_string "{""a"":1,""b"":". Proof. vm_compute. reflexivity. Qed.
Example c55_example : let x := JObj [("id"%string, JInt (-5)); ("params"%string, JObj [("v"%string, JArr [JDouble 4609434218613702656; JStr "a""b"; JNull; JBool true; JInt 18446744073709551615])])] in
  fst (emit x) = list_ascii_of_string "{""id"":-5,""params"":{""v"":[1.5,""a\""b"",null,true,18446744073709551615]}}" /\ parse (fst (emit x)) = Some x.
Proof. vm_compute. auto. Qed.

(** Messages: what arrives is the message that was sent, if its doubles come back. *)
Theorem c55_message_partial c m d :
  text_ok c -> is_valid m = true -> (forall id, g_id m = Some id -> (0 <= id < 2 ^ 32)%Z) -> encode c m = Ret d ->
  machine (JObj d) -> (forall b, occurs (JDouble b) (JObj d) -> ~ no_number b /\ read_back b b) ->
  exists t m', encode_text c m = Ret t /\ msg_of_text c t true = Ret m' /\ g_type m' = g_type m /\ g_val m' = g_val m /\ g_id m' = g_id m /\ g_time m' = g_time m /\ (forall q x, holds m' q x <-> holds m q x) /\ encode_text c m' = Ret t.
Proof.
  intros TO V ID E M N. destruct (c35_round_trip_partial c m d TO V ID E) as (m' & P & G1 & G2 & G3 & G4 & G5 & E'). exists (fst (emit (JObj d))), m'. unfold encode_text, msg_of_text. rewrite E, E', (c55_same_partial _ M N). auto 10.
Qed.
Example c55_message_case : exists m d, msg_of_doc a_clock a_doc true = Ret m /\ encode a_clock m = Ret d /\ is_valid m = true /\ g_id m = Some 3%Z /\ machine (JObj d) /\ (forall b, ~ occurs (JDouble b) (JObj d)) /\
  encode_text a_clock m = Ret (list_ascii_of_string "{""msg_type"":""cmd"",""msg_val"":""execute"",""id"":3,""timestamp"":""2017-06-07T12:00:05"",""params"":{""hdf"":{}}}").
Proof.
  eexists; eexists. split; [vm_compute; reflexivity|]. split; [vm_compute; reflexivity|]. split; [reflexivity|]. split; [reflexivity|].
  assert (C : forall y, occurs y a_doc -> (exists s, y = JStr s) \/ (exists l, y = JObj l) \/ y = JInt 3).
  { intros y O. unfold a_doc in O. repeat (match goal with O : occurs _ _ |- _ => inversion O; clear O; subst; [eauto| |] | O : occurs _ _ |- _ => inversion O; clear O; subst; eauto end; try match goal with I : In _ _ |- _ => cbn in I; repeat (destruct I as [I|I]; [injection I as <- <-|]); try destruct I end); eauto. }
  split; [|split; [|vm_compute; reflexivity]].
  - intros y O. destruct (C y O) as [(s & ->)|[(l & ->)| ->]]; (split; [intros b E; discriminate|intros z E; try discriminate; injection E as <-; lia]).
  - intros b O. destruct (C _ O) as [(s & E)|[(l & E)|E]]; discriminate.
Qed.
(** With an infinity or NaN it never arrives. *)
Theorem c55_message_lost_refuted c m d b : encode c m = Ret d -> machine (JObj d) -> occurs (JDouble b) (JObj d) -> no_number b -> exists t, encode_text c m = Ret t /\ msg_of_text c t true = Throw EIllegal /\ msg_of_text c t false = Throw EIllegal.
Proof.
  intros E M O N. destruct (c55_no_number_refuted _ b M O N) as (_ & P). exists (fst (emit (JObj d))). unfold encode_text, msg_of_text. rewrite E, P. auto.
Qed.

Print Assumptions c54_grammar.
Print Assumptions c54_zero.
Print Assumptions c54_one.
Print Assumptions c54_numbers_partial.
Print Assumptions c54_large_refuted.
Print Assumptions c55_written.
Print Assumptions c55_same_partial.
Print Assumptions c55_integers.
Print Assumptions c55_doubles_refuted.
Print Assumptions c55_no_number_refuted.
Print Assumptions c55_message_partial.
Print Assumptions c55_message_lost_refuted.
