(** C69: what a configuration file does at the start of the frame processor. *)
From Coq Require Import String Ascii Lia.
From Verif Require Import Base StrOrder PluginModel CtrlModel JsonModel JsonSpec JsonProofs MessageProps JsonReadModel JsonDoubleModel PrcModel PrcSpec PrcProofs PrcMoves PrcExec PrcProps AppModel AppSpec AppProofs.
Local Open Scope string_scope.
Local Open Scope list_scope.

(** The elements of an array have the effect of messages sent one after the other; the program serves requests iff all of them were understood.  Files with a single message: see below. *)
Theorem c69_array_partial {P} (v : env P) n ctrl c t l texts s s0 s1 r :
  behaved v -> processor_run v n ctrl None s0 = (s, Runs) -> t <> [] -> parse t = Some (JArr l) -> Forall2 (sent_as v) texts l ->
  processor_run v n ctrl (Some t) s0 = (s1, r) ->
  exists s2 b, submits v n c texts s s2 b /\ alike s1 s2 /\ (b = true <-> r = Runs).
Proof.
  intros B ST NE PT F R. rewrite (start_with v n ctrl t s0 s ST) in R. pose proof (each_submits v B n c l texts s s eq_refl F) as ES. unfold load_file in R. rewrite PT in R. destruct t; [congruence|].
  change (each l (fun x => configure_controller v n (msg_of_value x TCmd VConfigure true (v_now v))) s) with (each l (fun x => configure_controller v n (value_msg v x)) s) in R. destruct (each l _ s) as (sa, oa). destruct ES as (s2 & b & SU & AL & BO). exists s2, b. split; [exact SU|].
  destruct oa as [[]|[e|]|]; injection R as <- <-; (split; [exact AL|]); rewrite BO; split; congruence.
Qed.
(** Nobody gets a reply at the start. *)
Theorem c69_silent {P} (v : env P) n ctrl file s s1 r : processor_run v n ctrl file s = (s1, r) -> silent s s1.
Proof. intros H. pose proof (silent_run v n ctrl file s) as S. rewrite H in S. exact S. Qed.
(** The program starts iff its endpoint can be bound; clients reach it there. *)
Theorem c69_endpoint {P} (v : env P) n ctrl limit debug : let '(s, r) := processor_run v (S n) ctrl None (prc_init limit debug) in
  match v_bind v [] (cstr ctrl) with None => r = Runs /\ p_ctrl s = cstr ctrl /\ p_bound s = [cstr ctrl] /\ p_out s = [FBind (cstr ctrl)] | Some _ => r = Ends 1 /\ p_bound s = [] end.
Proof.
  unfold processor_run, processor_start. cbn. unfold configure_once, set_ctrl, seq, when, setup_control, str_param, lift, has_param. cbn. rewrite ?cstr_idem. destruct (v_bind v [] (cstr ctrl)); cbn; repeat split; reflexivity.
Qed.
(** A file that is empty or not JSON ends the program; what was done before stays. *)
Theorem c69_unreadable {P} (v : env P) n ctrl t s s0 : processor_run v n ctrl None s0 = (s, Runs) -> t = [] \/ parse t = None -> processor_run v n ctrl (Some t) s0 = (s, Ends 1).
Proof. intros ST D. rewrite (start_with v n ctrl t s0 s ST). unfold load_file. destruct t; [reflexivity|]. destruct D as [D|D]; [discriminate|]. rewrite D. reflexivity. Qed.
(** A file that holds a single message, or any value but an array, is ignored. *)
Theorem c69_object_ignored {P} (v : env P) n ctrl t x s s0 s1 r : processor_run v (S n) ctrl None s0 = (s, Runs) -> p_objs s = [] -> t <> [] -> parse t = Some x -> (forall l, x <> JArr l) ->
  processor_run v (S n) ctrl (Some t) s0 = (s1, r) -> r = Runs /\ alike s1 s /\ p_out s1 = p_out s.
Proof.
  intros ST OB NE PT NA R. rewrite (start_with v (S n) ctrl t s0 s ST) in R.
  assert (LF : load_file v (S n) t s = (w_reply (new_msg TIllegal VIllegal true (v_now v)) s, Ret tt)).
  { unfold load_file. destruct t; [congruence|]. rewrite PT. destruct x; try (unfold configure_controller; rewrite empty_nothing by exact OB; reflexivity). destruct (NA l). reflexivity. }
  rewrite LF in R. injection R as <- <-. split; [reflexivity|]. split; [apply reply_alike|reflexivity].
Qed.

(** The line of an error is the number of line ends before it, counted from one. *)
Theorem c69_line l p : extract_line_no l (Z.of_nat p) = (1 + Z.of_nat (lines_before l p))%Z.
Proof.
  unfold extract_line_no, lines_before. pose proof (count_lines_eq l p (S (List.length l)) [] l 1 eq_refl ltac:(lia) ltac:(left; cbn; lia)) as H. cbn [List.length] in H. rewrite Nat.sub_0_r in H. exact H.
Qed.
Definition line_end (l : list ascii) (k : nat) : Prop := nth_error l k = Some "010"%char.
Lemma last_line_end l p : exists q : Z, match last_newline 0 (firstn (Z.to_nat (Z.of_nat p + 1)) l) None with Some i => i | None => (-1)%Z end = q /\ (-1 <= q <= Z.of_nat p)%Z /\ (q = -1 \/ line_end l (Z.to_nat q))%Z /\ forall k, (q < Z.of_nat k < Z.of_nat p)%Z -> ~ line_end l k.
Proof.
  replace (Z.to_nat (Z.of_nat p + 1)) with (S p) by lia. pose proof (last_newline_spec (firstn (S p) l) 0 None) as LN. destruct (last_newline 0 (firstn (S p) l) None) as [i|].
    - destruct LN as [(a & b & E & Z & ->)|(D & _)]; [|discriminate]. assert (LA : List.length a < S p) by (pose proof (firstn_le_length (S p) l) as X; rewrite E, app_length in X; cbn in X; lia).
      eexists. split; [reflexivity|]. split; [lia|]. split.
      + right. unfold line_end. rewrite Z.add_0_l, Nat2Z.id. rewrite <- (nth_first l (S p)) by lia. rewrite E. apply nth_newline.
      + intros k K N. unfold line_end in N. rewrite <- (nth_first l (S p)) in N by lia. rewrite E, nth_error_app2 in N by lia. destruct (k - List.length a) as [|j] eqn:KJ; [lia|]. cbn in N. apply (no_newline b j Z N).
    - eexists. split; [reflexivity|]. split; [lia|]. split; [left; reflexivity|]. intros k K N. destruct LN as (_ & Z). apply (no_newline _ k Z). rewrite nth_first by lia. exact N.
Qed.
(** The excerpt shown with an error, when a line end follows and enough text precedes: from at least [limit] characters before the error, up to the line end or [limit] characters after. *)
Theorem c69_excerpt_partial l p limit f : (Z.of_nat (List.length l) < 2 ^ 31)%Z -> 1 <= limit <= S p -> p <= f -> line_end l f -> (forall k, p <= k < f -> ~ line_end l k) ->
  exists t a, extract_substr_at_pos l (Z.of_nat p) (Z.of_nat limit) = Ret t /\ part_of_text l a (Nat.min (p + limit) f) t /\ a + limit <= S p /\
    (a + limit = S p \/ ((a = 0 \/ line_end l (a - 1)) /\ forall k, a <= k < p -> ~ line_end l k)).
Proof.
  intros LL LM LE EF NF. assert (FL : f < List.length l) by (apply nth_error_Some; unfold line_end in EF; congruence).
  destruct (last_line_end l p) as (q & EQ & QB & QE & QN). unfold extract_substr_at_pos. rewrite EQ, (newline_from_at l p f LE EF) by (intros k K; apply NF; exact K). clear EQ.
  set (pr := Z.min (Z.of_nat p - Z.of_nat limit) q). assert (PR : (-1 <= pr)%Z) by (unfold pr; lia). assert (PL : (pr <= Z.of_nat p - Z.of_nat limit)%Z) by (unfold pr; lia). assert (PQ : pr = (Z.of_nat p - Z.of_nat limit)%Z \/ pr = q) by (unfold pr; lia). assert (PQ' : (pr <= q)%Z) by (unfold pr; lia). clearbody pr. set (fo := Z.min (Z.of_nat p + Z.of_nat limit) (Z.of_nat f)).
  assert (FO : fo = Z.of_nat (Nat.min (p + limit) f)) by (unfold fo; lia). clearbody fo. change (2 ^ 31)%Z with 2147483648%Z in LL. change (2 ^ 64)%Z with 18446744073709551616%Z. rewrite !Z.mod_small by lia. replace (Z.of_nat (List.length l) <? pr + 1)%Z with false by (symmetry; apply Z.ltb_ge; lia).
  eexists. exists (Z.to_nat (pr + 1)). split; [reflexivity|]. split; [|split; [lia|]].
  - exists (firstn (Z.to_nat (pr + 1)) l), (skipn (Z.to_nat (fo - pr - 1)) (skipn (Z.to_nat (pr + 1)) l)). split; [rewrite (firstn_skipn (Z.to_nat (fo - pr - 1))), firstn_skipn; reflexivity|]. split; [rewrite firstn_length; lia|]. rewrite app_length, !firstn_length, skipn_length. lia.
  - destruct PQ as [->|PQ]; [left; lia|]. subst q. right. split.
    + destruct QE as [->|QE]; [left; reflexivity|]. destruct (Z.eq_dec pr (-1)) as [->|N]; [left; reflexivity|]. right. replace (Z.to_nat (pr + 1) - 1) with (Z.to_nat pr) by lia. exact QE.
    + intros k K. apply QN. lia.
Qed.
(** No line end after the error: all the rest of the text. *)
Theorem c69_excerpt_rest l p limit : (Z.of_nat (List.length l) < 2 ^ 31)%Z -> 1 <= limit <= S p -> p <= List.length l -> (forall k, p <= k -> ~ line_end l k) ->
  exists t a, extract_substr_at_pos l (Z.of_nat p) (Z.of_nat limit) = Ret t /\ part_of_text l a (List.length l) t /\ a + limit <= S p.
Proof.
  intros LL LM LE NF. destruct (last_line_end l p) as (q & EQ & QB & _). unfold extract_substr_at_pos. rewrite EQ, newline_from_none by (intros k K; apply NF; exact K). clear EQ.
  set (pr := Z.min (Z.of_nat p - Z.of_nat limit) q). assert (PR : (-1 <= pr)%Z) by (unfold pr; lia). assert (PL : (pr <= Z.of_nat p - Z.of_nat limit)%Z) by (unfold pr; lia). clearbody pr. replace (Z.min (Z.of_nat p + Z.of_nat limit) (-1)) with (-1)%Z by lia.
  change (2 ^ 31)%Z with 2147483648%Z in LL. change (2 ^ 64)%Z with 18446744073709551616%Z. rewrite (Z.mod_small (pr + 1)) by lia. replace (Z.of_nat (List.length l) <? pr + 1)%Z with false by (symmetry; apply Z.ltb_ge; lia).
  assert (C : ((-1 - pr - 1) mod 18446744073709551616 = 18446744073709551616 - 2 - pr)%Z) by (symmetry; apply (Z.mod_unique _ _ (-1)); lia). rewrite C. eexists. exists (Z.to_nat (pr + 1)). split; [reflexivity|].
  rewrite firstn_all2 by (rewrite skipn_length; lia). split; [|lia]. exists (firstn (Z.to_nat (pr + 1)) l), []. rewrite app_nil_r, firstn_skipn. split; [reflexivity|]. split; [rewrite firstn_length; lia|reflexivity].
Qed.
(** Errors in the first characters: the excerpt cannot be taken (std::out_of_range), the message with the line is lost. *)
Theorem c69_excerpt_lost l p limit : (Z.of_nat (List.length l) < 2 ^ 31)%Z -> (Z.of_nat limit < 2 ^ 31)%Z -> S p < limit -> extract_substr_at_pos l (Z.of_nat p) (Z.of_nat limit) = Throw tt.
Proof.
  intros LL LM L1. destruct (last_line_end l p) as (q & EQ & QB & _). unfold extract_substr_at_pos. rewrite EQ. clear EQ. replace (Z.min (Z.of_nat p - Z.of_nat limit) q) with (Z.of_nat p - Z.of_nat limit)%Z by lia.
  change (2 ^ 31)%Z with 2147483648%Z in LL, LM. change (2 ^ 64)%Z with 18446744073709551616%Z.
  assert (C : ((Z.of_nat p - Z.of_nat limit + 1) mod 18446744073709551616 = 18446744073709551616 + Z.of_nat p - Z.of_nat limit + 1)%Z) by (symmetry; apply (Z.mod_unique _ _ (-1)); lia). rewrite C.
  replace (Z.of_nat (List.length l) <? _)%Z with true by (symmetry; apply Z.ltb_lt; lia). reflexivity.
Qed.
(** An error that the excerpt is lost for, one that is shown with the rest of the text, and one that is shown with the end of the line before *)
Theorem c69_excerpt_refuted :
  (let l := list_ascii_of_string "{""frames"" 10}" in parse l = None /\ extract_substr_at_pos l 10 15 = Throw tt) /\
  (let l := list_ascii_of_string "[{""plugin"":{""name"" 10}},{""frames"":10},{""debug_level"":3}]" in parse l = None /\ exists x t, extract_substr_at_pos l 19 15 = Ret t /\ l = x ++ t /\ List.length x <= 5) /\
  (let l := list_ascii_of_string "[{""frames"":10}," ++ ["010"%char] ++ list_ascii_of_string " {""a"" 1}" ++ ["010"%char] ++ list_ascii_of_string "]" in parse l = None /\ extract_substr_at_pos l 22 15 = Ret (list_ascii_of_string "s"":10}," ++ ["010"%char] ++ list_ascii_of_string " {""a"" 1}")).
Proof.
  split; [vm_compute; split; reflexivity|]. split; [|vm_compute; split; reflexivity]. intros l. split; [vm_compute; reflexivity|].
  destruct (c69_excerpt_rest l 19 15) as (t & a & E & (x & y & EL & LX & LY) & LA); [vm_compute; reflexivity|lia|cbn; lia| |].
  - intros k _ N. apply nth_error_In in N. vm_compute in N. intuition discriminate.
  - exists x, t. split; [exact E|]. pose proof (f_equal (@List.length ascii) EL) as LL. rewrite app_assoc, (app_length (x ++ t) y) in LL. destruct y; [|cbn [List.length] in LL; lia]. rewrite app_nil_r in EL. split; [exact EL|]. rewrite LX. clear - LA. lia.
Qed.

(** ** Cases *)
Definition addr := "tcp://0.0.0.0:5004".
Definition started_up : prc noted := fst (processor_run note_env 4 addr None fresh).
Definition load_dummy := "{""plugin"":{""load"":{""name"":""Dummy"",""index"":""hdf"",""library"":""libDummy.so""}}}".
Definition no_library := "{""plugin"":{""load"":{""name"":""Other"",""index"":""other"",""library"":""libOther.so""}}}".
(** A plugin is loaded, another one is not there, the first one is configured. *)
Example c69_array_case : let t := list_ascii_of_string ("[" ++ load_dummy ++ "," ++ no_library ++ ",{""hdf"":{""a"":1}}]")%string in exists l s1,
  processor_run note_env 4 addr None fresh = (started_up, Runs) /\ parse t = Some (JArr l) /\ Forall2 (sent_as note_env) [to_configure load_dummy; to_configure no_library; to_configure "{""hdf"":{""a"":1}}"] l /\
  processor_run note_env 4 addr (Some t) fresh = (s1, Runs) /\ p_objs s1 = [("hdf", [JObj [("a", JInt 1)]])].
Proof.
  intros t. eexists. eexists. split; [vm_compute; reflexivity|]. split; [vm_compute; reflexivity|]. split; [repeat constructor; (eexists; split; [vm_compute; reflexivity|]; split; [reflexivity|]; split; [reflexivity|]; apply params_hold; reflexivity)|]. split; [vm_compute; reflexivity|reflexivity].
Qed.
(** A single message is ignored: the same message sent has an effect, in an array too. *)
Theorem c69_object_refuted : let x := "{""frames"":10}" in
  (let '(s, r) := processor_run note_env 4 addr (Some (list_ascii_of_string x)) fresh in r = Runs /\ p_limit s = 0%Z) /\
  p_limit (run 4 [x] started_up) = 10%Z /\
  (let '(s, r) := processor_run note_env 4 addr (Some (list_ascii_of_string ("[" ++ x ++ "]")%string)) fresh in r = Runs /\ p_limit s = 10%Z).
Proof. vm_compute. repeat split; reflexivity. Qed.
(** A value of the wrong type in the file ends the program; sent by a client it does not keep the next message from having its effect. *)
Theorem c69_wrong_type_refuted : let bad := "{""frames"":""ten""}" in let good := "{""frames"":10}" in
  (let '(s, r) := processor_run note_env 4 addr (Some (list_ascii_of_string ("[" ++ bad ++ "," ++ good ++ "]")%string)) fresh in r = Ends 1 /\ p_limit s = 0%Z) /\ p_limit (run 4 [bad; good] started_up) = 10%Z.
Proof. vm_compute. repeat split; reflexivity. Qed.
(** Hypotheses of the other theorems: a text with an error in its second line, a value that is not an array, an endpoint that is bound *)
Example c69_other_cases : (let l := list_ascii_of_string "[{""frames"":10}," ++ ["010"%char] ++ list_ascii_of_string " {""a"" 1}" ++ ["010"%char] ++ list_ascii_of_string "]" in
    extract_line_no l 22 = 2%Z /\ parse l = None /\ line_end l 24 /\ (forall k, 22 <= k < 24 -> ~ line_end l k) /\ (forall k, 25 <= k -> ~ line_end l k)) /\
  parse (list_ascii_of_string "{""frames"":10}") = Some (JObj [("frames", JInt 10)]) /\ p_objs started_up = [] /\ v_bind note_env [] addr = None /\ snd (processor_run note_env 4 addr None started_up) = Ends 1.
Proof.
  split; [|vm_compute; repeat split; reflexivity]. intros l. split; [reflexivity|]. split; [vm_compute; reflexivity|]. split; [reflexivity|]. split; intros k K; unfold line_end, l.
  - destruct (Nat.eq_dec k 22) as [->|]; [discriminate|]. replace k with 23 by lia. discriminate.
  - destruct (Nat.eq_dec k 25) as [->|]; [discriminate|]. intros E. assert (k < 26) by (apply (nth_error_Some (list_ascii_of_string "[{""frames"":10}," ++ ["010"%char] ++ list_ascii_of_string " {""a"" 1}" ++ ["010"%char] ++ list_ascii_of_string "]")); rewrite E; discriminate). lia.
Qed.

Print Assumptions c69_array_partial.
Print Assumptions c69_silent.
Print Assumptions c69_endpoint.
Print Assumptions c69_unreadable.
Print Assumptions c69_object_ignored.
Print Assumptions c69_line.
Print Assumptions c69_excerpt_partial.
Print Assumptions c69_excerpt_rest.
Print Assumptions c69_excerpt_lost.
Print Assumptions c69_excerpt_refuted.
Print Assumptions c69_object_refuted.
Print Assumptions c69_wrong_type_refuted.
