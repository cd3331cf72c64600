(** C77: the command lines of the receiver and the processor. *)
From Coq Require Import String Ascii.
From Verif Require Import Base OptModel OptSpec OptProofs OptMain.
Local Open Scope string_scope.
Local Open Scope list_scope.

(** ** Starting *)

(** Options in any order, each at most once, long, abbreviated or short, with the value in the same or the next argument: the application runs, with exactly what is given and the defaults for the rest.  Missing: values of their own that are short options or end in their first =; grouped requests; the word --. *)
Theorem c77_starts_partial ds endpoint log_ok l :
  application ds endpoint -> Forall proper l -> NoDup (subjects l) -> numbers_fine l -> ~ asks l -> (forall b f, gives l Log f -> log_ok b f = true) ->
  exists u, (forall app_run, main ds log_ok app_run (line l) = app_run u) /\
    set_number l Debug 0 (u_debug u) /\ set_number l Io 1 (u_io u) /\ set_to l Ctrl endpoint (u_ctrl u) /\ set_to l Config "" (u_config u) /\
    ((exists b f, gives l Log f /\ u_log u = Some (b, f) /\ (b = true <-> ends_with f ".xml")) \/ (forall f, ~ gives l Log f) /\ u_log u = None).
Proof.
  intros Ha Hp Hnd Hnum Hq Hlog. destruct (parse_starts ds endpoint log_ok l Ha Hp Hnd Hnum Hq Hlog) as (u & E & H). exists u. split; [|exact H].
  intros app_run. unfold main. rewrite E. reflexivity.
Qed.
Lemma own_ex w : (match w with String "-" _ => false | _ => true end) = true -> own_word w.
Proof.
  intros H. split.
  - cbn. intros [X|[X|[X|[X|[X|[]]]]]]; subst; discriminate H.
  - intros (p & _ & ->). discriminate H.
Qed.
Lemma names_ex p o : (p = long_name o \/ o = Debug /\ p = "deb" \/ o = Io /\ p = "i") -> names p o.
Proof.
  intros H. assert (Q : begins p (long_name o)).
  { destruct H as [->|[(-> & ->)|(-> & ->)]]; [exists ""; rewrite app_nil_s; reflexivity|exists "ug-level"; reflexivity|exists "o-threads"; reflexivity]. }
  split; [destruct H as [->|[(-> & ->)|(-> & ->)]]; [destruct o|..]; discriminate|]. split; [exact Q|].
  intros s Hs (r & E). destruct H as [->|[(-> & ->)|(-> & ->)]]; [destruct o|..]; cbn in Hs; repeat (destruct Hs as [<-|Hs]; [cbn in *; first [reflexivity|discriminate E]|]); destruct Hs.
Qed.
Definition line_ex : list item := [Give Debug (Next "deb") "3"; Give Config ShortJoined "rx.json"; Stray "later"; Give Ctrl (Equals "ctrl") "tcp://*:6000"; Give Log ShortNext "log.xml"].
Lemma gives_ex o w : gives line_ex o w -> (o, w) = (Debug, "3") \/ (o, w) = (Config, "rx.json") \/ (o, w) = (Ctrl, "tcp://*:6000") \/ (o, w) = (Log, "log.xml").
Proof. intros (h & H). cbn in H. destruct H as [[= <- _ <-]|[[= <- _ <-]|[[=]|[[= <- _ <-]|[[= <- _ <-]|[]]]]]]; tauto. Qed.
Example c77_starts_ex :
  Forall proper line_ex /\ NoDup (subjects line_ex) /\ numbers_fine line_ex /\ ~ asks line_ex /\
  line line_ex = ["--deb"; "3"; "-crx.json"; "later"; "--ctrl=tcp://*:6000"; "-l"; "log.xml"] /\
  parse_arguments receiver_options (fun _ _ => true) (line line_ex) = Continues (Setup 3 (Some (true, "log.xml")) 1 "tcp://*:6000" "rx.json").
Proof.
  split; [|split; [|split; [|split; [|split; reflexivity]]]].
  - apply Forall_cons; [split; [apply names_ex; cbn; tauto|apply own_ex; reflexivity]|]. apply Forall_cons; [split; discriminate|].
    apply Forall_cons; [right; intros (r & E); discriminate E|]. apply Forall_cons; [split; [apply names_ex; cbn; tauto|discriminate]|].
    apply Forall_cons; [split; [discriminate|apply own_ex; reflexivity]|apply Forall_nil].
  - repeat constructor; cbn; intuition discriminate.
  - intros o w Ho H. destruct (gives_ex o w H) as [[= -> ->]|[[= -> ->]|[[= -> ->]|[= -> ->]]]]; try (destruct Ho; discriminate). exists 3%Z. apply un_plain; [|lia]. exact (dec_one 3 ltac:(lia)).
  - intros (v & s & H). cbn in H. intuition discriminate.
Qed.

(** A request for help or the version ends the program with 0, whatever else is asked. *)
Theorem c77_requests ds endpoint log_ok l app_run : application ds endpoint -> Forall proper l -> NoDup (subjects l) -> numbers_fine l -> asks l -> main ds log_ok app_run (line l) = 0%Z.
Proof.
  intros Ha Hp Hnd Hnum (v & s & Hq). pose proof (app_table ds endpoint Ha) as Ht. destruct (run_ok ds l Ht Hp) as (ps & H2 & E).
  destruct (fine_stored ds l ps Ht H2 Hnd Hnum) as (m & Em). destruct (store_stored ds l ps m Ht H2 Em) as (Hs & _ & _).
  unfold main, parse_arguments. rewrite E, Em. cbv zeta. rewrite !defaults_at. pose proof (st_ask l m Hs v s Hq) as X.
  destruct v; cbn iota in X; rewrite X; [|reflexivity]. destruct (match m "help" with Some v => Some v | None => dlookup ds "help" end); reflexivity.
Qed.
Example c77_requests_ex : asks [Give Debug (Next "debug-level") "1"; Ask false true] /\ line [Give Debug (Next "debug-level") "1"; Ask false true] = ["--debug-level"; "1"; "-h"] /\
  main receiver_options (fun _ _ => true) (fun _ => 7%Z) ["--debug-level"; "1"; "-h"] = 0%Z /\ main receiver_options (fun _ _ => true) (fun _ => 7%Z) ["--debug-level"; "1"] = 7%Z.
Proof. split; [exists false, true; cbn; tauto|]. repeat split. Qed.

(** ** Refusing *)

(** The same option twice: 1, and nothing runs. *)
Theorem c77_twice ds endpoint log_ok l app_run : application ds endpoint -> Forall proper l -> ~ NoDup (subjects l) -> main ds log_ok app_run (line l) = 1%Z.
Proof.
  intros Ha Hp Hnd. pose proof (app_table ds endpoint Ha) as Ht. destruct (run_ok ds l Ht Hp) as (ps & H2 & E).
  unfold main, parse_arguments. rewrite E. destruct (store ds (fun _ => false) ps vempty) as [m [|]] eqn:Em; [|reflexivity].
  exfalso. apply Hnd. exact (proj1 (proj2 (store_stored ds l ps m Ht H2 Em))).
Qed.
Example c77_twice_ex : ~ NoDup (subjects [Give Config ShortNext "a"; Give Config (Equals "config") "a"]) /\ main processor_options (fun _ _ => true) (fun _ => 7%Z) ["-c"; "a"; "--config=a"] = 1%Z.
Proof. split; [intros H; inversion H as [|? ? X _]; apply X; left; reflexivity|reflexivity]. Qed.

(** A number that cannot be read *)
Theorem c77_number ds endpoint log_ok l o w app_run : application ds endpoint -> Forall proper l -> numeric o -> gives l o w -> (forall n, ~ unsigned w n) -> main ds log_ok app_run (line l) = 1%Z.
Proof.
  intros Ha Hp Ho Hw Hn. pose proof (app_table ds endpoint Ha) as Ht. destruct (run_ok ds l Ht Hp) as (ps & H2 & E).
  unfold main, parse_arguments. rewrite E. destruct (store ds (fun _ => false) ps vempty) as [m [|]] eqn:Em; [|reflexivity].
  exfalso. destruct (proj2 (proj2 (store_stored ds l ps m Ht H2 Em)) o w Ho Hw) as (n & X). exact (Hn n X).
Qed.
Example c77_number_ex : (forall n, ~ unsigned "2x" n) /\ main receiver_options (fun _ _ => true) (fun _ => 7%Z) ["--io-threads"; "2x"] = 1%Z /\
  (forall n, ~ unsigned "4294967296" n) /\ main receiver_options (fun _ _ => true) (fun _ => 7%Z) ["--io-threads"; "4294967296"] = 1%Z.
Proof. split; [intros n H; apply cast_iff in H; discriminate H|]. split; [reflexivity|]. split; [intros n H; apply cast_iff in H; discriminate H|reflexivity]. Qed.

(** An option that does not exist, whatever follows *)
Theorem c77_unknown ds endpoint log_ok l t rest app_run : application ds endpoint -> Forall proper l -> unknown t -> main ds log_ok app_run (line l ++ t :: rest) = 1%Z.
Proof.
  intros Ha Hp Hu. pose proof (app_table ds endpoint Ha) as Ht. unfold main, parse_arguments.
  rewrite (run_bad ds l (t :: rest) Ht Hp ltac:(discriminate)); [reflexivity|]. intros f. apply unknown_none; assumption.
Qed.
Example c77_unknown_ex : unknown "--ready=2" /\ main processor_options (fun _ _ => true) (fun _ => 7%Z) ["-d"; "2"; "--ready=2"; "x"] = 1%Z.
Proof.
  split; [|reflexivity]. apply (unk_equals "ready" "2"); [discriminate|cbn; intuition discriminate|cbn; repeat split; discriminate|].
  intros s H (r & E). cbn in H. repeat (destruct H as [<-|H]; [discriminate E|]). destruct H.
Qed.

(** An abbreviation that fits two options, and a request with a value *)
Theorem c77_ambiguous ds endpoint log_ok l p s1 s2 t rest app_run : application ds endpoint -> Forall proper l -> p <> "" -> In s1 long_names -> In s2 long_names -> s1 <> s2 -> begins p s1 -> begins p s2 ->
  t = ("--" ++ p)%string \/ (exists w, t = ("--" ++ p ++ "=" ++ w)%string) -> main ds log_ok app_run (line l ++ t :: rest) = 1%Z.
Proof.
  intros Ha Hp Hne H1 H2 N B1 B2 Ht'. pose proof (app_table ds endpoint Ha) as Ht. rewrite (ambiguous_c p s1 s2 Hne H1 H2 N B1 B2) in Ht'. unfold main, parse_arguments.
  rewrite (run_bad ds l (t :: rest) Ht Hp ltac:(discriminate)); [reflexivity|]. intros f. apply ambiguous_none; assumption.
Qed.
Theorem c77_request_value ds endpoint log_ok l w t rest app_run : application ds endpoint -> Forall proper l -> t = ("--help=" ++ w)%string \/ t = ("--version=" ++ w)%string -> main ds log_ok app_run (line l ++ t :: rest) = 1%Z.
Proof.
  intros Ha Hp Ht'. pose proof (app_table ds endpoint Ha) as Ht. unfold main, parse_arguments.
  rewrite (run_bad ds l (t :: rest) Ht Hp ltac:(discriminate)); [reflexivity|]. intros f. apply flag_value_none; [exact Ht|]. exists w. exact Ht'.
Qed.
Example c77_ambiguous_ex : begins "c" "ctrl" /\ begins "c" "config" /\ main receiver_options (fun _ _ => true) (fun _ => 7%Z) ["-d1"; "--c"; "x"] = 1%Z /\ main receiver_options (fun _ _ => true) (fun _ => 7%Z) ["--co"; "x"] = 7%Z /\
  main receiver_options (fun _ _ => true) (fun _ => 7%Z) ["--help=x"] = 1%Z.
Proof. split; [exists "trl"; reflexivity|]. split; [exists "onfig"; reflexivity|]. repeat split. Qed.

(** A value that is missing: at the end, or before a short option *)
Theorem c77_missing ds endpoint log_ok l t rest app_run : application ds endpoint -> Forall proper l -> wants_value t -> rest = [] \/ (exists s r, In s short_words /\ rest = s :: r) ->
  main ds log_ok app_run (line l ++ t :: rest) = 1%Z.
Proof.
  intros Ha Hp Hu Hr. pose proof (app_table ds endpoint Ha) as Ht. unfold main, parse_arguments.
  rewrite (run_bad ds l (t :: rest) Ht Hp ltac:(discriminate)); [reflexivity|]. intros f. apply missing_none; assumption.
Qed.
Example c77_missing_ex : wants_value "--config" /\ main receiver_options (fun _ _ => true) (fun _ => 7%Z) ["--config"; "-d"; "1"] = 1%Z.
Proof. split; [apply (wv_long "config" Config); apply names_ex; left; reflexivity|reflexivity]. Qed.

(** A configuration of logging that log4cxx refuses *)
Theorem c77_logging ds endpoint log_ok l f app_run : application ds endpoint -> Forall proper l -> NoDup (subjects l) -> numbers_fine l -> ~ asks l -> gives l Log f -> (forall b, log_ok b f = false) ->
  main ds log_ok app_run (line l) = 1%Z.
Proof.
  intros Ha Hp Hnd Hnum Hq Hf Hlog. pose proof (app_table ds endpoint Ha) as Ht. destruct (run_ok ds l Ht Hp) as (ps & H2 & E).
  destruct (fine_stored ds l ps Ht H2 Hnd Hnum) as (m & Em). destruct (store_stored ds l ps m Ht H2 Em) as (Hs & _ & _).
  unfold main, parse_arguments. rewrite E, Em. destruct (st_quiet l m Hs Hq) as (Qv & Qh). cbv zeta. unfold str. rewrite !defaults_at, Qv, Qh.
  pose proof (st_give l m Hs Log f Hf) as X. cbn [long_name] in X. rewrite X, Hlog.
  assert (D : dlookup ds "help" = None /\ dlookup ds "version" = None) by (destruct Ha as [(-> & _)|(-> & _)]; split; reflexivity). destruct D as (-> & ->). reflexivity.
Qed.
Example c77_logging_ex : main receiver_options (fun xml _ => xml) (fun _ => 7%Z) ["-llog.cfg"] = 1%Z /\ main receiver_options (fun xml _ => xml) (fun _ => 7%Z) ["-llog.xml"] = 7%Z.
Proof. split; reflexivity. Qed.

(** ** What a user might expect and does not get *)

(** Words that are no options are passed over: the file of the configuration without its option is never read. *)
Theorem c77_strays_refuted : ~ forall ds endpoint w, application ds endpoint -> no_dash w -> main ds (fun _ _ => true) (fun _ => 7%Z) [w] = 1%Z.
Proof. intros H. discriminate (H receiver_options "tcp://127.0.0.1:5000" "config.json" ltac:(left; split; reflexivity) ltac:(right; intros (r & E); discriminate E)). Qed.
(** A missing value before a long option is not noticed: the option becomes the value. *)
Theorem c77_swallowed_refuted : ~ forall ds endpoint t r s, application ds endpoint -> wants_value t -> In s long_names -> main ds (fun _ _ => true) (fun _ => 7%Z) (t :: ("--" ++ s)%string :: r) = 1%Z.
Proof.
  intros H. discriminate (H receiver_options "tcp://127.0.0.1:5000" "--config" ["tcp://*:6000"] "ctrl" ltac:(left; split; reflexivity) ltac:(apply (wv_long "config" Config); apply names_ex; left; reflexivity) ltac:(cbn; tauto)).
Qed.
(** A negative number of threads is not refused: it becomes a very large one. *)
Theorem c77_negative_refuted : ~ forall ds endpoint s n, application ds endpoint -> decimal s n -> (0 < n)%Z -> main ds (fun _ _ => true) (fun _ => 7%Z) ["--io-threads"; ("-" ++ s)%string] = 1%Z.
Proof. intros H. discriminate (H receiver_options "tcp://127.0.0.1:5000" "1" 1%Z ltac:(left; split; reflexivity) (dec_one 1 ltac:(lia)) ltac:(lia)). Qed.
Example c77_refuted_ex :
  parse_arguments receiver_options (fun _ _ => true) ["config.json"] = Continues (Setup 0 None 1 "tcp://127.0.0.1:5000" "") /\
  parse_arguments receiver_options (fun _ _ => true) ["--config"; "--ctrl"; "tcp://*:6000"] = Continues (Setup 0 None 1 "tcp://127.0.0.1:5000" "--ctrl") /\
  parse_arguments processor_options (fun _ _ => true) ["--io-threads"; "-1"] = Continues (Setup 0 None 4294967295 "tcp://127.0.0.1:5004" "").
Proof. repeat split. Qed.

Print Assumptions c77_starts_partial.
Print Assumptions c77_requests.
Print Assumptions c77_twice.
Print Assumptions c77_number.
Print Assumptions c77_unknown.
Print Assumptions c77_ambiguous.
Print Assumptions c77_request_value.
Print Assumptions c77_missing.
Print Assumptions c77_logging.
Print Assumptions c77_strays_refuted.
Print Assumptions c77_swallowed_refuted.
Print Assumptions c77_negative_refuted.
