(** Proofs for C77: the outcome of a command line. *)
From Coq Require Import String Ascii.
From Verif Require Import Base OptModel OptSpec OptProofs.
Local Open Scope string_scope.
Local Open Scope list_scope.

Fixpoint dlookup (ds : list odesc) (k : string) : option oval :=
  match ds with [] => None | d :: t => if String.eqb k (o_long d) then match o_def d with Some v => Some v | None => dlookup t k end else dlookup t k end.
Lemma defaults_at ds : forall m k, defaults ds m k = match m k with Some v => Some v | None => dlookup ds k end.
Proof.
  induction ds as [|d t IH]; intros m k; cbn [defaults dlookup]; [destruct (m k); reflexivity|].
  rewrite IH. destruct (String.eqb_spec k (o_long d)) as [->|N].
  - destruct (m (o_long d)) eqn:E; destruct (o_def d) eqn:D; rewrite ?E; try reflexivity. unfold vset. rewrite String.eqb_refl. reflexivity.
  - destruct (m (o_long d)) eqn:E; destruct (o_def d) eqn:D; try reflexivity. unfold vset. destruct (String.eqb_spec k (o_long d)); [contradiction|reflexivity].
Qed.

Lemma substring_zero s : substring 0 (String.length s) s = s.
Proof. induction s as [|c s IH]; [reflexivity|]. cbn. rewrite IH. reflexivity. Qed.
Lemma substring_app p q : substring (String.length p) (String.length q) (p ++ q) = q.
Proof. induction p as [|c p IH]; [apply substring_zero|exact IH]. Qed.
Lemma cut_at n : forall s, (n <= String.length s)%nat -> exists p, String.length p = n /\ s = (p ++ substring n (String.length s - n) s)%string.
Proof.
  induction n as [|n IH]; intros s H.
  - exists "". split; [reflexivity|]. rewrite Nat.sub_0_r, substring_zero. reflexivity.
  - destruct s as [|c s]; [cbn in H; lia|]. cbn in H. destruct (IH s ltac:(lia)) as (p & Hp & E). exists (String c p). split; [cbn; rewrite Hp; reflexivity|]. cbn. rewrite E at 1. reflexivity.
Qed.
Lemma length_app_s p q : String.length (p ++ q) = (String.length p + String.length q)%nat.
Proof. induction p as [|c p IH]; [reflexivity|]. cbn. rewrite IH. reflexivity. Qed.
Lemma has_suffix_iff s q : has_suffix s q = true <-> ends_with s q.
Proof.
  unfold has_suffix, ends_with. split.
  - intros H. apply andb_true_iff in H as (H1 & H2). apply Nat.leb_le in H1. apply String.eqb_eq in H2.
    destruct (cut_at (String.length s - String.length q) s ltac:(lia)) as (p & _ & E). exists p. rewrite <- H2.
    replace (String.length s - (String.length s - String.length q))%nat with (String.length q) in E by lia. exact E.
  - intros (p & ->). rewrite length_app_s. apply andb_true_iff. split; [apply Nat.leb_le; lia|].
    replace (String.length p + String.length q - String.length q)%nat with (String.length p) by lia. rewrite substring_app. apply String.eqb_refl.
Qed.

Lemma gives_dec l o : (exists w, gives l o w) \/ forall w, ~ gives l o w.
Proof.
  induction l as [|i l IH]; [right; intros w (h & [])|].
  destruct i as [o' h' w'|v s|w'].
  2,3: destruct IH as [(w & h & H)|H]; [left; exists w, h; right; exact H|right; intros w (h & [X|X]); [discriminate|exact (H w (ex_intro _ h X))]].
  assert (D : o' = o \/ o' <> o) by (destruct o, o'; ((left; reflexivity) || (right; discriminate))).
  destruct D as [->|D]; [left; exists w', h'; left; reflexivity|].
  destruct IH as [(w & h & H)|H]; [left; exists w, h; right; exact H|right; intros w (h & [X|X]); [injection X as -> _ _; apply D; reflexivity|exact (H w (ex_intro _ h X))]].
Qed.
Lemma key_give o h w : key_of (Give o h w) <> "".
Proof. destruct o; discriminate. Qed.

(** The variables after a line that can be stored *)
Record stored (l : list item) (m : vmap) : Prop := {
  st_give : forall o w, gives l o w -> m (long_name o) = match o with Debug | Io => option_map VNum (cast_unsigned w) | _ => Some (VStr w) end;
  st_none : forall o, (forall w, ~ gives l o w) -> m (long_name o) = None;
  st_ask : forall v s, In (Ask v s) l -> m (if v then "version" else "help") = Some VFlag;
  st_quiet : ~ asks l -> m "version" = None /\ m "help" = None }.

Lemma run_ok ds l : table ds -> Forall proper l -> exists ps, Forall2 is_of l ps /\ run (List.length (line l)) ds false (line l) = Some ps.
Proof.
  intros Ht Hp. destruct (run_line ds l Ht Hp (List.length (line l)) [] ltac:(rewrite app_nil_r; lia)) as (f & ps & _ & H2 & E).
  rewrite app_nil_r in E. exists ps. split; [exact H2|]. rewrite E. destruct f; cbn; rewrite app_nil_r; reflexivity.
Qed.
Lemma run_bad ds l rest : table ds -> Forall proper l -> rest <> [] -> (forall f, run (S f) ds false rest = None) -> run (List.length (line l ++ rest)) ds false (line l ++ rest) = None.
Proof.
  intros Ht Hp Hr Hn. destruct (run_line ds l Ht Hp _ rest (Nat.le_refl _)) as (f & ps & Hf & _ & E). rewrite E.
  destruct rest as [|t rest]; [contradiction|]. cbn [List.length] in Hf. destruct f as [|f]; [lia|]. rewrite Hn. reflexivity.
Qed.

Lemma store_stored ds l ps m : table ds -> Forall2 is_of l ps -> store ds (fun _ => false) ps vempty = (m, true) -> stored l m /\ NoDup (subjects l) /\ numbers_fine l.
Proof.
  intros Ht H2 E. destruct (store_true ds l ps Ht H2 vempty m E) as (Hnd & Hin & Hout). split; [|split; [exact Hnd|]].
  - constructor.
    + intros o w (h & H). destruct (Hin _ H (key_give o h w)) as (_ & _ & X). exact X.
    + intros o H. change None with (vempty (long_name o)). apply Hout. intros i Hi. left. destruct i as [o' h w|v s|w].
      * intros X. assert (o' = o) as -> by (destruct o, o'; try discriminate; reflexivity). exact (H w (ex_intro _ h Hi)).
      * destruct v, o; discriminate.
      * destruct o; discriminate.
    + intros v s H. destruct (Hin _ H ltac:(destruct v; discriminate)) as (_ & _ & X). exact X.
    + intros H. split.
      * change None with (vempty "version"). apply Hout. intros i Hi. left. destruct i as [o' h w|v s|w]; [destruct o'; discriminate|exfalso; apply H; exists v, s; exact Hi|discriminate].
      * change None with (vempty "help"). apply Hout. intros i Hi. left. destruct i as [o' h w|v s|w]; [destruct o'; discriminate|exfalso; apply H; exists v, s; exact Hi|discriminate].
  - intros o w Hn (h & H). destruct (Hin _ H (key_give o h w)) as (_ & X & _). cbn in X.
    destruct (cast_unsigned w) as [n|] eqn:C; [exists n; apply cast_iff; exact C|]. destruct Hn as [-> | ->]; exfalso; apply X; reflexivity.
Qed.
Lemma fine_stored ds l ps : table ds -> Forall2 is_of l ps -> NoDup (subjects l) -> numbers_fine l -> exists m, store ds (fun _ => false) ps vempty = (m, true).
Proof.
  intros Ht H2 Hnd Hnum. apply (store_fine ds l ps Ht H2 Hnd); [|reflexivity].
  intros i Hi K. destruct i as [o h w|v s|w]; [|discriminate|exfalso; apply K; reflexivity].
  cbn. destruct o; try discriminate.
  - destruct (Hnum Debug w (or_introl eq_refl) (ex_intro _ h Hi)) as (n & Hn). apply cast_iff in Hn. rewrite Hn. discriminate.
  - destruct (Hnum Io w (or_intror eq_refl) (ex_intro _ h Hi)) as (n & Hn). apply cast_iff in Hn. rewrite Hn. discriminate.
Qed.

Definition application (ds : list odesc) (endpoint : string) : Prop :=
  ds = receiver_options /\ endpoint = "tcp://127.0.0.1:5000" \/ ds = processor_options /\ endpoint = "tcp://127.0.0.1:5004".
Lemma app_table ds e : application ds e -> table ds.
Proof. intros [(-> & _)|(-> & _)]; [left|right]; reflexivity. Qed.

Lemma number_set l m o dflt n : stored l m -> numbers_fine l -> numeric o -> dflt = n ->
  set_number l o dflt (match match m (long_name o) with Some v => Some v | None => Some (VNum n) end with Some (VNum z) => z | _ => 0%Z end).
Proof.
  intros Hs Hnum Ho <-. destruct (gives_dec l o) as [(w & Hw)|Hn].
  - left. exists w. split; [exact Hw|]. rewrite (st_give l m Hs o w Hw). destruct (Hnum o w Ho Hw) as (z & Hz). apply cast_iff in Hz as Hc. rewrite Hc. destruct Ho as [-> | ->]; exact Hz.
  - right. split; [exact Hn|]. rewrite (st_none l m Hs o Hn). reflexivity.
Qed.

Lemma parse_starts ds e log_ok l : application ds e -> Forall proper l -> NoDup (subjects l) -> numbers_fine l -> ~ asks l -> (forall b f, gives l Log f -> log_ok b f = true) ->
  exists u, parse_arguments ds log_ok (line l) = Continues u /\
    set_number l Debug 0 (u_debug u) /\ set_number l Io 1 (u_io u) /\ set_to l Ctrl e (u_ctrl u) /\ set_to l Config "" (u_config u) /\
    ((exists b f, gives l Log f /\ u_log u = Some (b, f) /\ (b = true <-> ends_with f ".xml")) \/ (forall f, ~ gives l Log f) /\ u_log u = None).
Proof.
  intros Ha Hp Hnd Hnum Hq Hlog. pose proof (app_table ds e Ha) as Ht. destruct (run_ok ds l Ht Hp) as (ps & H2 & E).
  destruct (fine_stored ds l ps Ht H2 Hnd Hnum) as (m & Em). destruct (store_stored ds l ps m Ht H2 Em) as (Hs & _ & _).
  unfold parse_arguments. rewrite E, Em. destruct (st_quiet l m Hs Hq) as (Qv & Qh).
  cbv zeta. rewrite !defaults_at, Qv, Qh. unfold num, str. rewrite !defaults_at.
  assert (D : dlookup ds "help" = None /\ dlookup ds "version" = None /\ dlookup ds "log-config" = None /\ dlookup ds "debug-level" = Some (VNum 0) /\ dlookup ds "io-threads" = Some (VNum 1) /\
    dlookup ds "ctrl" = Some (VStr e) /\ (dlookup ds "config" = None \/ dlookup ds "config" = Some (VStr ""))).
  { destruct Ha as [(-> & ->)|(-> & ->)]; repeat split; [left|right]; reflexivity. }
  destruct D as (D1 & D2 & D3 & D4 & D5 & D6 & D7). rewrite D1, D2, D3, D4, D5, D6.
  pose proof (number_set l m Debug 0 0 Hs Hnum (or_introl eq_refl) eq_refl) as N1. pose proof (number_set l m Io 1 1 Hs Hnum (or_intror eq_refl) eq_refl) as N2. cbn [long_name] in N1, N2.
  assert (N3 : set_to l Ctrl e (match match m "ctrl" with Some v => Some v | None => Some (VStr e) end with Some (VStr s) => s | _ => "" end)).
  { destruct (gives_dec l Ctrl) as [(w & Hw)|Hn]; [left|right].
    - pose proof (st_give l m Hs Ctrl w Hw) as X. cbn [long_name] in X. rewrite X. exact Hw.
    - pose proof (st_none l m Hs Ctrl Hn) as X. cbn [long_name] in X. rewrite X. split; [exact Hn|reflexivity]. }
  assert (N4 : set_to l Config "" (match match m "config" with Some v => Some v | None => dlookup ds "config" end with Some (VStr s) => s | _ => "" end)).
  { destruct (gives_dec l Config) as [(w & Hw)|Hn]; [left|right].
    - pose proof (st_give l m Hs Config w Hw) as X. cbn [long_name] in X. rewrite X. exact Hw.
    - pose proof (st_none l m Hs Config Hn) as X. cbn [long_name] in X. rewrite X. split; [exact Hn|]. destruct D7 as [-> | ->]; reflexivity. }
  destruct (gives_dec l Log) as [(w & Hw)|Hn].
  - pose proof (st_give l m Hs Log w Hw) as X. cbn [long_name] in X. rewrite X. rewrite (Hlog _ w Hw).
    eexists. split; [reflexivity|]. cbn [u_debug u_io u_ctrl u_config u_log]. repeat (split; [assumption|]). left. exists (has_suffix w ".xml"), w. split; [exact Hw|]. split; [reflexivity|]. apply has_suffix_iff.
  - pose proof (st_none l m Hs Log Hn) as X. cbn [long_name] in X. rewrite X.
    eexists. split; [reflexivity|]. cbn [u_debug u_io u_ctrl u_config u_log]. repeat (split; [assumption|]). right. split; [exact Hn|reflexivity].
Qed.

Lemma prefix_begins p s : String.prefix p s = true -> begins p s.
Proof.
  revert s. induction p as [|c p IH]; intros s H; [apply begins_nil|]. destruct s as [|c' s]; [discriminate H|]. cbn in H. destruct (ascii_dec c c'); [|discriminate H].
  subst. destruct (IH s H) as (r & ->). exists r. reflexivity.
Qed.
Lemma filter_none {A} (f : A -> bool) l : (forall x, In x l -> f x = false) -> filter f l = [].
Proof. induction l as [|a l IH]; intros H; [reflexivity|]. cbn. rewrite (H a (or_introl eq_refl)). apply IH. intros x Hx. apply H. right. exact Hx. Qed.
Lemma table_names ds d : table ds -> In d ds -> In (o_long d) long_names /\ (In (o_short d) short_words \/ o_short d = "").
Proof. intros [-> | ->] H; cbn in H; repeat (destruct H as [<-|H]; [cbn; tauto|]); destruct H. Qed.
Lemma find_unknown ds p : table ds -> p <> "" -> ~ In p short_words -> (forall s, In s long_names -> ~ begins p s) -> find_nothrow ds true p = Some None.
Proof.
  intros Ht Hne Hs Hl. unfold find_nothrow. rewrite !filter_none; [reflexivity| |]; intros d Hd; destruct (table_names ds d Ht Hd) as (H1 & H2).
  - unfold approx_match. destruct (String.prefix p (o_long d)) eqn:E; [|reflexivity]. exfalso. exact (Hl _ H1 (prefix_begins _ _ E)).
  - unfold full_match. destruct (String.eqb_spec (o_long d) p) as [E|]; [exfalso; apply (Hl _ H1); exists ""; rewrite app_nil_s; exact E|].
    destruct (String.eqb_spec (o_short d) p) as [E|]; [|reflexivity]. subst. destruct H2 as [H2|H2]; contradiction.
Qed.
Lemma find_short_none ds c : table ds -> ~ In (odash c) short_words -> find_nothrow ds false (odash c) = Some None.
Proof.
  intros Ht H. pose proof (find_dashed ds (String c "") Ht H) as F. unfold odash. unfold find_nothrow in *. destruct (filter (full_match _) ds) as [|d [|? ?]]; [reflexivity|discriminate F|discriminate F].
Qed.

Lemma unknown_none ds t rest f : table ds -> unknown t -> run (S f) ds false (t :: rest) = None.
Proof.
  intros Ht [p H1 H2 H3 H4|p w H1 H2 H3 H4|c r H1 H2].
  - destruct p as [|a p]; [contradiction|]. cbn [run]. unfold kind_of. cbn [String.append Ascii.eqb Bool.eqb]. unfold parse_long. rewrite (split_none _ H3).
    cbn [finish_all]. unfold finish. cbn [p_key String.eqb]. rewrite (find_unknown ds _ Ht H1 H2 H4). reflexivity.
  - destruct p as [|a p]; [contradiction|]. cbn [run]. unfold kind_of. cbn [String.append Ascii.eqb Bool.eqb]. unfold parse_long. pose proof (split_app _ w H3) as E. cbn [String.append] in E. rewrite E.
    destruct w as [|b w]; [reflexivity|]. cbn [finish_all]. unfold finish. cbn [p_key String.eqb]. rewrite (find_unknown ds _ Ht H1 H2 H4). reflexivity.
  - cbn [run]. unfold kind_of. cbn [String.append]. destruct (Ascii.eqb_spec c "-"); [contradiction|]. cbn [Ascii.eqb Bool.eqb].
    assert (G : short_group ds (String "-" (String c r)) c r = Some [P (odash c) (match r with "" => [] | _ => [r] end) [String "-" (String c r)] false]).
    { destruct r; cbn [short_group]; pose proof (find_short_none ds c Ht H2) as F; unfold odash in F; rewrite F; reflexivity. }
    rewrite G. cbn [finish_all]. unfold finish. cbn [p_key]. change (String.eqb (odash c) "") with false. cbv iota. rewrite (find_dashed ds (String c "") Ht H2 : find_nothrow ds true (odash c) = Some None). reflexivity.
Qed.
Lemma short_not_taken ds s : table ds -> In s short_words ->
  match syntactic ds s with None => false | Some false => true | Some true => match find_nothrow ds true s with Some None => true | _ => false end end = false.
Proof. intros [-> | ->] H; cbn in H; repeat (destruct H as [<-|H]; [reflexivity|]); destruct H. Qed.
Lemma missing_none ds t rest f : table ds -> wants_value t -> rest = [] \/ (exists s r, In s short_words /\ rest = s :: r) -> run (S f) ds false (t :: rest) = None.
Proof.
  intros Ht Hw Hr. destruct Hw as [p o Hn|o Hn].
  - destruct (names_find ds p o Ht Hn) as (d & Hf & Hl & Hty). pose proof (no_equals_prefix p o Hn) as Hne. destruct p as [|a p]; [destruct Hn as (X & _); exfalso; apply X; reflexivity|].
    cbn [run]. unfold kind_of. cbn [String.append Ascii.eqb Bool.eqb]. unfold parse_long. rewrite (split_none _ Hne). cbn [finish_all]. unfold finish. cbn [p_key p_value p_orig String.eqb]. rewrite Hf, (takes_ty _ _ Hty).
    destruct Hr as [->|(s & r & Hs & ->)]; [reflexivity|]. rewrite (short_not_taken ds s Ht Hs). reflexivity.
  - destruct (letter_find ds o Ht Hn) as (c & d & Hc & Hd & Hf & Hf' & Hl & Hty). rewrite Hc.
    cbn [run]. unfold kind_of. cbn [String.append]. destruct (Ascii.eqb_spec c "-"); [contradiction|]. cbn [Ascii.eqb Bool.eqb].
    cbn [short_group]. unfold odash in Hf, Hf'. rewrite Hf. cbn [finish_all]. unfold finish. cbn [p_key p_value p_orig String.eqb]. rewrite Hf', (takes_ty _ _ Hty).
    destruct Hr as [->|(s & r & Hs & ->)]; [reflexivity|]. rewrite (short_not_taken ds s Ht Hs). reflexivity.
Qed.

Lemma ambiguous_c p s1 s2 : p <> "" -> In s1 long_names -> In s2 long_names -> s1 <> s2 -> begins p s1 -> begins p s2 -> p = "c".
Proof.
  intros Hne H1 H2 N (r1 & E1) (r2 & E2). destruct p as [|a p]; [contradiction|].
  cbn in H1, H2. repeat (destruct H1 as [<-|H1]; [repeat (destruct H2 as [<-|H2]; [cbn in E1, E2; injection E1 as A1 E1; injection E2 as A2 E2; subst|]); try destruct H2|]); try destruct H1.
  all: try discriminate; try (exfalso; apply N; reflexivity).
  all: destruct p as [|b p]; [reflexivity|]; cbn in E1, E2; congruence.
Qed.
Lemma ambiguous_none ds t rest f : table ds -> t = "--c" \/ (exists w, t = ("--c=" ++ w)%string) -> run (S f) ds false (t :: rest) = None.
Proof.
  intros Ht [->|(w & ->)].
  - destruct Ht as [-> | ->]; reflexivity.
  - destruct w as [|c w]; destruct Ht as [-> | ->]; reflexivity.
Qed.
Lemma flag_value_none ds t rest f : table ds -> (exists w, t = ("--help=" ++ w)%string \/ t = ("--version=" ++ w)%string) -> run (S f) ds false (t :: rest) = None.
Proof. intros Ht (w & [->| ->]); destruct w as [|c w]; destruct Ht as [-> | ->]; reflexivity. Qed.
