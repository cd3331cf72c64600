(** Lemmas on messages, texts and steps of the shared memory controller. *)
From Coq Require Import String Ascii.
From Verif Require Import Base StrOrder JsonModel JsonReadModel JsonDoubleModel JsonSpec JsonProofs JsonRoundSpec JsonReadSpec JsonReadProps MessageProps ShmModel SmcModel SmcSpec.
Local Open Scope string_scope.
Local Open Scope list_scope.
Local Open Scope Z_scope.

Lemma cstr_reads s w : cstr s = w <-> reads s w.
Proof.
  split.
  - intros <-. split; [|]; [unfold no_nul; induction s as [|a s IH]; cbn; [intros []|]; destruct (Ascii.eqb_spec a zero) as [->|N]; [intros []|]; intros [E|I]; [congruence|exact (IH I)]|].
    induction s as [|a s IH]; cbn; [auto|]. destruct (Ascii.eqb_spec a zero) as [->|N]; [right; exists s; reflexivity|]. destruct IH as [IH|(r & IH)]; [left; congruence|right; exists r; cbn; congruence].
  - intros (N & [->|(r & ->)]); [apply cstr_id, N|]. induction w as [|a w IH]; cbn; [reflexivity|]. destruct (Ascii.eqb_spec a zero) as [->|M]; [exfalso; apply N; cbn; auto|]. rewrite IH; [reflexivity|]. intros I. apply N. cbn. auto.
Qed.
Lemma leads1 k x y : leads [k] x y <-> exists l, x = JObj l /\ find_member k l = Some y.
Proof. rewrite leads_at. cbn. destruct x; split; try discriminate; try (intros (l0 & E & _); discriminate). - destruct (find_member k l) eqn:F; [|discriminate]. intros [= <-]. eauto. - intros (l0 & [= <-] & ->). reflexivity. Qed.

Lemma type_name tn t : t <> TIllegal -> (type_of_name tn = t <-> tn = name_of_type t).
Proof.
  intros N. unfold type_of_name, by_name. cbn [List.find type_names fst snd]. split.
  - destruct (String.eqb_spec "cmd" tn) as [<-|]; [intros <-; reflexivity|]. destruct (String.eqb_spec "ack" tn) as [<-|]; [intros <-; reflexivity|]. destruct (String.eqb_spec "nack" tn) as [<-|]; [intros <-; reflexivity|].
    destruct (String.eqb_spec "notify" tn) as [<-|]; [intros <-; reflexivity|]. congruence.
  - intros ->. destruct t; try reflexivity; congruence.
Qed.
Lemma val_name vn v : v <> VIllegal -> (val_of_name vn = v <-> vn = name_of_val v).
Proof.
  intros N. split.
  - unfold val_of_name, by_name. intros <-. destruct (List.find _ val_names) as [[a b]|] eqn:F; [|unfold val_of_name, by_name in N; congruence]. apply find_some in F. destruct F as (I & E). cbn in E. apply String.eqb_eq in E. subst a.
    cbn in I. repeat (destruct I as [I|I]; [injection I as <- <-; reflexivity|]). destruct I.
  - intros ->. destruct v; try reflexivity; congruence.
Qed.

(** A message that is understood *)
Definition is (c : clock) (t : list ascii) (ty : msg_type) (v : msg_val) (p : json) : Prop := exists m, msg_of_text c t true = Ret m /\ g_type m = ty /\ g_val m = v /\ params_of m = Some p.
Lemma str_attr doc k : forall r, get_attr str_value doc k "none" = Ret r <-> (find_member k doc = None /\ r = "none") \/ exists a, find_member k doc = Some (JStr a) /\ cstr a = r.
Proof.
  intros r. unfold get_attr. destruct (find_member k doc) as [x|]; [|split; [intros [= <-]; auto|intros [(_ & ->)|(a & [=] & _)]; reflexivity]].
  destruct x; cbn; try (split; [discriminate|intros [([=] & _)|(a & E & _)]; discriminate E]). split; [intros [= <-]; eauto|]. intros [([=] & _)|(w & E & <-)]. injection E as ->. reflexivity.
Qed.
Lemma uint_ok z : (exists r, uint_value (JInt z) = Ret r) <-> 0 <= z < 2 ^ 32.
Proof. unfold uint_value. cbn [get_value]. unfold in_range. destruct (Z.leb_spec 0 z); destruct (Z.ltb_spec z (2 ^ 32)); cbn [andb]; split; intros H1; try (destruct H1 as (r & H1); discriminate H1); try lia; eauto. Qed.
Lemma id_attr doc : (exists i, get_attr uint_value doc "id" 0 = Ret i) <-> (forall y, find_member "id" doc <> Some y) \/ exists i, find_member "id" doc = Some (JInt i) /\ 0 <= i < 2 ^ 32.
Proof.
  unfold get_attr. destruct (find_member "id" doc) as [x|]; [|split; [left; discriminate|eauto]]. destruct x; try (split; [intros (i & [=])|intros [H|(i & [=] & _)]; destruct (H _ eq_refl)]; fail).
  rewrite uint_ok. split; [eauto|]. intros [H|(i & [= <-] & B)]; [destruct (H _ eq_refl)|exact B].
Qed.
Lemma message_is c t ty v p : time_parse c "none" = None -> ty <> TIllegal -> v <> VIllegal -> (message c t (name_of_type ty) (name_of_val v) p <-> is c t ty v p /\ object p).
Proof.
  intros NONE NT NV. split.
  - intros (x & a & b & h & P & La & Ra & Lb & Rb & Lh & (w & z & Rw & T) & I & Lp & (ps & ->)). apply leads1 in La. destruct La as (doc & -> & Fa). apply leads1 in Lb. destruct Lb as (d & [= <-] & Fb). apply leads1 in Lh. destruct Lh as (d & [= <-] & Fh). apply leads1 in Lp. destruct Lp as (d & [= <-] & Fp).
    apply cstr_reads in Ra, Rb, Rw. split; [|exists ps; reflexivity]. assert (ID : exists i, get_attr uint_value doc "id" 0 = Ret i).
    { apply id_attr. destruct I as [I|(i & L & B)]; [left; intros y F; apply (I y), leads1; eauto|right; exists i; split; [|exact B]; apply leads1 in L; destruct L as (d & [= <-] & F); exact F]. }
    destruct ID as (i & ID). unfold is, msg_of_text. rewrite P. unfold msg_of_doc. rewrite (proj2 (str_attr doc "msg_type" _) (or_intror (ex_intro _ a (conj Fa Ra)))). cbn [bind]. rewrite (proj2 (type_name _ ty NT) eq_refl). destruct (msg_type_eqb ty TIllegal) eqn:E; [destruct ty; discriminate || congruence|].
    cbn [andb]. rewrite (proj2 (str_attr doc "msg_val" _) (or_intror (ex_intro _ b (conj Fb Rb)))). cbn [bind]. rewrite (proj2 (val_name _ v NV) eq_refl). destruct (Nat.eqb (val_index v) 0) eqn:E2; [destruct v; discriminate || congruence|].
    cbn [andb]. rewrite (proj2 (str_attr doc "timestamp" _) (or_intror (ex_intro _ h (conj Fh Rw)))). cbn [bind]. rewrite T. cbn [andb]. rewrite ID. unfold has_params. rewrite Fp. cbn [andb negb]. eexists. split; [reflexivity|]. unfold params_of. auto.
  - intros ((m & R & <- & <- & PM) & O). unfold msg_of_text in R. destruct (parse t) as [x|] eqn:P; [|discriminate]. destruct x as [| | | | | |doc]; try discriminate. cbn [msg_of_doc] in R.
    destruct (get_attr str_value doc "msg_type" "none") as [tn| |] eqn:A1; try discriminate. cbn [bind] in R. destruct (msg_type_eqb (type_of_name tn) TIllegal) eqn:E1; [discriminate|]. cbn [andb] in R.
    destruct (get_attr str_value doc "msg_val" "none") as [vn| |] eqn:A2; try discriminate. cbn [bind] in R. destruct (Nat.eqb (val_index (val_of_name vn)) 0) eqn:E2; [discriminate|]. cbn [andb] in R.
    destruct (get_attr str_value doc "timestamp" "none") as [tx| |] eqn:A3; try discriminate. cbn [bind] in R. destruct (time_parse c tx) as [z|] eqn:TP; [|discriminate]. cbn [andb] in R.
    destruct (get_attr uint_value doc "id" 0) as [i| |] eqn:A4; try discriminate. destruct (has_params doc) eqn:HP; [|discriminate]. cbn [andb negb] in R. injection R as <-. unfold params_of in PM. cbn [g_doc g_type g_val] in *.
    assert (NT' : type_of_name tn <> TIllegal) by (intros X; rewrite X in E1; discriminate). assert (NV' : val_of_name vn <> VIllegal) by (intros X; rewrite X in E2; discriminate).
    apply str_attr in A1, A2. destruct A1 as [(_ & ->)|(a & F1 & C1)]; [destruct NT'; reflexivity|]. destruct A2 as [(_ & ->)|(b & F2 & C2)]; [destruct NV'; reflexivity|].
    assert (ID : (forall y, find_member "id" doc <> Some y) \/ exists i, find_member "id" doc = Some (JInt i) /\ 0 <= i < 2 ^ 32) by (apply id_attr; eauto).
    assert (L : forall k y, find_member k doc = Some y -> leads [k] (JObj doc) y) by (intros k y F; apply leads1; eauto).
    exists (JObj doc), a, b, (match find_member "timestamp" doc with Some (JStr h) => h | _ => "" end).
    split; [exact P|]. split; [apply L, F1|]. split; [apply cstr_reads; rewrite C1; apply (type_name tn _ NT'); reflexivity|]. split; [apply L, F2|]. split; [apply cstr_reads; rewrite C2; apply (val_name vn _ NV'); reflexivity|].
    apply str_attr in A3. destruct A3 as [(F3 & ->)|(h & F3 & C3)]; [congruence|]. rewrite F3. split; [apply L, F3|]. split; [exists tx, z; split; [apply cstr_reads, C3|exact TP]|]. split; [|split; [apply L, PM|exact O]].
    destruct ID as [ID|(i' & F & B)]; [left; intros y X; apply leads1 in X; destruct X as (d & [= <-] & F); exact (ID _ F)|right; exists i'; split; [apply L, F|exact B]].
Qed.

(** Parameters *)
Lemma int_param m ps n d : params_of m = Some (JObj ps) -> no_nul n ->
  forall r, int_or m n d = Ret r <-> (exists z, leads [n] (JObj ps) (JInt z) /\ - 2 ^ 31 <= z < 2 ^ 31 /\ r = z) \/ (forall y, ~ leads [n] (JObj ps) y) /\ r = d.
Proof.
  intros P N r. unfold int_or, get_param_or. rewrite P, (cstr_id _ N). destruct (find_member n ps) as [x|] eqn:F.
  - assert (L : leads [n] (JObj ps) x) by (apply leads1; eauto). split.
    + intros H. left. destruct x; try discriminate. cbn [get_value] in H. unfold in_range in H. destruct (Z.leb_spec (- 2 ^ 31) z); destruct (Z.ltb_spec z (2 ^ 31)); try discriminate. cbn in H. injection H as <-. eauto.
    + intros [(z & L' & B & ->)|(H & _)]; [|destruct (H _ L)]. apply leads1 in L'. destruct L' as (? & [= <-] & F'). rewrite F in F'. injection F' as ->. cbn [get_value]. unfold in_range. destruct (Z.leb_spec (- 2 ^ 31) z); [|lia]. destruct (Z.ltb_spec z (2 ^ 31)); [|lia]. reflexivity.
  - cbn [bind]. split.
    + intros [= <-]. right. split; [|reflexivity]. intros y L. apply leads1 in L. destruct L as (? & [= <-] & F'). congruence.
    + intros [(z & L & _)|(_ & ->)]; [|reflexivity]. apply leads1 in L. destruct L as (? & [= <-] & F'). congruence.
Qed.
Lemma int_no m n d e : int_or m n d = Throw e -> e = EAssert.
Proof. unfold int_or, get_param_or. destruct (params_of m) as [[| | | | | |ps]|]; cbn; try congruence. destruct (find_member (cstr n) ps) as [x|]; cbn; [|discriminate]. destruct x; cbn; try congruence. unfold in_range. destruct ((_ <=? _) && (_ <? _))%bool; cbn; congruence. Qed.
Lemma int_def m n d : int_or m n d <> Undef.
Proof. unfold int_or, get_param_or. destruct (params_of m) as [[| | | | | |ps]|]; cbn; try congruence. destruct (find_member (cstr n) ps) as [x|]; cbn; [|discriminate]. destruct x; cbn; try congruence. unfold in_range. destruct ((_ <=? _) && (_ <? _))%bool; cbn; congruence. Qed.
Definition name_of (m : msg) : outcome ipcexc string := bind (get_param GStr m "shared_buffer_name") (fun r => Ret (match r with RStr n => n | _ => "" end)).
Lemma name_param m ps : params_of m = Some (JObj ps) -> forall n, name_of m = Ret n <-> exists a, leads ["shared_buffer_name"] (JObj ps) (JStr a) /\ reads a n.
Proof.
  intros P n. unfold name_of, get_param, get_raw. rewrite P. change (pieces "shared_buffer_name") with ["shared_buffer_name"]. cbn [get_node]. change (cstr "shared_buffer_name") with "shared_buffer_name". destruct (find_member "shared_buffer_name" ps) as [x|] eqn:F.
  - cbn [get_node]. split.
    + intros H. destruct x; cbn in H; try discriminate H. injection H as <-. exists s. split; [apply leads1; eauto|apply cstr_reads; reflexivity].
    + intros (a & L & R). apply leads1 in L. destruct L as (? & [= <-] & F'). rewrite F in F'. injection F' as ->. cbn. apply cstr_reads in R. congruence.
  - split; [discriminate|]. intros (a & L & R). apply leads1 in L. destruct L as (? & [= <-] & F'). congruence.
Qed.
Lemma name_no m e : name_of m = Throw e -> e <> ERange.
Proof.
  unfold name_of, get_param, get_raw. destruct (params_of m) as [x|]; [|cbn; congruence]. change (pieces "shared_buffer_name") with ["shared_buffer_name"]. cbn [get_node]. change (cstr "shared_buffer_name") with "shared_buffer_name". destruct x as [| | | | | |ps]; cbn; try congruence.
  destruct (find_member "shared_buffer_name" ps) as [x|]; cbn; [|congruence]. destruct x; cbn; congruence.
Qed.
Lemma name_def m : name_of m <> Undef.
Proof.
  unfold name_of, get_param, get_raw. destruct (params_of m) as [x|]; [|cbn; congruence]. change (pieces "shared_buffer_name") with ["shared_buffer_name"]. cbn [get_node]. change (cstr "shared_buffer_name") with "shared_buffer_name". destruct x as [| | | | | |ps]; cbn; try congruence.
  destruct (find_member "shared_buffer_name" ps) as [x|]; cbn; [|congruence]. destruct x; cbn; congruence.
Qed.
Lemma text_no c t e : msg_of_text c t true = Throw e -> e <> ERange.
Proof.
  unfold msg_of_text. destruct (parse t) as [x|]; [|congruence]. destruct x as [| | | | | |doc]; cbn [msg_of_doc]; try congruence.
  assert (A : forall k, (exists r, get_attr str_value doc k "none" = Ret r) \/ get_attr str_value doc k "none" = Throw EAssert) by (intros k; unfold get_attr; destruct (find_member k doc) as [[]|]; cbn; eauto).
  destruct (A "msg_type") as [(r1 & ->)| ->]; cbn [bind]; [|congruence]. destruct (_ && _)%bool; [congruence|]. destruct (A "msg_val") as [(r2 & ->)| ->]; cbn [bind]; [|congruence]. destruct (_ && _)%bool; [congruence|].
  destruct (A "timestamp") as [(r3 & ->)| ->]; cbn [bind]; [|congruence]. destruct (_ && _)%bool; [congruence|]. destruct (get_attr uint_value doc "id" 0); try congruence. destruct (_ && _)%bool; congruence.
Qed.
Lemma text_def c t : msg_of_text c t true <> Undef.
Proof.
  unfold msg_of_text. destruct (parse t) as [x|]; [|congruence]. destruct x as [| | | | | |doc]; cbn [msg_of_doc]; try congruence.
  assert (A : forall k, (exists r, get_attr str_value doc k "none" = Ret r) \/ get_attr str_value doc k "none" = Throw EAssert) by (intros k; unfold get_attr; destruct (find_member k doc) as [[]|]; cbn; eauto).
  destruct (A "msg_type") as [(r1 & ->)| ->]; cbn [bind]; [|congruence]. destruct (_ && _)%bool; [congruence|]. destruct (A "msg_val") as [(r2 & ->)| ->]; cbn [bind]; [|congruence]. destruct (_ && _)%bool; [congruence|].
  destruct (A "timestamp") as [(r3 & ->)| ->]; cbn [bind]; [|congruence]. destruct (_ && _)%bool; [congruence|]. destruct (get_attr uint_value doc "id" 0); try congruence. destruct (_ && _)%bool; congruence.
Qed.
Lemma strict_params c t m : msg_of_text c t true = Ret m -> exists ps, params_of m = Some (JObj ps).
Proof.
  unfold msg_of_text. destruct (parse t) as [x|]; [|congruence]. destruct x as [| | | | | |doc]; cbn [msg_of_doc]; try congruence.
  destruct (get_attr str_value doc "msg_type" "none"); cbn [bind]; try discriminate. destruct (_ && _)%bool; [discriminate|]. destruct (get_attr str_value doc "msg_val" "none"); cbn [bind]; try discriminate. destruct (_ && _)%bool; [discriminate|].
  destruct (get_attr str_value doc "timestamp" "none"); cbn [bind]; try discriminate. destruct (_ && _)%bool; [discriminate|]. destruct (get_attr uint_value doc "id" 0); try discriminate. destruct (has_params doc) eqn:H; [|discriminate]. cbn. intros [= <-]. unfold params_of. cbn. unfold has_params in H. destruct (find_member "params" doc) as [[]|]; try discriminate. eauto.
Qed.

(** What the texts mean to the controller *)
Lemma ready_is c t b no : time_parse c "none" = None -> (ready c t b no <-> exists m, msg_of_text c t true = Ret m /\ g_type m = TNotify /\ g_val m = VFrameReady /\ int_or m "buffer_id" (-1) = Ret b /\ b <> -1 /\ int_or m "frame" 0 = Ret no).
Proof.
  intros N. assert (N1 : no_nul "buffer_id") by (intros H; cbn in H; intuition discriminate). assert (N2 : no_nul "frame") by (intros H; cbn in H; intuition discriminate). split.
  - intros (p & M & L & B & NB & F). apply (message_is c t TNotify VFrameReady p N) in M; try discriminate. destruct M as ((m & R & T & V & P) & (ps & ->)). exists m. split; [exact R|]. split; [exact T|]. split; [exact V|]. split; [apply (int_param m ps _ _ P N1); eauto|]. split; [exact NB|].
    apply (int_param m ps _ _ P N2). destruct F as [(L' & B')|(A & ->)]; eauto 6.
  - intros (m & R & T & V & B & NB & F). destruct (strict_params _ _ _ R) as (ps & P). exists (JObj ps). split; [apply (message_is c t TNotify VFrameReady _ N); try discriminate; split; [exists m; auto|exists ps; reflexivity]|].
    apply (int_param m ps _ _ P N1) in B. destruct B as [(z & L & Bz & ->)|(_ & ->)]; [|congruence]. split; [exact L|]. split; [exact Bz|]. split; [exact NB|]. apply (int_param m ps _ _ P N2) in F. destruct F as [(z' & L' & B' & ->)|(A & ->)]; auto.
Qed.
Lemma config_is c t n : time_parse c "none" = None -> (config c t n <-> exists m, msg_of_text c t true = Ret m /\ g_type m = TNotify /\ g_val m = VBufferConfig /\ name_of m = Ret n).
Proof.
  intros N. split.
  - intros (p & a & M & L & R). apply (message_is c t TNotify VBufferConfig p N) in M; try discriminate. destruct M as ((m & E & T & V & P) & (ps & ->)). exists m. rewrite (name_param m ps P n). eauto 8.
  - intros (m & E & T & V & R). destruct (strict_params _ _ _ E) as (ps & P). apply (name_param m ps P n) in R. destruct R as (a & L & R). exists (JObj ps), a. split; [|auto]. apply (message_is c t TNotify VBufferConfig _ N); try discriminate. split; [exists m; auto|exists ps; reflexivity].
Qed.
(** Handling a message: a frame, a mapping, or nothing *)
Lemma handle_frame e t c k s b no j g : time_parse (e_clock e) "none" = None -> ready (e_clock e) t b no -> k_map k = Some (j, g) -> handle e t c k s = new_frame e b no c k j g s.
Proof. intros N R M. apply (ready_is _ _ _ _ N) in R. destruct R as (m & R & T & V & B & NB & F). unfold handle. rewrite R. cbn [caught]. rewrite T, V, B. cbn [caught]. destruct (Z.eqb_spec b (-1)); [contradiction|]. rewrite M, F. reflexivity. Qed.
Lemma handle_config e t c k s n : time_parse (e_clock e) "none" = None -> config (e_clock e) t n -> handle e t c k s = set_manager e n c k s.
Proof. intros N R. apply (config_is _ _ _ N) in R. destruct R as (m & R & T & V & F). unfold handle. rewrite R. cbn [caught]. rewrite T, V. unfold name_of in F. rewrite F. reflexivity. Qed.
Lemma handle_cases e t c k s : time_parse (e_clock e) "none" = None ->
  (exists b no j g, ready (e_clock e) t b no /\ k_map k = Some (j, g) /\ handle e t c k s = new_frame e b no c k j g s) \/
  (exists n, config (e_clock e) t n /\ handle e t c k s = set_manager e n c k s) \/
  (handle e t c k s = Ret s /\ (forall n, ~ config (e_clock e) t n) /\ ((exists b no, ready (e_clock e) t b no) -> k_map k = None)).
Proof.
  intros N. destruct (msg_of_text (e_clock e) t true) as [m|x|] eqn:R; [| |destruct (text_def _ _ R)].
  - assert (O : forall (X : handle e t c k s = Ret s), (g_type m <> TNotify \/ g_val m <> VBufferConfig \/ forall n, name_of m <> Ret n) -> (g_type m <> TNotify \/ g_val m <> VFrameReady \/ (forall b no, ~ (int_or m "buffer_id" (-1) = Ret b /\ b <> -1 /\ int_or m "frame" 0 = Ret no)) \/ k_map k = None) ->
      handle e t c k s = Ret s /\ (forall n, ~ config (e_clock e) t n) /\ ((exists b no, ready (e_clock e) t b no) -> k_map k = None)).
    { intros X C D. split; [exact X|]. split.
      - intros n H. apply (config_is _ _ _ N) in H. destruct H as (m' & R' & T & V & F). rewrite R in R'. injection R' as <-. destruct C as [C|[C|C]]; [congruence|congruence|exact (C _ F)].
      - intros (b & no & H). apply (ready_is _ _ _ _ N) in H. destruct H as (m' & R' & T & V & F). rewrite R in R'. injection R' as <-. destruct D as [D|[D|[D|D]]]; [congruence|congruence|destruct (D _ _ F)|exact D]. }
    destruct (g_type m) eqn:T; try (right; right; apply O; [unfold handle; rewrite R; cbn [caught]; rewrite T; reflexivity|left; congruence|left; congruence]).
    destruct (g_val m) eqn:V; try (right; right; apply O; [unfold handle; rewrite R; cbn [caught]; rewrite T, V; reflexivity|right; left; congruence|right; left; congruence]).
    + destruct (int_or m "buffer_id" (-1)) as [b|x|] eqn:B; [| |destruct (int_def _ _ _ B)].
      2: { right; right; apply O; [unfold handle; rewrite R; cbn [caught]; rewrite T, V, B, (int_no _ _ _ _ B); reflexivity|right; left; congruence|right; right; left; intros b no (E & _); congruence]. }
      destruct (Z.eqb_spec b (-1)) as [->|NB]; [right; right; apply O; [unfold handle; rewrite R; cbn [caught]; rewrite T, V, B; reflexivity|right; left; congruence|right; right; left; intros b' no (E & E' & _); congruence]|].
      destruct (k_map k) as [(j, g)|] eqn:M; [|right; right; apply O; [unfold handle; rewrite R; cbn [caught]; rewrite T, V, B; cbn [caught]; destruct (Z.eqb_spec b (-1)); [contradiction|]; rewrite M; reflexivity|right; left; congruence|auto]].
      destruct (int_or m "frame" 0) as [no|x|] eqn:F; [| |destruct (int_def _ _ _ F)].
      * left. exists b, no, j, g. assert (RD : ready (e_clock e) t b no) by (apply (ready_is _ _ _ _ N); exists m; auto 8). split; [exact RD|]. split; [reflexivity|]. apply handle_frame; assumption.
      * right; right; apply O; [unfold handle; rewrite R; cbn [caught]; rewrite T, V, B; cbn [caught]; destruct (Z.eqb_spec b (-1)); [contradiction|]; rewrite M, F, (int_no _ _ _ _ F); reflexivity|right; left; congruence|right; right; left; intros b' no (_ & _ & E); congruence].
    + destruct (name_of m) as [n|x|] eqn:F; [| |destruct (name_def _ F)].
      * right; left. exists n. assert (C : config (e_clock e) t n) by (apply (config_is _ _ _ N); exists m; auto). split; [exact C|apply handle_config; assumption].
      * right; right; apply O; [unfold handle; rewrite R; cbn [caught]; rewrite T, V; fold (name_of m); rewrite F; cbn [caught]; pose proof (name_no _ _ F); destruct x; congruence|right; right; intros n; congruence|right; left; congruence].
  - right; right. split; [unfold handle; rewrite R; cbn [caught]; pose proof (text_no _ _ _ R); destruct x; congruence|]. split.
    + intros n H. apply (config_is _ _ _ N) in H. destruct H as (m' & R' & _). congruence.
    + intros (b & no & H). apply (ready_is _ _ _ _ N) in H. destruct H as (m' & R' & _). congruence.
Qed.

