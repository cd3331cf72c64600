(** C73: meta data about an acquisition, from the file writer to a subscriber. *)
From Coq Require Import String Ascii Lia.
From Verif Require Import Base PlaceModel NameModel AcqModel AcqSpec AcqProps JsonModel JsonReadModel JsonDoubleModel JsonReadSpec JsonRoundSpec JsonReadValue JsonReadProps PrcModel PrcEnds MetaModel MetaSpec.
Local Open Scope string_scope.
Local Open Scope list_scope.

(** ** Texts. *)
Definition plain_value (v : json) : Prop := match v with JStr _ => True | JInt z => JsonReadSpec.fits z | _ => False end.
Definition plain_dict (d : dict) : Prop := Forall (fun m => plain_value (snd m)) d.
Lemma plain_occurs v y : plain_value v -> occurs y v -> y = v.
Proof. destruct v; cbn; intros P O; try contradiction; inversion O; reflexivity. Qed.
Lemma dict_occurs d y : plain_dict d -> occurs y (JObj d) -> y = JObj d \/ exists n, In (n, y) d.
Proof.
  intros P O. inversion O as [|? ? ? I|? n v l I OV]; subst; [left; reflexivity|]. right. exists n. unfold plain_dict in P. rewrite Forall_forall in P. pose proof (P _ I) as PV. cbn in PV. apply plain_occurs in OV; [subst; exact I|exact PV].
Qed.
Lemma dict_written d : plain_dict d -> parse (fst (JsonDoubleModel.emit (JObj d))) = Some (JObj d) /\ cut (fst (JsonDoubleModel.emit (JObj d))) = fst (JsonDoubleModel.emit (JObj d)).
Proof.
  intros P. assert (D : forall b, ~ occurs (JDouble b) (JObj d)).
  { intros b O. destruct (dict_occurs _ _ P O) as [E|(n & I)]; [discriminate|]. unfold plain_dict in P. rewrite Forall_forall in P. exact (P _ I). }
  assert (Z : forall z, occurs (JInt z) (JObj d) -> JsonReadSpec.fits z).
  { intros z O. destruct (dict_occurs _ _ P O) as [E|(n & I)]; [discriminate|]. unfold plain_dict in P. rewrite Forall_forall in P. exact (P _ I). }
  split; [apply c55_integers; assumption|]. apply cut_id. apply no_zero_written. intros y O. split; [intros b ->; destruct (D b O)|intros z ->; exact (Z z O)].
Qed.
Lemma str_parse d : plain_dict d -> parse (str d) = Some (JObj d).
Proof. intros P. unfold str. destruct (dict_written d P) as (A & ->). exact A. Qed.
Lemma text_list t : list_ascii_of_string (text t) = t.
Proof. apply list_ascii_of_string_of_list_ascii. Qed.
Lemma small_fits n : small n -> JsonReadSpec.fits (Z.of_N n).
Proof. unfold small, JsonReadSpec.fits. intros S. split; [lia|]. change (2 ^ 64)%Z with (Z.of_N (2 ^ 64)). lia. Qed.
(** The first part, for a header that is a plain dictionary. *)
Lemma published_first name item kind d data : plain_dict d -> parse (fst (published (Meta name item kind (text (str d)) data))) = Some (JObj [("plugin", JStr name); ("parameter", JStr item); ("type", JStr kind); ("header", JObj d)]).
Proof.
  intros P. unfold published, meta_doc. cbn [fst t_plugin t_item t_type t_header]. rewrite text_list, str_parse by exact P. set (x := JObj _).
  assert (OC : forall y, occurs y x -> y = x \/ (exists s, y = JStr s) \/ y = JObj d \/ exists n, In (n, y) d).
  { intros y O. unfold x in O. inversion O as [|? ? ? I|? n v l I OV]; subst; [left; reflexivity|]. right. cbn in I. destruct I as [E|[E|[E|[E|[]]]]]; injection E as <- <-; try (inversion OV; subst; eauto; fail). destruct (dict_occurs _ _ P OV) as [->|(n & I)]; eauto. }
  unfold plain_dict in P. rewrite Forall_forall in P.
  assert (D : forall b, ~ occurs (JDouble b) x).
  { intros b O. destruct (OC _ O) as [E|[(s & E)|[E|(n & I)]]]; try discriminate. exact (P _ I). }
  assert (Z : forall z, occurs (JInt z) x -> JsonReadSpec.fits z).
  { intros z O. destruct (OC _ O) as [E|[(s & E)|[E|(n & I)]]]; try discriminate. exact (P _ I). }
  rewrite cut_id; [apply c55_integers; assumption|]. apply no_zero_written. intros y O. split; [intros b ->; destruct (D b O)|intros z ->; exact (Z z O)].
Qed.
Ltac plains := unfold plain_dict; repeat (apply Forall_cons; [cbn [snd plain_value]; first [exact Logic.I|assumption]|]); apply Forall_nil.
Definition create_dict (a : acq) : dict := [("acqID", JStr (n_acqid (a_naming a))); ("rank", JInt (Z.of_N (g_rank (a_geom a)))); ("totalFrames", JInt (Z.of_N (a_total a)))].
Definition other_dict (a : acq) : dict := [("acqID", JStr (n_acqid (a_naming a))); ("rank", JInt (Z.of_N (g_rank (a_geom a))))].
Lemma create_header_dict a : create_header a = text (str (create_dict a)).
Proof. unfold create_header. do 2 f_equal. Qed.
Lemma header_dict a : header a = text (str (other_dict a)).
Proof. unfold header. do 2 f_equal. Qed.
Lemma path_dict k p d : key k = k -> add_n k d (add_s "filePath" p []) = [("filePath", JStr p); (k, JInt (Z.of_N d))].
Proof. intros E. unfold add_n, add_s, add. rewrite E. reflexivity. Qed.
Lemma write_dict f off pr d1 d2 : add_n "flush_duration" d2 (add_n "write_duration" d1 (add_n "proc" pr (add_n "offset" off (add_n "frame" f [])))) = [("frame", JInt (Z.of_N f)); ("offset", JInt (Z.of_N off)); ("proc", JInt (Z.of_N pr)); ("write_duration", JInt (Z.of_N d1)); ("flush_duration", JInt (Z.of_N d2))].
Proof. reflexivity. Qed.
(** Every event arrives as a message that tells it. *)
Theorem c73_message a n : small_acq a -> small_note n -> tells (published (acq_message a n)) a n.
Proof.
  intros (A1 & A2 & A3) (N1 & N2 & N3). apply small_fits in A1, A2, A3, N1, N2.
  assert (H1 : plain_dict (create_dict a)) by plains. assert (H2 : plain_dict (other_dict a)) by plains.
  unfold tells, acq_message, second_part, first_part. destruct n as [e d1 d2]. cbn [o_event o_one o_two] in *. destruct e as [| |p|p|f off]; cbn [message event_name gives_total]; rewrite ?create_header_dict, ?header_dict, ?path_dict, ?write_dict by reflexivity;
  (split; [rewrite published_first by assumption; reflexivity|]); cbn [published snd t_data]; try reflexivity; (eexists; split; [reflexivity|]).
  - apply str_parse. plains.
  - apply str_parse. plains.
  - destruct N3 as (F1 & F2). apply small_fits in F1, F2. apply str_parse. plains.
Qed.
Lemma octets_inj t : forall u, octets t = octets u -> t = u.
Proof.
  induction t as [|a t IH]; intros [|b u] E; cbn in E; try discriminate; [reflexivity|]. injection E as E1 E2. f_equal; [|apply IH; exact E2]. apply Nat2Z.inj in E1. rewrite <- (ascii_nat_embedding a), <- (ascii_nat_embedding b), E1. reflexivity.
Qed.
(** A message tells one event of one acquisition. *)
Theorem c73_one m a n b k : tells m a n -> tells m b k ->
  o_event n = o_event k /\ n_acqid (a_naming a) = n_acqid (a_naming b) /\ g_rank (a_geom a) = g_rank (a_geom b) /\
  match o_event n with
  | EvStart => a_total a = a_total b | EvStop => True
  | EvCreate _ => a_total a = a_total b /\ o_one n = o_one k | EvClose _ => o_one n = o_one k
  | EvWrite _ _ => g_procs (a_geom a) = g_procs (a_geom b) /\ o_one n = o_one k /\ o_two n = o_two k
  end.
Proof.
  intros (T1 & T2) (T3 & T4). rewrite T1 in T3. injection T3 as E1 E2 E3 E4. apply N2Z.inj in E3. split; [|split; [exact E2|split; [exact E3|]]].
  - unfold second_part in *. destruct n as [e d1 d2], k as [e' d1' d2']. cbn [o_event o_one o_two] in *.
    destruct e, e'; cbn [event_name] in E1; try discriminate E1; try reflexivity; destruct T2 as (t & A & B), T4 as (u & C & D); rewrite C in A; apply octets_inj in A; subst u; rewrite B in D; injection D as D1 D2; try subst; try reflexivity.
    apply N2Z.inj in D1, D2. subst. reflexivity.
  - unfold second_part in *. destruct n as [e d1 d2], k as [e' d1' d2']. cbn [o_event o_one o_two] in *.
    destruct e, e'; cbn [event_name gives_total] in *; try discriminate E1; auto; try (injection E4 as E4; apply N2Z.inj in E4); auto; destruct T2 as (t & A & B), T4 as (u & C & D); rewrite C in A; apply octets_inj in A; subst u; rewrite B in D; injection D; intros; repeat match goal with H : Z.of_N _ = Z.of_N _ |- _ => apply N2Z.inj in H end; auto.
Qed.
(** The overloads of publish_meta: kind and bytes give the value. *)
Lemma le_number n : forall z, (0 <= z < 256 ^ Z.of_nat n)%Z -> number (le n z) = z.
Proof.
  induction n as [|n IH]; intros z Z; [cbn in *; lia|]. cbn [le number]. rewrite IH; [pose proof (Z.div_mod z 256 ltac:(lia)); lia|]. rewrite Nat2Z.inj_succ, Z.pow_succ_r in Z by lia. split; [apply Z.div_pos; lia|apply Z.div_lt_upper_bound; lia].
Qed.
Lemma le_mod n : forall z, le n z = le n (z mod 256 ^ Z.of_nat n)%Z.
Proof.
  induction n as [|n IH]; intros z; [reflexivity|]. cbn [le]. rewrite Nat2Z.inj_succ, Z.pow_succ_r by lia. assert (P : (0 < 256 ^ Z.of_nat n)%Z) by (apply Z.pow_pos_nonneg; lia). rewrite Z.rem_mul_r by lia. f_equal.
  - rewrite Z.mul_comm, Z_mod_plus_full, Zmod_mod. reflexivity.
  - rewrite IH. symmetry. rewrite IH. f_equal. rewrite Z.mul_comm, Z_div_plus_full, Z.div_small, Z.add_0_l by (try lia; apply Z.mod_pos_bound; lia). apply Zmod_mod.
Qed.
Theorem c73_values name item header :
  (forall z, (- 2 ^ 31 <= z < 2 ^ 31)%Z -> let m := message name item (VInt z) header in t_type m = "integer" /\ List.length (t_data m) = 4%nat /\ signed32 (number (t_data m)) = z) /\
  (forall z, (0 <= z < 2 ^ 64)%Z -> let m := message name item (VUint z) header in t_type m = "uint64" /\ List.length (t_data m) = 8%nat /\ number (t_data m) = z) /\
  (forall b, (0 <= b < 2 ^ 64)%Z -> let m := message name item (VDouble b) header in t_type m = "double" /\ List.length (t_data m) = 8%nat /\ number (t_data m) = b) /\
  (forall t, let m := message name item (VText t) header in t_type m = "string" /\ t_data m = octets t) /\
  (forall b, let m := message name item (VRaw b) header in t_type m = "raw" /\ t_data m = b) /\
  (forall v, let m := message name item v header in t_plugin m = name /\ t_item m = item /\ t_header m = header).
Proof.
  split; [|split; [|split; [|split; [|split]]]].
  - intros z Z. split; [reflexivity|]. split; [reflexivity|]. cbn [message t_data]. rewrite le_mod, le_number by (apply Z.mod_pos_bound; reflexivity). change (256 ^ Z.of_nat 4)%Z with (2 ^ 32)%Z. unfold signed32.
    destruct (Z.ltb_spec z 0) as [N|N]; [rewrite <- (Z.mod_unique_pos z (2 ^ 32) (-1) (z + 2 ^ 32)) by lia; destruct (Z.ltb_spec (z + 2 ^ 32) (2 ^ 31)); lia|rewrite Z.mod_small by lia; destruct (Z.ltb_spec z (2 ^ 31)); lia].
  - intros z Z. split; [reflexivity|]. split; [reflexivity|]. apply le_number. exact Z.
  - intros z Z. split; [reflexivity|]. split; [reflexivity|]. apply le_number. exact Z.
  - intros t. split; reflexivity.
  - intros b. split; reflexivity.
  - intros []; repeat split.
Qed.

(** ** Channels. *)
Lemma flat_snoc {A B} (f : A -> list B) l x : flat_map f (l ++ [x]) = flat_map f l ++ f x.
Proof. rewrite flat_map_app. cbn. rewrite app_nil_r. reflexivity. Qed.
Record binv (s : bus) : Prop := {
  bi_undef : b_undef s = false;
  bi_next : forall p id, In id (b_pipe s p) -> (id < b_next s)%nat;
  bi_nodup : forall p, NoDup (b_pipe s p);
  bi_apart : forall p q id, In id (b_pipe s p) -> In id (b_pipe s q) -> p = q;
  bi_flow : forall p, exists l, map (b_heap s) (b_pipe s p) = map Some l /\ sent p (b_log s) = got p (b_log s) ++ l;
  bi_out : b_out s = map published (all_got (b_log s)) }.
Lemma nodup_snoc {A} (l : list A) x : NoDup l -> ~ In x l -> NoDup (l ++ [x]).
Proof. intros N X. induction N as [|a l NA N IH]; cbn; [constructor; [intros []|constructor]|]. constructor; [|apply IH; intros J; apply X; right; exact J]. intros J. apply in_app_or in J as [J|[->|[]]]; [contradiction|apply X; left; reflexivity]. Qed.
Lemma put_same {A} (f : nat -> A) k v : put f k v k = v.
Proof. unfold put. rewrite Nat.eqb_refl. reflexivity. Qed.
Lemma put_other {A} (f : nat -> A) k v j : j <> k -> put f k v j = f j.
Proof. unfold put. destruct (Nat.eqb_spec j k); [congruence|reflexivity]. Qed.
Lemma map_put {A} (f : nat -> A) k v l : ~ In k l -> map (put f k v) l = map f l.
Proof. intros N. apply map_ext_in. intros j J. apply put_other. intros ->. contradiction. Qed.
Lemma binv_step cap a s s' : binv s -> bus_step cap a s = Some s' -> binv s'.
Proof.
  intros [I1 I2 I3 I4 I5 I6] S. assert (FRESH : forall p, ~ In (b_next s) (b_pipe s p)) by (intros p H; apply I2 in H; lia). destruct a as [p x|p]; unfold bus_step in S; cbv zeta in S.
  - destruct (Nat.ltb (List.length (b_pipe s p)) cap); injection S as <-; constructor; cbn [b_undef b_next b_pipe b_heap b_log b_out]; auto.
    + intros q id J. unfold put in J. destruct (Nat.eqb_spec q p) as [->|NE]; [apply in_app_or in J as [J|[<-|[]]]; [apply I2 in J; lia|lia]|apply I2 in J; lia].
    + intros q. unfold put. destruct (Nat.eqb_spec q p) as [->|NE]; [|apply I3]. apply nodup_snoc; [apply I3|apply FRESH].
    + intros q r id J K. unfold put in J, K. destruct (Nat.eqb_spec q p) as [->|NE], (Nat.eqb_spec r p) as [->|NR]; auto.
      * apply in_app_or in J as [J|[<-|[]]]; [eapply I4; eassumption|destruct (FRESH _ K)].
      * apply in_app_or in K as [K|[<-|[]]]; [eapply I4; eassumption|destruct (FRESH _ J)].
      * eapply I4; eassumption.
    + intros q. destruct (I5 q) as (l & A & B). unfold sent, got in *. rewrite !flat_snoc. unfold put at 2. destruct (Nat.eqb_spec q p) as [->|NE].
      * exists (l ++ [x]). rewrite Nat.eqb_refl, app_nil_r, map_app, map_app, map_put by apply FRESH. cbn [map]. rewrite put_same, A, B, app_assoc. split; reflexivity.
      * exists l. rewrite map_put by apply FRESH. destruct (Nat.eqb_spec p q); [congruence|]. rewrite !app_nil_r. auto.
    + unfold all_got in *. rewrite flat_snoc, app_nil_r. exact I6.
    + intros q id J. apply I2 in J. lia.
    + intros q. destruct (I5 q) as (l & A & B). exists l. unfold sent, got in *. rewrite !flat_snoc, !app_nil_r, map_put by apply FRESH. auto.
    + unfold all_got in *. rewrite flat_snoc, app_nil_r. exact I6.
  - destruct (b_pipe s p) as [|id q] eqn:E; [discriminate|]. pose proof (I5 p) as (l & A & B). rewrite E in A. destruct l as [|x l]; [discriminate|]. cbn [map] in A. injection A as A1 A2. rewrite A1 in S. injection S as <-.
    assert (NQ : ~ In id q) by (pose proof (I3 p) as N; rewrite E in N; inversion N; assumption).
    assert (SUB : forall r j, In j (put (b_pipe s) p q r) -> In j (b_pipe s r)) by (intros r j J; unfold put in J; destruct (Nat.eqb_spec r p) as [->|]; [rewrite E; right; exact J|exact J]).
    constructor; cbn [b_undef b_next b_pipe b_heap b_log b_out]; auto.
    + intros r j J. apply SUB in J. eauto.
    + intros r. unfold put. destruct (Nat.eqb_spec r p) as [->|]; [pose proof (I3 p) as N; rewrite E in N; inversion N; assumption|apply I3].
    + intros r r' j J K. apply SUB in J, K. eauto.
    + intros r. unfold sent, got in *. rewrite !flat_snoc, app_nil_r. unfold put at 2. destruct (Nat.eqb_spec r p) as [->|NE].
      * exists l. rewrite map_put by exact NQ. rewrite Nat.eqb_refl, <- app_assoc. auto.
      * destruct (I5 r) as (l' & A' & B'). exists l'. rewrite map_put; [|intros J; apply NE, (I4 r p id J); rewrite E; left; reflexivity]. destruct (Nat.eqb_spec p r); [congruence|]. rewrite app_nil_r. auto.
    + unfold all_got in *. rewrite flat_snoc, map_app, I6. reflexivity.
Qed.
Lemma binv_init : binv bus_init.
Proof. constructor; cbn; auto; try contradiction; [intros; constructor|]. intros p. exists []. auto. Qed.
Lemma binv_go cap l : forall s s', binv s -> bus_go cap l s = Some s' -> binv s'.
Proof. induction l as [|a l IH]; intros s s' I G; cbn in G; [injection G as <-; exact I|]. destruct (bus_step cap a s) as [t|] eqn:S; [|discriminate]. eapply IH; [eapply binv_step; eassumption|exact G]. Qed.
(** What a publisher sends is received in its order, each message once; nothing else is published; no message is used after it was deleted. *)
Theorem c73_delivered cap l s : bus_go cap l bus_init = Some s ->
  b_undef s = false /\ (forall p, exists rest, sent p (b_log s) = got p (b_log s) ++ rest /\ List.length rest = List.length (b_pipe s p)) /\ b_out s = map published (all_got (b_log s)).
Proof.
  intros G. destruct (binv_go _ _ _ _ binv_init G) as [I1 I2 I3 I4 I5 I6]. split; [exact I1|]. split; [|exact I6]. intros p. destruct (I5 p) as (r & A & B). exists r. split; [exact B|]. apply (f_equal (@List.length _)) in A. rewrite !map_length in A. auto.
Qed.
(** What is sent is what was asked for, unless something was lost. *)
Lemma sent_go cap l : forall s s' p, bus_go cap l s = Some s' -> lost (b_log s') = lost (b_log s) -> b_undef s' = false -> sent p (b_log s') = sent p (b_log s) ++ asked p l.
Proof.
  assert (MONO : forall l s s', bus_go cap l s = Some s' -> (lost (b_log s) <= lost (b_log s'))%nat /\ (b_undef s' = false -> b_undef s = false)).
  { clear. induction l as [|a l IH]; intros s s' G; cbn in G; [injection G as <-; auto|]. destruct (bus_step cap a s) as [t|] eqn:S; [|discriminate]. destruct (IH _ _ G) as (A & B).
    assert (K : (lost (b_log s) <= lost (b_log t))%nat /\ (b_undef t = false -> b_undef s = false)); [|split; [lia|tauto]]. unfold bus_step in S. cbv zeta in S.
    destruct a as [p x|p]; [destruct (Nat.ltb _ cap)|destruct (b_pipe s p); [discriminate|]; destruct (b_heap s n)]; injection S as <-; cbn [b_log b_undef]; unfold lost; rewrite ?filter_app, ?app_length; split; try lia; auto; discriminate. }
  induction l as [|a l IH]; intros s s' p G LO U; cbn in G; [injection G as <-; cbn; rewrite app_nil_r; reflexivity|]. destruct (bus_step cap a s) as [t|] eqn:S; [|discriminate].
  destruct (MONO _ _ _ G) as (M1 & M2). destruct (MONO [a] s t) as (M3 & _); [cbn; rewrite S; reflexivity|]. rewrite (IH _ _ _ G) by (try exact U; lia).
  assert (LT : lost (b_log t) = lost (b_log s)) by lia. pose proof (M2 U) as UT. clear IH MONO G M1 M3 LO M2. unfold bus_step in S. cbv zeta in S. unfold lost, sent in *. destruct a as [q x|q].
  - change (asked p (Publish q x :: l)) with ((if Nat.eqb q p then [x] else []) ++ asked p l). destruct (Nat.ltb _ cap); injection S as <-; cbn [b_log] in *; rewrite flat_snoc; rewrite filter_app, app_length in LT; cbn in LT; [rewrite <- app_assoc; reflexivity|lia].
  - change (asked p (Handle q :: l)) with (asked p l). destruct (b_pipe s q); [discriminate|]. destruct (b_heap s n); injection S as <-; cbn [b_log b_undef] in *; [rewrite flat_snoc, app_nil_r; reflexivity|discriminate].
Qed.
(** When nothing was lost and the pipes are empty, all that was asked for has been published, in the order of each publisher. *)
Theorem c73_complete_partial cap l s : bus_go cap l bus_init = Some s -> lost (b_log s) = 0%nat -> (forall p, b_pipe s p = []) -> forall p, got p (b_log s) = asked p l.
Proof.
  intros G LO E p. destruct (c73_delivered _ _ _ G) as (U & F & _). destruct (F p) as (r & A & B). rewrite E in B. destruct r; [|discriminate]. rewrite app_nil_r in A. rewrite <- A. rewrite (sent_go cap l bus_init s p G LO U). reflexivity.
Qed.
(** Nothing is lost as long as no publisher has more than [cap] messages under way. *)
Theorem c73_room cap l s : bus_go cap l bus_init = Some s -> (forall p, (List.length (asked p l) <= cap)%nat) -> lost (b_log s) = 0%nat.
Proof.
  intros G C. change 0%nat with (lost (b_log bus_init)). assert (C' : forall p, (List.length (b_pipe bus_init p) + List.length (asked p l) <= cap)%nat) by exact C. clear C. revert C' G. generalize bus_init. revert s.
  induction l as [|a l IH]; intros s t C G; cbn in G; [injection G as <-; reflexivity|]. destruct (bus_step cap a t) as [u|] eqn:S; [|discriminate].
  unfold bus_step in S. cbv zeta in S. destruct a as [q x|q].
  - pose proof (C q) as CQ. unfold asked in CQ at 1. cbn [flat_map] in CQ. rewrite Nat.eqb_refl, app_length in CQ. cbn [List.length] in CQ. destruct (Nat.ltb_spec (List.length (b_pipe t q)) cap); [|lia]. injection S as <-. rewrite (IH s _) with (2 := G).
    + cbn [b_log]. unfold lost. rewrite filter_app, app_length. cbn. lia.
    + intros p. cbn [b_pipe]. pose proof (C p) as CP. unfold asked in CP at 1. cbn [flat_map] in CP. rewrite app_length in CP. fold (asked p l) in CP. unfold put. destruct (Nat.eqb_spec p q) as [->|NE]; [rewrite Nat.eqb_refl in CP; rewrite app_length; cbn in *; lia|lia].
  - destruct (b_pipe t q) as [|id r] eqn:E; [discriminate|]. assert (LE : forall h o b g, (forall p, (List.length (b_pipe (Bus (b_next t) h (put (b_pipe t) q r) o b g) p) + List.length (asked p l) <= cap)%nat)).
    { intros h o b g p. pose proof (C p) as CP. change (asked p (Handle q :: l)) with (asked p l) in CP. cbn [b_pipe]. unfold put. destruct (Nat.eqb_spec p q) as [->|]; [rewrite E in CP; cbn in CP; lia|lia]. }
    destruct (b_heap t id); injection S as <-; rewrite (IH s _) with (2 := G) by apply LE; cbn [b_log]; [unfold lost; rewrite filter_app, app_length; cbn; lia|reflexivity].
Qed.

(** ** The story of an acquisition. *)
Lemma only_got l p : (forall e, In e l -> match e with BGot q _ => q = p | _ => True end) -> all_got l = got p l.
Proof.
  intros H. induction l as [|e l IH]; [reflexivity|]. unfold all_got, got in *. cbn [flat_map]. rewrite IH by (intros x X; apply H; right; exact X). pose proof (H e (or_introl eq_refl)) as E. destruct e; try reflexivity. subst. rewrite Nat.eqb_refl. reflexivity.
Qed.
Definition one_pipe (s : bus) : Prop := (forall p, p <> 0%nat -> b_pipe s p = []) /\ (forall e, In e (b_log s) -> match e with BGot q _ => q = 0%nat | _ => True end).
Lemma one_go cap l : forall s s', publishers 1 l -> one_pipe s -> bus_go cap l s = Some s' -> one_pipe s'.
Proof.
  induction l as [|a l IH]; intros s s' P (O1 & O2) G; cbn in G; [injection G as <-; split; assumption|]. destruct (bus_step cap a s) as [t|] eqn:S; [|discriminate]. inversion P as [|? ? PA PL]; subst. eapply IH; [exact PL| |exact G]. clear IH G. unfold bus_step in S. cbv zeta in S. destruct a as [q x|q].
  - assert (q = 0)%nat as -> by lia. destruct (Nat.ltb _ cap); injection S as <-; split; cbn [b_pipe b_log]; try (intros e E; apply in_app_or in E as [E|[<-|[]]]; [exact (O2 e E)|exact Logic.I]); auto. intros p NP. rewrite put_other by exact NP. auto.
  - destruct (Nat.eq_dec q 0) as [->|NQ]; [|rewrite (O1 q NQ) in S; discriminate]. destruct (b_pipe s 0%nat) as [|id r]; [discriminate|].
    destruct (b_heap s id); injection S as <-; split; cbn [b_pipe b_log]; try (intros p NP; rewrite put_other by exact NP; auto; fail); auto. intros e E. apply in_app_or in E as [E|[<-|[]]]; [exact (O2 e E)|reflexivity].
Qed.
(** A subscriber receives the events of an acquisition, all of them, in order.  Missing: pipes that are full ([c73_lost_refuted]), a second acquisition
    ([c73_order_refuted]). *)
Theorem c73_story_partial cap a ns l s : small_acq a -> Forall small_note ns -> publishers 1 l -> asked 0 l = map (acq_message a) ns ->
  bus_go cap l bus_init = Some s -> lost (b_log s) = 0%nat -> b_pipe s 0%nat = [] -> Forall2 (fun m n => tells m a n) (b_out s) ns.
Proof.
  intros SA SN P A G LO E. assert (O : one_pipe s) by (eapply one_go; [exact P| |exact G]; split; [reflexivity|intros e []]). destruct O as (O1 & O2).
  destruct (c73_delivered _ _ _ G) as (_ & _ & ->). rewrite (only_got _ 0 O2), (c73_complete_partial cap l s G LO), A; [|intros p; destruct (Nat.eq_dec p 0) as [->|NP]; auto]. clear - SA SN. induction SN as [|n ns SN1 SN IH]; cbn [map]; constructor; [|exact IH]. apply c73_message; assumption.
Qed.

(** ** Memory. *)
Lemma filter_put (h : nat -> option meta) id l : NoDup l -> In id l -> h id <> None -> S (List.length (filter (fun j => match put h id None j with Some _ => true | None => false end) l)) = List.length (filter (fun j => match h j with Some _ => true | None => false end) l).
Proof.
  intros N I H. induction N as [|a l NA N IH]; [destruct I|]. cbn [filter]. destruct (Nat.eq_dec a id) as [->|NE].
  - rewrite put_same. destruct (h id); [|congruence]. cbn [List.length]. f_equal. f_equal. apply filter_ext_in. intros j J. rewrite put_other; [reflexivity|]. intros ->. contradiction.
  - rewrite put_other by exact NE. destruct I as [E|I]; [congruence|]. specialize (IH I). destruct (h a); cbn [List.length]; lia.
Qed.
Lemma sum_put (f : nat -> nat) p v l : NoDup l -> In p l -> (list_sum (map (put f p v) l) + f p = list_sum (map f l) + v)%nat.
Proof.
  intros N I. induction N as [|a l NA N IH]; [destruct I|]. cbn [map list_sum fold_right]. fold (list_sum (map (put f p v) l)). fold (list_sum (map f l)). destruct (Nat.eq_dec a p) as [->|NE].
  - rewrite put_same, map_put by exact NA. lia.
  - rewrite put_other by exact NE. destruct I as [E|I]; [congruence|]. specialize (IH I). lia.
Qed.
Lemma lens_put (f : nat -> list nat) p v j : List.length (put f p v j) = put (fun k => List.length (f k)) p (List.length v) j.
Proof. unfold put. destruct (Nat.eqb j p); reflexivity. Qed.
Lemma freed_step cap n a s s' : binv s -> (match a with Publish p _ => (p < n)%nat | Handle _ => True end) -> (forall p, (n <= p)%nat -> b_pipe s p = []) -> bus_step cap a s = Some s' ->
  List.length (live s) = (queued s n + lost (b_log s))%nat -> List.length (live s') = (queued s' n + lost (b_log s'))%nat /\ (forall p, (n <= p)%nat -> b_pipe s' p = []).
Proof.
  intros I P O ST L. unfold bus_step in ST. cbv zeta in ST. destruct a as [p x|p].
  - assert (LV : forall q o u g, List.length (live (Bus (S (b_next s)) (put (b_heap s) (b_next s) (Some x)) q o u g)) = S (List.length (live s))).
    { intros q o u g. unfold live. cbn [b_next b_heap]. rewrite seq_S, filter_app, app_length. cbn [filter Nat.add]. rewrite put_same. cbn [List.length]. rewrite Nat.add_1_r. f_equal. f_equal. apply filter_ext_in. intros j J. apply in_seq in J. rewrite put_other by lia. reflexivity. }
    destruct (Nat.ltb _ cap); injection ST as <-; rewrite LV, L; cbn [b_log b_pipe].
    + split; [|intros q Q; rewrite put_other by lia; auto]. unfold queued, lost in *. cbn [b_pipe]. rewrite filter_app, app_length. cbn [filter List.length]. rewrite (map_ext _ _ (lens_put (b_pipe s) p _)). pose proof (sum_put (fun k => List.length (b_pipe s k)) p (List.length (b_pipe s p ++ [b_next s])) (List.seq 0 n) (seq_NoDup n 0)) as Q. rewrite in_seq in Q. specialize (Q ltac:(lia)). rewrite app_length in Q. cbn [List.length] in Q. rewrite app_length. cbn [List.length]. lia.
    + split; [|exact O]. unfold queued, lost in *. cbn [b_pipe]. rewrite filter_app, app_length. cbn [filter List.length]. lia.
  - destruct (b_pipe s p) as [|id q] eqn:E; [discriminate|]. assert (PN : (p < n)%nat) by (destruct (le_lt_dec n p) as [Q|Q]; [rewrite (O p Q) in E; discriminate|exact Q]).
    destruct (bi_flow _ I p) as (l & A & _). rewrite E in A. destruct l as [|x l]; [discriminate|]. injection A as A1 A2. rewrite A1 in ST. injection ST as <-. cbn [b_log b_pipe]. split.
    + pose proof (filter_put (b_heap s) id (List.seq 0 (b_next s)) (seq_NoDup _ _)) as F. rewrite in_seq in F. specialize (F (conj (Nat.le_0_l _) (bi_next _ I p id ltac:(rewrite E; left; reflexivity))) ltac:(congruence)). unfold live in L |- *. cbn [b_heap b_next].
      pose proof (sum_put (fun k => List.length (b_pipe s k)) p (List.length q) (List.seq 0 n) (seq_NoDup n 0)) as Q. rewrite in_seq in Q. specialize (Q ltac:(lia)). rewrite E in Q. cbn [List.length] in Q. unfold queued, lost in *. cbn [b_pipe]. rewrite (map_ext _ _ (lens_put (b_pipe s) p _)), filter_app, app_length. cbn [filter List.length]. lia.
    + intros r R. rewrite put_other by lia. auto.
Qed.
(** A message is deleted when it has been published: those that remain are in a pipe, or were lost. *)
Theorem c73_freed cap n l s : publishers n l -> bus_go cap l bus_init = Some s -> List.length (live s) = (queued s n + lost (b_log s))%nat.
Proof.
  intros P G. assert (K : forall s0, binv s0 -> (forall p, (n <= p)%nat -> b_pipe s0 p = []) -> List.length (live s0) = (queued s0 n + lost (b_log s0))%nat -> bus_go cap l s0 = Some s -> List.length (live s) = (queued s n + lost (b_log s))%nat).
  { clear G. induction P as [|a l PA P IH]; intros s0 I O L G; cbn in G; [injection G as <-; exact L|]. destruct (bus_step cap a s0) as [t|] eqn:S; [|discriminate]. destruct (freed_step cap n a s0 t I PA O S L) as (L' & O'). eapply IH; [eapply binv_step; eassumption|exact O'|exact L'|exact G]. }
  apply (K bus_init); [apply binv_init|reflexivity| |exact G]. unfold queued, lost. cbn. induction (List.seq 0 n); cbn; auto.
Qed.

(** ** What goes wrong. *)
(** A pipe that is full: the message is never published and never deleted. *)
Lemma lost_go cap id l : forall s s', (id < b_next s)%nat -> (forall p, ~ In id (b_pipe s p)) -> bus_go cap l s = Some s' -> b_heap s' id = b_heap s id.
Proof.
  induction l as [|a l IH]; intros s s' N P G; cbn in G; [injection G as <-; reflexivity|]. destruct (bus_step cap a s) as [t|] eqn:S; [|discriminate]. unfold bus_step in S. cbv zeta in S. destruct a as [p x|p].
  - destruct (Nat.ltb _ cap); injection S as <-; rewrite (IH _ s') with (3 := G); cbn [b_heap b_next b_pipe]; try (rewrite put_other by lia; reflexivity); try lia; auto. intros q Q. unfold put in Q. destruct (Nat.eqb q p); [apply in_app_or in Q as [Q|[Q|[]]]; [exact (P _ Q)|lia]|exact (P _ Q)].
  - destruct (b_pipe s p) as [|k q] eqn:E; [discriminate|]. assert (NK : id <> k) by (intros ->; apply (P p); rewrite E; left; reflexivity).
    assert (SUB : forall r, ~ In id (put (b_pipe s) p q r)).
    { intros r J. destruct (Nat.eq_dec r p) as [R|R]; [subst r; rewrite put_same in J; apply (P p); rewrite E; right; exact J|rewrite put_other in J by exact R; exact (P _ J)]. }
    destruct (b_heap s k); injection S as <-; rewrite (IH _ s') with (3 := G); cbn [b_heap b_next b_pipe]; auto. rewrite put_other by exact NK. reflexivity.
Qed.
Theorem c73_lost_refuted cap x : exists s, bus_go cap (repeat (Publish 0 x) (S cap)) bus_init = Some s /\ lost (b_log s) = 1%nat /\ sent 0 (b_log s) = repeat x cap /\
  forall l s', bus_go cap l s = Some s' -> b_heap s' cap = Some x.
Proof.
  assert (FILL : forall k s, (List.length (b_pipe s 0%nat) + k <= cap)%nat -> exists h q g, bus_go cap (repeat (Publish 0 x) k) s = Some (Bus (k + b_next s) h q (b_out s) (b_undef s) g) /\ (forall p, p <> 0%nat -> q p = b_pipe s p) /\ q 0%nat = b_pipe s 0%nat ++ List.seq (b_next s) k /\ lost g = lost (b_log s) /\ sent 0 g = sent 0 (b_log s) ++ repeat x k).
  { induction k as [|k IH]; intros s K; cbn [repeat bus_go]; [exists (b_heap s), (b_pipe s), (b_log s); cbn; rewrite !app_nil_r; destruct s; auto|]. unfold bus_step. cbv zeta. destruct (Nat.ltb_spec (List.length (b_pipe s 0%nat)) cap); [|lia].
    match goal with |- context [bus_go cap _ ?t] => destruct (IH t) as (h & q & g & A & B & C & D & E) end; [cbn [b_pipe]; rewrite put_same, app_length; cbn; lia|]. cbn [b_next b_pipe b_log b_out b_undef] in *. exists h, q, g. rewrite A. split; [f_equal; f_equal; lia|]. split; [intros p NP; rewrite B, put_other by exact NP; reflexivity|]. split; [rewrite C, put_same, <- app_assoc; reflexivity|].
    split; [rewrite D; unfold lost; rewrite filter_app, app_length; cbn; lia|]. rewrite E. unfold sent. rewrite flat_snoc. cbn. rewrite <- app_assoc. reflexivity. }
  destruct (FILL cap bus_init (le_n cap)) as (h & q & g & A & B & C & D & E). cbn [bus_init b_next b_pipe b_out b_undef b_log] in *. rewrite Nat.add_0_r in A. cbn [app] in C.
  assert (GO : forall k s t, bus_go cap (repeat (Publish 0 x) k) s = Some t -> bus_go cap (repeat (Publish 0 x) (S k)) s = bus_step cap (Publish 0 x) t).
  { induction k as [|k IH]; intros s t G; [cbn in G; injection G as <-; cbn [repeat bus_go]; destruct (bus_step cap (Publish 0 x) s); reflexivity|]. change (repeat (Publish 0 x) (S (S k))) with (Publish 0 x :: repeat (Publish 0 x) (S k)). cbn [bus_go]. cbn [repeat bus_go] in G. destruct (bus_step cap (Publish 0 x) s) as [u|]; [|discriminate]. apply IH. exact G. }
  rewrite (GO _ _ _ A). unfold bus_step. cbn [b_pipe b_next b_heap b_out b_undef b_log]. rewrite C, seq_length, Nat.ltb_irrefl. eexists. split; [reflexivity|]. cbn [b_log]. split; [unfold lost in *; rewrite filter_app, app_length, D; reflexivity|]. split; [unfold sent in *; rewrite flat_snoc, app_nil_r; exact E|].
  intros l s' G. rewrite (lost_go cap cap l _ s') with (3 := G); cbn [b_next b_pipe b_heap]; [apply put_same|lia|]. intros p J. destruct (Nat.eq_dec p 0) as [->|NP]; [rewrite C in J; apply in_seq in J; lia|rewrite B in J by exact NP; exact J].
Qed.
(** Each acquisition has a channel of its own: the start of the next may be published before the end of the first. *)
Theorem c73_order_refuted cap a b : (0 < cap)%nat -> exists s, bus_go cap [Publish 0 (acq_message a (Note EvStop 0 0)); Publish 1 (acq_message b (Note EvStart 0 0)); Handle 1; Handle 0] bus_init = Some s /\
  b_out s = [published (acq_message b (Note EvStart 0 0)); published (acq_message a (Note EvStop 0 0))].
Proof. intros C. destruct cap as [|cap]; [lia|]. eexists. split; reflexivity. Qed.

(** ** Which frames are told. *)
Definition mute {A} (m : AcqModel.M A) : Prop := forall s s' r, m s = (s', r) -> writes (s_log s') = writes (s_log s).
Lemma writes_app l k : writes (l ++ k) = writes l ++ writes k.
Proof. unfold writes. apply flat_map_app. Qed.
Lemma mute_bind A B (m : AcqModel.M A) (k : A -> AcqModel.M B) : mute m -> (forall a, mute (k a)) -> mute (AcqModel.bind m k).
Proof.
  intros H K s s' r E. unfold AcqModel.bind in E. destruct (m s) as (t & o) eqn:F. specialize (H _ _ _ F). destruct o as [x|e|]; [rewrite <- H; exact (K x _ _ _ E)|injection E as <- <-; exact H|injection E as <- <-; exact H].
Qed.
Lemma mute_emit e : writes [e] = [] -> mute (AcqModel.emit e).
Proof. intros H s s' r E. injection E as <- <-. cbn [s_log]. rewrite writes_app, H, app_nil_r. reflexivity. Qed.
Lemma mute_ret A (a : A) : mute (AcqModel.ret a). Proof. intros s s' r E. injection E as <- <-. reflexivity. Qed.
Lemma mute_throw A e : mute (@AcqModel.throw A e). Proof. intros s s' r E. injection E as <- <-. reflexivity. Qed.
Lemma mute_undef A : mute (@AcqModel.undef A). Proof. intros s s' r E. injection E as <- <-. reflexivity. Qed.
Lemma mute_state : mute AcqModel.get. Proof. intros s s' r E. injection E as <- <-. reflexivity. Qed.
Lemma mute_cur c : mute (put_cur c). Proof. intros s s' r E. injection E as <- <-. reflexivity. Qed.
Lemma mute_prev c : mute (put_prev c). Proof. intros s s' r E. injection E as <- <-. reflexivity. Qed.
Lemma mute_counts w p : mute (put_counts w p). Proof. intros s s' r E. injection E as <- <-. reflexivity. Qed.
Lemma mute_disk d : mute (set_disk d). Proof. intros s s' r E. injection E as <- <-. reflexivity. Qed.
Create HintDb muted.
#[local] Hint Resolve mute_ret mute_throw mute_undef mute_state mute_cur mute_prev mute_counts mute_disk : muted.
Ltac hush := cbv zeta; repeat match goal with
  | |- mute (AcqModel.bind _ _) => apply mute_bind; [|intro]
  | |- mute (AcqModel.emit _) => apply mute_emit; reflexivity
  | |- mute (match ?x with _ => _ end) => destruct x
  end; eauto with muted nocore.
Lemma mute_lift A (o : outcome Empty_set A) : mute (AcqModel.lift o). Proof. destruct o as [a|[]|]; unfold AcqModel.lift; hush. Qed.
#[local] Hint Resolve mute_lift : muted.
Lemma mute_olift A (o : outcome exn A) : mute (AcqModel.olift o). Proof. destruct o; unfold AcqModel.olift; hush. Qed.
#[local] Hint Resolve mute_olift : muted.
Lemma mute_close f : mute (AcqModel.close_file f). Proof. unfold AcqModel.close_file. hush. Qed.
#[local] Hint Resolve mute_close : muted.
Lemma mute_validate d : mute (validate_definition d). Proof. unfold validate_definition. hush. Qed.
#[local] Hint Resolve mute_validate : muted.
Lemma mute_dataset ok d rows lo hi : mute (create_dataset ok d rows lo hi). Proof. unfold create_dataset. hush. Qed.
#[local] Hint Resolve mute_dataset : muted.
Lemma mute_datasets i n ds : mute (create_datasets i n ds).
Proof. induction ds as [|d t IH]; cbn [create_datasets]; hush. Qed.
#[local] Hint Resolve mute_datasets : muted.
Lemma mute_create i n : mute (AcqModel.create_file i n).
Proof. unfold AcqModel.create_file. hush. Qed.
#[local] Hint Resolve mute_create : muted.
Lemma mute_missing i fuel : forall t, mute (create_missing i fuel t).
Proof. induction fuel as [|k IH]; intros t; cbn [create_missing]; hush. Qed.
#[local] Hint Resolve mute_missing : muted.
Lemma mute_get i off : mute (get_file i off).
Proof. unfold get_file. hush. Qed.
#[local] Hint Resolve mute_get : muted.
Lemma mute_put w f : mute (put_file w f). Proof. destruct w; unfold put_file; hush. Qed.
#[local] Hint Resolve mute_put : muted.
Lemma mute_rows ok w n rows st0 d : mute (write_rows ok w n rows st0 d).
Proof. unfold write_rows. cbv zeta. hush. Qed.
#[local] Hint Resolve mute_rows : muted.
Lemma mute_actual w n u : mute (note_actual w n u).
Proof. unfold note_actual. hush. Qed.
#[local] Hint Resolve mute_actual : muted.
Lemma mute_frame i w f o c : mute (AcqModel.write_frame i w f o c).
Proof. unfold AcqModel.write_frame. hush. Qed.
#[local] Hint Resolve mute_frame : muted.
Lemma mute_params i w ps o : mute (write_params i w ps o).
Proof. induction ps as [|(n & v) t IH]; cbn [write_params]; hush. Qed.
#[local] Hint Resolve mute_params : muted.
Lemma mute_count f : mute (count_frame f).
Proof. unfold count_frame. cbv zeta. hush. Qed.
#[local] Hint Resolve mute_count : muted.
(** At most one; none unless it can be; one if the frame is not invalid. *)
Definition one_write (f : frame) (m : AcqModel.M status) (must : status -> Prop) : Prop := forall s s' r, m s = (s', r) ->
  exists w, writes (s_log s') = writes (s_log s) ++ w /\ (w = [] \/ exists off, Z.of_N off = ((Z.of_N (f_number f) + f_adj f) mod 2 ^ 64)%Z /\ w = [(f_number f, off)]) /\ (forall x, r = Ret x -> must x -> w <> []).
Lemma ow_bind f A (m : AcqModel.M A) k must : mute m -> (forall a, one_write f (k a) must) -> one_write f (AcqModel.bind m k) must.
Proof.
  intros H K s s' r E. unfold AcqModel.bind in E. destruct (m s) as (t & o) eqn:F. specialize (H _ _ _ F). destruct o as [x|e|]; [destruct (K x _ _ _ E) as (w & W); exists w; rewrite <- H; exact W|injection E as <- <-; exists []; rewrite H, app_nil_r|injection E as <- <-; exists []; rewrite H, app_nil_r]; (split; [reflexivity|split; [left; reflexivity|discriminate]]).
Qed.
Lemma ow_mute f (m : AcqModel.M status) (must : status -> Prop) : mute m -> (forall s s' x, m s = (s', Ret x) -> ~ must x) -> one_write f m must.
Proof. intros H N s s' r E. exists []. rewrite (H _ _ _ E), app_nil_r. split; [reflexivity|]. split; [left; reflexivity|]. intros x -> X. destruct (N _ _ _ E X). Qed.
Lemma ow_ret f A (a : A) k must : one_write f (k a) must -> one_write f (AcqModel.bind (AcqModel.ret a) k) must.
Proof. intros H s s' r E. exact (H s s' r E). Qed.
Lemma body_writes i f : one_write f (process_body i f) (fun x => x <> SInvalid).
Proof.
  assert (INV : one_write f (AcqModel.ret SInvalid) (fun x => x <> SInvalid)) by (apply ow_mute; [hush|intros s s' x E; injection E as _ <-; auto]).
  assert (UN : one_write f AcqModel.undef (fun x => x <> SInvalid)) by (apply ow_mute; [hush|intros s s' x E; discriminate]).
  assert (TH : forall e, one_write f (AcqModel.throw e) (fun x => x <> SInvalid)) by (intros e; apply ow_mute; [hush|intros s s' x E; discriminate]).
  unfold process_body. apply ow_bind; [hush|]. intros s. destruct (negb _); [exact INV|].
  destruct (adjust_frame_offset (f_number f) (f_adj f)) as [off|e|] eqn:AD; [|intros s1 s2 r E; apply (TH AcqModel.ERange s1 s2 r); exact E|intros s1 s2 r E; apply (UN s1 s2 r); exact E].
  assert (OFF : Z.of_N off = ((Z.of_N (f_number f) + f_adj f) mod 2 ^ 64)%Z).
  { unfold adjust_frame_offset in AD. destruct (negb _); [discriminate|]. destruct (_ <? 0)%Z; [discriminate|]. injection AD as <-. unfold u64. rewrite Z2N.id; [reflexivity|]. apply Z.mod_pos_bound. reflexivity. }
  apply ow_ret. apply ow_bind; [hush|]. intros mine. destruct (negb mine); [exact INV|]. apply ow_bind; [hush|]. intros [w|]; [|exact INV]. apply ow_bind; [hush|]. intros t. apply ow_bind; [hush|]. intros pos.
  destruct (file_of w (s_acq t)) as [fl|]; [|exact UN]. apply ow_bind; [hush|]. intros mx. cbv zeta. destruct (_ && _); [exact INV|]. destruct (find_def _ _) as [d|]; [|apply TH]. destruct (d_chunks d) as [|c0 ch]; [exact UN|].
  apply ow_bind; [hush|]. intros u. apply ow_bind; [hush|]. intros v. intros s0 s' r E. exists [(f_number f, off)].
  match type of E with AcqModel.bind _ ?k s0 = _ => change (k tt (St (s_acq s0) (s_disk s0) (s_log s0 ++ [EvWrite (f_number f) off])) = (s', r)) in E; assert (K : mute (k tt)) by hush end.
  rewrite (K _ _ _ E). cbn [s_log]. rewrite writes_app. split; [reflexivity|]. split; [right; exists off; split; [exact OFF|reflexivity]|discriminate].
Qed.
(** A frame that is accepted is told of, once, with its number and offset; no other frame is. *)
Theorem c73_writes i f s s' r : process_frame i f s = (s', r) -> exists w, writes (s_log s') = writes (s_log s) ++ w /\
  (w = [] \/ exists off, Z.of_N off = ((Z.of_N (f_number f) + f_adj f) mod 2 ^ 64)%Z /\ w = [(f_number f, off)]) /\ (r = Some SOk \/ r = Some SComplete \/ r = Some SMissing -> w <> []).
Proof.
  intros E. unfold process_frame in E. destruct (process_body i f s) as (t & o) eqn:B. destruct (body_writes i f s t o B) as (w & A1 & A2 & A3). exists w. destruct o as [x|e|]; injection E as <- <-; (split; [exact A1|split; [exact A2|]]).
  - intros X. apply (A3 x eq_refl). intros ->. destruct X as [X|[X|X]]; discriminate.
  - intros [X|[X|X]]; discriminate.
  - intros [X|[X|X]]; discriminate.
Qed.

(** ** Cases *)
Definition q_acq : acq := configured (Geom 2 1 1 4) (Naming "run" "run_7" "" "h5" true 1) "/data" "" 5 5 [].
Definition q_notes : list note := [Note EvStart 0 0; Note (EvCreate "/data/run_000002.h5") 1250 0; Note (EvWrite 1 1) 300 20; Note (EvWrite 3 3) 310 0; Note (EvClose "/data/run_000002.h5") 90 0; Note EvStop 0 0].
Definition q_labels : list blab := match map (acq_message q_acq) q_notes with [m1; m2; m3; m4; m5; m6] => [Publish 0 m1; Publish 0 m2; Handle 0; Publish 0 m3; Handle 0; Handle 0; Publish 0 m4; Publish 0 m5; Handle 0; Handle 0; Publish 0 m6; Handle 0] | _ => [] end.
Example q_small : small_acq q_acq /\ Forall small_note q_notes.
Proof. split; [repeat split|repeat constructor]. Qed.
Example q_run : publishers 1 q_labels /\ asked 0 q_labels = map (acq_message q_acq) q_notes /\ exists s, bus_go 2 q_labels bus_init = Some s /\ lost (b_log s) = 0%nat /\ b_pipe s 0%nat = [] /\ List.length (b_out s) = 6%nat /\ live s = [].
Proof. split; [repeat constructor|]. split; [vm_compute; reflexivity|]. eexists. split; [vm_compute; reflexivity|]. vm_compute. auto. Qed.
Example q_text : string_of_list_ascii (fst (published (acq_message q_acq (Note (EvWrite 3 3) 310 0)))) = "{""plugin"":""Acquisition"",""parameter"":""writeframe"",""type"":""string"",""header"":{""acqID"":""run_7"",""rank"":1}}" /\
  snd (published (acq_message q_acq (Note (EvWrite 3 3) 310 0))) = octets (list_ascii_of_string "{""frame"":3,""offset"":3,""proc"":2,""write_duration"":310,""flush_duration"":0}").
Proof. split; vm_compute; reflexivity. Qed.
(** Two publishers, a pipe of one: a message under way, one lost. *)
Example q_mixed : exists s, publishers 2 [Publish 0 (message "a" "i" (VInt (-2)) ""); Publish 1 (message "b" "i" (VUint 7) ""); Publish 1 (message "b" "i" (VRaw [1; 2]%Z) ""); Handle 0] /\
  bus_go 1 [Publish 0 (message "a" "i" (VInt (-2)) ""); Publish 1 (message "b" "i" (VUint 7) ""); Publish 1 (message "b" "i" (VRaw [1; 2]%Z) ""); Handle 0] bus_init = Some s /\
  live s = [1; 2]%nat /\ queued s 2 = 1%nat /\ lost (b_log s) = 1%nat /\ map snd (b_out s) = [[254; 255; 255; 255]%Z].
Proof. eexists. split; [repeat constructor|]. split; [vm_compute; reflexivity|]. vm_compute. auto. Qed.
(** A frame that is written and one that is not. *)
Example q_frames : snd (process_frame io_ok (xframe 3 30) (fst (xrun (xacq 0 0) []))) = Some SOk /\ snd (process_frame io_ok (xframe 2 30) (fst (xrun (xacq 0 0) [xframe 26 2; xframe 50 2]))) = Some SInvalid.
Proof. vm_compute. auto. Qed.

Print Assumptions c73_message.
Print Assumptions c73_one.
Print Assumptions c73_values.
Print Assumptions c73_delivered.
Print Assumptions c73_complete_partial.
Print Assumptions c73_room.
Print Assumptions c73_story_partial.
Print Assumptions c73_freed.
Print Assumptions c73_lost_refuted.
Print Assumptions c73_order_refuted.
Print Assumptions c73_writes.
