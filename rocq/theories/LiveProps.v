(** C37: the live view. *)
From Coq Require Import String Ascii.
From Verif Require Import Base StrOrder FrameModel JsonModel JsonSpec JsonProofs GapSpec GapProofs LiveModel LiveSpec LiveProofs ListText.
Local Open Scope string_scope.
Local Open Scope list_scope.
Local Open Scope Z_scope.

(** A live view just configured, and any sequence of frames: it sends exactly the frames required by the history, with their header and
    bytes, and passes every frame on.  [count]: frames counted before without list of datasets. *)
Theorem c37_sends_partial count p evs : lv_bound p = true -> sm_ok (lv_datasets p) -> (forall d n, sm_get (lv_datasets p) d = Some n -> n = 0) ->
  (lv_per_second p <> 0 -> lv_between p = 1000 * Z.quot 1000 (lv_per_second p)) ->
  0 <= count -> count + Z.of_nat (List.length evs) < 2 ^ 31 -> (forall f t1 t2, In (f, t1, t2) evs -> FrameModel.is_valid f = true /\ in_memory f) ->
  exists count' p' log, live_run count p evs = Ret (count', p', log) /\ map (fun x => fst (fst x)) log = evs /\
    forall a x b, log = a ++ x :: b -> e_pushed x = [e_frame x] /\
      (sent x <-> shall_send (lv_freq p) (lv_per_second p) (lv_last p) (match lv_datasets p with [] => count | _ => 0 end) (map fst (lv_datasets p)) (lv_tags p) a x) /\
      (forall k, e_sent x = Some k -> shows (lv_tags p) (e_frame x) k).
Proof.
  intros B O Z0 BT C0 LEN OK. destruct (live_run_from p count BT C0 evs [] count p) as (c' & p' & log & E & _ & M & G); [|cbn; exact LEN|exact OK|].
  - constructor; try assumption; try reflexivity.
    + intros d n H. rewrite (Z0 d n H). exists 0%nat. split; [reflexivity|constructor].
    + exists 0%nat. split; [cbn; lia|]. split; [constructor|auto].
    + right. split; [intros z []|reflexivity].
  - exists c', p', log. split; [exact E|]. split; [exact M|]. intros a x b H. exact (G a x b H).
Qed.
(** Whatever the state, a frame that was processed was passed on, once and unchanged. *)
Theorem c37_forward count p f t1 t2 count' p' s out : live_process count p f t1 t2 = Ret (count', p', s, out) -> out = [f].
Proof.
  assert (P : forall c q s', obind (push f) (fun out => Ret (c, q, s', out)) = Ret (count', p', s, out) -> out = [f]).
  { intros c q s'. unfold push. destruct (FrameModel.is_valid f); cbn; [|discriminate]. intros H. congruence. }
  unfold live_process. destruct (lv_bound p && _ && _); [|apply P]. match goal with |- obind ?m _ = _ -> _ => destruct m as [[[n c] q]| |]; cbn [obind]; try discriminate end.
  destruct (_ && (n =? _)); [discriminate|]. destruct (_ || _); [|apply P]. destruct (live_packet p f); cbn [obind]; try discriminate. apply P.
Qed.
Theorem c37_no_exception count p f t1 t2 e : FrameModel.is_valid f = true -> live_process count p f t1 t2 <> Throw e.
Proof.
  intros V. assert (P : forall c q s', obind (push f) (fun out => Ret (c, q, s', out)) <> @Throw fexc (Z * live * option packet * list frame) e) by (intros c q s'; unfold push; rewrite V; discriminate).
  unfold live_process. destruct (lv_bound p && _ && _); [|apply P]. match goal with |- obind ?m _ <> _ => destruct m as [[[n c] q]|e'|] eqn:M; cbn [obind]; try discriminate end.
  - destruct (_ && (n =? _)); [discriminate|]. destruct (_ || _); [|apply P]. unfold live_packet, read_image. match goal with |- context [if ?b then _ else _] => destruct b end; cbn [obind]; [apply P|discriminate].
  - exfalso. destruct (sm_get _ _) as [n|]; [destruct (in_i32 _)|]; discriminate.
Qed.
(** With a rate only: two frames sent are more than 1000 / rate milliseconds apart. *)
Theorem c37_rate_partial count p evs count' p' log : lv_bound p = true -> sm_ok (lv_datasets p) -> (forall d n, sm_get (lv_datasets p) d = Some n -> n = 0) ->
  lv_freq p = 0 -> 0 < lv_per_second p -> lv_between p = 1000 * Z.quot 1000 (lv_per_second p) ->
  0 <= count -> count + Z.of_nat (List.length evs) < 2 ^ 31 -> (forall f t1 t2, In (f, t1, t2) evs -> FrameModel.is_valid f = true /\ in_memory f) ->
  live_run count p evs = Ret (count', p', log) ->
  (forall a x b y c, log = a ++ x :: b ++ y :: c -> e_t2 x <= e_t1 y <= e_t2 y) ->
  forall a x b y c, log = a ++ x :: b ++ y :: c -> sent x -> sent y -> 1000 * (1000 / lv_per_second p) < e_t1 y - e_t2 x.
Proof.
  intros B O Z0 F PS BT C0 LEN OK RUN MONO a x b y c E SX SY. destruct (c37_sends_partial count p evs B O Z0 (fun _ => BT) C0 LEN OK) as (c1 & p1 & log1 & R & _ & G). assert (log1 = log) by congruence. subst log1.
  specialize (G (a ++ x :: b) y c). rewrite <- app_assoc in G. specialize (G E). destruct G as (_ & S & _). apply S in SY as (_ & [(N & _)|(_ & L)]); [congruence|]. rewrite Z.quot_div_nonneg in L by lia.
  destruct L as [(a1 & z & b1 & E1 & SZ & NZ & L)|(NZ & _)]; [|destruct (NZ x); [apply in_app_iff; right; left; reflexivity|exact SX]].
  assert (CMP : e_t2 x <= e_t2 z).
  { assert (I : In x (a1 ++ [z])). { assert (I0 : In x (a1 ++ z :: b1)) by (rewrite <- E1; apply in_app_iff; right; left; reflexivity). apply in_app_iff in I0 as [I0|[I0|I0]]; [apply in_app_iff; left; exact I0|subst; apply in_app_iff; right; left; reflexivity|destruct (NZ x I0 SX)]. }
    apply in_app_iff in I as [I|[->|[]]]; [|lia]. apply in_split in I as (u & v & ->). specialize (MONO u x v z (b1 ++ y :: c)). rewrite E in MONO. assert (Q : a ++ x :: b ++ y :: c = u ++ x :: v ++ z :: b1 ++ y :: c).
    { change (a ++ x :: b ++ y :: c) with (a ++ (x :: b) ++ y :: c). rewrite app_assoc, E1, <- !app_assoc. cbn. reflexivity. }
    specialize (MONO Q). lia. }
  lia.
Qed.

(** Configuration *)
Lemma has_given c n x : no_slash n -> no_nul n -> given c n x -> has_param c n = Ret (match x with Some _ => true | None => false end) /\ forall v, x = Some v -> forall g, get_param g c n = get_value g v.
Proof.
  intros NS NN G. unfold has_param, get_param, get_raw. rewrite (pieces_no_slash n NS). destruct x as [v|]; cbn [given] in G.
  - apply holds_at in G. cbn [at_path] in G. unfold params_of. destruct (find_member "params" (g_doc c)) as [p|]; [|discriminate]. destruct p; try discriminate. cbn [has_node get_node]. rewrite (cstr_id n NN). cbn [at_path] in G. destruct (find_member n l); [|discriminate]. injection G as ->. split; [reflexivity|]. intros v' E g. injection E as <-. reflexivity.
  - destruct G as ((l & H) & N). apply holds_at in H. cbn [at_path] in H. unfold params_of. destruct (find_member "params" (g_doc c)) as [p|] eqn:P; [|discriminate]. injection H as ->. cbn [has_node]. rewrite (cstr_id n NN). split; [|discriminate].
    destruct (find_member n l) eqn:F; [|reflexivity]. exfalso. apply (N j). apply holds_at. cbn [at_path]. rewrite P. cbn [at_path]. rewrite F. reflexivity.
Qed.
Definition is_int (x : option json) (v : option Z) : Prop := match v with Some z => x = Some (JInt z) /\ - 2 ^ 31 <= z < 2 ^ 31 | None => x = None end.
Definition is_str (x : option json) (v : option string) : Prop := match v with Some s => x = Some (JStr s) /\ no_nul s | None => x = None end.
Lemma if_has_given {S} c n x g (set : result -> S -> S) s : no_slash n -> no_nul n -> given c n x -> (forall v, x = Some v -> exists r, get_value g v = Ret r) ->
  if_has c n g set (s, Ret tt) = (match x with Some v => match get_value g v with Ret r => set r s | _ => s end | None => s end, Ret tt).
Proof. intros NS NN G T. unfold if_has. destruct (has_given c n x NS NN G) as (-> & GP). destruct x as [v|]; [|reflexivity]. rewrite (GP v eq_refl). destruct (T v eq_refl) as (r & ->). reflexivity. Qed.
Lemma int_value x v : is_int x v -> (forall j, x = Some j -> exists r, get_value GInt j = Ret r) /\ forall S (set : Z -> S -> S) s, match x with Some j => match get_value GInt j with Ret r => set (num r) s | _ => s end | None => s end = match v with Some z => set z s | None => s end.
Proof.
  unfold is_int. destruct v as [z|]; [intros (-> & R)|intros ->; split; [discriminate|reflexivity]]. assert (E : get_value GInt (JInt z) = Ret (RInt z)) by (cbn [get_value]; unfold in_range; destruct (Z.leb_spec (- 2 ^ 31) z); [|lia]; destruct (Z.ltb_spec z (2 ^ 31)); [|lia]; reflexivity).
  split; [intros j Q; injection Q as <-; eauto|]. intros. rewrite E. reflexivity.
Qed.
Lemma str_value_of x v : is_str x v -> (forall j, x = Some j -> exists r, get_value GStr j = Ret r) /\ forall S (set : string -> S -> S) s, match x with Some j => match get_value GStr j with Ret r => set (str r) s | _ => s end | None => s end = match v with Some z => set z s | None => s end.
Proof.
  unfold is_str. destruct v as [z|]; [intros (-> & R)|intros ->; split; [discriminate|reflexivity]]. split; [intros j Q; injection Q as <-; cbn; eauto|]. intros. cbn. rewrite (cstr_id z R). reflexivity.
Qed.
Ltac plain_name := let H := fresh in intros H; cbn in H; repeat destruct H as [H|H]; try discriminate H; destruct H.
Lemma datasets_of s d n : sm_get (lv_datasets (set_datasets s (new_live 0))) d = Some n <-> n = 0 /\ s <> "" /\ exists parts part, s = joined "," parts /\ Forall no_comma parts /\ In part parts /\ trimmed part d.
Proof.
  cbn [set_datasets lv_datasets]. destruct (String.eqb_spec s "") as [->|NE].
  - cbn. split; [discriminate|]. intros (_ & X & _). congruence.
  - assert (G : forall l m, (forall d n, sm_get m d = Some n -> n = 0) -> (sm_get (fold_left (fun m n => put_new m (trim n) 0) l m) d = Some n <-> n = 0 /\ (sm_get m d = Some 0 \/ exists part, In part l /\ trim part = d))).
    { induction l as [|p l IH]; intros m M; cbn [fold_left].
      - split; [intros H; split; [apply (M _ _ H)|left; rewrite H; f_equal; apply (M _ _ H)]|]. intros (-> & [H|(? & [] & _)]). exact H.
      - rewrite IH. 2:{ intros d' n'. unfold put_new. destruct (sm_get m (trim p)) eqn:Q; [apply M|]. rewrite sm_get_put. destruct (String.eqb d' (trim p)); [congruence|apply M]. }
        assert (S : sm_get (put_new m (trim p) 0) d = Some 0 <-> sm_get m d = Some 0 \/ trim p = d).
        { unfold put_new. destruct (sm_get m (trim p)) eqn:Q.
          - split; [auto|]. intros [A|<-]; [exact A|]. rewrite Q. f_equal. apply (M _ _ Q).
          - rewrite sm_get_put. destruct (String.eqb_spec d (trim p)) as [->|N]; [tauto|]. split; [auto|]. intros [A|<-]; [exact A|congruence]. }
        rewrite S. split.
        + intros (-> & [[A|A]|(q & I & A)]); (split; [reflexivity|]); [auto|right; exists p; split; [left; reflexivity|exact A]|right; exists q; split; [right; exact I|exact A]].
        + intros (-> & [A|(q & [<-|I] & A)]); (split; [reflexivity|]); [auto|auto|right; exists q; auto]. }
    rewrite G by discriminate. cbn [sm_get]. split.
    + intros (-> & [X|(part & I & T)]); [discriminate|]. split; [reflexivity|]. split; [exact NE|]. destruct (split_joined s) as (J & _ & F). exists (split_on "," s), part. split; [symmetry; exact J|]. split; [exact F|]. split; [exact I|]. rewrite <- T. apply trim_trimmed.
    + intros (-> & _ & parts & part & -> & F & I & T). split; [reflexivity|]. right. exists part. split; [rewrite split_unique; [exact I|intros ->; destruct I|exact F]|]. eapply trimmed_unique; [apply trim_trimmed|exact T].
Qed.
(** Each setting of the message is taken over, all others stay; a list of datasets starts all counters at 0. *)
Theorem c37_configure_partial z c p freq per sets tags xf xp xd xt : given c "frame_frequency" xf -> is_int xf freq -> given c "per_second" xp -> is_int xp per -> given c "dataset_name" xd -> is_str xd sets -> given c "filter_tagged" xt -> is_str xt tags ->
  given c "live_view_socket_addr" None ->
  exists p', live_configure z c p = (p', Ret tt) /\
    lv_freq p' = (match freq with Some v => v | None => lv_freq p end) /\ lv_per_second p' = (match per with Some v => v | None => lv_per_second p end) /\
    (forall v, per = Some v -> v <> 0 -> lv_between p' = 1000 * Z.quot 1000 v) /\ (per = None -> lv_between p' = lv_between p) /\ lv_last p' = lv_last p /\
    match sets with Some s => sm_ok (lv_datasets p') /\ forall d n, sm_get (lv_datasets p') d = Some n <-> n = 0 /\ s <> "" /\ exists parts part, s = joined "," parts /\ Forall no_comma parts /\ In part parts /\ trimmed part d | None => lv_datasets p' = lv_datasets p end /\
    match tags with Some s => (s = "" -> lv_tags p' = []) /\ (s <> "" -> exists parts, s = joined "," parts /\ Forall no_comma parts /\ Forall2 trimmed parts (lv_tags p')) | None => lv_tags p' = lv_tags p end /\
    (lv_bound p = true -> lv_bound p' = true /\ lv_addr p' = lv_addr p).
Proof.
  intros G1 T1 G2 T2 G3 T3 G4 T4 G5. unfold live_configure.
  destruct (int_value _ _ T1) as (V1 & E1). destruct (int_value _ _ T2) as (V2 & E2). destruct (str_value_of _ _ T3) as (V3 & E3). destruct (str_value_of _ _ T4) as (V4 & E4).
  rewrite (if_has_given c "frame_frequency" xf) by (first [assumption|plain_name]). rewrite E1 with (set := set_freq).
  rewrite (if_has_given c "per_second" xp) by (first [assumption|plain_name]). rewrite E2 with (set := set_per_second).
  rewrite (if_has_given c "dataset_name" xd) by (first [assumption|plain_name]). rewrite E3 with (set := set_datasets).
  rewrite (if_has_given c "filter_tagged" xt) by (first [assumption|plain_name]). rewrite E4 with (set := set_tags).
  destruct (has_given c "live_view_socket_addr" None) as (-> & _); [plain_name|plain_name|exact G5|].
  set (p1 := match tags with Some s => set_tags s _ | None => _ end). exists (if lv_bound p1 then p1 else set_socket z default_addr p1). split; [reflexivity|].
  assert (SO : forall q, lv_freq (set_socket z default_addr q) = lv_freq q /\ lv_per_second (set_socket z default_addr q) = lv_per_second q /\ lv_between (set_socket z default_addr q) = lv_between q /\ lv_last (set_socket z default_addr q) = lv_last q /\ lv_datasets (set_socket z default_addr q) = lv_datasets q /\ lv_tags (set_socket z default_addr q) = lv_tags q).
  { intros q. unfold set_socket. destruct (sm_get (lv_endpoints q) default_addr); [repeat split|]. destruct (_ && _); repeat split. }
  assert (SAME : let p2 := if lv_bound p1 then p1 else set_socket z default_addr p1 in lv_freq p2 = lv_freq p1 /\ lv_per_second p2 = lv_per_second p1 /\ lv_between p2 = lv_between p1 /\ lv_last p2 = lv_last p1 /\ lv_datasets p2 = lv_datasets p1 /\ lv_tags p2 = lv_tags p1 /\ (lv_bound p1 = true -> p2 = p1)).
  { cbv zeta. destruct (SO p1) as (A1 & A2 & A3 & A4 & A5 & A6). destruct (lv_bound p1); repeat split; auto; discriminate. }
  cbv zeta in SAME. destruct SAME as (S1 & S2 & S3 & S4 & S5 & S6 & S7). rewrite S1, S2, S3, S4, S5, S6.
  split; [destruct freq, per, sets, tags; reflexivity|]. split; [destruct freq, per, sets, tags; reflexivity|].
  split. { intros v -> NZ. assert (E : lv_between p1 = if v =? 0 then lv_between (match freq with Some v => set_freq v p | None => p end) else 1000 * Z.quot 1000 v) by (destruct freq, sets, tags; reflexivity). rewrite E. destruct (Z.eqb_spec v 0); [contradiction|reflexivity]. }
  split; [intros ->; destruct freq, sets, tags; reflexivity|]. split; [destruct freq, per, sets, tags; reflexivity|]. split; [|split].
  - destruct sets as [s|]; [|destruct freq, per, tags; reflexivity]. assert (E : lv_datasets p1 = lv_datasets (set_datasets s (new_live 0))) by (destruct freq, per, tags; reflexivity). rewrite E. split; [|intros d n; apply datasets_of].
    cbn [set_datasets lv_datasets]. destruct (String.eqb s ""); [exact Logic.I|]. assert (G : forall l m, sm_ok m -> sm_ok (fold_left (fun m n => put_new m (trim n) 0) l m)). { induction l as [|q l IH]; intros m M; [exact M|]. cbn [fold_left]. apply IH. unfold put_new. destruct (sm_get m (trim q)); [exact M|apply sm_put_ok, M]. } apply G. exact Logic.I.
  - destruct tags as [s|]; [|destruct freq, per, sets; reflexivity]. assert (E : lv_tags p1 = if String.eqb s "" then [] else map trim (split_on "," s)) by (destruct freq, per, sets; reflexivity). rewrite E. destruct (String.eqb_spec s "") as [->|NE]; (split; [intros X; congruence|intros X; try congruence]).
    destruct (split_joined s) as (J & _ & F). exists (split_on "," s). split; [symmetry; exact J|]. split; [exact F|]. induction (split_on "," s); constructor; [apply trim_trimmed|]. inversion F; auto. clear - l. induction l; constructor; [apply trim_trimmed|assumption].
  - intros B. assert (E : lv_bound p1 = true /\ lv_addr p1 = lv_addr p) by (destruct freq, per, sets, tags; cbn; auto). destruct E as (E & EA). rewrite (S7 E). auto.
Qed.

(** The socket: whatever is configured, it is bound exactly where the live view says; an address that can be bound (and the old one left) is taken. *)
Lemma set_socket_ok z a p : socket_ok p -> socket_ok (set_socket z a p).
Proof.
  unfold socket_ok, set_socket. intros H. destruct (lv_bound p) eqn:B; rewrite H; cbn [sm_get].
  - destruct (String.eqb a (lv_addr p)); [rewrite B; exact H|]. rewrite String.eqb_refl. destruct (zmq_unbind z (lv_addr p)); cbn [andb negb]; [|rewrite B; exact H]. cbn [lv_bound lv_endpoints lv_addr sm_del]. rewrite String.eqb_refl. destruct (zmq_bind z a); reflexivity.
  - cbn [andb lv_bound lv_endpoints lv_addr]. destruct (zmq_bind z a); reflexivity.
Qed.
Lemma if_has_keeps (P : live -> Prop) c n g set st : P (fst st) -> (forall r p, P p -> P (set r p)) -> P (fst (if_has c n g set st)).
Proof. intros H S. destruct st as [p [x|e|]]; cbn [fst if_has] in *; [|exact H|exact H]. destruct (has_param c n) as [[|]|e|]; cbn [fst]; try exact H. destruct (get_param g c n); cbn [fst]; auto. Qed.
Theorem c37_socket cs : forall p, socket_ok p -> socket_ok (fold_left (fun p zc => fst (live_configure (fst zc) (snd zc) p)) cs p).
Proof.
  induction cs as [|[z c] cs IH]; intros p H; [exact H|]. cbn [fold_left fst snd]. apply IH. unfold live_configure.
  match goal with |- context [match ?t with (_, _) => _ end] => assert (K : socket_ok (fst t)) end. { repeat (apply if_has_keeps; [|intros r q Q; exact Q]). exact H. }
  match goal with |- context [match ?t with (_, _) => _ end] => destruct t as [p1 [x|e|]] end; cbn [fst] in *; [|exact K|exact K].
  destruct (has_param c "live_view_socket_addr") as [[|]|e|]; cbn [fst]; try exact K.
  - destruct (get_param GStr c "live_view_socket_addr"); cbn [fst]; try exact K. apply set_socket_ok, K.
  - destruct (lv_bound p1) eqn:B; [exact K|]. apply set_socket_ok, K.
Qed.
Theorem c37_socket_taken z c p a : socket_ok p -> given c "frame_frequency" None -> given c "per_second" None -> given c "dataset_name" None -> given c "filter_tagged" None -> given c "live_view_socket_addr" (Some (JStr a)) -> no_nul a ->
  (lv_bound p = true -> zmq_unbind z (lv_addr p) = true) -> zmq_bind z a = true ->
  exists p', live_configure z c p = (p', Ret tt) /\ lv_bound p' = true /\ lv_addr p' = a /\ lv_endpoints p' = [(a, tt)].
Proof.
  intros OK G1 G2 G3 G4 G5 NN UB BI. unfold live_configure.
  rewrite (if_has_given c "frame_frequency" None) by (first [assumption|discriminate|plain_name]). rewrite (if_has_given c "per_second" None) by (first [assumption|discriminate|plain_name]). rewrite (if_has_given c "dataset_name" None) by (first [assumption|discriminate|plain_name]). rewrite (if_has_given c "filter_tagged" None) by (first [assumption|discriminate|plain_name]).
  destruct (has_given c "live_view_socket_addr" (Some (JStr a))) as (-> & GP); [plain_name|plain_name|exact G5|]. rewrite (GP _ eq_refl). cbn [get_value str]. rewrite (cstr_id a NN). exists (set_socket z a p). split; [reflexivity|].
  unfold socket_ok in OK. unfold set_socket. destruct (lv_bound p) eqn:B; rewrite OK; cbn [sm_get].
  - destruct (String.eqb_spec a (lv_addr p)) as [E|E]; [rewrite B, OK, <- E; auto|]. rewrite String.eqb_refl, (UB eq_refl), BI. cbn [andb negb lv_bound lv_addr lv_endpoints sm_del]. rewrite String.eqb_refl. auto.
  - rewrite BI. cbn. auto.
Qed.
Example c37_case_socket : let z := Zmq (fun _ => true) (fun _ => true) in let c := msg_of_value (JObj [("live_view_socket_addr", JStr "tcp://*:2")]) TCmd VConfigure false 0 in let d := msg_of_value (JObj []) TCmd VConfigure false 0 in
  given c "live_view_socket_addr" (Some (JStr "tcp://*:2")) /\ socket_ok (new_live 0) /\ lv_endpoints (fold_left (fun p zc => fst (live_configure (fst zc) (snd zc) p)) [(z, d); (z, c)] (new_live 0)) = [("tcp://*:2", tt)] /\ lv_addr (fst (live_configure z d (new_live 0))) = default_addr.
Proof. cbv zeta. split; [apply holds_at; reflexivity|]. split; [reflexivity|]. split; vm_compute; reflexivity. Qed.

(** ** Cases *)
Definition fr (d : string) (n : Z) (params : smap anyv) : frame := Frame (Meta n d raw_8bit "acq" [1; 2] no_compression params 0) [n; 7] 2 0 2 1.
Definition a_live := set_datasets "data, other" (set_freq 2 (Live true "tcp://*:1" [("tcp://*:1", tt)] 1 0 0 0 [] [])).
Definition sent_numbers (o : outcome fexc (Z * live * list entry)) : list Z := match o with Ret (_, _, log) => map (fun x => md_number (fr_meta (e_frame x))) (filter (fun x => match e_sent x with Some _ => true | None => false end) log) | _ => [] end.
Definition evs_of (l : list frame) : list event := map (fun f => (f, 0, 0)) l.
Example c37_case : sent_numbers (live_run 0 a_live (evs_of [fr "data" 0 []; fr "data" 1 []; fr "other" 2 []; fr "none" 3 []; fr "data" 4 []; fr "other" 5 []; fr "data" 6 []])) = [0; 2; 4].
Proof. vm_compute. reflexivity. Qed.
Example c37_case_tags : sent_numbers (live_run 0 (set_tags "x , y" a_live) (evs_of [fr "data" 0 []; fr "data" 1 [("y", AU64 1)]; fr "data" 2 [("x", AU64 1)]; fr "data" 3 [("z", AU64 1)]; fr "data" 4 [("x", AOther 1)]])) = [1; 4].
Proof. vm_compute. reflexivity. Qed.
Example c37_case_rate : let p := set_per_second 10 (set_freq 0 a_live) in sent_numbers (live_run 0 p [(fr "data" 1 [], 100001, 100002); (fr "data" 2 [], 150000, 0); (fr "other" 3 [], 200002, 0); (fr "other" 4 [], 200003, 300000)]) = [1; 4].
Proof. vm_compute. reflexivity. Qed.
Example c37_case_hypotheses : let p := set_per_second 10 a_live in lv_bound p = true /\ sm_ok (lv_datasets p) /\ lv_per_second p <> 0 /\ lv_between p = 1000 * Z.quot 1000 (lv_per_second p) /\ in_memory (fr "data" 1 []) /\ map fst (lv_datasets p) = ["data"; "other"].
Proof. cbv zeta. split; [reflexivity|]. split; [vm_compute; repeat match goal with |- _ /\ _ => split | |- Forall _ (_ :: _) => apply Forall_cons | |- Forall _ [] => apply Forall_nil | |- True => exact Logic.I end; reflexivity|]. split; [discriminate|]. split; [reflexivity|]. split; [unfold in_memory; cbn; lia|reflexivity]. Qed.
Example c37_case_configure : let c := msg_of_value (JObj [("frame_frequency", JInt 3); ("dataset_name", JStr "a ,b")]) TCmd VConfigure false 0 in given c "frame_frequency" (Some (JInt 3)) /\ given c "per_second" None /\ map fst (lv_datasets (fst (live_configure (Zmq (fun _ => true) (fun _ => true)) c (new_live 0)))) = ["a"; "b"] /\ lv_addr (fst (live_configure (Zmq (fun _ => true) (fun _ => true)) c (new_live 0))) = default_addr.
Proof. cbv zeta. split; [apply holds_at; reflexivity|]. split; [split; [eexists; apply holds_at; reflexivity|intros v H; apply holds_at in H; discriminate]|]. split; vm_compute; reflexivity. Qed.

(** Two live views without list of datasets share one counter: with frequency 2, fed in turn, the first sends every frame. *)
Theorem c37_shared_counter_refuted : exists p f g, lv_freq p = 2 /\ lv_datasets p = [] /\
  (exists c1 p1 k1 c2 q c3 p3 k3, live_process 0 p f 0 0 = Ret (c1, p1, Some k1, [f]) /\ live_process c1 p f 0 0 = Ret (c2, q, None, [f]) /\ live_process c2 p1 g 0 0 = Ret (c3, p3, Some k3, [g])).
Proof.
  exists (set_datasets "" a_live), (fr "data" 0 []), (fr "data" 1 []). split; [reflexivity|]. split; [reflexivity|].
  do 8 eexists. split; [vm_compute; reflexivity|]. split; [vm_compute; reflexivity|vm_compute; reflexivity].
Qed.
(** Without list of datasets the count is an int: after 2^31 frames the frames sent are no longer the multiples. *)
Theorem c37_wrap_refuted : exists p f c1 p1, lv_freq p = 3 /\ lv_datasets p = [] /\ (3 | 2 ^ 31 + 1) /\ live_process (2 ^ 31 + 1) p f 0 0 = Ret (c1, p1, None, [f]).
Proof. exists (set_freq 3 (set_datasets "" a_live)), (fr "data" 0 []). do 2 eexists. split; [reflexivity|]. split; [reflexivity|]. split; [exists 715827883; reflexivity|]. vm_compute. reflexivity. Qed.
(** With a list, the counter of a dataset overflows. *)
Theorem c37_overflow_refuted : exists p f, lv_bound p = true /\ live_process 0 p f 0 0 = Undef.
Proof. exists (with_count "data" (2 ^ 31 - 1) a_live), (fr "data" 0 []). split; [reflexivity|]. vm_compute. reflexivity. Qed.
(** A negative rate sends every frame. *)
Theorem c37_negative_rate_refuted p f t1 t2 v : lv_bound p = true -> lv_datasets p = [] -> lv_tags p = [] -> v < -1000 -> lv_last p < t1 -> FrameModel.is_valid f = true -> in_memory f -> lv_freq p = 0 ->
  exists c p' k, live_process 0 (set_per_second v p) f t1 t2 = Ret (c, p', Some k, [f]).
Proof.
  intros B D T V L OK M F. unfold live_process. cbn [set_per_second lv_bound lv_tags lv_datasets lv_per_second lv_between lv_last lv_freq]. rewrite B, D, T, F. cbn [andb sm_get obind]. destruct (Z.eqb_spec v 0); [lia|]. assert (Q : Z.quot 1000 v = 0). { replace v with (- (- v)) by lia. rewrite Z.quot_opp_r by lia. rewrite Z.quot_small by lia. reflexivity. }
  rewrite Q. cbn [Z.mul negb]. destruct (Z.ltb_spec 0 (t1 - lv_last p)); [|lia]. cbn [orb andb Z.eqb]. match goal with |- context [live_packet ?q f] => destruct (packet_ok q f M) as (k & E & _) end. rewrite E. cbn [obind]. unfold push. rewrite OK. cbn [obind]. do 3 eexists. reflexivity.
Qed.

Print Assumptions c37_sends_partial.
Print Assumptions c37_forward.
Print Assumptions c37_no_exception.
Print Assumptions c37_rate_partial.
Print Assumptions c37_configure_partial.
Print Assumptions c37_shared_counter_refuted.
Print Assumptions c37_wrap_refuted.
Print Assumptions c37_overflow_refuted.
Print Assumptions c37_negative_rate_refuted.
Print Assumptions c37_socket.
Print Assumptions c37_socket_taken.
