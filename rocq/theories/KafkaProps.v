(** C41, C42: messages to Kafka and the counters. *)
From Coq Require Import String Ascii.
From Verif Require Import Base StrOrder FrameModel JsonModel JsonSpec JsonProofs JsonTextModel JsonTextSpec JsonTextProofs GapSpec GapProofs LiveModel LiveSpec LiveProofs ListText LiveProps KafkaModel KafkaSpec BloscModel BloscProps.
Local Open Scope string_scope.
Local Open Scope list_scope.
Local Open Scope Z_scope.

Lemma u64w_id z : 0 <= z < 2 ^ 64 -> u64w z = JInt z. Proof. intros R. unfold u64w. rewrite Z.mod_small by exact R. reflexivity. Qed.
Lemma map_u64w l : Forall (fun d => 0 <= d < 2 ^ 64) l -> map u64w l = map JInt l.
Proof. induction 1 as [|d l R _ IH]; cbn [map]; [reflexivity|]. rewrite u64w_id, IH by exact R. reflexivity. Qed.
Lemma says_at doc path x : says doc path x <-> at_path path doc = Some x. Proof. apply leads_at. Qed.
Lemma find_params l n v : sm_ok l -> (forall n v, In (n, v) l -> no_nul n) -> sm_get l n = Some v -> find_member n (map (fun e => (cstr (fst e), param_json (snd e))) l) = Some (param_json v).
Proof.
  intros OK NN G. apply sm_get_in in G. pose proof (sm_nodup l OK) as ND. clear OK. induction l as [|[m w] l IH]; [destruct G|]. cbn [map find_member fst snd]. rewrite (cstr_id m) by (apply (NN m w); left; reflexivity). cbn [map fst] in ND. inversion ND as [|? ? NI ND']; subst.
  destruct G as [E|G]; [injection E as -> ->; rewrite String.eqb_refl; reflexivity|]. destruct (String.eqb_spec m n) as [->|_].
  - destruct NI. change n with (fst (n, v)). apply in_map, G.
  - apply IH; auto. intros m' w' I. apply (NN m' w'). right. exact I.
Qed.
Lemma header_describes p f : plain_frame f -> describes (kp_parameters p) f (kafka_header p f).
Proof.
  intros [S N O C D A P NM]. unfold kafka_header. rewrite !u64w_id by assumption. rewrite map_u64w by assumption. rewrite (cstr_id _ A). rewrite (Z.mod_small (md_compr (fr_meta f))) by exact C.
  constructor; try (apply says_at; reflexivity).
  - intros -> n v G. exists (param_json v). split.
    + apply says_at. cbn [at_path app find_member String.eqb Ascii.eqb Bool.eqb]. rewrite (find_params _ _ _ P (fun n v I => proj1 (NM n v I)) G). reflexivity.
    + destruct v as [z|b|t]; cbn [param_json]; try constructor. rewrite u64w_id; [constructor|]. apply sm_get_in in G. exact (proj2 (NM _ _ G) z eq_refl).
  - intros -> x H. apply says_at in H. discriminate.
Qed.

(** Every message with a length field that is not zero is taken apart into a header, which is the text of exactly one document, the one that describes
    the frame, and a zero byte, and the data of the frame. *)
Theorem c41_message_partial k p f m double lo hi rest : doubles_ok double -> (forall b, double b (kl_double k b)) -> plain_frame f -> create_message k p f = Ret (Some m) -> m = lo :: hi :: rest -> (lo <> 0 \/ hi <> 0) ->
  exists t doc, takes_apart m (byte_list t ++ [0]) (firstn (Z.to_nat (fr_data_size f)) (fr_mem f)) /\ text double doc t /\ (forall doc', text double doc' t -> doc' = doc) /\ describes (kp_parameters p) f doc.
Proof.
  intros DO DT PF CM EM NZ. exists (write (kl_double k) (kafka_header p f)), (kafka_header p f). pose proof (write_text double (kl_double k) DT (kafka_header p f)) as TX.
  split; [|split; [exact TX|split; [|apply header_describes, PF]]]; [|intros doc' H; exact (text_unique double DO _ _ _ H TX)].
  unfold create_message in CM. set (tx := write (kl_double k) (kafka_header p f)) in *. clearbody tx. clear TX. unfold bytes_text in CM. fold (byte_list tx) in CM. set (b := byte_list tx) in *. set (size := Z.of_nat (List.length b)) in *.
  assert (S0 : 0 <= size) by (unfold size; lia). destruct (Z.ltb_spec 65535 size) as [L|L]; [discriminate|]. set (ms := (2 + size + 1 + fr_data_size f) mod 2 ^ 64) in *. destruct (kl_memory k <? ms); [discriminate|].
  destruct (Z.ltb_spec (Z.of_nat (List.length (fr_mem f))) (fr_data_size f)) as [FM|FM]; [discriminate|].
  set (d := firstn (Z.to_nat (fr_data_size f)) (fr_mem f)) in *. pose proof (pf_size f PF) as PS. assert (LD : List.length d = Z.to_nat (fr_data_size f)) by (unfold d; rewrite firstn_length; lia).
  destruct (Z.eq_dec size 65535) as [E|NE].
  - exfalso. rewrite E in CM. change ((65535 + 1) mod 2 ^ 16) with 0 in CM. cbn [Z.modulo] in CM. destruct (_ <? _) in CM; [discriminate|]. assert (lo = 0 /\ hi = 0); [|lia]. subst m. cbn in CM. split; congruence.
  - assert (H16 : (size + 1) mod 2 ^ 16 = size + 1) by (apply Z.mod_small; lia). rewrite H16 in CM. set (h := size + 1) in *. assert (LB : List.length (b ++ [0]) = Z.to_nat h) by (rewrite app_length; unfold h, size; cbn; lia). rewrite <- LB, firstn_all in CM.
    set (w := [h mod 256; h / 256] ++ (b ++ [0]) ++ d) in *. assert (LW : Z.of_nat (List.length w) = 2 + h + fr_data_size f) by (unfold w; rewrite !app_length, LD; rewrite app_length in LB; cbn [List.length] in *; lia).
    destruct (Z.ltb_spec ms (Z.of_nat (List.length w))) as [X|X]; [discriminate|]. assert (MS : ms = Z.of_nat (List.length w)). { assert (ms <= 2 + size + 1 + fr_data_size f) by (apply Z.mod_le; lia). lia. }
    rewrite MS, Z.sub_diag in CM. cbn [Z.to_nat seq map] in CM. rewrite app_nil_r in CM. assert (MW : m = w) by congruence. clear CM. unfold w in MW. cbn [app] in MW.
    exists (h mod 256), (h / 256), ((b ++ [0]) ++ d). split; [exact MW|]. split; [apply Z.mod_pos_bound; lia|]. split; [split; [apply Z.div_pos; lia|apply Z.div_lt_upper_bound; lia]|]. cbn zeta.
    assert (HH : h mod 256 + 256 * (h / 256) = h) by (pose proof (Z.div_mod h 256); lia). rewrite HH, <- LB. rewrite firstn_app, firstn_all, Nat.sub_diag, firstn_O, app_nil_r. split; [rewrite (app_length (b ++ [0]) d); lia|]. split; [reflexivity|]. rewrite skipn_app, skipn_all, Nat.sub_diag. reflexivity.
Qed.
(** If the text of the header has at most 65535 bytes, the data are there and there is memory, a message is made. *)
Theorem c41_made k p f : plain_frame f -> fr_data_size f <= Z.of_nat (List.length (fr_mem f)) -> fr_data_size f + 65538 <= kl_memory k -> fr_data_size f < 2 ^ 63 -> Z.of_nat (List.length (write (kl_double k) (kafka_header p f))) <= 65535 ->
  exists m, create_message k p f = Ret (Some m).
Proof.
  intros PF FM MEM SM L. pose proof (pf_size f PF) as PS. unfold create_message. set (b := bytes_text (write (kl_double k) (kafka_header p f))). assert (LB : Z.of_nat (List.length b) <= 65535) by (unfold b, bytes_text; rewrite map_length; exact L). clearbody b.
  set (size := Z.of_nat (List.length b)). assert (0 <= size <= 65535) by (unfold size; lia). destruct (Z.ltb_spec 65535 size); [lia|]. rewrite (Z.mod_small (2 + size + 1 + fr_data_size f)) by lia. destruct (Z.ltb_spec (kl_memory k) (2 + size + 1 + fr_data_size f)); [lia|].
  destruct (Z.ltb_spec (Z.of_nat (List.length (fr_mem f))) (fr_data_size f)); [lia|].
  match goal with |- context [?x <? Z.of_nat (List.length ?w)] => destruct (Z.ltb_spec x (Z.of_nat (List.length w))) as [X|X] end; [|eauto]. exfalso. rewrite !app_length, !firstn_length in X. rewrite app_length in X. cbn [List.length] in X. pose proof (Nat.le_min_r (Z.to_nat ((size + 1) mod 2 ^ 16)) (List.length b + 1)). pose proof (Nat.le_min_l (Z.to_nat (fr_data_size f)) (List.length (fr_mem f))). set (u := Nat.min (Z.to_nat ((size + 1) mod 2 ^ 16)) _) in *. set (v := Nat.min _ (List.length (fr_mem f))) in *. clearbody u v. unfold size in *. lia.
Qed.

(** ** Counters *)
Lemma kstep_given c n x g before set p : no_slash n -> no_nul n -> given c n x -> (forall v, x = Some v -> exists r, get_value g v = Ret r) ->
  kstep c n g before set (p, Ret tt) = (match x with Some v => match get_value g v with Ret r => set r (before p) | _ => p end | None => p end, Ret tt).
Proof.
  intros NS NN G V. unfold kstep. destruct (has_given c n x NS NN G) as (-> & GP). destruct x as [v|]; [|reflexivity]. rewrite (GP v eq_refl). destruct (V v eq_refl) as (r & ->). reflexivity.
Qed.
Lemma typed_str c n : typed c -> In n ["servers"; "topic"; "dataset"] -> exists x, given c n x /\ (x = None \/ exists s, x = Some (JStr s)).
Proof. intros (T & _) I. destruct (T n I) as [G|(s & G)]; eauto. Qed.
Lemma reports_same r : forall p, kp_sent (reports r p) = kp_sent p /\ kp_lost (reports r p) = kp_lost p /\ kp_dataset (reports r p) = kp_dataset p /\ kp_topic (reports r p) = kp_topic p /\ kp_producer (reports r p) = kp_producer p /\ kp_topic_name (reports r p) = kp_topic_name p.
Proof. unfold reports. induction r as [|b r IH]; intros p; [auto 8|]. cbn [fold_left]. destruct (IH (report p b)) as (-> & -> & -> & -> & -> & ->). destruct b; auto 8. Qed.
(** A configuration that the library accepts *)
Lemma configure_accepted k r c p : typed c -> accepted k c -> kp_topic p = true -> kp_producer p = true ->
  exists q, kafka_configure k r c p = (q, Ret tt) /\ kp_topic q = true /\ kp_producer q = true /\ kp_sent q = kp_sent p /\ kp_lost q = kp_lost p /\
    (given c "dataset" None -> kp_dataset q = kp_dataset p) /\ (forall s, given c "dataset" (Some (JStr s)) -> kp_dataset q = cstr s).
Proof.
  intros T (AS & AT) KT KP. unfold kafka_configure.
  destruct (typed_str c "servers" T ltac:(cbn; auto)) as (xs & GS & VS). destruct (typed_str c "topic" T ltac:(cbn; auto)) as (xt & GT & VT). destruct (typed_str c "dataset" T ltac:(cbn; auto)) as (xd & GD & VD). destruct T as (_ & TP & TI).
  assert (exists xp, given c "partition" xp /\ forall v, xp = Some v -> exists r, get_value GUint v = Ret r) as (xp & GP & VP). { destruct TP as [G|(z & R & G)]; [exists None; split; [exact G|discriminate]|]. exists (Some (JInt z)). split; [exact G|]. intros v E. injection E as <-. exists (RInt z). cbn [get_value]. unfold in_range. destruct (Z.leb_spec 0 z); [|lia]. destruct (Z.ltb_spec z (2 ^ 32)); [|lia]. reflexivity. }
  assert (exists xi, given c "include_parameters" xi /\ forall v, xi = Some v -> exists r, get_value GBool v = Ret r) as (xi & GI & VI). { destruct TI as [G|(b & G)]; [exists None; split; [exact G|discriminate]|]. exists (Some (JBool b)). split; [exact G|]. intros v E. injection E as <-. eexists. reflexivity. }
  assert (VV : forall x, (x = None \/ exists s, x = Some (JStr s)) -> forall v, x = Some v -> exists r, get_value GStr v = Ret r). { intros x [->|(s & ->)] v E; [discriminate|]. injection E as <-. eexists. reflexivity. }
  rewrite (kstep_given c "servers" xs) by (first [assumption|apply VV; assumption|plain_name]). set (p1 := match xs with Some v => _ | None => p end).
  assert (H1 : kp_topic p1 = true /\ kp_producer p1 = true /\ kp_sent p1 = kp_sent p /\ kp_lost p1 = kp_lost p /\ kp_dataset p1 = kp_dataset p).
  { subst p1. destruct VS as [->|(s & ->)]; [auto|]. cbn [get_value]. unfold configure_servers, configure_topic, destroy_kafka. cbn [str]. rewrite (AS s GS), KT. cbn. rewrite AT. destruct (reports_same r p) as (-> & -> & -> & _). auto. }
  clearbody p1. rewrite (kstep_given c "topic" xt) by (first [assumption|apply VV; assumption|plain_name]). set (p2 := match xt with Some v => _ | None => p1 end).
  assert (H2 : kp_topic p2 = true /\ kp_producer p2 = true /\ kp_sent p2 = kp_sent p /\ kp_lost p2 = kp_lost p /\ kp_dataset p2 = kp_dataset p).
  { subst p2. destruct VT as [->|(s & ->)]; [exact H1|]. cbn [get_value]. unfold configure_topic. destruct H1 as (A1 & A2 & A3 & A4 & A5). rewrite A2. cbn. rewrite AT. auto 8. }
  clearbody p2. rewrite (kstep_given c "partition" xp) by (first [assumption|plain_name]). set (p3 := match xp with Some v => _ | None => p2 end).
  assert (H3 : kp_topic p3 = true /\ kp_producer p3 = true /\ kp_sent p3 = kp_sent p /\ kp_lost p3 = kp_lost p /\ kp_dataset p3 = kp_dataset p).
  { subst p3. destruct xp as [v|]; [|exact H2]. destruct (VP v eq_refl) as (w & ->). exact H2. }
  clearbody p3. rewrite (kstep_given c "dataset" xd) by (first [assumption|apply VV; assumption|plain_name]). set (p4 := match xd with Some v => _ | None => p3 end).
  assert (H4 : kp_topic p4 = true /\ kp_producer p4 = true /\ kp_sent p4 = kp_sent p /\ kp_lost p4 = kp_lost p /\ (given c "dataset" None -> kp_dataset p4 = kp_dataset p) /\ (forall s, given c "dataset" (Some (JStr s)) -> kp_dataset p4 = cstr s)).
  { destruct H3 as (A1 & A2 & A3 & A4 & A5). subst p4. destruct VD as [->|(s & ->)]; cbn [get_value str].
    - repeat (split; [assumption|]). split; [intros _; assumption|]. intros s G. destruct GD as (_ & N). destruct (N _ G).
    - repeat (split; [assumption|]). split; [intros (_ & N); destruct (N _ GD)|]. intros s' G. cbn in G, GD. apply holds_at in G, GD. rewrite GD in G. injection G as ->. reflexivity. }
  clearbody p4. rewrite (kstep_given c "include_parameters" xi) by (first [assumption|plain_name]). eexists. split; [reflexivity|]. destruct xi as [v|]; [|exact H4]. destruct (VI v eq_refl) as (w & ->). exact H4.
Qed.

(** What a configuration sets *)
Lemma given_one c n x y : given c n x -> given c n y -> x = y.
Proof. destruct x as [x|], y as [y|]; cbn; intros A B; [|destruct B as (_ & N); destruct (N _ A)|destruct A as (_ & N); destruct (N _ B)|reflexivity]. apply holds_at in A, B. congruence. Qed.
Theorem c42_configured k r c p : typed c -> exists q, kafka_configure k r c p = (q, Ret tt) /\ configured k c p q.
Proof.
  intros T. unfold kafka_configure.
  destruct (typed_str c "servers" T ltac:(cbn; auto)) as (xs & GS & VS). destruct (typed_str c "topic" T ltac:(cbn; auto)) as (xt & GT & VT). destruct (typed_str c "dataset" T ltac:(cbn; auto)) as (xd & GD & VD). destruct T as (_ & TP & TI).
  assert (exists xp, given c "partition" xp /\ (xp = None \/ exists z, xp = Some (JInt z) /\ get_value GUint (JInt z) = Ret (RInt z))) as (xp & GP & VP). { destruct TP as [G|(z & R & G)]; [exists None; auto|]. exists (Some (JInt z)). split; [exact G|]. right. exists z. split; [reflexivity|]. cbn [get_value]. unfold in_range. destruct (Z.leb_spec 0 z); [|lia]. destruct (Z.ltb_spec z (2 ^ 32)); [|lia]. reflexivity. }
  assert (exists xi, given c "include_parameters" xi /\ (xi = None \/ exists b, xi = Some (JBool b))) as (xi & GI & VI). { destruct TI as [G|(b & G)]; [exists None; auto|]. exists (Some (JBool b)). eauto. }
  assert (VV : forall x, (x = None \/ exists s, x = Some (JStr s)) -> forall v, x = Some v -> exists r, get_value GStr v = Ret r). { intros x [->|(s & ->)] v E; [discriminate|]. injection E as <-. eexists. reflexivity. }
  rewrite (kstep_given c "servers" xs) by (first [assumption|apply VV; assumption|plain_name]).
  rewrite (kstep_given c "topic" xt) by (first [assumption|apply VV; assumption|plain_name]).
  assert (VP' : forall v, xp = Some v -> exists r, get_value GUint v = Ret r) by (intros v EV; destruct VP as [E|(z & E & F)]; rewrite E in EV; [discriminate|injection EV as <-; eauto]).
  assert (VI' : forall v, xi = Some v -> exists r, get_value GBool v = Ret r) by (intros v EV; destruct VI as [E|(z & E)]; rewrite E in EV; [discriminate|injection EV as <-; cbn; eauto]).
  rewrite (kstep_given c "partition" xp) by (first [assumption|plain_name]).
  rewrite (kstep_given c "dataset" xd) by (first [assumption|apply VV; assumption|plain_name]).
  rewrite (kstep_given c "include_parameters" xi) by (first [assumption|plain_name]). clear VP' VI'.
  set (p1 := match xs with Some v => match get_value GStr v with Ret r0 => (fun q => let q1 := configure_servers k (str r0) q in configure_topic k (kp_topic_name q1) q1) (destroy_kafka r p) | _ => p end | None => p end).
  set (p2 := match xt with Some v => match get_value GStr v with Ret r0 => configure_topic k (str r0) p1 | _ => p1 end | None => p1 end).
  set (p3 := match xp with Some v => match get_value GUint v with Ret r0 => with_partition (i32 (num r0)) p2 | _ => p2 end | None => p2 end).
  set (p4 := match xd with Some v => match get_value GStr v with Ret r0 => with_dataset (str r0) p3 | _ => p3 end | None => p3 end).
  eexists. split; [reflexivity|].
  assert (H1 : kp_sent p1 = kp_sent p /\ kp_lost p1 = kp_lost p /\ kp_dataset p1 = kp_dataset p /\ kp_partition p1 = kp_partition p /\ kp_parameters p1 = kp_parameters p /\ kp_topic_name p1 = kp_topic_name p /\
     match xs with None => p1 = p | Some (JStr s) => kp_producer p1 = kl_servers k (cstr s) /\ kp_servers p1 = (if kl_servers k (cstr s) then cstr s else kp_servers p) /\ kp_topic p1 = (kl_servers k (cstr s) && kl_topic k (kp_topic_name p))%bool | _ => True end).
  { subst p1. destruct VS as [->|(s & ->)]; [auto 10|]. cbn [get_value str]. cbv beta zeta. assert (D : exists q, destroy_kafka r p = q /\ kp_sent q = kp_sent p /\ kp_lost q = kp_lost p /\ kp_dataset q = kp_dataset p /\ kp_partition q = kp_partition p /\ kp_parameters q = kp_parameters p /\ kp_topic_name q = kp_topic_name p /\ kp_producer q = false /\ kp_servers q = kp_servers p /\ kp_topic q = false).
    { eexists. split; [reflexivity|]. unfold destroy_kafka. assert (RS : kp_partition (reports r p) = kp_partition p /\ kp_parameters (reports r p) = kp_parameters p). { clear. unfold reports. revert p. induction r as [|b r IH]; intros p; [auto|]. cbn [fold_left]. destruct (IH (report p b)) as (-> & ->). destruct b; auto. }
      destruct (reports_same r p) as (A1 & A2 & A3 & A4 & A5 & A6), RS as (A7 & A8). destruct (kp_topic p); cbn; auto 12. }
    destruct D as (q & -> & D1 & D2 & D3 & D4 & D5 & D6 & D7 & D8 & D9). unfold configure_servers. destruct (kl_servers k (cstr s)); unfold configure_topic; cbn; rewrite ?D7, ?D6; cbn; auto 12. }
  assert (H2 : kp_sent p2 = kp_sent p /\ kp_lost p2 = kp_lost p /\ kp_dataset p2 = kp_dataset p /\ kp_partition p2 = kp_partition p /\ kp_parameters p2 = kp_parameters p /\ kp_producer p2 = kp_producer p1 /\ kp_servers p2 = kp_servers p1 /\
     match xt with None => p2 = p1 | Some (JStr n) => if kp_producer p1 then kp_topic_name p2 = cstr n /\ kp_topic p2 = kl_topic k (cstr n) else kp_topic_name p2 = kp_topic_name p /\ kp_topic p2 = false | _ => True end).
  { destruct H1 as (B1 & B2 & B3 & B4 & B5 & B6 & _). subst p2. destruct VT as [->|(n & ->)]; [auto 10|]. cbn [get_value str]. unfold configure_topic. destruct (kp_producer p1) eqn:E; cbn; auto 12. }
  clearbody p1 p2. destruct H1 as (B1 & B2 & B3 & B4 & B5 & B6 & B7). destruct H2 as (C1 & C2 & C3 & C4 & C5 & C6 & C7 & C8).
  assert (H3 : kp_partition p3 = match xp with Some (JInt z) => i32 z | _ => kp_partition p end /\ p3 = with_partition (kp_partition p3) p2). { subst p3. destruct VP as [->|(z & -> & ->)]; [split; [exact C4|destruct p2; reflexivity]|]. split; reflexivity. }
  assert (H4 : p4 = with_dataset (match xd with Some (JStr s) => cstr s | _ => kp_dataset p end) p3). { subst p4. destruct VD as [->|(s & ->)]; [|reflexivity]. destruct H3 as (_ & H3). rewrite H3. rewrite <- C3. destruct p2; reflexivity. }
  clearbody p3 p4.
  set (q := match xi with Some v => match get_value GBool v with Ret r0 => with_parameters (flag r0) p4 | _ => p4 end | None => p4 end).
  assert (H5 : q = with_parameters (match xi with Some (JBool b) => b | _ => kp_parameters p end) p4). { subst q. destruct VI as [->|(b & ->)]; [|reflexivity]. rewrite H4. destruct H3 as (_ & ->). rewrite <- C5. destruct p2; reflexivity. }
  clearbody q. destruct H3 as (H3a & H3b). rewrite H3a in H3b.
  assert (Q : kp_sent q = kp_sent p2 /\ kp_lost q = kp_lost p2 /\ kp_producer q = kp_producer p2 /\ kp_servers q = kp_servers p2 /\ kp_topic q = kp_topic p2 /\ kp_topic_name q = kp_topic_name p2) by (rewrite H5, H4, H3b; auto 8).
  assert (QD : kp_dataset q = match xd with Some (JStr s) => cstr s | _ => kp_dataset p end) by (rewrite H5, H4; reflexivity).
  assert (QP : kp_partition q = match xp with Some (JInt z) => i32 z | _ => kp_partition p end) by (rewrite H5, H4; exact H3a).
  assert (QI : kp_parameters q = match xi with Some (JBool b) => b | _ => kp_parameters p end) by (rewrite H5; reflexivity).
  clear H5 H4 H3a H3b. destruct Q as (Q1 & Q2 & Q3 & Q4 & Q5 & Q6).
  constructor.
  - rewrite QD. split; [intros G; rewrite (given_one _ _ _ _ GD G); reflexivity|]. intros s G. rewrite (given_one _ _ _ _ GD G). reflexivity.
  - rewrite QP. split; [intros G; rewrite (given_one _ _ _ _ GP G); reflexivity|]. intros z G R. rewrite (given_one _ _ _ _ GP G). clear - R. unfold i32. rewrite Z.mod_small; lia.
  - rewrite QI. split; [intros G; rewrite (given_one _ _ _ _ GI G); reflexivity|]. intros b G. rewrite (given_one _ _ _ _ GI G). reflexivity.
  - rewrite Q3, Q4, C6, C7. split; [intros G; rewrite (given_one _ _ _ _ GS G) in B7; rewrite B7; auto|]. intros s G. rewrite (given_one _ _ _ _ GS G) in B7. destruct B7 as (E1 & E2 & E3). split; intros K; rewrite K in *; [auto|]. split; [exact E2|]. split; [exact E1|]. rewrite Q5. destruct VT as [->|(n & ->)]; [rewrite C8; exact E3|]. rewrite E1 in C8. apply C8.
  - rewrite Q3, Q5, Q6, C6. split.
    + intros n G. rewrite (given_one _ _ _ _ GT G) in C8. exact C8.
    + intros G. rewrite (given_one _ _ _ _ GT G) in C8. rewrite C8. split; [exact B6|]. split; [intros G2; rewrite (given_one _ _ _ _ GS G2) in B7; rewrite B7; reflexivity|]. intros s G2. rewrite (given_one _ _ _ _ GS G2) in B7. destruct B7 as (E1 & E2 & E3). rewrite E1. exact E3.
  - rewrite Q1, Q2. auto.
Qed.
Lemma due_frame ok d f b r l t n : due ok d (KFrame f b r l :: t) n ->
  l = [] /\ (md_dataset (fr_meta f) = d -> b = ok -> exists m, n = S m /\ due ok d t m) /\ (md_dataset (fr_meta f) = d -> b = negb ok -> due ok d t n) /\ (md_dataset (fr_meta f) <> d -> due ok d t n).
Proof.
  intros H. inversion H; subst; (split; [reflexivity|]); (split; [|split]); intros; try congruence; eauto; match goal with H : negb ?b = ?b |- _ => destruct b; discriminate | H : ?b = negb ?b |- _ => destruct b; discriminate end.
Qed.
(** Frames of the configured dataset are counted once each: as sent if the library took them, else as lost; one message for each sent.  Here the
    producer is connected, the library accepts the configurations, and there is a message for each frame. *)
Theorem c42_counts_partial k evs : (forall p f ok r l, In (KFrame f ok r l) evs -> exists m, create_message k p f = Ret (Some m)) ->
  (forall c r, In (KConfig c r) evs -> typed c /\ accepted k c) ->
  forall p d taken refused, kp_topic p = true -> kp_producer p = true -> kp_dataset p = d -> 0 <= kp_sent p < 2 ^ 32 -> 0 <= kp_lost p < 2 ^ 32 -> due true d evs taken -> due false d evs refused ->
  let '(q, log) := kafka_run k p evs in
  kp_sent q = (kp_sent p + Z.of_nat taken) mod 2 ^ 32 /\ kp_lost q = (kp_lost p + Z.of_nat refused) mod 2 ^ 32 /\ List.length (messages log) = taken.
Proof.
  induction evs as [|e evs IH]; intros MK CF p d n1 n2 KT KP KD RS RL D1 D2.
  - inversion D1; subst. inversion D2; subst. cbn [kafka_run messages List.length]. rewrite !Z.add_0_r, !Z.mod_small by assumption. auto.
  - cbn [kafka_run]. destruct (kafka_step k p e) as [p1 x] eqn:ST. specialize (IH (fun p f ok r l I => MK p f ok r l (or_intror I)) (fun c r I => CF c r (or_intror I)) p1). destruct (kafka_run k p1 evs) as [q log].
    destruct e as [f ok r l|c r|r|].
    + assert (l = []) by (apply (due_frame _ _ _ _ _ _ _ _ D1)). subst l. cbn [kafka_step configure_all fold_left] in ST. rewrite KD, KT, andb_true_r in ST.
      destruct (String.eqb_spec (md_dataset (fr_meta f)) d) as [E|N].
      * destruct (MK p f ok r [] (or_introl eq_refl)) as (m & EM). unfold enqueue_locked in ST. rewrite EM, KT, KP in ST. cbn [andb] in ST. cbn zeta in ST. assert (EP : p1 = reports r (if ok then with_counts (count_up (kp_sent p)) (kp_lost p) (kp_ack p) p else with_counts (kp_sent p) (count_up (kp_lost p)) (kp_ack p) p)) by congruence.
        assert (EX : x = KeFrame (Ret (if ok then Some m else None)) (push f)) by congruence. clear ST. subst x.
        match type of EP with p1 = reports r ?z => destruct (reports_same r z) as (R1 & R2 & R3 & R4 & R5 & _); rewrite <- EP in R1, R2, R3, R4, R5 end.
        assert (MR : forall z, 0 <= count_up z < 2 ^ 32) by (intros z; apply Z.mod_pos_bound; lia).
        assert (AD : forall a b, (count_up a + b) mod 2 ^ 32 = (a + (1 + b)) mod 2 ^ 32) by (intros a b; unfold count_up; rewrite Z.add_mod_idemp_l by lia; f_equal; lia).
        assert (NB : forall b : bool, negb b <> b) by (intros []; discriminate).
        clear EP. destruct ok; cbn [with_counts kp_sent kp_lost kp_dataset kp_topic kp_producer] in R1, R2, R3, R4, R5.
        { destruct (due_frame _ _ _ _ _ _ _ _ D1) as (_ & X1 & _). destruct (X1 E eq_refl) as (m1 & -> & D1'). destruct (due_frame _ _ _ _ _ _ _ _ D2) as (_ & _ & X2 & _). pose proof (X2 E eq_refl) as D2'. clear X1 X2 D1 D2 MK CF EM.
          assert (E1 : kp_topic p1 = true) by (rewrite R4; exact KT). assert (E2 : kp_producer p1 = true) by (rewrite R5; exact KP). assert (E3 : kp_dataset p1 = d) by (rewrite R3; exact KD). assert (E4 : 0 <= kp_sent p1 < 2 ^ 32) by (rewrite R1; apply MR). assert (E5 : 0 <= kp_lost p1 < 2 ^ 32) by (rewrite R2; exact RL).
          destruct (IH d m1 n2 E1 E2 E3 E4 E5 D1' D2') as (I1 & I2 & I3). rewrite I1, I2, R1, R2. cbn [messages List.length]. rewrite AD, I3. split; [f_equal; lia|split; reflexivity]. }
        { destruct (due_frame _ _ _ _ _ _ _ _ D2) as (_ & X2 & _). destruct (X2 E eq_refl) as (m2 & -> & D2'). destruct (due_frame _ _ _ _ _ _ _ _ D1) as (_ & _ & X1 & _). pose proof (X1 E eq_refl) as D1'. clear X1 X2 D1 D2 MK CF EM.
          assert (E1 : kp_topic p1 = true) by (rewrite R4; exact KT). assert (E2 : kp_producer p1 = true) by (rewrite R5; exact KP). assert (E3 : kp_dataset p1 = d) by (rewrite R3; exact KD). assert (E4 : 0 <= kp_sent p1 < 2 ^ 32) by (rewrite R1; exact RS). assert (E5 : 0 <= kp_lost p1 < 2 ^ 32) by (rewrite R2; apply MR).
          destruct (IH d n1 m2 E1 E2 E3 E4 E5 D1' D2') as (I1 & I2 & I3). rewrite I1, I2, R1, R2. cbn [messages List.length]. rewrite AD, I3. split; [reflexivity|split; [f_equal; lia|reflexivity]]. }
      * cbn [andb] in ST. assert (p1 = p) by congruence. assert (EX : x = KeFrame (Ret None) (push f)) by congruence. subst p1 x.
        cbn [messages]. apply (IH d n1 n2 KT KP KD RS RL); [apply (due_frame _ _ _ _ _ _ _ _ D1), N|apply (due_frame _ _ _ _ _ _ _ _ D2), N].
    + destruct (CF c r (or_introl eq_refl)) as (T & A). destruct (configure_accepted k r c p T A KT KP) as (q1 & E & Q1 & Q2 & Q3 & Q4 & Q5 & Q6). cbn [kafka_step] in ST. rewrite E in ST. assert (p1 = q1) by congruence. assert (EX : x = KeConfig (Ret tt)) by congruence. subst p1 x. cbn [messages].
      assert (DD : exists d', kp_dataset q1 = d' /\ due true d' evs n1 /\ due false d' evs n2).
      { inversion D1 as [| | | |? ? ? ? ? G1 D1'|? ? s1 ? ? ? G1 D1'|]; subst; inversion D2 as [| | | |? ? ? ? ? G2 D2'|? ? s2 ? ? ? G2 D2'|]; subst.
        - exists (kp_dataset p). auto.
        - destruct G1 as (_ & N). destruct (N _ G2).
        - destruct G2 as (_ & N). destruct (N _ G1).
        - exists (cstr s1). split; [auto|]. split; [exact D1'|]. cbn in G1, G2. apply holds_at in G1, G2. rewrite G1 in G2. injection G2 as ->. exact D2'. }
      destruct DD as (d' & E' & D1' & D2'). destruct (IH d' n1 n2) as (I1 & I2 & I3); auto; try congruence. split; [congruence|]. split; congruence.
    + cbn [kafka_step] in ST. rewrite KP in ST. assert (EP : p1 = reports r p) by congruence. assert (EX : x = KeOther) by congruence. subst x. cbn [messages]. inversion D1 as [| | | | | |? ? ? ? D1']; subst. inversion D2 as [| | | | | |? ? ? ? D2']; subst.
      destruct (reports_same r p) as (R1 & R2 & R3 & R4 & R5 & _). destruct (IH (kp_dataset p) n1 n2) as (I1 & I2 & I3); auto; try congruence. split; [congruence|]. split; congruence.
    + inversion D1.
Qed.

Lemma with_configs k l : forall p, kp_sent (configure_all k l p) = kp_sent p /\ kp_lost (configure_all k l p) = kp_lost p.
Proof.
  assert (ONE : forall r c p, kp_sent (fst (kafka_configure k r c p)) = kp_sent p /\ kp_lost (fst (kafka_configure k r c p)) = kp_lost p).
  { intros r c p. unfold kafka_configure. assert (S : forall n g before set st, (forall q, kp_sent (before q) = kp_sent q /\ kp_lost (before q) = kp_lost q) -> (forall v q, kp_sent (set v q) = kp_sent q /\ kp_lost (set v q) = kp_lost q) -> kp_sent (fst st) = kp_sent p /\ kp_lost (fst st) = kp_lost p -> kp_sent (fst (kstep c n g before set st)) = kp_sent p /\ kp_lost (fst (kstep c n g before set st)) = kp_lost p).
    { intros n g before set [q [u|e|]] B T (<- & <-); cbn [fst kstep]; auto. destruct (has_param c n) as [[]| |]; cbn [fst]; auto. destruct (get_param g c n) as [v| |]; cbn [fst]; auto. destruct (T v (before q)) as (-> & ->). apply B. }
    apply S; auto. apply S; auto. apply S; auto. apply S; auto; [intros v q; unfold configure_topic; destruct (kp_producer q); auto|]. apply S; auto.
    - intros q. unfold destroy_kafka. destruct (kp_topic q); cbn; [destruct (reports_same r q) as (-> & -> & _)|]; auto.
    - intros v q. cbn zeta. unfold configure_topic, configure_servers. destruct (kl_servers k (str v)), (kp_producer _); auto. }
  induction l as [|[c r] l IH]; intros p; [auto|]. unfold configure_all in *. cbn [fold_left fst snd]. destruct (IH (fst (kafka_configure k r c p))) as (-> & ->). apply ONE.
Qed.
(** The counter of frames sent is the number of messages that the library took, in every history without reset. *)
Theorem c42_sent k evs : ~ In KReset evs -> forall p, 0 <= kp_sent p < 2 ^ 32 -> let '(q, log) := kafka_run k p evs in kp_sent q = (kp_sent p + Z.of_nat (List.length (messages log))) mod 2 ^ 32.
Proof.
  induction evs as [|e evs IH]; intros NR p R; cbn [kafka_run messages List.length].
  - rewrite Z.add_0_r, Z.mod_small by exact R. reflexivity.
  - destruct (kafka_step k p e) as [p1 x] eqn:ST. specialize (IH (fun I => NR (or_intror I)) p1). destruct (kafka_run k p1 evs) as [q log].
    assert (X : kp_sent p1 = (kp_sent p + match x with KeFrame (Ret (Some _)) _ => 1 | _ => 0 end) mod 2 ^ 32).
    { assert (Z0 : kp_sent p = (kp_sent p + 0) mod 2 ^ 32) by (rewrite Z.add_0_r, Z.mod_small by exact R; reflexivity).
      destruct e as [f ok r l|c r|r|]; cbn [kafka_step] in ST.
      - destruct (_ && _); [|assert (EP : p1 = configure_all k l p) by congruence; assert (EX : x = KeFrame (Ret None) (push f)) by congruence; subst x; rewrite EP; destruct (with_configs k l p) as (-> & _); exact Z0].
        destruct (with_configs k l p) as (WC & _). set (pc := configure_all k l p) in *. destruct (enqueue_locked k ok r pc f) as [q1 o] eqn:EN. assert (p1 = q1) by congruence. assert (EX : exists y, x = KeFrame o y) by (eexists; symmetry; injection ST as _ ST; exact ST). destruct EX as (y & ->). subst q1. clear ST.
        unfold enqueue_locked in EN. destruct (create_message k pc f) as [[b|]| |]; try (injection EN as <- <-; rewrite WC; exact Z0). destruct (kp_topic pc && kp_producer pc); [|injection EN as <- <-; rewrite WC; exact Z0]. cbn zeta in EN. assert (EP : p1 = reports r (if ok then with_counts (count_up (kp_sent pc)) (kp_lost pc) (kp_ack pc) pc else with_counts (kp_sent pc) (count_up (kp_lost pc)) (kp_ack pc) pc)) by congruence. assert (EO : o = Ret (if ok then Some b else None)) by congruence. subst o. clear EN.
        match type of EP with p1 = reports r ?z => destruct (reports_same r z) as (R1 & _) end. rewrite EP, R1. destruct ok; cbn [with_counts kp_sent]; rewrite WC; [reflexivity|exact Z0].
      - assert (EP : p1 = configure_all k [(c, r)] p) by (unfold configure_all; cbn [fold_left fst snd]; destruct (kafka_configure k r c p); cbn; congruence). assert (EX : exists o, x = KeConfig o) by (destruct (kafka_configure k r c p) as [? o]; exists o; congruence). destruct EX as (o & ->). rewrite EP. destruct (with_configs k [(c, r)] p) as (-> & _). exact Z0.
      - assert (EX : x = KeOther) by congruence. subst x. destruct (kp_producer p); [assert (EP : p1 = reports r p) by congruence; destruct (reports_same r p) as (R1 & _); rewrite EP, R1; exact Z0|assert (EP : p1 = p) by congruence; rewrite EP; exact Z0].
      - destruct NR. left. reflexivity. }
    assert (R1 : 0 <= kp_sent p1 < 2 ^ 32) by (rewrite X; apply Z.mod_pos_bound; lia). rewrite (IH R1), X, Z.add_mod_idemp_l by lia. destruct x as [[[b|]| |] y|o|]; cbn [messages List.length]; f_equal; lia.
Qed.
(** A valid frame is passed on, whatever becomes of its message. *)
Theorem c42_passed_on k p f ok r l q o out : kafka_step k p (KFrame f ok r l) = (q, KeFrame o out) -> FrameModel.is_valid f = true -> o <> Undef -> out = Ret [f].
Proof.
  intros ST V. assert (P : push f = Ret [f]) by (unfold push; rewrite V; reflexivity). cbn [kafka_step] in ST. destruct (_ && _).
  - destruct (enqueue_locked k ok r (configure_all k l p) f) as [q1 o1] eqn:EN. injection ST as _ <- <-. intros N. destruct o1 as [b|e|]; [exact P| |congruence]. exfalso. unfold enqueue_locked, create_message in EN.
    repeat match type of EN with context [if ?b then _ else _] => destruct b end; discriminate.
  - injection ST as _ <- <-. intros _. exact P.
Qed.
(** Acknowledged frames are at most the reports of delivery. *)
Lemma reports_ack r : forall p, 0 <= kp_ack p -> kp_ack p + Z.of_nat (List.length r) < 2 ^ 32 -> kp_ack p <= kp_ack (reports r p) <= kp_ack p + Z.of_nat (List.length r).
Proof.
  unfold reports. induction r as [|b r IH]; intros p P L; cbn [fold_left List.length] in *; [lia|]. assert (A : kp_ack (report p b) = kp_ack p + (if b then 1 else 0)). { destruct b; cbn; [unfold count_up; rewrite Z.mod_small; lia|lia]. }
  specialize (IH (report p b)). rewrite A in IH. destruct b; lia.
Qed.
Lemma configure_ack k r c p : 0 <= kp_ack p -> kp_ack p + Z.of_nat (List.length r) < 2 ^ 32 -> kp_ack p <= kp_ack (fst (kafka_configure k r c p)) <= kp_ack p + Z.of_nat (List.length r).
Proof.
  intros P L. unfold kafka_configure. assert (S : forall n g set st, (forall v q, kp_ack (set v q) = kp_ack q) -> kp_ack p <= kp_ack (fst st) <= kp_ack p + Z.of_nat (List.length r) -> kp_ack p <= kp_ack (fst (kstep c n g (fun q => q) set st)) <= kp_ack p + Z.of_nat (List.length r)).
  { intros n g set [q [u|e|]] T H; cbn [fst kstep] in *; auto. destruct (has_param c n) as [[]| |]; cbn [fst]; auto. destruct (get_param g c n) as [v| |]; cbn [fst]; auto. rewrite T. exact H. }
  apply S; [reflexivity|]. apply S; [reflexivity|]. apply S; [reflexivity|]. apply S; [intros v q; unfold configure_topic; destruct (kp_producer q); reflexivity|].
  assert (D : kp_ack p <= kp_ack (destroy_kafka r p) <= kp_ack p + Z.of_nat (List.length r)). { unfold destroy_kafka. destruct (kp_topic p); cbn; [apply reports_ack; assumption|lia]. }
  cbn [kstep]. destruct (has_param c "servers") as [[]| |]; cbn [fst]; try lia. destruct (get_param GStr c "servers") as [v| |]; cbn [fst]; try exact D. cbn zeta. unfold configure_topic, configure_servers. destruct (kl_servers k (str v)), (kp_producer _); exact D.
Qed.
Lemma configures_ack k l : forall p, 0 <= kp_ack p -> kp_ack p + Z.of_nat (List.length (flat_map snd l)) < 2 ^ 32 -> kp_ack p <= kp_ack (configure_all k l p) <= kp_ack p + Z.of_nat (List.length (flat_map snd l)).
Proof.
  induction l as [|[c r] l IH]; intros p P L; cbn [flat_map snd] in *; [cbn; lia|]. rewrite app_length in *. unfold configure_all in *. cbn [fold_left fst snd]. pose proof (configure_ack k r c p P) as C. specialize (IH (fst (kafka_configure k r c p))). lia.
Qed.
Lemma step_ack k p e : e <> KReset -> 0 <= kp_ack p -> kp_ack p + Z.of_nat (List.length (reports_of e)) < 2 ^ 32 -> kp_ack p <= kp_ack (fst (kafka_step k p e)) <= kp_ack p + Z.of_nat (List.length (reports_of e)).
Proof.
  intros NR P L. destruct e as [f ok r l|c r|r|]; cbn [kafka_step reports_of] in *; [|pose proof (configure_ack k r c p P L); destruct (kafka_configure k r c p); assumption|destruct (kp_producer p); cbn [fst]; [apply reports_ack; assumption|lia]|congruence].
  rewrite app_length in *. pose proof (configures_ack k l p P) as C. destruct (_ && _); [|cbn [fst]; lia]. set (pc := configure_all k l p) in *. unfold enqueue_locked. destruct (create_message k pc f) as [[b|]| |]; cbn [fst]; try lia. destruct (_ && _); cbn [fst]; [|lia].
  cbn zeta. match goal with |- context [reports r ?z] => pose proof (reports_ack r z) as RA; assert (A : kp_ack z = kp_ack pc) by (destruct ok; reflexivity); rewrite A in RA end. lia.
Qed.
(** No more frames are acknowledged than sent, if the library reports on no more messages than it took and the counters are not reset. *)
Theorem c42_ack_partial k evs : ~ In KReset evs -> let '(q, log) := kafka_run k new_kafka evs in
  (List.length (flat_map reports_of evs) <= List.length (messages log))%nat -> Z.of_nat (List.length (messages log)) < 2 ^ 32 -> 0 <= kp_ack q <= kp_sent q.
Proof.
  intros NR. pose proof (c42_sent k evs NR new_kafka ltac:(cbn; lia)) as SE. destruct (kafka_run k new_kafka evs) as [q log] eqn:RU. intros LE LT. rewrite SE. cbn [new_kafka kp_sent]. rewrite Z.add_0_l, Z.mod_small by lia.
  assert (G : forall evs p, ~ In KReset evs -> 0 <= kp_ack p -> kp_ack p + Z.of_nat (List.length (flat_map reports_of evs)) < 2 ^ 32 -> kp_ack p <= kp_ack (fst (kafka_run k p evs)) <= kp_ack p + Z.of_nat (List.length (flat_map reports_of evs))).
  { clear. induction evs as [|e evs IH]; intros p NR P L; cbn [kafka_run flat_map List.length fst] in *; [lia|]. rewrite app_length in *. pose proof (step_ack k p e (fun E => NR (or_introl E)) P) as S. destruct (kafka_step k p e) as [p1 x]. cbn [fst] in S. specialize (IH p1 (fun I => NR (or_intror I))). destruct (kafka_run k p1 evs) as [q log]. cbn [fst] in *. lia. }
  specialize (G evs new_kafka NR). rewrite RU in G. cbn [new_kafka kp_ack fst] in G. lia.
Qed.

(** ** Where it does not hold *)
(** A header of 65535 bytes: the length field is 0, the data follow at once, then comes what was in the memory. *)
Lemma boundary_message k p f : plain_frame f -> fr_data_size f <= Z.of_nat (List.length (fr_mem f)) -> fr_data_size f + 65538 <= kl_memory k -> fr_data_size f < 2 ^ 63 -> Z.of_nat (List.length (write (kl_double k) (kafka_header p f))) = 65535 ->
  create_message k p f = Ret (Some (0 :: 0 :: firstn (Z.to_nat (fr_data_size f)) (fr_mem f) ++ map (kl_garbage k) (seq 0 (Z.to_nat 65536)))).
Proof.
  intros PF FM MEM SM L. pose proof (pf_size f PF) as PS. unfold create_message. set (b := bytes_text (write (kl_double k) (kafka_header p f))). assert (LB : Z.of_nat (List.length b) = 65535) by (unfold b, bytes_text; rewrite map_length; exact L). clearbody b. rewrite LB.
  destruct (Z.ltb_spec 65535 65535); [lia|]. rewrite (Z.mod_small (2 + 65535 + 1 + fr_data_size f)) by lia. destruct (Z.ltb_spec (kl_memory k) (2 + 65535 + 1 + fr_data_size f)); [lia|].
  destruct (Z.ltb_spec (Z.of_nat (List.length (fr_mem f))) (fr_data_size f)); [lia|]. replace ((65535 + 1) mod 2 ^ 16) with 0 by reflexivity. change (Z.to_nat 0) with 0%nat. rewrite firstn_O. change (0 mod 256) with 0. change (0 / 256) with 0. cbn [app].
  set (d := firstn _ _). assert (LD : List.length d = Z.to_nat (fr_data_size f)) by (unfold d; rewrite firstn_length; lia). cbn [List.length]. rewrite LD.
  destruct (Z.ltb_spec (2 + 65535 + 1 + fr_data_size f) (Z.of_nat (S (S (Z.to_nat (fr_data_size f)))))); [lia|]. replace (2 + 65535 + 1 + fr_data_size f - Z.of_nat (S (S (Z.to_nat (fr_data_size f))))) with 65536 by lia. reflexivity.
Qed.
Definition a_klib := Klib (fun s => String.eqb s "kafka:9092") (fun _ => true) (fun _ => 170) (2 ^ 40) (fun _ => list_ascii_of_string "0.5").
Definition kframe (acq : string) : frame := Frame (Meta 7 "data" raw_8bit acq [1; 2] no_compression [("total", AU64 12); ("x", AOther 0)] 3) [5; 7] 2 0 2 1.
Lemma kframe_plain acq : no_nul acq -> plain_frame (kframe acq).
Proof.
  intros N. constructor.
  - cbn; lia. - cbn; lia. - cbn; lia. - unfold kframe, no_compression; cbn; lia.
  - cbn. repeat (apply Forall_cons; [lia|]). apply Forall_nil.
  - exact N.
  - cbn [kframe fr_meta md_params]. vm_compute; repeat match goal with |- _ /\ _ => split | |- Forall _ (_ :: _) => apply Forall_cons | |- Forall _ [] => apply Forall_nil | |- True => exact Logic.I end; reflexivity.
  - cbn [kframe fr_meta md_params]. intros n v [E|[E|[]]]; injection E as <- <-; (split; [plain_name|]); intros z E; [injection E as <-; lia|discriminate].
Qed.
Fixpoint as_ (n : nat) : string := match n with O => "" | S k => String "a" (as_ k) end.
Lemma as_no_nul n : no_nul (as_ n). Proof. induction n as [|n IH]; intros H; cbn in H; [destruct H|]. destruct H as [H|H]; [discriminate|exact (IH H)]. Qed.
Definition many : nat := Z.to_nat 65388.
Lemma zero_length rest header data : takes_apart (0 :: 0 :: rest) header data -> header = [].
Proof. intros (lo & hi & r & E & _ & _ & _ & H & _). injection E as <- <- _. change (Z.to_nat (0 + 256 * 0)) with 0%nat in H. rewrite firstn_O in H. exact H. Qed.
Theorem c41_boundary_refuted : exists k p f rest, plain_frame f /\ create_message k p f = Ret (Some (0 :: 0 :: rest)) /\ forall double header doc t data, takes_apart (0 :: 0 :: rest) header data -> text double doc t -> header <> byte_list t ++ [0].
Proof.
  exists a_klib, new_kafka, (kframe (as_ many)), ([5; 7] ++ map (fun _ => 170) (seq 0 (Z.to_nat 65536))). assert (P : plain_frame (kframe (as_ many))) by apply kframe_plain, as_no_nul. split; [exact P|]. split.
  - apply (boundary_message a_klib new_kafka (kframe (as_ many)) P); [cbn; lia|cbn; lia|cbn; lia|vm_compute; reflexivity].
  - intros double header doc t data T _. rewrite (zero_length _ _ _ T). intros E'. symmetry in E'. apply app_eq_nil in E' as (_ & E'). discriminate.
Qed.
(** Behind the compression the message carries more than the compressed image: what else was in the block. *)
Theorem c41_after_blosc_refuted : exists g p f f' g1 p1 s m header data, blosc_process a_lib g p f = (g1, p1, Ret (s, [f'])) /\ create_message a_klib new_kafka f' = Ret (Some m) /\ takes_apart m header data /\ data <> firstn (Z.to_nat (fr_image_size f')) (image f') /\ (List.length data > Z.to_nat (fr_image_size f'))%nat.
Proof.
  exists (Bglobal 1 1), (Bst "" first_settings first_settings), (fra "A"). do 4 eexists. exists (match create_message a_klib new_kafka (Frame (set_compr blosc (fr_meta (fra "A"))) ([1; 1; 1; 2; 5; 7] ++ repeat 0 12) 18 0 6 1) with Ret (Some m) => m | _ => [] end), (match create_message a_klib new_kafka (Frame (set_compr blosc (fr_meta (fra "A"))) ([1; 1; 1; 2; 5; 7] ++ repeat 0 12) 18 0 6 1) with Ret (Some (lo :: hi :: m)) => firstn (Z.to_nat (lo + 256 * hi)) m | _ => [] end), ([1; 1; 1; 2; 5; 7] ++ repeat 0 12).
  split; [vm_compute; reflexivity|]. split; [vm_compute; reflexivity|]. split; [|split; [vm_compute; discriminate|vm_compute; lia]]. do 3 eexists. split; [vm_compute; reflexivity|]. split; [lia|]. split; [lia|]. cbn zeta. split; [vm_compute; lia|]. split; vm_compute; reflexivity.
Qed.

Definition kconf (l : list (string * json)) : msg := msg_of_value (JObj l) TCmd VConfigure false 0.
Definition servers : msg := kconf [("servers", JStr "kafka:9092")].
(** Without servers frames of the dataset are not counted. *)
Theorem c42_no_topic_refuted : exists f ok, md_dataset (fr_meta f) = kp_dataset new_kafka /\ kafka_run a_klib new_kafka [KFrame f ok [] []] = (new_kafka, [KeFrame (Ret None) (Ret [f])]).
Proof. exists (kframe "A"), true. split; reflexivity. Qed.
(** A header of more than 65535 bytes: the frame is neither sent nor lost. *)
Theorem c42_large_header_refuted : exists p f ok, kp_topic p = true /\ kp_producer p = true /\ md_dataset (fr_meta f) = kp_dataset p /\ kafka_step a_klib p (KFrame f ok [] []) = (p, KeFrame (Ret None) (Ret [f])).
Proof.
  exists (Kafka "data" "data" "" (-1) true true 0 0 0 true), (kframe (as_ (10 + many))), true. split; [reflexivity|]. split; [reflexivity|]. split; [reflexivity|].
  assert (E : create_message a_klib (Kafka "data" "data" "" (-1) true true 0 0 0 true) (kframe (as_ (10 + many))) = Ret None); [|cbn [kafka_step kframe fr_meta md_dataset kp_dataset String.eqb Ascii.eqb Bool.eqb kp_topic andb configure_all fold_left]; unfold enqueue_locked; rewrite E; reflexivity].
  unfold create_message. assert (L : (65535 <? Z.of_nat (List.length (bytes_text (write (kl_double a_klib) (kafka_header (Kafka "data" "data" "" (-1) true true 0 0 0 true) (kframe (as_ (10 + many)))))))) = true) by (vm_compute; reflexivity). cbn zeta. rewrite L. reflexivity.
Qed.
(** Servers that the library refuses, configured between the test of the topic and the lock: calls with NULL handles. *)
Theorem c42_race_refuted : exists f c, fst (kafka_run a_klib new_kafka [KConfig servers []]) = Kafka "data" "data" "kafka:9092" (-1) true true 0 0 0 true /\ typed c /\
  snd (kafka_run a_klib new_kafka [KConfig servers []; KFrame f true [] [(c, [])]]) = [KeConfig (Ret tt); KeFrame Undef Undef].
Proof.
  exists (kframe "A"), (kconf [("servers", JStr "none")]). split; [vm_compute; reflexivity|]. split; [|vm_compute; reflexivity].
  assert (N : forall n, In n ["topic"; "dataset"; "partition"; "include_parameters"] -> given (kconf [("servers", JStr "none")]) n None). { intros n IN. split; [eexists; apply holds_at; reflexivity|]. intros v H. apply holds_at in H. destruct IN as [<-|[<-|[<-|[<-|[]]]]]; discriminate H. }
  split; [|split; left; apply N; cbn; tauto]. intros n [<-|IN]; [right; exists "none"; apply holds_at; reflexivity|left; apply N; cbn in *; tauto].
Qed.
(** After a reset more frames are acknowledged than sent. *)
Theorem c42_reset_refuted : exists evs, (List.length (flat_map reports_of evs) <= List.length (messages (snd (kafka_run a_klib new_kafka evs))))%nat /\ kp_sent (fst (kafka_run a_klib new_kafka evs)) < kp_ack (fst (kafka_run a_klib new_kafka evs)).
Proof. exists [KConfig servers []; KFrame (kframe "A") true [] []; KReset; KPoll [true]]. split; [vm_compute; lia|vm_compute; reflexivity]. Qed.
(** A topic that is configured before the servers is forgotten; frames go to the topic "data". *)
Theorem c42_topic_refuted : exists evs c1 c2, evs = [KConfig c1 []; KConfig c2 []] /\ given c1 "topic" (Some (JStr "mine")) /\ kp_topic_name (fst (kafka_run a_klib new_kafka evs)) = "data" /\ kp_topic (fst (kafka_run a_klib new_kafka evs)) = true.
Proof. exists [KConfig (kconf [("topic", JStr "mine")]) []; KConfig servers []], (kconf [("topic", JStr "mine")]), servers. split; [reflexivity|]. split; [apply holds_at; reflexivity|]. split; vm_compute; reflexivity. Qed.
(** Servers of the wrong type: an exception, and the connection is gone. *)
Theorem c42_bad_servers_refuted : exists c e, snd (kafka_configure a_klib [] c (fst (kafka_run a_klib new_kafka [KConfig servers []]))) = Throw e /\ kp_topic (fst (kafka_configure a_klib [] c (fst (kafka_run a_klib new_kafka [KConfig servers []])))) = false.
Proof. exists (kconf [("servers", JInt 1)]), EAssert. split; vm_compute; reflexivity. Qed.

(** ** Cases *)
Definition one_half : Z -> list ascii -> Prop := fun b t => b = 0 /\ t = list_ascii_of_string "0.5".
Example one_half_ok : doubles_ok one_half.
Proof. split; [intros b b' t (-> & _) (-> & _); reflexivity|]. intros b t (_ & ->). split; [discriminate|]. cbn. split; [repeat constructor|]. right. left. reflexivity. Qed.
Definition message_of (f : frame) : list Z := match create_message a_klib new_kafka f with Ret (Some m) => m | _ => [] end.
Example c41_case : create_message a_klib new_kafka (kframe "A") = Ret (Some (message_of (kframe "A"))) /\ firstn 2 (message_of (kframe "A")) = [149; 0] /\ skipn (2 + 149) (message_of (kframe "A")) = [5; 7] /\
  message_of (kframe "A") = [149; 0] ++ byte_list (list_ascii_of_string "{""data_size"":2,""data_type"":1,""frame_number"":7,""acquisition_id"":""A"",""compression"":1,""frame_offset"":3,""dims"":[1,2],""parameters"":{""total"":12,""x"":null}}") ++ [0; 5; 7].
Proof. vm_compute. repeat split. Qed.
Definition history : list kevent := [KConfig servers []; KFrame (kframe "A") true [] []; KFrame (kframe "B") false [true] []; KConfig (kconf [("dataset", JStr "other")]) []; KFrame (kframe "C") true [] []].
Example c42_case : fst (kafka_run a_klib new_kafka history) = Kafka "other" "data" "kafka:9092" (-1) true true 1 1 1 true.
Proof. vm_compute. reflexivity. Qed.
Example c42_case_due : due true "data" (tl history) 1 /\ due false "data" (tl history) 1.
Proof.
  assert (G : given (kconf [("dataset", JStr "other")]) "dataset" (Some (JStr "other"))) by (apply holds_at; reflexivity). unfold history, tl. split.
  - apply du_frame; [reflexivity|]. apply (du_frame' true); [reflexivity|]. apply (du_dataset true _ _ "other"); [exact G|]. apply du_other; [discriminate|]. apply du_nil.
  - apply (du_frame' false); [reflexivity|]. apply du_frame; [reflexivity|]. apply (du_dataset false _ _ "other"); [exact G|]. apply du_other; [discriminate|]. apply du_nil.
Qed.

(** A configuration with its types; another partition and no parameters *)
Definition settings_msg : msg := Msg true [("params", JObj [("partition", JInt 3); ("include_parameters", JBool false); ("topic", JStr "images")])] TIllegal VIllegal (Some 0) (Some 0).
Example c42_configured_case : typed settings_msg /\ kafka_configure a_klib [] settings_msg (Kafka "data" "data" "s" (-1) true true 0 0 0 true) = (Kafka "data" "images" "s" 3 true true 0 0 0 false, Ret tt).
Proof.
  assert (G : exists l, holds settings_msg [] (JObj l)) by (eexists; apply holds_at; reflexivity).
  split; [|vm_compute; reflexivity]. split; [|split].
  - intros n [<-|[<-|[<-|[]]]]; [left; split; [exact G|]; intros v H; apply holds_at in H; discriminate|right; exists "images"; apply holds_at; reflexivity|left; split; [exact G|]; intros v H; apply holds_at in H; discriminate].
  - right. exists 3. split; [lia|]. apply holds_at. reflexivity.
  - right. exists false. apply holds_at. reflexivity.
Qed.
Print Assumptions c41_message_partial.
Print Assumptions c41_made.
Print Assumptions c41_boundary_refuted.
Print Assumptions c41_after_blosc_refuted.
Print Assumptions c42_counts_partial.
Print Assumptions c42_sent.
Print Assumptions c42_configured.
Print Assumptions c42_passed_on.
Print Assumptions c42_ack_partial.
Print Assumptions c42_no_topic_refuted.
Print Assumptions c42_large_header_refuted.
Print Assumptions c42_race_refuted.
Print Assumptions c42_reset_refuted.
Print Assumptions c42_topic_refuted.
Print Assumptions c42_bad_servers_refuted.
