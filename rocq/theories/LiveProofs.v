(** The live view: the state and the history. *)
From Coq Require Import String Ascii DecimalString DecimalN DecimalPos.
From Verif Require Import Base StrOrder FrameModel JsonModel JsonSpec JsonProofs GapSpec GapProofs LiveModel LiveSpec.
Local Open Scope string_scope.
Local Open Scope list_scope.
Local Open Scope Z_scope.

(** ** Counting *)
Lemma counts_app {A} (P : A -> Prop) l1 l2 n1 n2 : counts P l1 n1 -> counts P l2 n2 -> counts P (l1 ++ l2) (n1 + n2).
Proof. induction 1; cbn; [auto|intros; apply cn_yes; auto|intros; apply cn_no; auto]. Qed.
Lemma counts_det {A} (P : A -> Prop) l n1 n2 : counts P l n1 -> counts P l n2 -> n1 = n2.
Proof. intros H. revert n2. induction H; intros n2 H2; inversion H2; subst; try contradiction; auto. Qed.
Lemma counts_ext {A} (P Q : A -> Prop) l n : (forall x, In x l -> (P x <-> Q x)) -> counts P l n -> counts Q l n.
Proof. intros E H. induction H; [constructor|apply cn_yes|apply cn_no]; try (apply IHcounts; intros x I; apply E; right; exact I); [apply E; [left; reflexivity|exact H]|intros C; apply H, E; [left; reflexivity|exact C]]. Qed.
Lemma counts_le {A} (P : A -> Prop) l n : counts P l n -> (n <= List.length l)%nat.
Proof. induction 1; cbn; lia. Qed.

(** ** The image and the packet *)
Lemma decimal_ok d : is_decimal d (JStr (decimal d)).
Proof.
  intros D. exists (decimal d), (N.to_uint (Z.to_N d)). split; [reflexivity|]. split.
  - apply NilZero.usu. destruct (Z.to_N d); [discriminate|]. apply DecimalPos.Unsigned.to_uint_nonnil.
  - rewrite DecimalN.Unsigned.of_to. apply Z2N.id, D.
Qed.
Lemma leads_member n l x : find_member n l = Some x -> leads [n] (JObj l) x.
Proof. intros H. apply leads_at. cbn. rewrite H. reflexivity. Qed.
Lemma packet_ok p f : in_memory f -> exists k, live_packet p f = Ret k /\ shows (lv_tags p) f k.
Proof.
  intros (O & (S0 & S) & FIT). unfold live_packet. rewrite (Z.mod_small (fr_image_size f)) by lia. rewrite (Z.mod_small (fr_image_size f)) by lia. unfold read_image. rewrite Z.add_0_r.
  destruct (Z.leb_spec 0 (fr_image_size f)); [|lia]. destruct (Z.leb_spec 0 (fr_image_offset f)); [|lia]. destruct (Z.leb_spec (fr_image_offset f + fr_image_size f) (Z.of_nat (List.length (fr_mem f)))); [|lia]. cbn [andb]. eexists. split; [reflexivity|].
  constructor; cbn [pk_bytes pk_header].
  - reflexivity.
  - apply leads_member. reflexivity.
  - intros N. apply leads_member. cbn. rewrite (cstr_id _ N). reflexivity.
  - intros N. apply leads_member. cbn. rewrite (cstr_id _ N). reflexivity.
  - eexists. split; [apply leads_member; reflexivity|]. intros T. assert (E : In (md_type (fr_meta f)) [0; 1; 2; 3; 4; 5]) by (cbn; lia). cbn in E. repeat destruct E as [<-|E]; try reflexivity. destruct E.
  - eexists. split; [apply leads_member; reflexivity|]. intros T. assert (E : In (md_compr (fr_meta f)) [0; 1; 2; 3; 4]) by (cbn; lia). cbn in E. repeat destruct E as [<-|E]; try reflexivity. destruct E.
  - apply leads_member. cbn. rewrite firstn_length, skipn_length, Nat.min_l by lia. rewrite Z2Nat.id by lia. reflexivity.
  - exists (map (fun d => JStr (decimal d)) (md_dims (fr_meta f))). split; [|induction (md_dims (fr_meta f)); constructor; [apply decimal_ok|assumption]].
    apply leads_member. destruct (lv_tags p); reflexivity.
  - intros E x LX. rewrite E in LX. apply leads_at in LX. cbn in LX. discriminate.
  - intros NE NN. exists (map (fun t => JStr (cstr t)) (filter (fun t => has_parameter t (fr_meta f)) (lv_tags p))). split; [apply leads_member; destruct (lv_tags p); [congruence|reflexivity]|].
    clear NE. induction NN as [|t r N NN IH]; [constructor|]. cbn [filter]. unfold has_parameter at 1. destruct (sm_get (md_params (fr_meta f)) t) eqn:E; [cbn [map]; rewrite (cstr_id _ N); econstructor; eassumption|constructor; assumption].
Qed.

(** ** The filters *)
Definition passes_b (names tags : list string) (f : frame) : bool :=
  match names with [] => true | _ => existsb (String.eqb (dataset f)) names end && match tags with [] => true | _ => existsb (fun t => has_parameter t (fr_meta f)) tags end.
Lemma passes_spec names tags f : passes_b names tags f = true <-> passes names tags f.
Proof.
  unfold passes_b, passes. rewrite andb_true_iff. split; intros (A & B); split.
  - destruct names as [|n r]; [left; reflexivity|right]. apply existsb_exists in A as (x & I & E). apply String.eqb_eq in E. subst. exact I.
  - destruct tags as [|t r]; [left; reflexivity|right]. apply existsb_exists in B as (x & I & E). unfold has_parameter in E. destruct (sm_get (md_params (fr_meta f)) x) eqn:G; [|discriminate]. exists x, a. auto.
  - destruct names as [|n r]; [reflexivity|]. destruct A as [A|A]; [discriminate|]. apply existsb_exists. exists (dataset f). split; [exact A|apply String.eqb_refl].
  - destruct tags as [|t r]; [reflexivity|]. destruct B as [B|(x & v & I & G)]; [discriminate|]. apply existsb_exists. exists x. split; [exact I|]. unfold has_parameter. rewrite G. reflexivity.
Qed.
Lemma sm_get_mem {A} (m : smap A) d : existsb (String.eqb d) (map fst m) = match sm_get m d with Some _ => true | None => false end.
Proof. induction m as [|[k v] m IH]; cbn; [reflexivity|]. destruct (String.eqb d k); [reflexivity|exact IH]. Qed.
Lemma put_names {A} (m : smap A) d v0 v : sm_ok m -> sm_get m d = Some v0 -> map fst (sm_put m d v) = map fst m.
Proof.
  induction m as [|[k x] m IH]; cbn; [discriminate|]. intros (F & O) G. destruct (String.eqb_spec d k) as [->|N]; [reflexivity|].
  assert (L : String.ltb d k = false). { destruct (String.ltb d k) eqn:L; [|reflexivity]. apply sm_get_in in G. rewrite Forall_forall in F. specialize (F _ G). cbn in F. pose proof (ltb_trans _ _ _ L F) as X. rewrite ltb_irrefl in X. discriminate. }
  rewrite L. cbn. f_equal. apply IH; auto.
Qed.

(** ** The state after a history *)
Record kept (p0 : live) (c0 : Z) (before : list entry) (c : Z) (p : live) : Prop := Kept {
  kp_bound : lv_bound p = true;
  kp_freq : lv_freq p = lv_freq p0;
  kp_ps : lv_per_second p = lv_per_second p0;
  kp_bt : lv_between p = lv_between p0;
  kp_tags : lv_tags p = lv_tags p0;
  kp_names : map fst (lv_datasets p) = map fst (lv_datasets p0);
  kp_ok : sm_ok (lv_datasets p);
  kp_sets : forall d n, sm_get (lv_datasets p) d = Some n -> exists k, n = Z.of_nat k /\ counts (fun y => passes (map fst (lv_datasets p0)) (lv_tags p0) (e_frame y) /\ dataset (e_frame y) = d) before k;
  kp_count : exists k, c = c0 + Z.of_nat k /\ (lv_datasets p0 = [] -> counts (fun y => passes [] (lv_tags p0) (e_frame y)) before k) /\ (lv_datasets p0 <> [] -> k = 0%nat);
  kp_last : (exists a y b, before = a ++ y :: b /\ sent y /\ (forall z, In z b -> ~ sent z) /\ lv_last p = e_t2 y) \/ ((forall z, In z before -> ~ sent z) /\ lv_last p = lv_last p0) }.

Definition good_entry (p0 : live) (c0 : Z) (before : list entry) (x : entry) : Prop :=
  e_pushed x = [e_frame x] /\
  (sent x <-> shall_send (lv_freq p0) (lv_per_second p0) (lv_last p0) (match lv_datasets p0 with [] => c0 | _ => 0 end) (map fst (lv_datasets p0)) (lv_tags p0) before x) /\
  (forall k, e_sent x = Some k -> shows (lv_tags p0) (e_frame x) k).

Lemma last_keep p0 before l : (exists a y b, before = a ++ y :: b /\ sent y /\ (forall z, In z b -> ~ sent z) /\ l = e_t2 y) \/ ((forall z, In z before -> ~ sent z) /\ l = lv_last p0) ->
  forall x, ~ sent x -> (exists a y b, before ++ [x] = a ++ y :: b /\ sent y /\ (forall z, In z b -> ~ sent z) /\ l = e_t2 y) \/ ((forall z, In z (before ++ [x]) -> ~ sent z) /\ l = lv_last p0).
Proof.
  intros [(a & y & b & -> & S & N & E)|(N & E)] x NX; [left|right].
  - exists a, y, (b ++ [x]). split; [rewrite <- app_assoc; reflexivity|]. split; [exact S|]. split; [|exact E]. intros z I. apply in_app_iff in I as [I|[<-|[]]]; auto.
  - split; [|exact E]. intros z I. apply in_app_iff in I as [I|[<-|[]]]; auto.
Qed.
Lemma last_late p0 before l t1 gap : (exists a y b, before = a ++ y :: b /\ sent y /\ (forall z, In z b -> ~ sent z) /\ l = e_t2 y) \/ ((forall z, In z before -> ~ sent z) /\ l = lv_last p0) ->
  (late gap (lv_last p0) before t1 <-> gap < t1 - l).
Proof.
  intros [(a & y & b & -> & S & N & ->)|(N & ->)].
  - split.
    + intros [(a' & y' & b' & E & S' & N' & L)|(N' & _)]; [|destruct (N' y); [apply in_app_iff; right; left; reflexivity|exact S]].
      assert (y = y'); [|subst; exact L]. clear L. revert a' E. induction a as [|h a IH]; intros [|h' a'] E; cbn in E; injection E as E1 E2.
      * exact E1.
      * subst. destruct (N y'); [apply in_app_iff; right; left; reflexivity|exact S'].
      * subst. destruct (N' y); [apply in_app_iff; right; left; reflexivity|exact S].
      * apply (IH a' E2).
    + intros L. left. exists a, y, b. auto.
  - split; [|intros L; right; auto]. intros [(a' & y' & b' & -> & S' & _)|(_ & L)]; [|exact L]. destruct (N y'); [apply in_app_iff; right; left; reflexivity|exact S'].
Qed.

Section Run.
  Variables (p0 : live) (c0 : Z).
  Hypotheses (BT : lv_per_second p0 <> 0 -> lv_between p0 = 1000 * Z.quot 1000 (lv_per_second p0)) (C0 : 0 <= c0).
  Let names := map fst (lv_datasets p0).
  Let first := match lv_datasets p0 with [] => c0 | _ => 0 end.
  Lemma names_nil : names = [] <-> lv_datasets p0 = []. Proof. unfold names. destruct (lv_datasets p0); cbn; split; congruence. Qed.
  Lemma live_step before c p f t1 t2 : kept p0 c0 before c p -> c0 + Z.of_nat (List.length before) + 1 < 2 ^ 31 -> FrameModel.is_valid f = true -> in_memory f ->
    exists c' p' s, live_process c p f t1 t2 = Ret (c', p', s, [f]) /\ kept p0 c0 (before ++ [(f, t1, t2, s, [f])]) c' p' /\ good_entry p0 c0 before (f, t1, t2, s, [f]).
  Proof.
    intros K LEN V M. destruct K as [KB KF KP KT KG KN KO KS KC KL]. unfold live_process. rewrite KB, KG. cbn [andb].
    assert (W : match lv_datasets p with [] => true | _ :: _ => match sm_get (lv_datasets p) (md_dataset (fr_meta f)) with Some _ => true | None => false end end && match lv_tags p0 with [] => true | _ :: _ => existsb (fun t => has_parameter t (fr_meta f)) (lv_tags p0) end = passes_b names (lv_tags p0) f).
    { unfold passes_b. f_equal. unfold names. rewrite <- KN, <- sm_get_mem. unfold dataset. destruct (lv_datasets p); reflexivity. }
    rewrite W.
    assert (PUSH : push f = Ret [f]) by (unfold push; rewrite V; reflexivity).
    set (x s := (f, t1, t2, s, [f]) : entry).
    assert (CNT : forall P (s : option packet), (forall s', P (x s') <-> P (x s)) -> P (x s) \/ ~ P (x s) -> forall k, counts P before k -> exists j, counts P (before ++ [x s]) j /\ (P (x s) /\ j = S k \/ ~ P (x s) /\ j = k)).
    { intros P s _ [D|D] k CK; [exists (k + 1)%nat|exists (k + 0)%nat]; (split; [apply counts_app; [exact CK|]; first [apply cn_yes; [exact D|constructor]|apply cn_no; [exact D|constructor]]|]); [left; split; [exact D|lia]|right; split; [exact D|lia]]. }
    destruct (passes_b names (lv_tags p0) f) eqn:PB.
    2:{ rewrite PUSH. cbn [obind]. exists c, p, None. split; [reflexivity|]. assert (NP : ~ passes names (lv_tags p0) f) by (rewrite <- passes_spec, PB; discriminate). fold (x None).
      assert (NS : ~ sent (x None)) by (intros (k & E); discriminate). split.
      - constructor; try assumption.
        + intros d n G. destruct (KS d n G) as (k & -> & CK). exists k. split; [reflexivity|]. rewrite <- (Nat.add_0_r k). apply counts_app; [exact CK|]. apply cn_no; [|constructor]. intros (A & _). exact (NP A).
        + destruct KC as (k & E & A & B). exists k. split; [exact E|]. split; [|exact B]. intros D. rewrite <- (Nat.add_0_r k). apply counts_app; [auto|]. apply cn_no; [|constructor]. intros Q. apply NP. apply names_nil in D. rewrite D. exact Q.
        + apply last_keep; assumption.
      - split; [reflexivity|]. split; [|intros k E; discriminate]. split; [intros S; destruct (NS S)|]. intros (A & _). destruct (NP A). }
    assert (P : passes names (lv_tags p0) f) by (apply passes_spec, PB).
    (* the counter *)
    assert (CN : exists n c' q k, (match sm_get (lv_datasets p) (md_dataset (fr_meta f)) with Some n => if in_i32 (n + 1) then Ret (n, c, with_count (md_dataset (fr_meta f)) (n + 1) p) else Undef | None => Ret (i32 c, (c + 1) mod 2 ^ 32, p) end : outcome fexc (Z * Z * live)) = Ret (n, c', q) /\
      0 <= n < 2 ^ 31 /\ n = first + Z.of_nat k /\ counts (fun y => together names (lv_tags p0) f (e_frame y)) before k /\ lv_last q = lv_last p /\
      (forall s q', (exists l, q' = with_last l q) \/ q' = q -> ((exists a y b, before ++ [x s] = a ++ y :: b /\ sent y /\ (forall z, In z b -> ~ sent z) /\ lv_last q' = e_t2 y) \/ ((forall z, In z (before ++ [x s]) -> ~ sent z) /\ lv_last q' = lv_last p0)) -> kept p0 c0 (before ++ [x s]) c' q')).
    { destruct KC as (kc & Ec & KC1 & KC2). destruct (sm_get (lv_datasets p) (md_dataset (fr_meta f))) as [n|] eqn:G.
      - destruct (KS _ _ G) as (k & -> & CK). pose proof (counts_le _ _ _ CK) as LE. unfold in_i32. destruct (Z.leb_spec (- 2 ^ 31) (Z.of_nat k + 1)); [|lia]. destruct (Z.ltb_spec (Z.of_nat k + 1) (2 ^ 31)); [|lia]. cbn [andb].
        assert (NN : lv_datasets p0 <> []) by (intros E; rewrite E in KN; destruct (lv_datasets p); [discriminate G|discriminate KN]).
        exists (Z.of_nat k), c, (with_count (md_dataset (fr_meta f)) (Z.of_nat k + 1) p), k. split; [reflexivity|]. split; [lia|]. split; [unfold first; destruct (lv_datasets p0); [congruence|lia]|]. split; [|split; [reflexivity|]].
        { eapply counts_ext; [|exact CK]. intros y _. unfold together, dataset, names. split; [intros (A & B); split; [exact A|right; exact B]|]. intros (A & [B|B]); [apply names_nil in B; congruence|split; assumption]. }
        intros s q' Q' L. assert (FQ : lv_bound q' = lv_bound p /\ lv_freq q' = lv_freq p /\ lv_per_second q' = lv_per_second p /\ lv_between q' = lv_between p /\ lv_tags q' = lv_tags p /\ lv_datasets q' = sm_put (lv_datasets p) (md_dataset (fr_meta f)) (Z.of_nat k + 1)) by (destruct Q' as [(l & ->)| ->]; repeat split).
        destruct FQ as (F1 & F2 & F3 & F4 & F5 & F6). constructor; try congruence; try assumption.
        + rewrite F6. rewrite (put_names _ _ (Z.of_nat k)) by assumption. exact KN.
        + rewrite F6. apply sm_put_ok, KO.
        + intros d n. rewrite F6, sm_get_put. destruct (String.eqb_spec d (md_dataset (fr_meta f))) as [->|N].
          * intros E. injection E as <-. exists (k + 1)%nat. split; [lia|]. apply counts_app; [exact CK|]. apply cn_yes; [|constructor]. split; [exact P|reflexivity].
          * intros Gd. destruct (KS d n Gd) as (kd & -> & CKd). exists (kd + 0)%nat. split; [lia|]. apply counts_app; [exact CKd|]. apply cn_no; [|constructor]. intros (_ & E). apply N. symmetry. exact E.
        + exists kc. split; [exact Ec|]. split; [congruence|exact KC2].
      - assert (NN : lv_datasets p0 = []). { apply names_nil. unfold names. destruct P as ([A|A] & _); [exact A|]. exfalso. assert (X : existsb (String.eqb (dataset f)) (map fst (lv_datasets p)) = true) by (apply existsb_exists; exists (dataset f); split; [rewrite KN; exact A|apply String.eqb_refl]). rewrite sm_get_mem in X. unfold dataset in X. rewrite G in X. discriminate. }
        specialize (KC1 NN). pose proof (counts_le _ _ _ KC1) as LE. assert (I : i32 c = c) by (apply i32_ok; lia). rewrite I, (Z.mod_small (c + 1)) by lia. exists c, (c + 1), p, kc. split; [reflexivity|]. split; [lia|]. split; [unfold first; rewrite NN; exact Ec|]. split; [|split; [reflexivity|]].
        { eapply counts_ext; [|exact KC1]. intros y _. unfold together. assert (E : names = []) by (apply names_nil, NN). rewrite E. tauto. }
        intros s q' Q' L. assert (FQ : lv_bound q' = lv_bound p /\ lv_freq q' = lv_freq p /\ lv_per_second q' = lv_per_second p /\ lv_between q' = lv_between p /\ lv_tags q' = lv_tags p /\ lv_datasets q' = lv_datasets p) by (destruct Q' as [(l & ->)| ->]; repeat split).
        destruct FQ as (F1 & F2 & F3 & F4 & F5 & F6). constructor; try congruence; try assumption; rewrite ?F6; try assumption.
        + intros d n Gd. exfalso. assert (E : map fst (lv_datasets p) = []) by (rewrite KN, NN; reflexivity). destruct (lv_datasets p); [discriminate Gd|discriminate E].
        + exists (kc + 1)%nat. split; [lia|]. split; [|congruence]. intros _. apply counts_app; [exact KC1|]. apply cn_yes; [|constructor]. replace (@nil string) with names by (apply names_nil, NN). exact P. }
    destruct CN as (n & c' & q & k & -> & NR & NK & CK & LQ & KEEP). cbn [obind]. rewrite KF, KP, KT.
    assert (MIN : (n =? - 2 ^ 31) = false) by (apply Z.eqb_neq; lia). rewrite MIN, andb_false_r.
    assert (DEC : (negb (lv_per_second p0 =? 0) && (lv_between p0 <? t1 - lv_last p) || negb (lv_freq p0 =? 0) && (Z.rem n (lv_freq p0) =? 0)) = true <-> shall_send (lv_freq p0) (lv_per_second p0) (lv_last p0) first names (lv_tags p0) before (x None)).
    { unfold shall_send. change (e_frame (x None)) with f. change (e_t1 (x None)) with t1. rewrite orb_true_iff, !andb_true_iff, !negb_true_iff, !Z.eqb_neq, Z.eqb_eq, Z.ltb_lt. rewrite (last_late p0 before (lv_last p) t1 _ KL). split.
      - intros [(A & B)|(A & B)]; (split; [exact P|]); [right; split; [exact A|]; rewrite <- BT by exact A; exact B|left]. split; [exact A|]. exists k. split; [exact CK|]. rewrite <- NK. apply Z.rem_divide; assumption.
      - intros (_ & [(A & j & CJ & B)|(A & B)]); [right|left; split; [exact A|rewrite BT by exact A; exact B]]. split; [exact A|]. rewrite (counts_det _ _ _ _ CJ CK), <- NK in B. apply Z.rem_divide in B; assumption. }
    destruct (negb (lv_per_second p0 =? 0) && (lv_between p0 <? t1 - lv_last p) || negb (lv_freq p0 =? 0) && (Z.rem n (lv_freq p0) =? 0)).
    - destruct (packet_ok p f M) as (pk & -> & SH). cbn [obind]. rewrite PUSH. cbn [obind]. exists c', (with_last t2 q), (Some pk). split; [reflexivity|]. fold (x (Some pk)). assert (SX : sent (x (Some pk))) by (exists pk; reflexivity). split; [|split; [reflexivity|]].
      + apply KEEP; [left; exists t2; reflexivity|]. left. exists before, (x (Some pk)), []. split; [reflexivity|]. split; [exact SX|]. split; [intros z []|reflexivity].
      + split; [split; [intros _; exact (proj1 DEC eq_refl)|intros _; exact SX]|]. intros k' E. injection E as <-. rewrite <- KG. exact SH.
    - rewrite PUSH. cbn [obind]. exists c', q, None. split; [reflexivity|]. fold (x None). assert (NS : ~ sent (x None)) by (intros (k' & E); discriminate). split; [|split; [reflexivity|]].
      + apply KEEP; [right; reflexivity|]. rewrite LQ. apply last_keep; assumption.
      + split; [split; [intros S; destruct (NS S)|intros S; apply DEC in S; discriminate]|]. intros k' E. discriminate.
  Qed.
  Lemma live_run_from evs before c p : kept p0 c0 before c p -> c0 + Z.of_nat (List.length before + List.length evs) < 2 ^ 31 -> (forall f t1 t2, In (f, t1, t2) evs -> FrameModel.is_valid f = true /\ in_memory f) ->
    exists c' p' log, live_run c p evs = Ret (c', p', log) /\ kept p0 c0 (before ++ log) c' p' /\ map (fun x => fst (fst x)) log = evs /\ (forall a x b, log = a ++ x :: b -> good_entry p0 c0 (before ++ a) x).
  Proof.
    revert before c p. induction evs as [|[[f t1] t2] evs IH]; intros before c p K LEN OK.
    { exists c, p, []. split; [reflexivity|]. split; [rewrite app_nil_r; exact K|]. split; [reflexivity|]. intros [|] x b E; discriminate. }
    cbn [List.length] in LEN. destruct (OK f t1 t2 (or_introl eq_refl)) as (V & M). destruct (live_step before c p f t1 t2 K ltac:(lia) V M) as (c1 & p1 & s & E1 & K1 & G1).
    destruct (IH (before ++ [(f, t1, t2, s, [f])]) c1 p1 K1) as (c2 & p2 & log & E2 & K2 & M2 & G2); [rewrite app_length; cbn; lia|intros g u1 u2 I; apply (OK g u1 u2); right; exact I|].
    exists c2, p2, ((f, t1, t2, s, [f]) :: log). cbn [live_run]. rewrite E1. cbn [obind]. rewrite E2. cbn [obind]. split; [reflexivity|]. rewrite <- app_assoc in K2. split; [exact K2|]. split; [cbn; f_equal; exact M2|].
    intros [|y a] x b E; cbn in E; injection E as <- E; [rewrite app_nil_r; exact G1|]. specialize (G2 a x b E). rewrite <- app_assoc in G2. exact G2.
  Qed.
End Run.
