From Coq Require Import Permutation.
From Verif Require Import Base DecModel DecSpec.
Local Open Scope Z_scope.

(** ** 32 bit integers *)
Lemma wrap_i32 z : 0 <= z < 2 ^ 32 -> wrap32 (i32 z) = z.
Proof. intros H. unfold wrap32, i32. rewrite Zminus_mod, Z.mod_mod, <- Zminus_mod by lia. replace (z + 2 ^ 31 - 2 ^ 31) with z by lia. apply Z.mod_small, H. Qed.
Lemma i32_inj a b : 0 <= a < 2 ^ 32 -> 0 <= b < 2 ^ 32 -> i32 a = i32 b -> a = b.
Proof. intros A B E. rewrite <- (wrap_i32 a A), <- (wrap_i32 b B), E. reflexivity. Qed.
Lemma i32_wrap z : i32 (wrap32 z) = i32 z.
Proof. unfold i32, wrap32. rewrite Zplus_mod_idemp_l. reflexivity. Qed.
Lemma i32_neg1 z : 0 <= z < 2 ^ 32 - 1 -> i32 z <> -1.
Proof. intros H E. assert (z = 2 ^ 32 - 1); [|lia]. apply i32_inj; try lia. rewrite E. reflexivity. Qed.
Lemma pn_land fl : Z.land fl packet_number_mask = fl mod 2 ^ 30.
Proof. apply (Z.land_ones fl 30). lia. Qed.

Lemma ret_inv {E A B} (a x : A) (b y : B) : Ret (E := E) (a, b) = Ret (x, y) -> x = a /\ y = b.
Proof. intros H. injection H as -> ->. auto. Qed.

(** ** The map *)
Lemma zm_get_put m k v k' : zm_get (zm_put m k v) k' = if k =? k' then Some v else zm_get m k'.
Proof.
  induction m as [|[i x] m IH]; cbn; [reflexivity|]. destruct (Z.ltb_spec k i).
  - cbn. reflexivity.
  - destruct (Z.eqb_spec i k) as [->|N]; cbn.
    + destruct (Z.eqb_spec k k'); reflexivity.
    + rewrite IH. destruct (Z.eqb_spec i k') as [->|]; [|reflexivity]. destruct (Z.eqb_spec k k'); [congruence|reflexivity].
Qed.
Lemma zm_put_perm m k v : zm_get m k = None -> Permutation (zm_put m k v) ((k, v) :: m).
Proof.
  induction m as [|[i x] m IH]; cbn; [reflexivity|]. destruct (Z.eqb_spec i k) as [->|N]; [discriminate|].
  intros H. destruct (k <? i); [reflexivity|]. rewrite IH by exact H. apply perm_swap.
Qed.
Lemma zm_get_in m k v : zm_get m k = Some v -> In (k, v) m.
Proof. induction m as [|[i x] m IH]; cbn; [discriminate|]. destruct (Z.eqb_spec i k) as [->|N]; [intros [= ->]; auto|auto]. Qed.
Lemma zm_get_none m k : zm_get m k = None <-> ~ In k (map fst m).
Proof. induction m as [|[i x] m IH]; cbn; [tauto|]. destruct (Z.eqb_spec i k) as [->|N]; [split; [discriminate|tauto]|]. rewrite IH. tauto. Qed.
Lemma zm_in_get m k v : NoDup (map fst m) -> In (k, v) m -> zm_get m k = Some v.
Proof.
  induction m as [|[i x] m IH]; cbn; [tauto|]. intros ND [H|H].
  - injection H as -> ->. rewrite Z.eqb_refl. reflexivity.
  - inversion ND as [|? ? N ND']; subst. destruct (Z.eqb_spec i k) as [->|]; [|auto]. exfalso. apply N. apply (in_map fst) in H. exact H.
Qed.
Lemma zm_get_del m k k' : zm_get (zm_del m k) k' = if k =? k' then None else zm_get m k'.
Proof.
  unfold zm_del. induction m as [|[i x] m IH]; cbn; [destruct (k =? k'); reflexivity|]. destruct (Z.eqb_spec i k) as [->|N]; cbn.
  - rewrite IH. destruct (Z.eqb_spec k k'); reflexivity.
  - rewrite IH. destruct (Z.eqb_spec i k') as [->|]; [|reflexivity]. destruct (Z.eqb_spec k k'); [congruence|reflexivity].
Qed.
Lemma zm_del_perm m k v : NoDup (map fst m) -> zm_get m k = Some v -> Permutation m ((k, v) :: zm_del m k).
Proof.
  unfold zm_del. induction m as [|[i x] m IH]; cbn; [discriminate|]. intros ND. inversion ND as [|? ? N ND']; subst. destruct (Z.eqb_spec i k) as [->|M]; cbn.
  - intros [= ->]. apply perm_skip. clear -N. induction m as [|[j y] m IH]; cbn in *; [reflexivity|].
    destruct (Z.eqb_spec j k); [tauto|]. cbn. apply perm_skip, IH. tauto.
  - intros H. rewrite (IH ND' H) at 1. apply perm_swap.
Qed.
Lemma zm_del_nodup m k : NoDup (map fst m) -> NoDup (map fst (zm_del m k)).
Proof.
  unfold zm_del. induction m as [|[i x] m IH]; cbn; [auto|]. intros ND. inversion ND as [|? ? N ND']; subst. destruct (i =? k); cbn; [auto|]. constructor; [|auto].
  intros H. apply N. apply in_map_iff in H as (e & E & H). apply filter_In in H as (H & _). apply in_map_iff. exists e. auto.
Qed.

Lemma count_app l1 l2 x : (count_occ Z.eq_dec (l1 ++ l2) x = count_occ Z.eq_dec l1 x + count_occ Z.eq_dec l2 x)%nat.
Proof. apply count_occ_app. Qed.
Lemma count_perm l1 l2 x : Permutation l1 l2 -> count_occ Z.eq_dec l1 x = count_occ Z.eq_dec l2 x.
Proof. intros H. revert x. apply Permutation_count_occ. exact H. Qed.
Lemma get_count m k v : zm_get m k = Some v -> (1 <= count_occ Z.eq_dec (map snd m) v)%nat.
Proof. intros H. apply zm_get_in in H. apply (in_map snd) in H. apply (count_occ_In Z.eq_dec) in H. cbn in H. lia. Qed.
Lemma two_count m k k' v : zm_get m k = Some v -> zm_get m k' = Some v -> k <> k' -> (2 <= count_occ Z.eq_dec (map snd m) v)%nat.
Proof.
  induction m as [|[i x] m IH]; cbn; [discriminate|]. intros A B N. destruct (Z.eqb_spec i k) as [E|E], (Z.eqb_spec i k') as [E'|E'].
  - congruence.
  - injection A as ->. destruct (Z.eq_dec v v); [|congruence]. apply get_count in B. lia.
  - injection B as ->. destruct (Z.eq_dec v v); [|congruence]. apply get_count in A. lia.
  - specialize (IH A B N). destruct (Z.eq_dec x v); lia.
Qed.

(** ** Subsequences *)
Lemma subseq_nil {A} (l : list A) : subseq [] l.
Proof. induction l; [apply sub_nil|apply sub_skip; auto]. Qed.
Lemma subseq_refl {A} (l : list A) : subseq l l.
Proof. induction l; [apply sub_nil|apply sub_keep; auto]. Qed.
Lemma subseq_app {A} (a b a' b' : list A) : subseq a b -> subseq a' b' -> subseq (a ++ a') (b ++ b').
Proof. induction 1; cbn; intros; [auto|apply sub_skip; auto|apply sub_keep; auto]. Qed.
Lemma subseq_in {A} (a b : list A) x : subseq a b -> In x a -> In x b.
Proof. induction 1; cbn; tauto || intuition. Qed.
Lemma subseq_length {A} (a b : list A) : subseq a b -> (length a <= length b)%nat.
Proof. induction 1; cbn; lia. Qed.
Lemma subseq_full {A} (a b : list A) : subseq a b -> length a = length b -> a = b.
Proof. induction 1; cbn; intros E; [reflexivity| |f_equal; auto]. apply subseq_length in H. lia. Qed.
Lemma subseq_map {A B} (f : A -> B) a b : subseq a b -> subseq (map f a) (map f b).
Proof. induction 1; cbn; [apply sub_nil|apply sub_skip; auto|apply sub_keep; auto]. Qed.
Lemma subseq_nodup {A} (a b : list A) : subseq a b -> NoDup b -> NoDup a.
Proof. induction 1; intros N; [auto|inversion N; auto|inversion N; subst; constructor; auto]. intros I. eapply H2, subseq_in; eassumption. Qed.
Lemma subseq_trans {A} (a b d : list A) : subseq a b -> subseq b d -> subseq a d.
Proof. intros H1 H2. revert a H1. induction H2; intros a' H1; [auto|apply sub_skip; auto|]. inversion H1; subst; [apply sub_skip|apply sub_keep]; auto. Qed.

(** ** Histories *)
Lemma sent_app k a b : sent k (a ++ b) = sent k a ++ sent k b. Proof. apply flat_map_app. Qed.
Lemma handed_app k a b : handed k (a ++ b) = handed k a ++ handed k b.
Proof. unfold handed. rewrite flat_map_app, filter_app. reflexivity. Qed.
Lemma pushes_app i a b : (pushes i (a ++ b) = pushes i a + pushes i b)%nat.
Proof. unfold pushes. rewrite flat_map_app. apply count_occ_app. Qed.
Lemma readys_app i a b : (readys i (a ++ b) = readys i a + readys i b)%nat.
Proof. unfold readys. rewrite flat_map_app, map_app. apply count_occ_app. Qed.
Lemma last_payload_app i pk j p : last_payload i (pk ++ [(j, p)]) = if j =? i then Some p else last_payload i pk.
Proof. unfold last_payload. rewrite fold_left_app. reflexivity. Qed.

Lemma wf_app a b : wf (a ++ b) <-> wf a /\ wf b.
Proof. unfold wf. setoid_rewrite in_app_iff. split; [intros H; split; intros; apply (H o r); auto|intros (A & B) o r [H|H]; [apply (A o r H)|apply (B o r H)]]. Qed.
Lemma env_app c a b : env_ok c (a ++ b) -> env_ok c a.
Proof. intros H tr1 id r tr2 E. apply (H tr1 id r (tr2 ++ b)). rewrite E, <- app_assoc. reflexivity. Qed.
Lemma late_app a b : no_late (a ++ b) -> no_late a.
Proof. intros H tr1 fn fl p t r mid fl' p' t' r' tr2 E. apply (H tr1 fn fl p t r mid fl' p' t' r' (tr2 ++ b)). rewrite E, <- !app_assoc. cbn. rewrite <- app_assoc. reflexivity. Qed.

(** ** Invariant *)
Definition inside (s : dec) (id : Z) : nat := count_occ Z.eq_dec (d_empty s ++ map snd (d_map s)) id.

Definition handed_ok (c : cfg) (nd : bool) (k : Z) (pk : list (Z * list Z)) (x : ready) : Prop :=
  holds c k pk (r_buf x) /\
  ((h_state (b_hdr (r_buf x)) = RComplete /\ Z.of_nat (length pk) mod 2 ^ 32 = ppf c) \/
   (h_state (b_hdr (r_buf x)) = RTimedout /\ (nd = true -> Z.of_nat (length pk) < ppf c))).

Record core (c : cfg) (nd : bool) (tr : trace) (s : dec) : Prop := Core {
  k_keys : NoDup (map fst (d_map s));
  k_tok : forall id, (inside s id + readys id tr)%nat = pushes id tr /\ (inside s id <= 1)%nat;
  k_legal : forall id, In id (d_empty s ++ map snd (d_map s)) -> 0 <= id < num_buffers c;
  k_frames : forall k, 0 <= k < 2 ^ 32 - 1 -> exists chunks rest,
    subseq (concat chunks ++ rest) (sent k tr) /\ (nd = true -> concat chunks ++ rest = sent k tr) /\
    Forall2 (handed_ok c nd k) chunks (handed k tr) /\
    match zm_get (d_map s) (i32 k) with
    | None => rest = []
    | Some id => holds c k rest (d_mem s (Shared id)) /\
                 (nd = true -> Z.of_nat (length rest) < ppf c /\ h_state (b_hdr (d_mem s (Shared id))) = RIncomplete)
    end;
  k_nd : nd = true -> d_dropping s = false }.

Lemma core_weaken c nd tr s : core c nd tr s -> core c false tr s.
Proof.
  intros [K T L F N]. constructor; auto; [|discriminate]. intros k Hk. destruct (F k Hk) as (ch & rest & A & B & D & E).
  exists ch, rest. split; [exact A|]. split; [discriminate|]. split.
  - revert D. generalize (handed k tr). clear. induction ch; intros l D; inversion D as [|? y ? ? (X & Y)]; subst; constructor; auto. split; [exact X|].
    destruct Y as [Y|(Y & _)]; [left; exact Y|right; split; [exact Y|discriminate]].
  - destruct (zm_get (d_map s) (i32 k)); [|exact E]. split; [apply E|discriminate].
Qed.

Definition cur_ok (tr : trace) (s : dec) : Prop :=
  d_seen s = -1 \/ exists tr1 fn fl p t r mid,
    tr = tr1 ++ (Packet fn fl p t, r) :: mid /\ (forall e, In e mid -> is_packet (fst e) = false) /\ 0 <= fn < 2 ^ 32 - 1 /\ d_seen s = i32 fn /\
    ((d_cur s = Some Scratch /\ d_dropping s = true) \/
     (exists id, d_cur s = Some (Shared id) /\ d_curid s = id /\ zm_get (d_map s) (i32 fn) = Some id) \/
     (exists e x, In e mid /\ In x (snd e) /\ r_frame x = i32 fn)).

(** After [choose]. *)
Definition now_ok (fn : Z) (s : dec) : Prop :=
  d_seen s = i32 fn /\
  ((d_cur s = Some Scratch /\ d_dropping s = true) \/
   (exists id, d_cur s = Some (Shared id) /\ d_curid s = id /\ zm_get (d_map s) (i32 fn) = Some id)).

(** The packet does not follow the time-out of its frame directly. *)
Definition not_late (tr : trace) (fn : Z) : Prop := forall tr1 fl p t r mid,
  tr = tr1 ++ (Packet fn fl p t, r) :: mid -> (forall e, In e mid -> is_packet (fst e) = false) -> ~ exists e x, In e mid /\ In x (snd e) /\ r_frame x = i32 fn.
Lemma no_late_last tr fn fl p t r : no_late (tr ++ [(Packet fn fl p t, r)]) -> not_late tr fn.
Proof. intros H tr1 fl' p' t' r' mid E. apply (H tr1 fn fl' p' t' r' mid fl p t r []). rewrite E, <- app_assoc. reflexivity. Qed.

Lemma legal_true c id : 0 <= id < num_buffers c -> num_buffers c < 2 ^ 31 -> legal_id c id = true.
Proof. intros H N. unfold legal_id, wrap32. rewrite Z.mod_small by lia. lia. Qed.

Lemma choose_ok c nd tr s fn now : cfg_ok c -> core c nd tr s -> cur_ok tr s -> 0 <= fn < 2 ^ 32 - 1 -> not_late tr fn -> (nd = true -> 0 < ppf c) ->
  exists s1 nd', choose c fn now s = Ret s1 /\ core c nd' tr s1 /\ now_ok fn s1 /\ d_empty s1 ++ [] = d_empty s1 /\
    ((nd' = nd /\ f_dropped s1 = f_dropped s) \/ (nd' = false /\ f_dropped s1 = wrap32 (f_dropped s + 1))).
Proof.
  intros CK C U R NL P. unfold choose. assert (R' : 0 <= fn < 2 ^ 32) by lia.
  destruct (Z.eqb_spec fn (wrap32 (d_seen s))) as [E|E].
  { (* same frame as the last packet *)
    exists s, nd. split; [reflexivity|]. split; [exact C|]. split; [|split; [apply app_nil_r|auto]].
    destruct U as [U|(tr1 & fn0 & fl & p & t & r & mid & T & M & R0 & S0 & U)].
    - exfalso. rewrite U in E. change (wrap32 (-1)) with (2 ^ 32 - 1) in E. lia.
    - assert (fn = fn0) by (rewrite S0, wrap_i32 in E by lia; exact E). subst fn0. split; [exact S0|].
      destruct U as [U|[U|U]]; [auto|auto|]. exfalso. eapply NL; eassumption. }
  destruct (zm_get (d_map s) (i32 fn)) as [id|] eqn:G.
  - (* a buffer is mapped *)
    rewrite legal_true; [|apply (k_legal _ _ _ _ C); apply in_or_app; right; apply zm_get_in in G; apply (in_map snd) in G; exact G|apply CK].
    exists (set_cur (i32 fn) id (Some (Shared id)) (d_dropping s) s), nd. split; [reflexivity|]. split; [|split; [|split; [apply app_nil_r|auto]]].
    + destruct C as [K T L F N]. constructor; cbn; auto.
    + split; [reflexivity|]. right. exists id. auto.
  - destruct (d_empty s) as [|id rest] eqn:Q.
    + (* no buffer *)
      destruct (d_dropping s) eqn:DD.
      * exists (set_mem (upd_mem (d_mem s) Scratch (with_hdr (fresh_hdr c (i32 fn) now) (d_mem s Scratch))) (set_cur (i32 fn) (d_curid s) (Some Scratch) true s)), nd.
        split; [reflexivity|]. split; [|split; [|split; [apply app_nil_r|auto]]].
        -- destruct C as [K T L F N]. constructor; cbn; auto. intros X. apply N in X. congruence.
        -- split; [reflexivity|]. left. auto.
      * eexists (set_mem (upd_mem (d_mem s) Scratch (with_hdr (fresh_hdr c (i32 fn) now) (d_mem s Scratch))) (set_cur (i32 fn) (d_curid s) (Some Scratch) true (count_frame_drop s))), false.
        split; [reflexivity|]. split; [|split; [|split; [apply app_nil_r|auto]]].
        -- apply core_weaken in C. destruct C as [K T L F N]. constructor; cbn; auto.
        -- split; [reflexivity|]. left. auto.
    + (* a new buffer *)
      assert (Lid : 0 <= id < num_buffers c) by (apply (k_legal _ _ _ _ C); rewrite Q; left; reflexivity).
      rewrite legal_true; [|exact Lid|apply CK].
      exists (set_mem (upd_mem (d_mem s) (Shared id) (with_hdr (fresh_hdr c (i32 fn) now) (d_mem s (Shared id))))
               (set_cur (i32 fn) id (Some (Shared id)) false (set_queue rest (zm_put (d_map s) (i32 fn) id) s))), nd.
      split; [reflexivity|]. split; [|split; [|split; [apply app_nil_r|auto]]].
      * destruct C as [K T L F N]. pose proof (zm_put_perm _ _ id G) as PP. constructor; cbn.
        -- eapply Permutation_NoDup; [symmetry; apply Permutation_map; exact PP|]. cbn. constructor; [apply zm_get_none, G|exact K].
        -- intros i. specialize (T i). unfold inside in *. cbn. rewrite Q in T. cbn in T.
           assert (X : count_occ Z.eq_dec (rest ++ map snd (zm_put (d_map s) (i32 fn) id)) i = count_occ Z.eq_dec (id :: rest ++ map snd (d_map s)) i).
           { apply count_perm. rewrite (Permutation_map snd PP). cbn. symmetry. apply Permutation_middle. }
           rewrite X. cbn. exact T.
        -- intros i H. apply L. rewrite Q. rewrite in_app_iff in H. destruct H as [H|H]; [right; apply in_or_app; auto|].
           apply (Permutation_in i (Permutation_map snd PP)) in H. cbn in H. destruct H as [<-|H]; [left; reflexivity|right; apply in_or_app; auto].
        -- intros k Hk. destruct (F k Hk) as (ch & rs & A & B & D & E'). exists ch, rs. split; [exact A|]. split; [exact B|]. split; [exact D|].
           rewrite zm_get_put. destruct (Z.eqb_spec (i32 fn) (i32 k)) as [EK|NK].
           ++ apply i32_inj in EK; [|lia|lia]. subst k. rewrite G in E'. subst rs. unfold upd_mem. cbn [place_eqb]. rewrite Z.eqb_refl. split.
              ** constructor; cbn; try reflexivity; [apply wrap_i32; lia|intros i; split; [discriminate|tauto]|intros; discriminate].
              ** intros X. split; [cbn; apply P, X|reflexivity].
           ++ destruct (zm_get (d_map s) (i32 k)) as [id'|] eqn:G'; [|exact E']. unfold upd_mem. cbn [place_eqb]. destruct (Z.eqb_spec id' id) as [->|NE]; [|exact E'].
              exfalso. destruct (T id) as (_ & T'). unfold inside in T'. rewrite Q, count_app in T'. apply get_count in G'. cbn in T'. destruct (Z.eq_dec id id); [lia|congruence].
        -- intros _. reflexivity.
      * split; [reflexivity|]. right. exists id. cbn. rewrite zm_get_put, Z.eqb_refl. auto.
Qed.

(** Storing a packet in a buffer. *)
Lemma holds_add c k pk b pn p st : 0 <= psize c -> holds c k pk b ->
  holds c k (pk ++ [(pn, p)]) (Buffer (set_received (wrap32 (h_received (b_hdr b) + 1)) st (mark pn (b_hdr b))) (store c pn p (b_data b))).
Proof.
  intros PS [H1 H2 H3 H4 H5 H6]. constructor; cbn; auto.
  - rewrite H4, app_length. cbn. unfold wrap32. rewrite Zplus_mod_idemp_l. f_equal. lia.
  - intros i. rewrite map_app, in_app_iff. cbn. destruct (Z.eqb_spec i pn) as [->|N]; [tauto|]. rewrite H5. intuition congruence.
  - intros i pl o E O. rewrite last_payload_app in E. unfold store. destruct (Z.eqb_spec pn i) as [->|N].
    + injection E as ->. replace (psize c * i + o - psize c * i) with o by lia.
      replace ((0 <=? o) && (o <? Z.min (Z.of_nat (length pl)) (psize c))) with true by lia. reflexivity.
    + rewrite H6 with (i := i) (pl := pl) by assumption. destruct ((0 <=? psize c * i + o - psize c * pn) && (psize c * i + o - psize c * pn <? Z.min (Z.of_nat (length p)) (psize c))) eqn:X; [|reflexivity].
      exfalso. assert (0 <= psize c * (i - pn) + o < psize c) by lia. assert (i - pn < 0 \/ i - pn > 0) by lia. nia.
Qed.

Lemma Forall2_snoc {A B} (R : A -> B -> Prop) a b x y : Forall2 R a b -> R x y -> Forall2 R (a ++ [x]) (b ++ [y]).
Proof. intros H1 H2. apply Forall2_app; [exact H1|constructor; [exact H2|constructor]]. Qed.

Lemma packet_ok c nd tr s fn fl p now s' r : cfg_ok c -> core c nd tr s -> cur_ok tr s -> 0 <= fn < 2 ^ 32 - 1 -> not_late tr fn -> (nd = true -> 0 < ppf c) ->
  packet c fn fl p now s = Ret (s', r) ->
  exists nd', core c nd' (tr ++ [(Packet fn fl p now, r)]) s' /\ cur_ok (tr ++ [(Packet fn fl p now, r)]) s' /\
    ((nd' = nd /\ f_dropped s' = f_dropped s) \/ (nd' = false /\ f_dropped s' = wrap32 (f_dropped s + 1))).
Proof.
  intros CK C U R NL P H. unfold packet in H. rewrite pn_land in H. set (pn := fl mod 2 ^ 30) in *.
  destruct (choose_ok c nd tr s fn now CK C U R NL P) as (s1 & nd' & E & C1 & (S1 & N1) & _ & DR). rewrite E in H.
  destruct CK as (CK1 & CK2 & _).
  assert (P' : nd' = true -> 0 < ppf c) by (destruct DR as [(-> & _)|(-> & _)]; [exact P|discriminate]).
  assert (SENT : forall k r', sent k [(Packet fn fl p now, r')] = if fn =? k then [(pn, p)] else []).
  { intros k r'. unfold sent. cbn [flat_map fst]. destruct (fn =? k); rewrite ?app_nil_r; reflexivity. }
  destruct N1 as [(N1 & D1)|(id & N1 & I1 & G1)]; rewrite N1 in H.
  - (* dropped *)
    destruct (_ || _) in H; [discriminate|]. set (b := d_mem s1 Scratch) in *.
    assert (D2 : d_dropping (count_packet s1) = true) by (unfold count_packet; rewrite D1; reflexivity).
    cbn [d_dropping set_mem] in H. rewrite D2, andb_false_r in H. apply ret_inv in H as (-> & ->).
    assert (nd' = false) by (destruct nd'; [pose proof (k_nd _ _ _ _ C1 eq_refl); congruence|reflexivity]). subst nd'.
    exists false. split; [|split].
    + destruct C1 as [K T L F N]. unfold count_packet. rewrite D1. constructor; cbn; auto; try discriminate.
      * intros i. rewrite readys_app, pushes_app. cbn. rewrite !Nat.add_0_r. apply T.
      * intros k Hk. destruct (F k Hk) as (ch & rs & A & B & D & E'). exists ch, rs. rewrite sent_app, handed_app. cbn [handed flat_map snd app filter]. rewrite app_nil_r.
        split; [|split; [discriminate|split; [exact D|exact E']]]. rewrite <- (app_nil_r (concat ch ++ rs)). apply subseq_app; [exact A|apply subseq_nil].
    + right. exists tr, fn, fl, p, now, [], []. split; [reflexivity|]. split; [intros ? []|]. split; [exact R|]. unfold count_packet. rewrite D1. cbn. split; [exact S1|]. left. auto.
    + unfold count_packet. rewrite D1. cbn. destruct DR as [(<- & DR)|DR]; [left; auto|right; exact DR].
  - (* kept *)
    destruct (_ || _) in H; [discriminate|]. set (b := d_mem s1 (Shared id)) in *.
    set (n := wrap32 (h_received (b_hdr b) + 1)) in *.
    set (st := if n =? ppf c then RComplete else h_state (b_hdr b)) in *.
    set (b' := Buffer (set_received n st (mark pn (b_hdr b))) (store c pn p (b_data b))) in *.
    set (s2 := set_mem (upd_mem (d_mem s1) (Shared id) b') (count_packet s1)) in *.
    assert (V : d_seen s2 = d_seen s1 /\ d_curid s2 = d_curid s1 /\ d_cur s2 = d_cur s1 /\ d_dropping s2 = d_dropping s1 /\ f_dropped s2 = f_dropped s1 /\
                d_empty s2 = d_empty s1 /\ d_map s2 = d_map s1 /\ d_mem s2 = upd_mem (d_mem s1) (Shared id) b').
    { unfold s2, count_packet. destruct (d_dropping s1) eqn:DD; cbn; rewrite ?DD; repeat split; auto. }
    destruct V as (V1 & V2 & V3 & V4 & V5 & V6 & V7 & V8). clearbody s2.
    assert (HB : forall k, 0 <= k < 2 ^ 32 - 1 -> exists chunks rest, subseq (concat chunks ++ rest) (sent k tr ++ if fn =? k then [(pn, p)] else []) /\
        (nd' = true -> concat chunks ++ rest = sent k tr ++ if fn =? k then [(pn, p)] else []) /\ Forall2 (handed_ok c nd' k) chunks (handed k tr) /\
        match zm_get (d_map s1) (i32 k) with
        | None => rest = []
        | Some i => holds c k rest (d_mem s2 (Shared i)) /\ (k <> fn -> nd' = true -> Z.of_nat (length rest) < ppf c /\ h_state (b_hdr (d_mem s2 (Shared i))) = RIncomplete) /\
                    (k = fn -> i = id /\ Z.of_nat (length rest) mod 2 ^ 32 = n /\ (nd' = true -> Z.of_nat (length rest) <= ppf c /\ h_state (b_hdr b) = RIncomplete))
        end).
    { intros k Hk. destruct (k_frames _ _ _ _ C1 k Hk) as (ch & rs & A & B & D & E'). rewrite V8. destruct (Z.eqb_spec fn k) as [<-|NK].
      - exists ch, (rs ++ [(pn, p)]). rewrite G1 in *. destruct E' as (E1 & E2). rewrite app_assoc. split; [apply subseq_app; [exact A|apply subseq_refl]|].
        split; [intros X; rewrite B by exact X; reflexivity|]. split; [exact D|]. unfold upd_mem. cbn [place_eqb]. rewrite Z.eqb_refl.
        split; [apply holds_add; [lia|exact E1]|]. split; [congruence|]. intros _. split; [reflexivity|]. split.
        + unfold n, b. rewrite (ho_received _ _ _ _ E1), app_length. cbn. unfold wrap32. rewrite Zplus_mod_idemp_l. f_equal. lia.
        + intros X. destruct (E2 X) as (E3 & E4). split; [rewrite app_length; cbn; lia|exact E4].
      - exists ch, rs. rewrite app_nil_r. split; [exact A|]. split; [exact B|]. split; [exact D|].
        destruct (zm_get (d_map s1) (i32 k)) as [i|] eqn:G; [|exact E']. unfold upd_mem. cbn [place_eqb]. destruct (Z.eqb_spec i id) as [->|NI].
        + exfalso. destruct (k_tok _ _ _ _ C1 id) as (_ & X). unfold inside in X. rewrite count_app in X.
          assert (i32 fn <> i32 k) by (intros Y; apply i32_inj in Y; lia). pose proof (two_count _ _ _ _ G1 G H0). lia.
        + split; [apply E'|]. split; [intros _; apply E'|congruence]. }
    destruct ((n =? ppf c) && negb (d_dropping s2)) eqn:FULL.
    + (* the frame is complete *)
      apply andb_true_iff in FULL as (FN & FD). apply Z.eqb_eq in FN. apply negb_true_iff in FD. rewrite V1, V2, V6, V7, S1, I1 in H. apply ret_inv in H as (-> & ->).
      assert (HF : i32 (h_frame (b_hdr b')) = i32 fn).
      { destruct (k_frames _ _ _ _ C1 fn R) as (ch & rs & _ & _ & _ & E'). rewrite G1 in E'. unfold b'. cbn. unfold b. rewrite (ho_frame _ _ _ _ (proj1 E')). reflexivity. }
      rewrite HF.
      exists nd'. split; [|split; [|cbn; rewrite V5; destruct DR as [(-> & DR)|DR]; auto]].
      * destruct C1 as [K T L F N]. pose proof (zm_del_perm _ _ _ K G1) as PP. constructor; cbn.
        -- apply zm_del_nodup, K.
        -- intros i. rewrite readys_app, pushes_app. unfold inside in *. cbn [d_empty d_map set_cur set_queue]. specialize (T i). rewrite count_app in *.
           rewrite (count_perm _ _ i (Permutation_map snd PP)) in T. cbn in T |- *. destruct (Z.eq_dec id i); lia.
        -- intros i Hi. apply L. rewrite in_app_iff in *. destruct Hi as [Hi|Hi]; [auto|]. right. apply (Permutation_in i (Permutation_sym (Permutation_map snd PP))). right. exact Hi.
        -- intros k Hk. destruct (HB k Hk) as (ch & rs & A & B & D & E'). rewrite sent_app, handed_app, SENT.
           unfold handed at 2. cbn [flat_map snd app filter r_frame]. rewrite zm_get_del. destruct (Z.eqb_spec (i32 fn) (i32 k)) as [EK|NK].
           ++ apply i32_inj in EK; [|lia|lia]. subst k. rewrite Z.eqb_refl in *. rewrite G1 in E'. destruct E' as (E1 & _ & E2). destruct (E2 eq_refl) as (_ & E3 & E4).
              exists (ch ++ [rs]), []. rewrite concat_app. cbn. rewrite !app_nil_r. split; [exact A|]. split; [exact B|]. split; [|reflexivity].
              apply Forall2_snoc; [exact D|]. split; cbn.
              ** rewrite V8 in E1. unfold upd_mem in E1. cbn [place_eqb] in E1. rewrite Z.eqb_refl in E1. exact E1.
              ** left. split; [unfold st; rewrite FN, Z.eqb_refl; reflexivity|exact (eq_trans E3 FN)].
           ++ assert (NF : fn <> k) by congruence. apply Z.eqb_neq in NF. rewrite NF in *. rewrite !app_nil_r in *. exists ch, rs. split; [exact A|]. split; [exact B|]. split; [exact D|].
              apply Z.eqb_neq in NF. destruct (zm_get (d_map s1) (i32 k)) as [i|]; [|exact E']. destruct E' as (E1 & E2 & _). split; [exact E1|apply E2; congruence].
        -- intros _. exact FD.
      * left. reflexivity.
    + apply ret_inv in H as (-> & ->). exists nd'. split; [|split; [|rewrite V5; destruct DR as [(-> & DR)|DR]; auto]].
      * destruct C1 as [K T L F N]. constructor; unfold inside; rewrite ?V6, ?V7; auto.
        -- intros i. rewrite readys_app, pushes_app. cbn. rewrite !Nat.add_0_r. apply T.
        -- intros k Hk. destruct (HB k Hk) as (ch & rs & A & B & D & E'). rewrite sent_app, handed_app, SENT. unfold handed at 2. cbn [flat_map snd app filter]. rewrite app_nil_r.
           exists ch, rs. split; [exact A|]. split; [exact B|]. split; [exact D|]. destruct (zm_get (d_map s1) (i32 k)) as [i|]; [|exact E'].
           destruct E' as (E1 & E2 & E3). split; [exact E1|]. intros X. destruct (Z.eq_dec k fn) as [->|NK]; [|auto]. destruct (E3 eq_refl) as (-> & E4 & E5). destruct (E5 X) as (E6 & E7).
           rewrite V4, (N X), andb_true_r in FULL. apply Z.eqb_neq in FULL. unfold max_packets in CK1. rewrite Z.mod_small in E4 by lia. split; [lia|].
           rewrite V8. unfold upd_mem. cbn [place_eqb]. rewrite Z.eqb_refl. cbn. unfold st. apply Z.eqb_neq in FULL. rewrite FULL. exact E7.
        -- intros X. rewrite V4. apply N, X.
      * right. exists tr, fn, fl, p, now, [], []. split; [reflexivity|]. split; [intros ? []|]. split; [exact R|]. rewrite V1. split; [exact S1|].
        right. left. exists id. rewrite V2, V3, V7. auto.
Qed.
