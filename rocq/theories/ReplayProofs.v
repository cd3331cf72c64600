(** Replaying: the loops. *)
From Coq Require Import String Ascii.
From Verif Require Import Base StrOrder FrameModel JsonModel JsonSpec JsonProofs GapSpec LiveModel LiveSpec ListText PortModel PortSpec PortProps SimModel ReplayModel ReplaySpec.
Local Open Scope Z_scope.

(** ** Which packets *)
Lemma listed_eq o p : listed o p = match o_list o with Some l => existsb (String.eqb (decimal (Z.of_nat p))) l | None => false end.
Proof.
  unfold listed. destruct (o_list o) as [l|]; [|reflexivity]. destruct (in_dec _ _ _) as [I|N].
  - symmetry. apply existsb_exists. eexists. split; [exact I|apply String.eqb_refl].
  - symmetry. apply not_true_is_false. intros X. apply existsb_exists in X as (y & Y & E). apply String.eqb_eq in E. subst y. contradiction.
Qed.
Lemma dropped_eq o f p : dropped o f p = unlucky o f p || listed o p.
Proof. rewrite listed_eq. reflexivity. Qed.
Lemma keep_combine {A} d (l : list A) : forall p, keep d p l = map snd (filter (fun x => negb (d (fst x))) (combine (seq p (List.length l)) l)).
Proof. induction l as [|x l IH]; intros p; cbn; [reflexivity|]. rewrite IH. destruct (d p); reflexivity. Qed.
Lemma keep_ext {A} d e (l : list A) : (forall p, d p = e p) -> forall p, keep d p l = keep e p l.
Proof. intros H. induction l as [|x l IH]; intros p; cbn; [reflexivity|]. rewrite H, IH. reflexivity. Qed.
Lemma keep_kept {A} d (l : list A) : keep d 0 l = kept d l. Proof. apply keep_combine. Qed.
Lemma keep_count {A} d (l : list A) : forall p, (List.length (keep d p l) + List.length (filter d (seq p (List.length l))) = List.length l)%nat.
Proof. induction l as [|x l IH]; intros p; cbn; [reflexivity|]. specialize (IH (S p)). destruct (d p); cbn; lia. Qed.

(** ** One frame *)
Definition next_index (ports : list Z) (n : Z) (s : sender) : Z :=
  if negb (n =? s_frame s) then (if s_index s + 1 <? Z.of_nat (List.length ports) then s_index s + 1 else 0) else s_index s.
Definition bytes_from (result : nat -> Z) (k n : nat) : Z := fold_right (fun i a => result i + a) 0 (seq k n).
Lemma bytes_from_S result k n : bytes_from result k (S n) = result k + bytes_from result (S k) n. Proof. reflexivity. Qed.
Lemma bytes_from_app result k n m : bytes_from result k (n + m) = bytes_from result k n + bytes_from result (k + n) m.
Proof. revert k. induction n as [|n IH]; intros k; cbn [Nat.add]; [rewrite Nat.add_0_r; reflexivity|]. rewrite !bytes_from_S, IH. replace (S k + n)%nat with (k + S n)%nat by lia. lia. Qed.

Definition range_tally (t : tally) : Prop := in_i32 (t_sent t) = true /\ in_i32 (t_dropped t) = true /\ in_i32 (t_bytes t) = true.
Lemma add_tally_ret a b t : add_tally a b = Ret t -> t = Tally (t_sent a + t_sent b) (t_dropped a + t_dropped b) (t_bytes a + t_bytes b) /\ range_tally t.
Proof.
  unfold add_tally, range_tally. destruct (in_i32 _) eqn:A; [|discriminate]. destruct (in_i32 (t_dropped a + _)) eqn:B; [|discriminate]. destruct (in_i32 (t_bytes a + _)) eqn:C; [|discriminate].
  cbn [andb]. intros [= <-]. cbn. auto.
Qed.
Lemma add_tally_nothrow a b e : add_tally a b <> Throw e. Proof. unfold add_tally. destruct (_ && _); discriminate. Qed.

Lemma send_frame_ret o result f n l : forall p t s t' s', send_frame o result f n l p t s = Ret (t', s') ->
  let K := keep (dropped o f) p l in
  t' = Tally (t_sent t + Z.of_nat (List.length K)) (t_dropped t + Z.of_nat (List.length l - List.length K)) (t_bytes t + bytes_from result (List.length (s_sent s)) (List.length K)) /\
  (K = [] /\ s' = s \/ K <> [] /\ exists a, nth_error (o_ports o) (Z.to_nat (next_index (o_ports o) n s)) = Some a /\
     s' = Sender n (next_index (o_ports o) n s) (s_sent s ++ map (pair a) K)).
Proof.
  induction l as [|x l IH]; intros p t s t' s' H; cbn [send_frame] in H.
  - injection H as <- <-. cbn. destruct t as [a b c]. cbn. split; [f_equal; lia|left; auto].
  - cbn [keep]. cbn zeta. destruct (dropped o f p) eqn:D.
    + destruct (add_tally t (Tally 0 1 0)) as [t1| |] eqn:T; try discriminate. apply add_tally_ret in T as (-> & _). destruct (IH _ _ _ _ _ H) as (E & C). cbn zeta in E, C. cbn [t_sent t_dropped t_bytes] in E.
      split; [|exact C]. rewrite E. pose proof (keep_count (dropped o f) l (S p)). cbn [List.length]. f_equal; lia.
    + unfold send_packet in H. fold (next_index (o_ports o) n s) in H. destruct (nth_error _ _) as [a|] eqn:NA; [|discriminate].
      destruct (add_tally t _) as [t1| |] eqn:T; try discriminate. apply add_tally_ret in T as (-> & _).
      assert (G : send_frame o result f n l (S p) (Tally (t_sent t + 1) (t_dropped t + 0) (t_bytes t + result (List.length (s_sent s)))) (Sender n (next_index (o_ports o) n s) (s_sent s ++ [(a, x)])) = Ret (t', s'))
        by (destruct (o_gap o) as [[| |]|]; try discriminate; exact H). clear H.
      destruct (IH _ _ _ _ _ G) as (E & C). cbn zeta in E, C. cbn [t_sent t_dropped t_bytes s_sent] in E, C. rewrite app_length in E. cbn [List.length] in E. split.
      * rewrite E. cbn [List.length]. rewrite bytes_from_S. replace (List.length (s_sent s) + 1)%nat with (S (List.length (s_sent s))) by lia. f_equal; lia.
      * right. split; [discriminate|]. exists a. split; [reflexivity|].
        assert (NI : next_index (o_ports o) n (Sender n (next_index (o_ports o) n s) (s_sent s ++ [(a, x)])) = next_index (o_ports o) n s) by (unfold next_index at 1; cbn [s_frame s_index]; rewrite Z.eqb_refl; reflexivity).
        rewrite NI in C. destruct C as [(K0 & ->)|(K0 & b & NB & ->)].
        -- rewrite K0. reflexivity.
        -- assert (b = a) by congruence. subst b. rewrite <- app_assoc. reflexivity.
Qed.
Lemma send_frame_nothrow o result f n l : forall p t s e, send_frame o result f n l p t s <> Throw e.
Proof.
  induction l as [|x l IH]; intros p t s e H; cbn [send_frame] in H; [discriminate|]. destruct (dropped o f p).
  - destruct (add_tally t _) eqn:T; try discriminate; [exact (IH _ _ _ _ H)|exact (add_tally_nothrow _ _ _ T)].
  - unfold send_packet in H. destruct (nth_error _ _); [|discriminate]. destruct (add_tally t _) eqn:T; try discriminate; [|exact (add_tally_nothrow _ _ _ T)].
    destruct (o_gap o) as [[| |]|]; try discriminate; exact (IH _ _ _ _ H).
Qed.

(** ** All frames *)
Definition kept_of (o : opts) (fs : list uframe) (f : nat) : list pkt := keep (dropped o f) 0 (source fs f).
Lemma to_send_eq o fs f : to_send o fs f = kept_of o fs f.
Proof. unfold to_send, kept_of. rewrite <- keep_kept. apply keep_ext. intros p. rewrite dropped_eq. reflexivity. Qed.
Lemma source_nth (fs : list uframe) f u : nth_error fs (Nat.modulo f (List.length fs)) = Some u -> source fs f = u_pkts u.
Proof. intros H. unfold source. rewrite (nth_error_nth _ _ _ H). reflexivity. Qed.

Definition sums (o : opts) (result : nat -> Z) (fs : list uframe) (l : list nat) (k : nat) (t : tally) : tally :=
  let m := List.length (flat_map (kept_of o fs) l) in
  Tally (t_sent t + Z.of_nat m) (t_dropped t + Z.of_nat (List.length (flat_map (source fs) l) - m)) (t_bytes t + bytes_from result k m).
Lemma kept_le o fs f : (List.length (kept_of o fs f) <= List.length (source fs f))%nat.
Proof. unfold kept_of. pose proof (keep_count (dropped o f) (source fs f) 0). lia. Qed.
Lemma kept_all_le o fs l : (List.length (flat_map (kept_of o fs) l) <= List.length (flat_map (source fs) l))%nat.
Proof. induction l as [|f l IH]; cbn; [lia|]. rewrite !app_length. pose proof (kept_le o fs f). lia. Qed.

Lemma send_frames_ret o result fs l : NoDup l -> forall t s t' s', send_frames o result fs l t s = Ret (t', s') ->
  t' = sums o result fs l (List.length (s_sent s)) t /\
  exists port, (forall f, In f l -> kept_of o fs f <> [] -> In (port f) (o_ports o)) /\
    s_sent s' = s_sent s ++ flat_map (fun f => map (pair (port f)) (kept_of o fs f)) l.
Proof.
  induction l as [|f l IH]; intros ND t s t' s' H; cbn [send_frames] in H.
  - injection H as <- <-. split; [unfold sums, bytes_from; destruct t; cbn; f_equal; lia|]. exists (fun _ => 0). cbn. rewrite app_nil_r. split; [tauto|reflexivity].
  - inversion ND as [|? ? NI ND']; subst. destruct (nth_error fs _) as [u|] eqn:NU; [|discriminate].
    destruct (send_frame _ _ _ _ _ _ _ _) as [[t1 s1]| |] eqn:SF; try discriminate. destruct (add_tally t t1) as [t2| |] eqn:T; try discriminate. apply add_tally_ret in T as (-> & _).
    rewrite <- (source_nth _ _ _ NU) in SF. apply send_frame_ret in SF as (E1 & C). cbn zeta in E1, C. fold (kept_of o fs f) in E1, C. cbn [zero_tally t_sent t_dropped t_bytes] in E1.
    destruct (IH ND' _ _ _ _ H) as (E2 & port & PI & PS). clear H. set (K := kept_of o fs f) in *.
    assert (S1 : exists a, (K <> [] -> In a (o_ports o)) /\ s_sent s1 = s_sent s ++ map (pair a) K).
    { destruct C as [(K0 & ->)|(K0 & a & NA & ->)]; [exists 0; rewrite K0; cbn; rewrite app_nil_r; split; [congruence|reflexivity]|]. exists a. split; [intros _; eapply nth_error_In, NA|reflexivity]. }
    destruct S1 as (a & AI & AS). split.
    + rewrite E2, E1, AS, app_length, map_length. unfold sums. cbn [flat_map]. fold K. rewrite !app_length. pose proof (kept_le o fs f) as L1. pose proof (kept_all_le o fs l) as L2. fold K in L1.
      cbn [t_sent t_dropped t_bytes]. rewrite bytes_from_app. f_equal; lia.
    + exists (fun g => if Nat.eqb g f then a else port g). split.
      * intros g [<-|G] NE; [rewrite Nat.eqb_refl; apply AI, NE|]. destruct (Nat.eqb_spec g f) as [->|]; [contradiction|]. apply PI; assumption.
      * rewrite PS, AS, <- app_assoc. cbn [flat_map]. rewrite Nat.eqb_refl. fold K. do 2 f_equal. rewrite !flat_map_concat_map. f_equal. apply map_ext_in. intros g G. destruct (Nat.eqb_spec g f) as [->|]; [contradiction|reflexivity].
Qed.
Lemma send_frames_nothrow o result fs l : forall t s e, send_frames o result fs l t s <> Throw e.
Proof.
  induction l as [|f l IH]; intros t s e H; cbn [send_frames] in H; [discriminate|]. destruct (nth_error fs _); [|discriminate]. destruct (send_frame _ _ _ _ _ _ _ _) as [[t1 s1]| |] eqn:SF; try discriminate.
  - destruct (add_tally t t1) eqn:T; try discriminate; [exact (IH _ _ _ H)|exact (add_tally_nothrow _ _ _ T)].
  - exact (send_frame_nothrow _ _ _ _ _ _ _ _ _ SF).
Qed.
Lemma send_frames_range o result fs l : forall t s t' s', range_tally t -> send_frames o result fs l t s = Ret (t', s') -> range_tally t'.
Proof.
  induction l as [|f l IH]; intros t s t' s' R H; cbn [send_frames] in H; [injection H as <- <-; exact R|]. destruct (nth_error fs _); [|discriminate]. destruct (send_frame _ _ _ _ _ _ _ _) as [[t1 s1]| |]; try discriminate.
  destruct (add_tally t t1) as [t2| |] eqn:T; try discriminate. apply add_tally_ret in T as (_ & R2). exact (IH _ _ _ _ R2 H).
Qed.

(** Ports in turn. *)
Lemma turn f P : (0 < P)%nat -> (if Z.of_nat (Nat.modulo f P) + 1 <? Z.of_nat P then Z.of_nat (Nat.modulo f P) + 1 else 0) = Z.of_nat (Nat.modulo (S f) P).
Proof.
  intros HP. pose proof (Nat.mod_upper_bound f P ltac:(lia)) as B. pose proof (Nat.div_mod f P ltac:(lia)) as D. destruct (Z.ltb_spec (Z.of_nat (Nat.modulo f P) + 1) (Z.of_nat P)) as [L|L].
  - rewrite <- (Nat.mod_unique (S f) P (f / P) (S (Nat.modulo f P))); lia.
  - rewrite <- (Nat.mod_unique (S f) P (S (f / P)) 0); [reflexivity|lia|]. assert (Nat.modulo f P = P - 1)%nat by lia. rewrite H in D. nia.
Qed.
Lemma mod_step f F : (2 <= F)%nat -> Nat.modulo (S f) F <> Nat.modulo f F.
Proof.
  intros HF E. pose proof (Nat.div_mod f F ltac:(lia)) as D. pose proof (Nat.div_mod (S f) F ltac:(lia)) as D'. rewrite E in D'.
  assert (F * (S f / F) = F * (f / F) + 1)%nat by lia. assert ((F * (S f / F - f / F)) = 1)%nat by nia. destruct (S f / F - f / F)%nat as [|[|]]; lia.
Qed.
Lemma send_frames_turn o result fs n : (2 <= List.length fs)%nat -> (0 < List.length (o_ports o))%nat -> forall f0 t s t' s',
  (forall f, (f0 <= f < f0 + n)%nat -> kept_of o fs f <> []) ->
  (f0 = 0%nat /\ s_frame s = 0 /\ s_index s = 0 \/ exists g, f0 = S g /\ s_frame s = Z.of_nat (Nat.modulo g (List.length fs)) /\ s_index s = Z.of_nat (Nat.modulo g (List.length (o_ports o)))) ->
  send_frames o result fs (seq f0 n) t s = Ret (t', s') ->
  s_sent s' = s_sent s ++ flat_map (fun f => map (pair (nth (Nat.modulo f (List.length (o_ports o))) (o_ports o) 0)) (kept_of o fs f)) (seq f0 n).
Proof.
  intros HF HP. induction n as [|n IH]; intros f0 t s t' s' NE ST H; cbn [seq send_frames] in H; [injection H as <- <-; cbn; rewrite app_nil_r; reflexivity|].
  destruct (nth_error fs _) as [u|] eqn:NU; [|discriminate]. destruct (send_frame _ _ _ _ _ _ _ _) as [[t1 s1]| |] eqn:SF; try discriminate. destruct (add_tally t t1) as [t2| |] eqn:T; try discriminate.
  rewrite <- (source_nth _ _ _ NU) in SF. apply send_frame_ret in SF as (_ & C). cbn zeta in C. fold (kept_of o fs f0) in C.
  destruct C as [(K0 & _)|(_ & a & NA & S1)]; [exfalso; apply (NE f0 ltac:(lia)), K0|].
  assert (NI : next_index (o_ports o) (Z.of_nat (Nat.modulo f0 (List.length fs))) s = Z.of_nat (Nat.modulo f0 (List.length (o_ports o)))).
  { unfold next_index. destruct ST as [(-> & -> & ->)|(g & -> & -> & ->)].
    - rewrite !Nat.mod_0_l by lia. reflexivity.
    - destruct (Z.eqb_spec (Z.of_nat (Nat.modulo (S g) (List.length fs))) (Z.of_nat (Nat.modulo g (List.length fs)))) as [X|X]; [exfalso; apply Nat2Z.inj in X; exact (mod_step _ _ HF X)|]. cbn [negb]. apply turn, HP. }
  rewrite NI in NA, S1. rewrite Nat2Z.id in NA. apply IH in H; [|intros f Hf; apply NE; lia|right; exists f0; rewrite S1; auto].
  rewrite H, S1. cbn [s_sent seq flat_map]. rewrite <- app_assoc. rewrite (nth_error_nth _ _ _ NA). reflexivity.
Qed.

(** ** It returns *)
Lemma send_frame_returns o result f n M l : o_gap o <> Some 0 -> 0 <= M -> (forall k, - M <= result k <= M) -> (0 < List.length (o_ports o))%nat -> forall p t s,
  0 <= s_index s < Z.of_nat (List.length (o_ports o)) -> 0 <= t_sent t -> 0 <= t_dropped t -> 
  t_sent t + t_dropped t + Z.of_nat (List.length l) < 2 ^ 31 -> Z.abs (t_bytes t) + Z.of_nat (List.length l) * M < 2 ^ 31 ->
  exists t' s', send_frame o result f n l p t s = Ret (t', s') /\ 0 <= s_index s' < Z.of_nat (List.length (o_ports o)) /\ 0 <= t_sent t' /\ 0 <= t_dropped t' /\
    t_sent t' + t_dropped t' = t_sent t + t_dropped t + Z.of_nat (List.length l) /\ Z.abs (t_bytes t') <= Z.abs (t_bytes t) + Z.of_nat (List.length l) * M.
Proof.
  intros G MP RB HP. induction l as [|x l IH]; intros p t s SI T1 T2 B1 B2; cbn [send_frame].
  - exists t, s. cbn. repeat split; try assumption; lia.
  - cbn [List.length] in B1, B2. destruct (dropped o f p).
    + unfold add_tally. cbn [t_sent t_dropped t_bytes]. replace (in_i32 (t_sent t + 0) && in_i32 (t_dropped t + 1) && in_i32 (t_bytes t + 0)) with true by (symmetry; unfold in_i32; lia).
      edestruct IH as (t' & s' & E & I1 & I2 & I3 & I4 & I5); [exact SI| | | | |exists t', s'; split; [exact E|]]; cbn [t_sent t_dropped t_bytes List.length] in *; try lia.
    + unfold send_packet. fold (next_index (o_ports o) n s).
      assert (NB : 0 <= next_index (o_ports o) n s < Z.of_nat (List.length (o_ports o))) by (unfold next_index; destruct (negb _); [destruct (Z.ltb_spec (s_index s + 1) (Z.of_nat (List.length (o_ports o))))|]; lia).
      destruct (nth_error (o_ports o) _) as [a|] eqn:NA; [|apply nth_error_None in NA; lia].
      unfold add_tally. cbn [t_sent t_dropped t_bytes]. pose proof (RB (List.length (s_sent s))) as RK. set (rk := result _) in *. clearbody rk.
      replace (in_i32 (t_sent t + 1) && in_i32 (t_dropped t + 0) && in_i32 (t_bytes t + rk)) with true by (symmetry; unfold in_i32; nia).
      assert (X : exists t' s', send_frame o result f n l (S p) (Tally (t_sent t + 1) (t_dropped t + 0) (t_bytes t + rk)) (Sender n (next_index (o_ports o) n s) (s_sent s ++ [(a, x)])) = Ret (t', s') /\
        0 <= s_index s' < Z.of_nat (List.length (o_ports o)) /\ 0 <= t_sent t' /\ 0 <= t_dropped t' /\
        t_sent t' + t_dropped t' = t_sent t + 1 + (t_dropped t + 0) + Z.of_nat (List.length l) /\ Z.abs (t_bytes t') <= Z.abs (t_bytes t + rk) + Z.of_nat (List.length l) * M).
      { apply IH; cbn [t_sent t_dropped t_bytes s_index]; try assumption; nia. }
      destruct X as (t' & s' & E & I1 & I2 & I3 & I4 & I5). exists t', s'. cbn [List.length]. split; [destruct (o_gap o) as [[| |]|]; [congruence|exact E..]|]. repeat split; try assumption; try lia; nia.
Qed.
Lemma send_frames_returns o result fs M l : o_gap o <> Some 0 -> 0 <= M -> (forall k, - M <= result k <= M) -> (0 < List.length (o_ports o))%nat -> fs <> [] -> forall t s,
  0 <= s_index s < Z.of_nat (List.length (o_ports o)) -> 0 <= t_sent t -> 0 <= t_dropped t ->
  t_sent t + t_dropped t + Z.of_nat (List.length (flat_map (source fs) l)) < 2 ^ 31 -> Z.abs (t_bytes t) + Z.of_nat (List.length (flat_map (source fs) l)) * M < 2 ^ 31 ->
  exists t' s', send_frames o result fs l t s = Ret (t', s').
Proof.
  intros G MP RB HP NF. induction l as [|f l IH]; intros t s SI T1 T2 B1 B2; cbn [send_frames]; [eauto|].
  assert (LF : (0 < List.length fs)%nat) by (destruct fs; [congruence|cbn; lia]).
  destruct (nth_error fs _) as [u|] eqn:NU; [|apply nth_error_None in NU; pose proof (Nat.mod_upper_bound f (List.length fs) ltac:(lia)); lia].
  pose proof (source_nth _ _ _ NU) as SE. cbn [flat_map] in B1, B2. rewrite app_length, SE in B1, B2.
  destruct (send_frame_returns o result f (Z.of_nat (Nat.modulo f (List.length fs))) M (u_pkts u) G MP RB HP 0 zero_tally s SI) as (t1 & s1 & E & I1 & I2 & I3 & I4 & I5); cbn [zero_tally t_sent t_dropped t_bytes Z.abs] in *; try lia; try nia.
  rewrite E. unfold add_tally.
  replace (in_i32 (t_sent t + t_sent t1) && in_i32 (t_dropped t + t_dropped t1) && in_i32 (t_bytes t + t_bytes t1)) with true by (symmetry; unfold in_i32; nia).
  apply IH; cbn [t_sent t_dropped t_bytes]; try assumption; try lia; nia.
Qed.

(** ** Texts *)
Lemma number_nonempty l v : number l v -> l <> [].
Proof. destruct 1; [discriminate|]. destruct l; discriminate. Qed.
Lemma decimal_inj p q : 0 <= p -> 0 <= q -> decimal p = decimal q -> p = q.
Proof.
  intros P Q E. assert (Z0 : forall r, 1 <= r -> decimal 0 <> decimal r).
  { intros r R X. destruct (number_row _ _ (decimal_number r R)) as (_ & RV & _). rewrite <- X in RV. vm_compute in RV. lia. }
  destruct (Z.eq_dec p 0) as [->|NP], (Z.eq_dec q 0) as [->|NQ]; [reflexivity| | |].
  - exfalso. exact (Z0 q ltac:(lia) E).
  - exfalso. exact (Z0 p ltac:(lia) (eq_sym E)).
  - destruct (number_row _ _ (decimal_number p ltac:(lia))) as (_ & RP & _). destruct (number_row _ _ (decimal_number q ltac:(lia))) as (_ & RQ & _). rewrite E in RP. congruence.
Qed.
Lemma decimal_plain p : 0 <= p -> no_comma (decimal p) /\ decimal p <> ""%string.
Proof.
  intros P. destruct (Z.eq_dec p 0) as [->|NP]; [split; [unfold no_comma; cbn; intuition discriminate|discriminate]|].
  destruct (number_row _ _ (decimal_number p ltac:(lia))) as (A & _ & c & r & E & _). split.
  - unfold no_comma. intros I. unfold all_digits in A. rewrite Forall_forall in A. destruct (A _ I) as (d & D & X). change (Z.of_nat (nat_of_ascii ",")) with 44 in X. lia.
  - intros X. rewrite X in E. discriminate.
Qed.
Lemma squeeze_full l : Forall (fun s => s <> ""%string) l -> squeeze l = l.
Proof.
  induction 1 as [|x l NX F IH]; [reflexivity|]. cbn [squeeze]. destruct l as [|y l]; [reflexivity|]. destruct (String.eqb_spec x ""); [contradiction|]. f_equal. exact IH.
Qed.
Lemma list_option_eq l : l <> [] -> Forall no_comma l -> Forall (fun s => s <> ""%string) l -> set_list_option (joined "," l) = l.
Proof.
  intros NE NC F. unfold set_list_option. rewrite split_unique by assumption. destruct l as [|x [|y l]]; [congruence|reflexivity|]. inversion F; subst. f_equal. apply squeeze_full. assumption.
Qed.
Lemma atoi_number t v : number (chars t) v -> v < 2 ^ 31 -> atoi t = v.
Proof.
  intros N R. destruct (number_row _ _ N) as (AD & RV & c & r & E & V). unfold atoi. destruct t as [|c0 t]; [discriminate|]. assert (c0 = c) as -> by (cbn in E; congruence). cbn [trim_left].
  assert (NB : blank c = false). { apply not_blank. intros B'. inversion AD as [|? ? (d & D) _]; subst. exact (blank_no_digit c d B' D). } rewrite NB.
  assert (N1 : Ascii.eqb c "-" = false) by (apply Ascii.eqb_neq; intros ->; unfold value_of in V; cbn in V; lia). assert (N2 : Ascii.eqb c "+" = false) by (apply Ascii.eqb_neq; intros ->; unfold value_of in V; cbn in V; lia). rewrite N1, N2.
  pose proof (digits_row (String c t) "" AD ltac:(intros ? ? X; discriminate) 0) as D. rewrite append_nil_r in D. rewrite D, RV.
  assert (P : forall l acc, Forall (fun c => exists d, is_digit c d) l -> 0 <= acc -> 0 <= row acc l). { clear. induction l as [|c l IH]; intros acc F H; [exact H|]. inversion F as [|? ? (d & D) F']; subst. cbn. apply IH; [exact F'|]. destruct (digit_is c d D) as (_ & _ & ->). destruct D. lia. }
  pose proof (P _ 0 AD ltac:(lia)) as V0. rewrite RV in V0. unfold clamp, i32. rewrite Z.min_r, Z.max_r by lia. rewrite Z.mod_small by lia. lia.
Qed.

(** ** Captures *)
Lemma word_split4 z : 0 <= z < 2 ^ 32 -> word (split4 z) = z.
Proof.
  intros H. unfold word, split4. cbn [fold_right].
  pose proof (Z.div_mod z 256 ltac:(lia)) as D1. pose proof (Z.div_mod (z / 256) 256 ltac:(lia)) as D2. pose proof (Z.div_mod (z / 256 / 256) 256 ltac:(lia)) as D3.
  replace (z / 2 ^ 16) with (z / 256 / 256) by (rewrite Z.div_div by lia; reflexivity). replace (z / 2 ^ 24) with (z / 256 / 256 / 256) by (rewrite !Z.div_div by lia; reflexivity).
  rewrite (Z.mod_small (z / 256 / 256 / 256)) by (rewrite !Z.div_div by lia; split; [apply Z.div_pos; lia|apply Z.div_lt_upper_bound; lia]). lia.
Qed.
Lemma nth_error_14 {A} (e : list A) b l : List.length e = 14%nat -> nth_error (e ++ b :: l) 14 = Some b.
Proof. intros E. rewrite nth_error_app2, E by lia. reflexivity. Qed.
Lemma capture_ok c p : captures c p -> 0 <= k_frame p < 2 ^ 32 -> 0 <= k_flags p < 2 ^ 32 -> capture_packet (fst c) (snd c) = Ret p.
Proof.
  intros (ether & b & ip & udp & rest & LE & LI & LU & EB & EL) F1 F2. unfold capture_packet. rewrite EB. cbn [app]. rewrite (nth_error_14 ether b _ LE). set (d := datagram p) in *.
  assert (LD : Z.of_nat (List.length d) = 8 + Z.of_nat (List.length (k_data p))) by (unfold d, datagram; rewrite !app_length; cbn [split4 List.length]; lia).
  assert (SZ : snd c = 14 + 4 * (b mod 16) + 8 + Z.of_nat (List.length d)) by (rewrite EL, !app_length, LE, LU; lia).
  rewrite SZ. replace (14 + 4 * (b mod 16) + 8 + Z.of_nat (List.length d) - (14 + 4 * (b mod 16) + 8)) with (Z.of_nat (List.length d)) by lia.
  replace (Z.of_nat (List.length (ether ++ b :: ip ++ udp ++ d ++ rest)) <? 14 + 4 * (b mod 16) + 8 + Z.of_nat (List.length d)) with false.
  2:{ symmetry. apply Z.ltb_ge. rewrite app_length. cbn [List.length]. rewrite !app_length, LE, LU. cbn [List.length] in LI. lia. }
  replace (Z.of_nat (List.length d) <? 8) with false by (symmetry; apply Z.ltb_ge; lia). cbn [orb].
  assert (SK : skipn (Z.to_nat (14 + 4 * (b mod 16) + 8)) (ether ++ b :: ip ++ udp ++ d ++ rest) = d ++ rest).
  { replace (ether ++ b :: ip ++ udp ++ d ++ rest) with ((ether ++ (b :: ip) ++ udp) ++ d ++ rest) by (rewrite <- !app_assoc; reflexivity).
    replace (Z.to_nat (14 + 4 * (b mod 16) + 8)) with (List.length (ether ++ (b :: ip) ++ udp) + 0)%nat by (rewrite !app_length, LE, LU; lia). rewrite skipn_app, skipn_all2 by lia. replace (_ + 0 - _)%nat with 0%nat by lia. reflexivity. }
  rewrite SK, Nat2Z.id, firstn_app, firstn_all, Nat.sub_diag. cbn [firstn]. rewrite app_nil_r. unfold d, datagram. cbn [split4 app firstn skipn].
  change [k_frame p mod 256; k_frame p / 256 mod 256; k_frame p / 2 ^ 16 mod 256; k_frame p / 2 ^ 24 mod 256] with (split4 (k_frame p)).
  change [k_flags p mod 256; k_flags p / 256 mod 256; k_flags p / 2 ^ 16 mod 256; k_flags p / 2 ^ 24 mod 256] with (split4 (k_flags p)).
  rewrite !word_split4 by assumption. destruct p; reflexivity.
Qed.
Lemma read_capture_eq l ps : Forall2 captures l ps -> Forall (fun p => 0 <= k_frame p < 2 ^ 32 /\ 0 <= k_flags p < 2 ^ 32) ps -> forall fs, read_capture l fs = extract_all ps fs.
Proof.
  induction 1 as [|[b n] p l ps C F IH]; intros W fs; [reflexivity|]. inversion W as [|? ? (W1 & W2) W']; subst. cbn [read_capture extract_all]. pose proof (capture_ok _ _ C W1 W2) as E. cbn [fst snd] in E. rewrite E.
  destruct (extract p fs); auto.
Qed.

Definition is_empty (s : string) : bool := match s with EmptyString => true | _ => false end.
Lemma squeeze_filter l z : z <> ""%string -> squeeze (l ++ [z]) = filter (fun s => negb (is_empty s)) l ++ [z].
Proof.
  intros NZ. induction l as [|x l IH]; [reflexivity|]. cbn [app filter]. destruct l as [|y l]; cbn [app] in *.
  - cbn [squeeze]. destruct x; cbn; reflexivity.
  - cbn [squeeze] in *. rewrite IH. destruct x; cbn; reflexivity.
Qed.
Lemma list_option_squeezed a l z : a <> ""%string -> z <> ""%string -> Forall no_comma (a :: l ++ [z]) -> set_list_option (joined "," (a :: l ++ [z])) = a :: filter (fun s => negb (is_empty s)) l ++ [z].
Proof.
  intros NA NZ F. unfold set_list_option. rewrite split_unique; [|discriminate|exact F]. destruct (l ++ [z]) as [|y t] eqn:E; [destruct l; discriminate|]. rewrite <- E. f_equal. apply squeeze_filter, NZ.
Qed.
