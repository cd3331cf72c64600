(** C25 - C29: the frame decoder. *)
From Coq Require Import Permutation.
From Verif Require Import Base DecModel DecSpec DecProofs DecInv.
Local Open Scope Z_scope.

Definition zseq (n : Z) : list Z := map Z.of_nat (seq 0 (Z.to_nat n)).
Lemma zseq_in n i : In i (zseq n) <-> 0 <= i < n.
Proof.
  unfold zseq. rewrite in_map_iff. setoid_rewrite in_seq. split; [intros (x & <- & H); lia|]. intros H. exists (Z.to_nat i). lia.
Qed.
Lemma zseq_nodup n : NoDup (zseq n).
Proof. unfold zseq. apply FinFun.Injective_map_NoDup; [intros a b; lia|apply seq_NoDup]. Qed.
Lemma zseq_length n : length (zseq n) = Z.to_nat n.
Proof. unfold zseq. rewrite map_length, seq_length. reflexivity. Qed.

(** A sequence of operations from the initial state (for the examples). *)
Fixpoint go (c : cfg) (l : list dop) (tr : trace) (s : dec) : outcome dexc (trace * dec) :=
  match l with
  | [] => Ret (tr, s)
  | o :: l' => match dstep c o s with Ret (s', r) => go c l' (tr ++ [(o, r)]) s' | Throw e => Throw e | Undef => Undef end
  end.
Lemma go_run c mem l : forall tr s tr' s', drun c mem tr s -> go c l tr s = Ret (tr', s') -> drun c mem tr' s'.
Proof.
  induction l as [|o l IH]; intros tr s tr' s' R H; cbn [go] in H; [injection H as -> ->; exact R|].
  destruct (dstep c o s) as [[s1 r]| |] eqn:E; try discriminate. eapply IH; [|exact H]. econstructor; eassumption.
Qed.
Definition blank : buf := Buffer (Hdr 0 RIncomplete 0 0 0 0 (fun _ => false)) (fun _ => 0).
Definition start (c : cfg) (l : list dop) : outcome dexc (trace * dec) := go c l [] (dec_init (fun _ => blank)).
Definition after (c : cfg) (l : list dop) : trace * dec := match start c l with Ret x => x | _ => ([], dec_init (fun _ => blank)) end.
Lemma after_run c l : match start c l with Ret _ => True | _ => False end -> drun c (fun _ => blank) (fst (after c l)) (snd (after c l)).
Proof. unfold after. destruct (start c l) as [[tr s]| |] eqn:E; try tauto. intros _. eapply go_run; [constructor|exact E]. Qed.

(** ** C25 *)
(** Without dropped frames: the packets of frame [k] are divided, in order of arrival, among the buffers handed over as frame
    [k] and at most one more that is being filled.  A complete buffer has exactly the configured number of packets, a timed-out
    one fewer, and each holds just its packets.
    Missing (see the _refuted theorems): frame number 2^32-1, packets directly after the time-out of their frame, dropped frames. *)
Theorem c25_every_packet_partial : forall c mem tr s k, cfg_ok c -> 0 < ppf c -> drun c mem tr s -> wf tr -> env_ok c tr -> no_late tr -> no_reset tr ->
  Z.of_nat (length tr) < 2 ^ 32 -> f_dropped s = 0 -> 0 <= k < 2 ^ 32 - 1 ->
  exists chunks rest, sent k tr = concat chunks ++ rest /\ Z.of_nat (length rest) < ppf c /\
    Forall2 (fun pk x => holds c k pk (r_buf x) /\
      ((h_state (b_hdr (r_buf x)) = RComplete /\ Z.of_nat (length pk) = ppf c) \/ (h_state (b_hdr (r_buf x)) = RTimedout /\ Z.of_nat (length pk) < ppf c)))
      chunks (handed k tr).
Proof.
  intros c mem tr s k CK P R W EN NL NR LEN FD Hk. destruct (run_inv c mem tr s CK R W EN NL) as (nd & C & _ & _ & D). destruct (D NR LEN) as (_ & D'). specialize (D' FD P). subst nd.
  destruct (k_frames _ _ _ _ C k Hk) as (ch & rs & _ & A & F & M). specialize (A eq_refl). exists ch, rs. split; [auto|]. split.
  - destruct (zm_get (d_map s) (i32 k)); [apply M, eq_refl|subst rs; exact P].
  - assert (SL : forall pk, In pk ch -> Z.of_nat (length pk) < 2 ^ 32).
    { intros pk Hp. assert (length pk <= length (concat ch))%nat. { clear -Hp. induction ch as [|a ch IH]; [destruct Hp|]. cbn. rewrite app_length. destruct Hp as [->|Hp]; [lia|]. specialize (IH Hp). lia. }
      assert (length (sent k tr) <= length tr)%nat. { clear. unfold sent. induction tr as [|[o r] tr IH]; [cbn; lia|]. cbn [flat_map fst length]. rewrite app_length. destruct o; cbn [length]; try lia. destruct (_ =? _); cbn [length]; lia. }
      rewrite <- A, app_length in H0. lia. }
    clear -F SL. revert F SL. generalize (handed k tr). induction ch as [|pk ch IH]; intros l F SL; inversion F as [|? y ? l' (H1 & H2) F']; subst; constructor.
    + split; [exact H1|]. rewrite Z.mod_small in H2 by (specialize (SL pk (or_introl eq_refl)); lia). destruct H2 as [H2|(H2 & H3)]; [left; exact H2|right; auto].
    + apply IH; [exact F'|]. intros q Hq. apply SL. right. exact Hq.
Qed.

(** All packets of frame [k] exactly once, in any order and interleaved with other frames, no time-out of the frame, no frame
    dropped: exactly one buffer is handed over as frame [k], complete, every packet's payload at its place. *)
Theorem c25_one_frame_partial : forall c mem tr s k, cfg_ok c -> 0 < ppf c -> drun c mem tr s -> wf tr -> env_ok c tr -> no_late tr -> no_reset tr ->
  Z.of_nat (length tr) < 2 ^ 32 -> f_dropped s = 0 -> 0 <= k < 2 ^ 32 - 1 ->
  Permutation (map fst (sent k tr)) (zseq (ppf c)) ->
  (forall x, In x (handed k tr) -> h_state (b_hdr (r_buf x)) <> RTimedout) ->
  exists x, handed k tr = [x] /\ h_state (b_hdr (r_buf x)) = RComplete /\ h_frame (b_hdr (r_buf x)) = k /\ h_received (b_hdr (r_buf x)) = ppf c /\
    forall i pl, In (i, pl) (sent k tr) -> h_pstate (b_hdr (r_buf x)) i = true /\
      forall o, 0 <= o < Z.min (Z.of_nat (length pl)) (psize c) -> b_data (r_buf x) (psize c * i + o) = nth (Z.to_nat o) pl 0.
Proof.
  intros c mem tr s k CK P R W EN NL NR LEN FD Hk PM NT.
  destruct (c25_every_packet_partial c mem tr s k CK P R W EN NL NR LEN FD Hk) as (ch & rs & A & B & F).
  assert (L : Z.of_nat (length (sent k tr)) = ppf c). { apply Permutation_length in PM. rewrite map_length, zseq_length in PM. lia. }
  assert (N : NoDup (map fst (sent k tr))). { apply (Permutation_NoDup (Permutation_sym PM)), zseq_nodup. }
  destruct ch as [|pk ch]. { cbn in A. subst rs. lia. }
  inversion F as [|? x ? l' (H1 & H2) F']; subst. assert (IX : In x (handed k tr)) by (rewrite <- H3; left; reflexivity).
  destruct H2 as [(H2 & H4)|(H2 & _)]; [|exfalso; exact (NT x IX H2)].
  rewrite A in L. cbn in L. rewrite !app_length in L.
  destruct ch as [|pk2 ch].
  2:{ exfalso. inversion F' as [|? y ? l2 (G1 & G2) _]; subst. cbn in L. rewrite app_length in L.
      destruct G2 as [(_ & G2)|(G2 & _)]; [lia|]. apply (NT y); [rewrite <- H3; right; left; reflexivity|exact G2]. }
  inversion F'; subst. exists x. split; [reflexivity|]. split; [exact H2|]. assert (rs = []) by (destruct rs; [reflexivity|cbn in L; lia]). subst rs.
  assert (EQ : sent k tr = pk). { rewrite A. cbn. rewrite !app_nil_r. reflexivity. } rewrite EQ in *. clear A.
  destruct H1 as [O1 O2 O3 O4 O5 O6]. split; [exact O1|]. split; [rewrite O4, Z.mod_small; unfold cfg_ok, max_packets in CK; lia|].
  intros i pl Hi. split; [apply O5; apply (in_map fst) in Hi; exact Hi|]. intros o Ho. apply O6; [|exact Ho].
  clear -Hi N. induction pk as [|[j q] pk IH] using rev_ind; [destruct Hi|]. rewrite last_payload_app. rewrite map_app in N. cbn in N.
  apply in_app_or in Hi as [Hi|[[= -> ->]|[]]]; [|rewrite Z.eqb_refl; reflexivity].
  destruct (Z.eqb_spec j i) as [->|]; [|apply IH; [apply NoDup_remove_1 in N; rewrite app_nil_r in N; exact N|exact Hi]].
  exfalso. apply NoDup_remove_2 in N. rewrite app_nil_r in N. apply N. apply (in_map fst) in Hi. exact Hi.
Qed.

(** Three packets of two bytes; frames 5 and 6 interleaved, out of order. *)
Definition c3 : cfg := Cfg 3 2 1000 4.
Definition mix : list dop :=
  [Push 0; Push 1; Packet 5 2 [50; 51] 0; Packet 6 0 [60; 61] 1; Packet 5 0 [52; 53] 2; Packet 6 (1 + 2 ^ 30) [62; 63] 3; Packet 5 1 [54] 4; Monitor 5].
Ltac trace_forall := intros ? ? H; cbn in H; repeat (destruct H as [H|H]; [injection H as <- <-; cbn; lia|]); contradiction.
Example c25_case : let tr := fst (after c3 mix) in let s := snd (after c3 mix) in
  drun c3 (fun _ => blank) tr s /\ f_dropped s = 0 /\ Z.of_nat (length tr) = 8 /\ map fst (sent 5 tr) = [2; 0; 1] /\ map r_id (handed 5 tr) = [0] /\
  map (fun x => map (b_data (r_buf x)) [0; 1; 2; 4; 5]) (handed 5 tr) = [[52; 53; 54; 50; 51]] /\ wf tr.
Proof.
  split; [apply after_run; vm_compute; exact I|]. repeat (split; [vm_compute; reflexivity|]).
  intros o r H. assert (X : In o mix). { apply (in_map fst) in H. exact H. }
  cbn in X. repeat (destruct X as [<-|X]; [cbn; lia|]). destruct X.
Qed.

(** The hypotheses [env_ok] and [no_late] are met as well. *)
Fixpoint env_check (c : cfg) (pre : trace) (l : trace) : bool :=
  match l with
  | [] => true
  | (Push id, r) :: l' => (0 <=? id) && (id <? num_buffers c) && Nat.eqb (pushes id pre) (readys id pre) && env_check c (pre ++ [(Push id, r)]) l'
  | (Touch id b, r) :: l' => Nat.eqb (pushes id pre) (readys id pre) && env_check c (pre ++ [(Touch id b, r)]) l'
  | e :: l' => env_check c (pre ++ [e]) l'
  end.
Lemma env_check_ok c l : forall pre, env_check c pre l = true -> forall tr1 o r tr2, l = tr1 ++ (o, r) :: tr2 ->
  match o with
  | Push id => 0 <= id < num_buffers c /\ pushes id (pre ++ tr1) = readys id (pre ++ tr1)
  | Touch id _ => pushes id (pre ++ tr1) = readys id (pre ++ tr1)
  | _ => True
  end.
Proof.
  induction l as [|[o0 r0] l IH]; intros pre H tr1 o r tr2 E; [destruct tr1; discriminate|]. destruct tr1 as [|e tr1]; injection E as E1 E2.
  - subst. rewrite app_nil_r. destruct o; cbn in H; rewrite ?andb_true_iff in H; auto.
    + destruct H as (((H1 & H2) & H3) & _). apply Nat.eqb_eq in H3. lia.
    + apply Nat.eqb_eq, H.
  - subst e l. assert (H' : env_check c (pre ++ [(o0, r0)]) (tr1 ++ (o, r) :: tr2) = true).
    { destruct o0; cbn in H; rewrite ?andb_true_iff in H; try exact H; apply H. }
    pose proof (IH _ H' tr1 o r tr2 eq_refl) as A. rewrite <- app_assoc in A. exact A.
Qed.
(** [no_late] holds if no time-out happens. *)
Lemma no_timeout_no_late tr : (forall e, In e tr -> is_packet (fst e) = false -> snd e = []) -> no_late tr.
Proof.
  intros H tr1 fn fl p t r mid fl' p' t' r' tr2 -> M (e & x & X1 & X2 & _). rewrite (H e) in X2; [destruct X2| |apply M, X1].
  apply in_or_app. right. right. apply in_or_app. left. exact X1.
Qed.
Example c25_case_env : let tr := fst (after c3 mix) in env_ok c3 tr /\ no_late tr /\ no_reset tr.
Proof.
  split; [|split].
  - intros tr1 o r tr2 E. apply (env_check_ok c3 (fst (after c3 mix)) [] ltac:(vm_compute; reflexivity) tr1 o r tr2 E).
  - apply no_timeout_no_late. intros e H P. assert (X : forallb (fun e => is_packet (fst e) || match snd e with [] => true | _ => false end) (fst (after c3 mix)) = true) by (vm_compute; reflexivity).
    rewrite forallb_forall in X. specialize (X e H). rewrite P in X. cbn in X. destruct (snd e); [reflexivity|discriminate].
  - intros r H. apply (in_map fst) in H. assert (X : In ResetStats mix) by exact H. clear H. cbn in X. intuition discriminate.
Qed.

(** Frame number 2^32-1 in the first packet: its number equals the "no frame seen" mark and a null header is dereferenced. *)
Theorem c25_last_number_refuted : dstep c3 (Packet (2 ^ 32 - 1) 0 [1] 0) (snd (after c3 [Push 0])) = Undef.
Proof. vm_compute. reflexivity. Qed.

(** While frames are dropped, a frame that has a buffer is not handed over when its last packet comes: frame 7 got its buffer,
    frame 8 none; all three packets of frame 7 arrive, none is handed over; at time-out it is handed over as timed out although
    nothing is missing. *)
Definition sticky : list dop := [Push 0; Packet 7 0 [70; 71] 0; Packet 8 0 [80; 81] 1; Packet 7 1 [72; 73] 2; Packet 7 2 [74; 75] 3].
Theorem c25_dropping_refuted : let tr := fst (after c3 sticky) in let tr2 := fst (after c3 (sticky ++ [Monitor (2 ^ 31)])) in
  drun c3 (fun _ => blank) tr2 (snd (after c3 (sticky ++ [Monitor (2 ^ 31)]))) /\
  Permutation (map fst (sent 7 tr)) (zseq 3) /\ handed 7 tr = [] /\
  map (fun x => (h_state (b_hdr (r_buf x)), h_received (b_hdr (r_buf x)))) (handed 7 tr2) = [(RTimedout, 3)].
Proof.
  split; [apply after_run; vm_compute; exact I|]. split; [|split; vm_compute; reflexivity].
  change (Permutation [0; 1; 2] [0; 1; 2]). reflexivity.
Qed.

(** ** C26 *)
Lemma complete_pigeon (l : list Z) n : NoDup l -> (forall i, In i l -> 0 <= i < n) -> Z.of_nat (length l) = n -> forall i, 0 <= i < n -> In i l.
Proof.
  intros N B L i Hi. apply (NoDup_length_incl (l := l) (l' := zseq n) N); [rewrite zseq_length; lia| |apply zseq_in, Hi].
  intros j Hj. apply zseq_in, B, Hj.
Qed.
Lemma sent_range c k tr i : in_frame c tr -> In i (map fst (sent k tr)) -> 0 <= i < ppf c.
Proof.
  intros IF H. unfold sent in H. apply in_map_iff in H as ((j & pl) & E & H). cbn in E. subst j. apply in_flat_map in H as ((o & r) & H1 & H2). specialize (IF _ _ H1).
  destruct o; cbn in H2; try tauto. destruct (_ =? _); [|destruct H2]. destruct H2 as [[= <- <-]|[]]. split; [apply Z.mod_pos_bound; reflexivity|exact IF].
Qed.
Lemma chunk_subseq {A} (ch : list (list A)) pk l : subseq (concat ch) l -> In pk ch -> subseq pk l.
Proof.
  intros H I. eapply subseq_trans; [|exact H]. clear H. induction ch as [|a ch IH]; [destruct I|]. cbn. destruct I as [->|I].
  - rewrite <- (app_nil_r pk) at 1. apply subseq_app; [apply subseq_refl|apply subseq_nil].
  - change pk with ([] ++ pk). apply subseq_app; [apply subseq_nil|auto].
Qed.
Lemma forall2_in {A B} (P : A -> B -> Prop) l l' y : Forall2 P l l' -> In y l' -> exists x, In x l /\ P x y.
Proof. induction 1 as [|x z l l' H F IH]; intros I; [destruct I|]. destruct I as [->|I]; [exists x; cbn; auto|]. destruct (IH I) as (w & W1 & W2). exists w. cbn. auto. Qed.

(** A handed-over buffer holds some of the packets sent for its frame, in order of arrival (also when frames are dropped). *)
Lemma handed_holds c mem tr s k x : cfg_ok c -> drun c mem tr s -> wf tr -> env_ok c tr -> no_late tr -> 0 <= k < 2 ^ 32 - 1 -> In x (handed k tr) ->
  exists pk, subseq pk (sent k tr) /\ holds c k pk (r_buf x) /\ (h_state (b_hdr (r_buf x)) = RComplete -> Z.of_nat (length pk) mod 2 ^ 32 = ppf c).
Proof.
  intros CK R W EN NL Hk IX. destruct (run_inv c mem tr s CK R W EN NL) as (nd & C & _). destruct (k_frames _ _ _ _ C k Hk) as (ch & rs & A & _ & F & _).
  destruct (forall2_in _ _ _ _ F IX) as (pk & I1 & H1 & H2). exists pk. split; [|split; [exact H1|]].
  - eapply chunk_subseq; [|exact I1]. eapply subseq_trans; [|exact A]. rewrite <- (app_nil_r (concat ch)) at 1. apply subseq_app; [apply subseq_refl|apply subseq_nil].
  - intros E. destruct H2 as [(_ & H2)|(H2 & _)]; [exact H2|congruence].
Qed.

(** Missing: packets sent more than once (see the refutation). *)
Theorem c26_complete_partial : forall c mem tr s k x, cfg_ok c -> drun c mem tr s -> wf tr -> env_ok c tr -> no_late tr -> in_frame c tr ->
  0 <= k < 2 ^ 32 - 1 -> NoDup (map fst (sent k tr)) -> In x (handed k tr) -> h_state (b_hdr (r_buf x)) = RComplete ->
  forall i, 0 <= i < ppf c -> In i (map fst (sent k tr)) /\ h_pstate (b_hdr (r_buf x)) i = true.
Proof.
  intros c mem tr s k x CK R W EN NL IF Hk N IX E i Hi. destruct (handed_holds c mem tr s k x CK R W EN NL Hk IX) as (pk & S1 & H1 & L). specialize (L E).
  pose proof (subseq_nodup _ _ (subseq_map fst _ _ S1) N) as N1.
  assert (RG : forall j, In j (map fst pk) -> 0 <= j < ppf c). { intros j Hj. eapply sent_range; [exact IF|]. eapply subseq_in; [apply subseq_map; exact S1|exact Hj]. }
  assert (LE : (length (map fst pk) <= Z.to_nat (ppf c))%nat). { rewrite <- zseq_length. apply NoDup_incl_length; [exact N1|]. intros j Hj. apply zseq_in, RG, Hj. }
  rewrite map_length in LE. rewrite Z.mod_small in L by (unfold cfg_ok, max_packets in CK; lia).
  assert (I : In i (map fst pk)) by (apply (complete_pigeon _ (ppf c)); [exact N1|exact RG|rewrite map_length; exact L|exact Hi]).
  split; [eapply subseq_in; [apply subseq_map; exact S1|exact I]|]. apply (ho_state _ _ _ _ H1), I.
Qed.

Definition dups : list dop := [Push 0; Packet 5 0 [1; 2] 0; Packet 5 0 [1; 2] 1; Packet 5 1 [3; 4] 2].
Theorem c26_duplicates_refuted : let tr := fst (after c3 dups) in drun c3 (fun _ => blank) tr (snd (after c3 dups)) /\
  map (fun x => (h_state (b_hdr (r_buf x)), h_pstate (b_hdr (r_buf x)) 2)) (handed 5 tr) = [(RComplete, false)] /\ map fst (sent 5 tr) = [0; 0; 1].
Proof. split; [apply after_run; vm_compute; exact I|]. split; vm_compute; reflexivity. Qed.

(** ** C27 *)
(** Packet numbers below the configured number: every packet is handled, all writes inside its buffer.
    Missing: other packet numbers, which are not checked. *)
Theorem c27_in_bounds_partial : forall c mem tr s o, cfg_ok c -> drun c mem tr s -> wf (tr ++ [(o, [])]) -> env_ok c tr -> no_late (tr ++ [(o, [])]) -> in_frame c [(o, [])] ->
  exists s' r, dstep c o s = Ret (s', r).
Proof. exact step_ret. Qed.

(** A packet changes one buffer only: the scratch buffer, or the buffer of its frame; and there only the bytes of its place
    (and the header). *)
Theorem c27_own_place_partial : forall c mem tr s fn fl p now s' r, cfg_ok c -> drun c mem tr s -> wf (tr ++ [(Packet fn fl p now, [])]) -> env_ok c tr ->
  no_late (tr ++ [(Packet fn fl p now, [])]) -> dstep c (Packet fn fl p now) s = Ret (s', r) ->
  exists q, (forall q', q' <> q -> d_mem s' q' = d_mem s q') /\
    (forall o, b_data (d_mem s' q) o <> b_data (d_mem s q) o -> psize c * (fl mod 2 ^ 30) <= o < psize c * (fl mod 2 ^ 30) + psize c /\ 0 <= o < capacity c q) /\
    (q = Scratch \/ h_frame (b_hdr (d_mem s' q)) = fn /\ h_expected (b_hdr (d_mem s' q)) = ppf c).
Proof.
  intros c mem tr s fn fl p now s' r CK R W EN NL H. apply wf_app in W as (W & W1). destruct (W1 _ _ (or_introl eq_refl)) as (B1 & B2).
  destruct (run_inv c mem tr s CK R W EN (late_app _ _ NL)) as (nd & C & U & P & _). cbn [dstep] in H. unfold packet in H. rewrite pn_land in H.
  destruct (choose_ok c nd tr s fn now CK C U B1 (no_late_last _ _ _ _ _ _ NL) P) as (s1 & nd' & E & C1 & (S1 & N1) & _). rewrite E in H.
  assert (X : exists q, d_cur s1 = Some q /\ (forall q', q' <> q -> d_mem s1 q' = d_mem s q') /\ (forall q', b_data (d_mem s1 q') = b_data (d_mem s q'))).
  { unfold choose in E. destruct (_ =? _) in E; [injection E as <-; destruct N1 as [(N1 & _)|(? & N1 & _)]; eauto|]. destruct (zm_get _ _) as [id|] in E.
    - destruct (legal_id _ _) in E; [|discriminate]. injection E as <-. cbn. eauto.
    - destruct (d_empty s) as [|id rest] in E.
      + injection E as <-. cbn. exists Scratch. split; [reflexivity|]. split.
        * intros q' Hq. unfold upd_mem. destruct q'; [congruence|reflexivity].
        * intros q'. unfold upd_mem. destruct q'; reflexivity.
      + destruct (legal_id _ _) in E; [|discriminate]. injection E as <-. cbn. exists (Shared id). split; [reflexivity|]. split.
        * intros q' Hq. unfold upd_mem. destruct q' as [|i]; cbn; [reflexivity|]. destruct (Z.eqb_spec i id); [congruence|reflexivity].
        * intros q'. unfold upd_mem. destruct q' as [|i]; cbn; [reflexivity|]. destruct (Z.eqb_spec i id) as [->|]; reflexivity. }
  destruct X as (q & X1 & X2 & X3). rewrite X1 in H. cbn zeta in H. destruct (_ || _) eqn:OB in H; [discriminate|].
  set (pn := fl mod 2 ^ 30) in *. set (len := Z.min (Z.of_nat (length p)) (psize c)) in *.
  assert (PN : 0 <= pn) by (apply Z.mod_pos_bound; reflexivity). clearbody pn. apply orb_false_iff in OB as (OB1 & OB2).
  set (b := d_mem s1 q) in *. set (n := wrap32 _) in *. set (st := if n =? ppf c then RComplete else h_state (b_hdr b)) in *. set (b' := Buffer _ _) in *.
  assert (M : d_mem s' = upd_mem (d_mem s1) q b').
  { destruct (_ && _) in H; apply ret_inv in H as (-> & ->); unfold count_packet; destruct (d_dropping s1); reflexivity. }
  exists q. rewrite M. split; [|split].
  - intros q' Hq. rewrite <- (X2 q' Hq). unfold upd_mem. destruct q, q'; cbn; try congruence; try reflexivity. destruct (Z.eqb_spec id0 id); [congruence|reflexivity].
  - intros o. unfold upd_mem. replace (place_eqb q q) with true by (destruct q; cbn; rewrite ?Z.eqb_refl; reflexivity). cbn [b_data b']. unfold store. unfold b. rewrite X3.
    fold len. intros D. destruct ((0 <=? o - psize c * pn) && (o - psize c * pn <? len)) eqn:Q; [|congruence]. clear D. apply andb_true_iff in Q as (Q1 & Q2).
    assert (len <= psize c) by (unfold len; lia). apply andb_false_iff in OB2. destruct CK as (_ & CK2 & _). assert (0 <= psize c * pn) by (apply Z.mul_nonneg_nonneg; lia). split; lia.
  - destruct N1 as [(N1 & _)|(id & N1 & N2 & N3)]; [left; congruence|]. right. assert (q = Shared id) by congruence. subst q. unfold upd_mem. cbn. rewrite Z.eqb_refl. cbn.
    destruct (k_frames _ _ _ _ C1 fn B1) as (ch & rs & _ & _ & _ & K). rewrite N3 in K. destruct K as (K & _). split; [exact (ho_frame _ _ _ _ K)|exact (ho_expected _ _ _ _ K)].
Qed.

(** Every packet number from the configured number on, with a payload, is written outside the frame's buffer; from 4195 on
    also its mark in the packet-state array.  [d_dropping = false] and [d_empty] not empty: the frame has a buffer. *)
Theorem c27_out_of_range_refuted : forall c fn fl p now s id rest, 0 < psize c -> p <> [] -> d_empty s = id :: rest -> legal_id c id = true ->
  fn <> wrap32 (d_seen s) -> zm_get (d_map s) (i32 fn) = None -> ppf c <= fl mod 2 ^ 30 -> dstep c (Packet fn fl p now) s = Undef.
Proof.
  intros c fn fl p now s id rest P NE Q L S0 G B. cbn [dstep]. unfold packet, choose. rewrite pn_land. apply Z.eqb_neq in S0. rewrite S0, G, Q, L. cbn [d_cur set_cur set_mem].
  cbn zeta. set (len := Z.min _ _). assert (0 < len). { unfold len. destruct p; [congruence|]. cbn [length]. lia. }
  replace ((0 <? len) && _) with true; [rewrite orb_true_r; reflexivity|]. symmetry. apply andb_true_iff. split; [lia|]. cbn [capacity]. apply Z.ltb_lt.
  assert (psize c * ppf c <= psize c * (fl mod 2 ^ 30)) by (apply Z.mul_le_mono_nonneg_l; lia). lia.
Qed.
Example c27_case : dstep c3 (Packet 5 3 [1; 2] 0) (snd (after c3 [Push 0])) = Undef.
Proof. apply (c27_out_of_range_refuted c3 5 3 [1; 2] 0 _ 0 []); vm_compute; congruence. Qed.

(** ** C28 (decoder side) *)
(** Every buffer is in the decoder once from the time it is given until it is handed over, and is handed over at most once each
    time it is given.  Missing: packets directly after the time-out of their frame, frame number 2^32-1. *)
Theorem c28_one_place_partial : forall c mem tr s id, cfg_ok c -> drun c mem tr s -> wf tr -> env_ok c tr -> no_late tr ->
  (readys id tr <= pushes id tr <= readys id tr + 1)%nat /\
  (pushes id tr = readys id tr -> ~ In id (d_empty s) /\ ~ In id (map snd (d_map s))) /\
  (pushes id tr = readys id tr + 1 -> (In id (d_empty s) /\ ~ In id (map snd (d_map s)) /\ count_occ Z.eq_dec (d_empty s) id = 1) \/
     (~ In id (d_empty s) /\ exists k, zm_get (d_map s) k = Some id /\ forall k', zm_get (d_map s) k' = Some id -> k' = k))%nat.
Proof.
  intros c mem tr s id CK R W EN NL. destruct (run_inv c mem tr s CK R W EN NL) as (nd & C & _). destruct (k_tok _ _ _ _ C id) as (T1 & T2). unfold inside in *. rewrite count_app in *.
  split; [lia|]. split; [|]; intros E.
  - split; intros I; apply (count_occ_In Z.eq_dec) in I; lia.
  - destruct (count_occ Z.eq_dec (d_empty s) id) as [|n] eqn:Q.
    + right. split; [intros I; apply (count_occ_In Z.eq_dec) in I; lia|]. assert (I : In id (map snd (d_map s))) by (apply (count_occ_In Z.eq_dec); lia).
      apply in_map_iff in I as ((k & i) & E1 & I). cbn in E1. subst i. apply (zm_in_get _ _ _ (k_keys _ _ _ _ C)) in I. exists k. split; [exact I|]. intros k' G.
      destruct (Z.eq_dec k' k) as [|N]; [assumption|]. pose proof (two_count _ _ _ _ G I N). lia.
    + left. split; [apply (count_occ_In Z.eq_dec); lia|]. split; [intros I; apply (count_occ_In Z.eq_dec) in I; lia|lia].
Qed.

(** A packet directly after the time-out of its frame is written into the buffer already handed over, and the buffer is handed
    over a second time. *)
Definition late : list dop := [Push 0; Packet 5 0 [1; 2] 0; Packet 5 1 [3; 4] 1; Monitor (2 ^ 31); Packet 5 2 [5; 6] (2 ^ 31)].
Theorem c28_late_refuted : let tr := fst (after c3 late) in drun c3 (fun _ => blank) tr (snd (after c3 late)) /\
  pushes 0 tr = 1%nat /\ readys 0 tr = 2%nat /\ map (fun x => (r_id x, r_frame x)) (flat_map snd tr) = [(0, 5); (0, 5)].
Proof. split; [apply after_run; vm_compute; exact I|]. repeat split; vm_compute; reflexivity. Qed.

(** A packet of frame 2^32-1 directly after a completed frame is written into the buffer already handed over. *)
Definition wrapped : list dop := [Push 0; Packet 5 0 [1; 2] 0; Packet 5 1 [3; 4] 1; Packet 5 2 [5; 6] 2; Packet (2 ^ 32 - 1) 0 [9; 9] 3].
Theorem c28_last_number_refuted : let tr := fst (after c3 wrapped) in let s := snd (after c3 wrapped) in drun c3 (fun _ => blank) tr s /\
  map (fun x => b_data (r_buf x) 0) (flat_map snd tr) = [1] /\ b_data (d_mem s (Shared 0)) 0 = 9 /\ d_empty s = [] /\ d_map s = [].
Proof. split; [apply after_run; vm_compute; exact I|]. repeat split; vm_compute; reflexivity. Qed.

(** ** C29 *)
Theorem c29_lost : forall c mem tr s, drun c mem tr s -> no_reset tr ->
  n_lost s = total (map (missing c) (filter timed_out (flat_map snd tr))) mod 2 ^ 32 /\
  f_timedout s = Z.of_nat (length (filter timed_out (flat_map snd tr))) mod 2 ^ 32 /\
  (n_received s + n_dropped s) mod 2 ^ 32 = Z.of_nat (length (packets tr)) mod 2 ^ 32.
Proof. exact run_stats. Qed.

Lemma filter_length {A} (f : A -> bool) l : (length (filter f l) + length (filter (fun x => negb (f x)) l) = length l)%nat.
Proof. induction l as [|a l IH]; [reflexivity|]. cbn [filter length]. destruct (f a); cbn [negb length]; lia. Qed.

(** ... and [missing] is the number of packets that are missing, if no packet came twice. *)
Theorem c29_missing_partial : forall c mem tr s k x, cfg_ok c -> drun c mem tr s -> wf tr -> env_ok c tr -> no_late tr -> in_frame c tr ->
  0 <= k < 2 ^ 32 - 1 -> NoDup (map fst (sent k tr)) -> In x (handed k tr) ->
  missing c x = Z.of_nat (length (filter (fun i => negb (h_pstate (b_hdr (r_buf x)) i)) (zseq (ppf c)))).
Proof.
  intros c mem tr s k x CK R W EN NL IF Hk N IX. destruct (handed_holds c mem tr s k x CK R W EN NL Hk IX) as (pk & S1 & H1 & _).
  pose proof (subseq_nodup _ _ (subseq_map fst _ _ S1) N) as N1.
  assert (RG : forall j, In j (map fst pk) -> 0 <= j < ppf c). { intros j Hj. eapply sent_range; [exact IF|]. eapply subseq_in; [apply subseq_map; exact S1|exact Hj]. }
  assert (PM : Permutation (map fst pk) (filter (h_pstate (b_hdr (r_buf x))) (zseq (ppf c)))).
  { apply NoDup_Permutation; [exact N1|apply NoDup_filter, zseq_nodup|]. intros j. rewrite filter_In, zseq_in, (ho_state _ _ _ _ H1). split; [auto|tauto]. }
  apply Permutation_length in PM. rewrite map_length in PM. pose proof (filter_length (h_pstate (b_hdr (r_buf x))) (zseq (ppf c))) as FL. rewrite zseq_length in FL.
  unfold missing. rewrite (ho_received _ _ _ _ H1), Z.mod_small by (unfold cfg_ok, max_packets in CK; lia). destruct CK as (CK & _). lia.
Qed.

(** A frame is handed over as timed out only if it is older than the time-out, and afterwards no such frame is left. *)
Lemma monitor_rule c now l : forall s out s' r, NoDup (map fst l) -> monitor_loop c now l s out = Ret (s', r) ->
  (forall e, In e l -> forall e', In e' l -> snd e = snd e' -> e = e') ->
  (forall x, In x r -> In x out \/ (timed_out x = true /\ In (r_frame x, r_id x) l /\ timeout_ms c < elapsed_ms (h_start (b_hdr (r_buf x))) now /\
     h_start (b_hdr (r_buf x)) = h_start (b_hdr (d_mem s (Shared (r_id x)))))) /\
  (forall e, In e (d_map s') -> In e (d_map s)) /\
  (forall e, In e l -> In e (d_map s') -> elapsed_ms (h_start (b_hdr (d_mem s' (Shared (snd e))))) now <= timeout_ms c) /\
  (forall q, h_start (b_hdr (d_mem s' q)) = h_start (b_hdr (d_mem s q))).
Proof.
  induction l as [|[fn id] l IH]; intros s out s' r ND H INJ; cbn [monitor_loop] in H.
  - apply ret_inv in H as (-> & ->). split; [auto|]. split; [auto|]. split; [intros e []|reflexivity].
  - destruct (legal_id c id); [|discriminate]. inversion ND as [|? ? NI ND']; subst.
    assert (INJ' : forall e, In e l -> forall e', In e' l -> snd e = snd e' -> e = e') by (intros; apply INJ; cbn; auto).
    destruct (Z.ltb_spec (timeout_ms c) (elapsed_ms (h_start (b_hdr (d_mem s (Shared id)))) now)) as [T|T].
    + destruct (IH _ _ _ _ ND' H INJ') as (A & B & D & E). cbn [d_map d_mem] in *. split; [|split; [|split]].
      * intros x Hx. destruct (A x Hx) as [X|(X1 & X2 & X3 & X4)].
        -- apply in_app_or in X as [X|[<-|[]]]; [auto|]. right. cbn. auto.
        -- right. split; [exact X1|]. split; [right; exact X2|]. split; [exact X3|]. rewrite X4. unfold upd_mem. cbn [place_eqb]. destruct (Z.eqb_spec (r_id x) id) as [->|]; reflexivity.
      * intros e He. apply B in He. unfold zm_del in He. apply filter_In in He. apply He.
      * intros e [<-|He] HM; [|apply D; assumption]. apply B in HM. unfold zm_del in HM. apply filter_In in HM as (_ & HM). cbn in HM. rewrite Z.eqb_refl in HM. discriminate.
      * intros q. rewrite E. unfold upd_mem. destruct q as [|i]; cbn; [reflexivity|]. destruct (Z.eqb_spec i id) as [->|]; reflexivity.
    + destruct (IH _ _ _ _ ND' H INJ') as (A & B & D & E). split; [|split; [|split]]; auto.
      * intros x Hx. destruct (A x Hx) as [X|(X1 & X2 & X3)]; [auto|]. right. split; [exact X1|]. split; [right; exact X2|exact X3].
      * intros e [<-|He] HM; [|apply D; assumption]. cbn [snd]. rewrite E. exact T.
Qed.
Theorem c29_timeouts_partial : forall c mem tr s now s' r, cfg_ok c -> drun c mem tr s -> wf tr -> env_ok c tr -> no_late tr -> dstep c (Monitor now) s = Ret (s', r) ->
  (forall x, In x r -> timed_out x = true /\ timeout_ms c < elapsed_ms (h_start (b_hdr (r_buf x))) now) /\
  (forall k id, zm_get (d_map s') k = Some id -> elapsed_ms (h_start (b_hdr (d_mem s' (Shared id)))) now <= timeout_ms c).
Proof.
  intros c mem tr s now s' r CK R W EN NL H. destruct (run_inv c mem tr s CK R W EN NL) as (nd & C & _). cbn [dstep] in H.
  destruct (monitor_rule c now (d_map s) s [] s' r (k_keys _ _ _ _ C) H) as (A & B & D & _).
  - intros [k i] H1 [k' i'] H2 E. cbn in E. subst i'. destruct (Z.eq_dec k k') as [->|N]; [reflexivity|]. exfalso.
    apply (zm_in_get _ _ _ (k_keys _ _ _ _ C)) in H1. apply (zm_in_get _ _ _ (k_keys _ _ _ _ C)) in H2. pose proof (two_count _ _ _ _ H1 H2 N).
    destruct (k_tok _ _ _ _ C i) as (_ & T). unfold inside in T. rewrite count_app in T. lia.
  - split.
    + intros x Hx. destruct (A x Hx) as [[]|(X1 & _ & X2 & _)]. auto.
    + intros k id G. apply zm_get_in in G. apply (D (k, id)); [apply B; exact G|exact G].
Qed.

Definition lossy : list dop := [Push 0; Push 1; Packet 5 0 [1; 2] 0; Packet 6 1 [3; 4] 1; Packet 6 2 [3; 4] 2; Monitor 5; Monitor (2 ^ 31)].
Example c29_case : let tr := fst (after c3 lossy) in let s := snd (after c3 lossy) in drun c3 (fun _ => blank) tr s /\
  n_lost s = 3 /\ f_timedout s = 2 /\ map (fun x => (r_frame x, h_received (b_hdr (r_buf x)))) (flat_map snd tr) = [(5, 1); (6, 2)].
Proof. split; [apply after_run; vm_compute; exact I|]. repeat split; vm_compute; reflexivity. Qed.

(** Frames dropped one after the other are counted once: three frames without a buffer, one dropped frame. *)
Definition drops : list dop := [Packet 5 0 [1] 0; Packet 6 0 [1] 1; Packet 7 0 [1] 2].
Theorem c29_dropped_frames_refuted : let s := snd (after c3 drops) in drun c3 (fun _ => blank) (fst (after c3 drops)) s /\ f_dropped s = 1 /\ n_dropped s = 3.
Proof. split; [apply after_run; vm_compute; exact I|]. split; vm_compute; reflexivity. Qed.

(** While dropping, a mapped frame takes more packets than it has (duplicates); its time-out then subtracts from the number of
    lost packets, here from 0 to 2^32-1. *)
Definition under : list dop := sticky ++ [Packet 7 0 [70; 71] 4; Monitor (2 ^ 31)].
Theorem c29_underflow_refuted : let s := snd (after c3 under) in drun c3 (fun _ => blank) (fst (after c3 under)) s /\ f_timedout s = 1 /\ n_lost s = 2 ^ 32 - 1.
Proof. split; [apply after_run; vm_compute; exact I|]. split; vm_compute; reflexivity. Qed.

Print Assumptions c25_every_packet_partial.
Print Assumptions c25_one_frame_partial.
Print Assumptions c26_complete_partial.
Print Assumptions c27_own_place_partial.
Print Assumptions c28_one_place_partial.
Print Assumptions c29_lost.
Print Assumptions c29_timeouts_partial.
